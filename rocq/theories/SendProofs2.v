(** The frames of an advertisement run. *)
From Verif Require Import Base Types Tlv Protos Wire Util Child Netif Sysinfo Send Spec SpecChild SpecAdv SpecNetif SpecSend.
From Verif Require Import Lemmas VisProofs VisProps TypesProofs ChildProofs ChildProofs4 NetifProofs1 NetifProofs2 NetifProofs3 EncProps SendProofs1.

(** ** What an advertisement depends on *)
(** The interface without media state and link events. *)
Definition bare (n : netif) : netif := set_link_event 0 (set_media 0 0 0 0 0 0 n).
Definition calmed (n : netif) : netif := set_link_event 0 n.
Lemma calmed_bare n m : calmed n = calmed m -> bare n = bare m.
Proof. intros E. exact (f_equal (set_media 0 0 0 0 0 0) E). Qed.
Lemma bare_fields q q' : bare q = bare q' ->
  nf_index q = nf_index q' /\ nf_name q = nf_name q' /\ nf_description q = nf_description q' /\ nf_hwaddr q = nf_hwaddr q'
  /\ nf_ipaddr4 q = nf_ipaddr4 q' /\ nf_ipaddr6 q = nf_ipaddr6 q' /\ nf_bonding_mode q = nf_bonding_mode q'.
Proof.
  intros E. repeat split; [exact (f_equal nf_index E)|exact (f_equal nf_name E)|exact (f_equal nf_description E)|exact (f_equal nf_hwaddr E)
    |exact (f_equal nf_ipaddr4 E)|exact (f_equal nf_ipaddr6 E)|exact (f_equal nf_bonding_mode E)].
Qed.
Lemma some_inj {A} (x y : A) : Some x = Some y -> x = y. Proof. congruence. Qed.
Lemma map_factor {A B C} (g : A -> B) (h : A -> C) l l' : (forall x y, g x = g y -> h x = h y) -> map g l = map g l' -> map h l = map h l'.
Proof.
  intros H. revert l'. induction l as [|x l IH]; intros [|y l']; cbn; try easy. intros E. injection E as E1 E2.
  rewrite (H _ _ E1). f_equal. now apply IH.
Qed.
Lemma map_filter_same {A B} (g : A -> B) (P Q : A -> bool) l l' : (forall x y, g x = g y -> P x = Q y) ->
  map g l = map g l' -> map g (filter P l) = map g (filter Q l').
Proof.
  intros H. revert l'. induction l as [|x l IH]; intros [|y l']; cbn; try easy. intros E. injection E as E1 E2.
  rewrite (H _ _ E1). destruct (Q y); cbn; [f_equal; [assumption|]|]; now apply IH.
Qed.
Lemma vlans_bare opts n q nfs n' q' nfs' : nf_index n = nf_index n' -> nf_index q = nf_index q' -> map bare nfs = map bare nfs' ->
  map bare (vlans_of opts n q nfs) = map bare (vlans_of opts n' q' nfs').
Proof.
  intros E1 E2. unfold vlans_of. apply map_filter_same. intros x y E. unfold visible.
  rewrite E1, E2. pose proof (f_equal nf_argv E) as F1. pose proof (f_equal nf_child E) as F2. pose proof (f_equal nf_type E) as F3.
  pose proof (f_equal nf_subif E) as F4. pose proof (f_equal nf_vlan_parent E) as F5. cbn in F1, F2, F3, F4, F5.
  now rewrite F1, F2, F3, F4, F5.
Qed.
Lemma addr_tlv_bare t q q' : bare q = bare q' -> addr_tlv t q = addr_tlv t q'.
Proof. intros E. destruct (bare_fields _ _ E) as (_ & _ & _ & _ & F1 & F2 & _). unfold addr_tlv, ip_recs. now rewrite F1, F2. Qed.
Lemma advert_bare p opts c n par mgmt nfs si n' par' mgmt' nfs' :
  calmed n = calmed n' -> option_map bare par = option_map bare par' -> option_map bare mgmt = option_map bare mgmt' ->
  map bare nfs = map bare nfs' ->
  advert p opts c n par mgmt nfs si = advert p opts c n' par' mgmt' nfs' si.
Proof.
  intros En Ep Em El.
  assert (Eq : bare (SpecAdv.up n par) = bare (SpecAdv.up n' par')).
  { destruct par as [q|], par' as [q'|]; try discriminate Ep; [exact (some_inj _ _ Ep)|exact (calmed_bare _ _ En)]. }
  set (q := SpecAdv.up n par) in *. set (q' := SpecAdv.up n' par') in *.
  assert (Eu : bare (SpecAdv.up q mgmt) = bare (SpecAdv.up q' mgmt')).
  { destruct mgmt as [m|], mgmt' as [m'|]; try discriminate Em; [exact (some_inj _ _ Em)|exact Eq]. }
  pose proof (f_equal nf_index En) as N1. pose proof (f_equal nf_name En) as N2. pose proof (f_equal nf_description En) as N3.
  pose proof (f_equal nf_hwaddr En) as N4. pose proof (f_equal nf_mtu En) as N5. pose proof (f_equal nf_duplex En) as N6.
  pose proof (f_equal nf_autoneg_supported En) as N7. pose proof (f_equal nf_autoneg_enabled En) as N8.
  pose proof (f_equal nf_autoneg_pmd En) as N9. pose proof (f_equal nf_mau En) as N10. pose proof (f_equal nf_lacp_index En) as N11.
  pose proof (f_equal nf_device_name En) as N12.
  cbn [calmed set_link_event nf_index nf_name nf_description nf_hwaddr nf_mtu nf_duplex nf_autoneg_supported nf_autoneg_enabled
    nf_autoneg_pmd nf_mau nf_lacp_index nf_device_name] in *.
  destruct (bare_fields _ _ Eq) as (Q1 & Q2 & Q3 & Q4 & Q5 & Q6 & Q7).
  destruct (bare_fields _ _ Eu) as (U1 & U2 & U3 & U4 & U5 & U6 & U7).
  assert (CDP : forall v, cdp_advert v n q mgmt si = cdp_advert v n' q' mgmt' si).
  { intros v. assert (C : cdp_content n q mgmt si = cdp_content n' q' mgmt' si).
    { unfold cdp_content. rewrite (addr_tlv_bare 2 _ _ Eq), N2, N5, N6. repeat f_equal.
      destruct mgmt as [m|], mgmt' as [m'|]; try discriminate Em; [|reflexivity]. apply addr_tlv_bare. exact (some_inj _ _ Em). }
    unfold cdp_advert. now rewrite C, N4. }
  assert (VL : map bare (vlans_of opts n q nfs) = map bare (vlans_of opts n' q' nfs')) by now apply vlans_bare.
  unfold advert. fold q q'. destruct p as [|[[[pp|pp|]|[pp|pp|]|]|[[pp|pp|]|[pp|pp|]|]|]|pp]; try apply CDP.
  - unfold lldp_advert. assert (C : lldp_content opts n q (SpecAdv.up q mgmt) nfs si = lldp_content opts n' q' (SpecAdv.up q' mgmt') nfs' si).
    { unfold lldp_content, port_descr.
      rewrite (map_factor bare (fun v => org_tlv [0; 128; 194] 3 (U16 (nf_vlan_id v) ++ [zlen (nf_name v)] ++ nf_name v)) _ _
        ltac:(intros x y E; pose proof (f_equal nf_vlan_id E) as F1; pose proof (f_equal nf_name E) as F2; cbn in F1, F2; cbv beta; now rewrite F1, F2) VL).
      now rewrite N3, N5, N7, N8, N9, N10, N11, N12, Q3, Q7, U1, U4, U5, U6. }
    now rewrite C, N2, N4.
  - unfold fdp_advert, fdp_content. now rewrite (addr_tlv_bare 2 _ _ Eu), N2, N4.
  - unfold ndp_advert. now rewrite N1, N4, Q5.
  - unfold edp_advert. assert (C : edp_content opts n q nfs si = edp_content opts n' q' nfs' si).
    { unfold edp_content.
      rewrite (map_factor bare (fun v => (5, [if is_set (nf_ipaddr4 v) then 128 else 0; 0] ++ U16 (nf_vlan_id v)
                         ++ repeat 0 4 ++ nf_ipaddr4 v ++ nf_name n)) _ _
        ltac:(intros x y E; pose proof (f_equal nf_vlan_id E) as F1; pose proof (f_equal nf_ipaddr4 E) as F2; cbn in F1, F2; cbv beta; now rewrite F1, F2) VL).
      now rewrite N1, N2, Q5. }
    now rewrite C, N4.
Qed.

(** ** The table during a run *)
Lemma media_link os e n : netif_media os (set_link_event e n) = set_link_event e (netif_media os n).
Proof.
  unfold netif_media. cbv zeta.
  change (nf_name (set_link_event e n)) with (nf_name n). change (nf_type (set_link_event e n)) with (nf_type n).
  change (nf_index (set_link_event e n)) with (nf_index n). change (nf_mtu (set_link_event e n)) with (nf_mtu n).
  destruct (negb _); [reflexivity|]. destruct (no_ecmd os (nf_index n)) as [c|]; [|reflexivity]. now destruct (has _ _).
Qed.
(** The probed fields as a record update. *)
Lemma media_form os n : exists d s e p u, netif_media os n =
  set_media (match no_mtu os (nf_name n) with Some m => m mod 65536 | None => nf_mtu n end) d s e p u n
  /\ forall k, nf_name k = nf_name n -> nf_type k = nf_type n -> nf_index k = nf_index n ->
     netif_media os k = set_media (match no_mtu os (nf_name n) with Some m => m mod 65536 | None => nf_mtu k end) d s e p u k.
Proof.
  unfold netif_media. cbv zeta.
  destruct (negb (nf_type n =? NETIF_REGULAR)) eqn:T.
  - do 5 eexists. split; [reflexivity|]. intros k K1 K2 K3. now rewrite K1, K2, T.
  - destruct (no_ecmd os (nf_index n)) as [c|] eqn:C.
    + destruct (has (ec_supported c) SUPPORTED_Autoneg) eqn:H; do 5 eexists; (split; [reflexivity|]); intros k K1 K2 K3; now rewrite K1, K2, K3, T, C, H.
    + do 5 eexists. split; [reflexivity|]. intros k K1 K2 K3. now rewrite K1, K2, K3, T, C.
Qed.
Lemma media_idem os n : netif_media os (netif_media os n) = netif_media os n.
Proof.
  destruct (media_form os n) as (d & s & e & p & u & E & H). rewrite H; rewrite E; try reflexivity.
  destruct (no_mtu os (nf_name n)); reflexivity.
Qed.
Lemma media_bare os n : bare (netif_media os n) = bare n.
Proof. destruct (media_form os n) as (d & s & e & p & u & E & _). now rewrite E. Qed.

Definition touched (os : nos) (n m : netif) : Prop :=
  exists e, m = set_link_event e n \/ m = set_link_event e (netif_media os n).
Lemma touched_refl os n : touched os n n.
Proof. exists (nf_link_event n). left. now destruct n. Qed.
Lemma touched_bare os n m : touched os n m -> bare m = bare n.
Proof. intros [e [->| ->]]; [reflexivity|exact (media_bare os n)]. Qed.
Lemma touched_link os n m e : touched os n m -> touched os n (set_link_event e m).
Proof. intros [f [->| ->]]; exists e; [now left|now right]. Qed.
Lemma touched_media os n m : touched os n m -> exists e, netif_media os m = set_link_event e (netif_media os n).
Proof. intros [f [->| ->]]; exists f; rewrite media_link; [reflexivity|now rewrite media_idem]. Qed.
Lemma touched_ok os n m : touched os n m -> netif_ok n -> netif_ok m.
Proof. intros [e [->| ->]] H; apply ok_link; [assumption|now apply ok_probed]. Qed.

Section table.
Variables (os : nos) (nfs : list netif).
Definition touches (T : list netif) : Prop := Forall2 (touched os) nfs T.
Lemma touches_bare T : touches T -> map bare T = map bare nfs.
Proof. unfold touches. induction 1 as [|n m l T H F IH]; [reflexivity|]. cbn. now rewrite (touched_bare _ _ _ H), IH. Qed.
Lemma touches_index T : touches T -> indices T = indices nfs.
Proof. intros H. exact (map_factor bare nf_index _ _ (fun x y E => f_equal nf_index E) (touches_bare T H)). Qed.
Lemma touches_well T : well nfs -> touches T -> well T.
Proof. unfold touches, well. intros W H. induction H as [|n m l T H F IH]; [constructor|]. inversion W; subst. constructor; [now apply (touched_ok os n)|auto]. Qed.
Lemma touches_assign f i T : (forall n m, touched os n m -> touched os n (f m)) -> touches T -> touches (nf_assign f i T).
Proof.
  unfold touches. intros K H. induction H as [|n m l T H F IH]; cbn; [constructor|]. destruct (nf_index m =? i); constructor; auto.
Qed.
Lemma touches_byindex T i : touches T ->
  match netif_byindex nfs i with
  | Some n => exists m, netif_byindex T i = Some m /\ touched os n m
  | None => netif_byindex T i = None
  end.
Proof.
  unfold touches, netif_byindex. intros H. induction H as [|n m l T H F IH]; cbn; [reflexivity|].
  pose proof (f_equal nf_index (touched_bare _ _ _ H)) as E. cbn in E. rewrite E. destruct (nf_index n =? i); [exists m; tauto|exact IH].
Qed.
Lemma touches_at T o : touches T ->
  option_map bare (match o with Some i => netif_byindex T i | None => None end) = option_map bare (at_index nfs o).
Proof.
  intros H. destruct o as [i|]; [|reflexivity]. cbn [at_index]. change (find (index_is i) nfs) with (netif_byindex nfs i).
  pose proof (touches_byindex T i H) as K. destruct (netif_byindex nfs i) as [n|].
  - destruct K as (m & -> & K). cbn. now rewrite (touched_bare _ _ _ K).
  - now rewrite K.
Qed.
Lemma touches_start : touches nfs.
Proof. unfold touches. induction nfs as [|n l IH]; constructor; [apply touched_refl|exact IH]. Qed.
End table.

(** ** One interface *)
Section run.
Variables (cfg : scfg) (os : nos) (nfs : list netif) (si : sysinfo) (index : Z).
Hypothesis W : well nfs.
Hypothesis S : sysinfo_ok si.
Hypothesis ND : NoDup (indices nfs).

Lemma skip_eligible n m : bare m = bare n -> send_skip cfg m = negb (eligible cfg n).
Proof.
  intros E. pose proof (f_equal nf_type E) as F1. pose proof (f_equal nf_name E) as F2. cbn in F1, F2.
  unfold send_skip, eligible, opt, sc_opts, NETIF_REGULAR, NETIF_WIRELESS, NETIF_TAP, netif_excluded.
  rewrite F1, F2. change OPT_WIRELESS with (2 ^ 9). change OPT_TAP with (2 ^ 10). rewrite !has_bit by lia.
  assert (X : existsb (fun x => beq (nf_name n) x) (sc_excl cfg) = existsb (fun x => name_is x n) (sc_excl cfg)).
  { induction (sc_excl cfg) as [|x l IH]; [reflexivity|]. cbn. now rewrite IH, name_is_beq. }
  rewrite X, Z.ltb_antisym. clear X.
  destruct (0 <=? nf_type n), (nf_type n =? 1), (nf_type n =? 2), (Z.testbit _ 9), (Z.testbit _ 10), (existsb _ _); reflexivity.
Qed.

Definition hit (sub : netif) : bool := (index =? NETIF_INDEX_MAX) || (index =? nf_index sub).
Definition on (top sub : netif) : list (netif * netif * Z) :=
  if hit sub && eligible cfg sub && opt cfg 1
  then map (fun p => (top, sub, p)) (filter (enabled cfg top) [0; 1; 2; 3; 4; 5]) else [].
Definition next (seq : Z) (d : netif * netif * Z) : Z := if snd d =? 2 then (seq + 1) mod 65536 else seq.
Definition after (seq : Z) (ds : list (netif * netif * Z)) : Z := fold_left next ds seq.
Lemma after_range ds : forall seq, 0 <= seq < 65536 -> 0 <= after seq ds < 65536.
Proof.
  induction ds as [|d ds IH]; intros seq H; cbn; [assumption|]. apply IH. unfold next. destruct (_ =? _); [|assumption].
  apply Z.mod_pos_bound. lia.
Qed.
Lemma due_app a : forall seq b, frames_due cfg os nfs si seq (a ++ b) = frames_due cfg os nfs si seq a ++ frames_due cfg os nfs si (after seq a) b.
Proof.
  induction a as [|d a IH]; intros seq b; cbn [app frames_due]; [reflexivity|]. rewrite IH, app_assoc. reflexivity.
Qed.
Lemma frames_app a b : frames (a ++ b) = frames a ++ frames b.
Proof. unfold frames. apply flat_map_app. Qed.

Lemma blank_len f : 12 <= zlen f -> zlen (blanked f) = zlen f.
Proof. intros H. unfold blanked. rewrite !zlen_app. change (zlen [0; 0; 0; 0; 0; 0]) with 6. unfold zlen in *. rewrite firstn_length, skipn_length. lia. Qed.
Lemma advert_len p opts c n par mgmt : netif_ok n -> 14 <= zlen (advert p opts c n par mgmt nfs si).
Proof.
  intros H. destruct (ok_hw n H) as [_ H6].
  assert (K : forall a b c d e, 14 <= zlen (snap a (nf_hwaddr n) b c (d :: e)) <-> 14 <= zlen (snap a (nf_hwaddr n) b c (d :: e))) by easy.
  assert (G : forall org pid pl d, zlen d = 6 -> 14 <= zlen (snap d (nf_hwaddr n) org pid pl)).
  { intros org pid pl d Hd. unfold snap. rewrite !zlen_app, Hd, H6. unfold U16.
    pose proof (zlen_nonneg _ org). pose proof (zlen_nonneg _ pl). change (zlen [_; _]) with 2. change (zlen [170; 170; 3]) with 3. lia. }
  unfold advert. destruct p as [|[[[pp|pp|]|[pp|pp|]|]|[[pp|pp|]|[pp|pp|]|]|]|pp]; try (apply G; reflexivity).
  unfold lldp_advert. rewrite !zlen_app, H6. change (zlen (U16 35020)) with 2. change (zlen [1; 128; 194; 0; 0; 14]) with 6.
  match goal with |- context [zlen (flat_map ?a ?b)] => pose proof (zlen_nonneg _ (flat_map a b)) end. lia.
Qed.

Lemma proto_run top sub T t s e : touches os nfs T -> netif_ok sub -> s = set_link_event e (netif_media os sub) -> bare t = bare top ->
  forall ps seq eff, 0 <= seq < 65536 -> Forall (fun p => 0 <= p < 6) ps ->
  exists eff', fold_left (send_proto cfg T si t s) ps (seq, eff)
    = (after seq (map (fun p => (top, sub, p)) (filter (enabled cfg top) ps)), eff ++ eff')
  /\ frames eff' = frames_due cfg os nfs si seq (map (fun p => (top, sub, p)) (filter (enabled cfg top) ps))
  /\ forall x, In x eff' -> exists p f, x = SFrame (nf_index sub) p f.
Proof.
  intros HT Hs Es Et.
  assert (B : bare s = bare sub) by (rewrite Es; exact (media_bare os sub)).
  induction ps as [|p ps IH]; intros seq eff Hseq Hp.
  { exists []. rewrite app_nil_r. split; [reflexivity|]. split; [reflexivity|]. now intros x. }
  inversion Hp as [|? ? Hp0 Hps]; subst x l. cbn [fold_left filter].
  assert (Hen : enabled cfg top p = negb (negb (sc_enabled cfg p) && negb (has (nf_protos t) (Z.shiftl 1 p)))).
  { unfold enabled. rewrite Z.shiftl_mul_pow2, Z.mul_1_l by lia. rewrite has_bit by lia. pose proof (f_equal nf_protos Et) as F. cbn in F. rewrite F.
    now destruct (sc_enabled cfg p), (Z.testbit _ p). }
  unfold send_proto at 2. rewrite Hen.
  destruct (negb (sc_enabled cfg p) && negb (has (nf_protos t) (Z.shiftl 1 p))); cbn [negb].
  { now apply IH. }
  set (par := match nf_parent s with Some i => netif_byindex T i | None => None end).
  set (mgmt := match si_mnetif si with Some i => netif_byindex T i | None => None end).
  assert (WT : well T) by now apply (touches_well os nfs).
  assert (Hin : inputs_ok seq s par mgmt T si).
  { split; [rewrite Es; now apply ok_link, ok_probed|].
    split; [intros q Eq; subst par; destruct (nf_parent s); [|discriminate]; apply byindex_some in Eq as [Eq _]; now apply (well_in T)|].
    split; [intros q Eq; subst mgmt; destruct (si_mnetif si); [|discriminate]; apply byindex_some in Eq as [Eq _]; now apply (well_in T)|].
    split; [intros v Hv; now apply (well_in T)|]. split; assumption. }
  rewrite (proto_build_spec p (sc_opts cfg) seq s par mgmt T si Hp0 Hin).
  set (adv := advert p (nc_opts (sc_net cfg)) seq (netif_media os sub) (at_index nfs (nf_parent sub)) (at_index nfs (si_mnetif si)) nfs si).
  assert (EA : advert p (sc_opts cfg) seq s par mgmt T si = adv).
  { subst adv. apply advert_bare; [now rewrite Es| | |now apply (touches_bare os)].
    - subst par. rewrite <- (touches_at os nfs T (nf_parent sub) HT). pose proof (f_equal nf_parent B) as F. cbn in F. now rewrite F.
    - apply (touches_at os). assumption. }
  rewrite EA.
  assert (LA : 14 <= zlen adv) by (subst adv; apply advert_len; now apply ok_probed).
  assert (FD : frame_due cfg os nfs si seq (top, sub, p) =
    if (nf_bonding_mode t =? NETIF_BONDING_FAILOVER) && negb (nf_child s =? NETIF_CHILD_ACTIVE) then blank_src adv else adv).
  { unfold frame_due. fold adv. pose proof (f_equal nf_bonding_mode Et) as F1. pose proof (f_equal nf_child B) as F2. cbn in F1, F2.
    unfold NETIF_BONDING_FAILOVER, NETIF_CHILD_ACTIVE. now rewrite F1, F2. }
  assert (LF : zlen (frame_due cfg os nfs si seq (top, sub, p)) = zlen adv).
  { rewrite FD. destruct (_ && _); [|reflexivity]. change (blank_src adv) with (blanked adv). apply blank_len. lia. }
  assert (N : (if p =? PROTO_EDP then (seq + 1) mod 65536 else seq) = next seq (top, sub, p)) by reflexivity.
  assert (I : nf_index s = nf_index sub) by exact (f_equal nf_index B).
  assert (R : 0 <= next seq (top, sub, p) < 65536) by exact (after_range [(top, sub, p)] seq Hseq).
  cbn [map frames_due]. rewrite LF. unfold after. cbn [fold_left]. fold (after (next seq (top, sub, p))).
  destruct (zlen adv <=? 1518); cbn [when].
  - rewrite N, <- FD, I.
    destruct (IH (next seq (top, sub, p)) (eff ++ [SFrame (nf_index sub) p (frame_due cfg os nfs si seq (top, sub, p))]) R Hps) as (eff' & E1 & E2 & E3).
    exists (SFrame (nf_index sub) p (frame_due cfg os nfs si seq (top, sub, p)) :: eff'). rewrite E1, <- app_assoc. split; [reflexivity|].
    split; [|intros x [<-|Hx]; [eauto|now apply E3]]. cbn [frames flat_map app fst snd]. fold (frames eff'). now rewrite E2.
  - rewrite N. destruct (IH (next seq (top, sub, p)) eff R Hps) as (eff' & E1 & E2 & E3). exists eff'. now rewrite E1, E2.
Qed.

Lemma sub_run top sub T seq eff : touches os nfs T -> In top nfs -> In sub nfs -> 0 <= seq < 65536 ->
  exists T' eff', send_sub cfg os si index (nf_index top) (T, seq, eff) (nf_index sub) = (T', after seq (on top sub), eff ++ eff')
  /\ touches os nfs T' /\ frames eff' = frames_due cfg os nfs si seq (on top sub).
Proof.
  intros HT Htop Hsub Hseq. unfold send_sub, on, hit.
  destruct (index =? NETIF_INDEX_MAX) eqn:M; [|destruct (index =? nf_index sub) eqn:M2]; cbn [negb andb orb].
  3:{ exists T, []. rewrite app_nil_r. now repeat split. }
  all: pose proof (touches_byindex os nfs T (nf_index sub) HT) as K; rewrite (byindex_in nfs sub ND Hsub) in K; destruct K as (s0 & -> & K0).
  all: rewrite (skip_eligible sub s0 (touched_bare _ _ _ K0)).
  all: set (T1 := nf_assign (set_link_event _) (nf_index sub) T).
  all: assert (HT1 : touches os nfs T1) by (apply touches_assign; [intros n m; apply touched_link|assumption]).
  all: destruct (eligible cfg sub); cbn [negb andb]; [|exists T1, []; rewrite app_nil_r; now repeat split].
  all: cbv zeta; set (T2 := nf_assign (netif_media os) (nf_index sub) T1).
  all: assert (HT2 : touches os nfs T2) by (apply touches_assign; [intros n m Hn; destruct (touched_media _ _ _ Hn) as [e E]; exists e; now right|assumption]).
  all: set (eff1 := if _ && _ then [SOpen (nf_index sub)] else []).
  all: assert (F1 : frames eff1 = []) by (subst eff1; destruct (_ && _); reflexivity).
  all: unfold sc_opts; change OPT_SEND with (2 ^ 1); rewrite (has_bit _ 1) by lia; fold (opt cfg 1).
  all: destruct (opt cfg 1); cbn [negb]; [|exists T2, eff1; repeat split; assumption].
  all: pose proof (touches_byindex os nfs T1 (nf_index sub) HT1) as K; rewrite (byindex_in nfs sub ND Hsub) in K; destruct K as (s1 & E1 & K1).
  all: destruct (touched_media _ _ _ K1) as [e Es].
  all: assert (E2 : netif_byindex T2 (nf_index sub) = Some (netif_media os s1)).
  1,3: subst T2; rewrite byindex_assign by (intros m <-; exact (f_equal nf_index (media_bare os m))); rewrite Z.eqb_refl, E1; reflexivity.
  all: rewrite E2.
  all: pose proof (touches_byindex os nfs T2 (nf_index top) HT2) as K; rewrite (byindex_in nfs top ND Htop) in K; destruct K as (t & -> & Kt).
  all: destruct (proto_run top sub T2 t _ e HT2 (well_in _ _ W Hsub) Es (touched_bare _ _ _ Kt) [0; 1; 2; 3; 4; 5] seq [] Hseq
       ltac:(repeat constructor; lia)) as (eff2 & R1 & R2 & _).
  all: rewrite R1; cbn [app]; exists T2, (eff1 ++ eff2); (split; [reflexivity|]); (split; [assumption|]); rewrite frames_app, F1; exact R2.
Qed.
Lemma subs_run top : In top nfs -> forall subs T seq eff, incl subs nfs -> touches os nfs T -> 0 <= seq < 65536 ->
  exists T' eff', fold_left (send_sub cfg os si index (nf_index top)) (map nf_index subs) (T, seq, eff)
      = (T', after seq (flat_map (on top) subs), eff ++ eff')
  /\ touches os nfs T' /\ frames eff' = frames_due cfg os nfs si seq (flat_map (on top) subs).
Proof.
  intros Htop. induction subs as [|s subs IH]; intros T seq eff Hs HT Hseq.
  - exists T, []. rewrite app_nil_r. now repeat split.
  - cbn [map fold_left flat_map]. destruct (sub_run top s T seq eff HT Htop (Hs s (or_introl eq_refl)) Hseq) as (T1 & eff1 & E1 & HT1 & F1).
    rewrite E1. destruct (IH T1 (after seq (on top s)) (eff ++ eff1) (fun x Hx => Hs x (or_intror Hx)) HT1 (after_range _ _ Hseq)) as (T2 & eff2 & E2 & HT2 & F2).
    exists T2, (eff1 ++ eff2). rewrite E2, app_assoc. split; [|split; [assumption|now rewrite frames_app, due_app, F1, F2]].
    unfold after. now rewrite fold_left_app.
Qed.
Lemma subif_loop_incl n (H : In n nfs) : forall f sub, incl (subif_loop f sub n nfs) nfs.
Proof.
  assert (K : forall sub s, subif_iter sub n nfs = Some s -> In s nfs).
  { assert (B : forall o s, match o with Some i => netif_byindex nfs i | None => None end = Some s -> In s nfs).
    { intros [i|] s E; [|discriminate]. now apply byindex_some in E. }
    intros [x|] s; unfold subif_iter.
    - destruct (_ =? _); [discriminate|apply B].
    - destruct (_ <? _); [apply B|]. destruct (_ <? _); [discriminate|]. congruence. }
  induction f as [|f IH]; intros sub x; cbn [subif_loop]; [easy|]. destruct (subif_iter sub n nfs) as [s|] eqn:E; [|easy].
  intros [<-|Hx]; [now apply (K sub)|now apply (IH (Some s))].
Qed.
Lemma subif_incl n : In n nfs -> incl (subif_each n nfs) nfs.
Proof. intros H. now apply subif_loop_incl. Qed.
Definition whole (top : netif) : list (netif * netif * Z) :=
  if eligible cfg top then flat_map (on top) (subif_each top nfs) else [].
Lemma eligible_type n : eligible cfg n = true -> 0 <= nf_type n.
Proof. unfold eligible. rewrite !andb_true_iff. lia. Qed.
Lemma tops_run : forall tops T seq eff, incl tops nfs -> touches os nfs T -> 0 <= seq < 65536 ->
  exists T' eff', fold_left (send_top cfg os si index nfs) tops (T, seq, eff) = (T', after seq (flat_map whole tops), eff ++ eff')
  /\ touches os nfs T' /\ frames eff' = frames_due cfg os nfs si seq (flat_map whole tops).
Proof.
  induction tops as [|t tops IH]; intros T seq eff Hs HT Hseq.
  - exists T, []. rewrite app_nil_r. now repeat split.
  - cbn [fold_left flat_map]. pose proof (Hs t (or_introl eq_refl)) as Ht.
    assert (K : exists T1 eff1, send_top cfg os si index nfs (T, seq, eff) t = (T1, after seq (whole t), eff ++ eff1)
       /\ touches os nfs T1 /\ frames eff1 = frames_due cfg os nfs si seq (whole t)).
    { unfold send_top, whole. rewrite (skip_eligible t t eq_refl). destruct (eligible cfg t) eqn:E; cbn [negb].
      - apply subs_run; [assumption|now apply subif_incl|assumption|assumption].
      - exists T, []. rewrite app_nil_r. now repeat split. }
    destruct K as (T1 & eff1 & -> & HT1 & F1).
    destruct (IH T1 (after seq (whole t)) (eff ++ eff1) (fun x Hx => Hs x (or_intror Hx)) HT1 (after_range _ _ Hseq)) as (T2 & eff2 & E2 & HT2 & F2).
    exists T2, (eff1 ++ eff2). rewrite E2, app_assoc. split; [|split; [assumption|now rewrite frames_app, due_app, F1, F2]].
    unfold after. now rewrite fold_left_app.
Qed.
Lemma flat_map_filter {A B} (P : A -> bool) (f : A -> list B) l : flat_map f (filter P l) = flat_map (fun x => if P x then f x else []) l.
Proof. induction l as [|x l IH]; [reflexivity|]. cbn. destruct (P x); cbn; now rewrite IH. Qed.
Lemma filter_flat_map {A B} (P : B -> bool) (f : A -> list B) l : filter P (flat_map f l) = flat_map (fun x => filter P (f x)) l.
Proof. induction l as [|x l IH]; [reflexivity|]. cbn. now rewrite filter_app, IH. Qed.
Lemma filter_all {A} (P : A -> bool) l b : (forall x, In x l -> P x = b) -> filter P l = if b then l else [].
Proof.
  induction l as [|x l IH]; intros H; [now destruct b|]. cbn. rewrite (H x (or_introl eq_refl)).
  rewrite IH by (intros y Hy; apply H; now right). now destruct b.
Qed.
Lemma flat_map_nil {A B} (f : A -> list B) l : (forall x, In x l -> f x = []) -> flat_map f l = [].
Proof. induction l as [|x l IH]; intros H; [reflexivity|]. cbn. rewrite (H x (or_introl eq_refl)). apply IH. intros y Hy. apply H. now right. Qed.
Lemma loop_run seq : 0 <= seq < 65536 ->
  let ds := flat_map whole (filter (visible (sc_opts cfg)) nfs) in
  exists T' eff', send_loop cfg os index nfs si seq = (T', after seq ds, eff')
  /\ touches os nfs T' /\ frames eff' = frames_due cfg os nfs si seq ds.
Proof.
  intros Hseq. unfold send_loop. rewrite netif_each_filter.
  destruct (tops_run (filter (visible (sc_opts cfg)) nfs) nfs seq []) as (T & eff & E & HT & F);
    [intros x Hx; now apply filter_In in Hx|apply touches_start|assumption|].
  cbv zeta. exists T, eff. now rewrite E.
Qed.
(** With a consistent kernel. *)
Hypothesis SF : forall top, In top nfs -> 0 <= nf_type top -> subif_each top nfs = stands_for os nfs top.
Definition due_here : list (netif * netif * Z) :=
  if opt cfg 1 then filter (fun d => hit (snd (fst d))) (due cfg os nfs) else [].
Lemma visible_whole top : In top nfs -> (if visible (nc_opts (sc_net cfg)) top then whole top else [])
  = if selected cfg top && eligible cfg top then flat_map (on top) (stands_for os nfs top) else [].
Proof.
  intros H. unfold visible, whole, selected. fold (opt cfg 5).
  destruct (eligible cfg top) eqn:E; [|rewrite andb_false_r; now destruct (_ && _)]. rewrite andb_true_r.
  pose proof (SF top H (eligible_type _ E)) as K. rewrite <- K.
  destruct (10 <? nf_type top) eqn:T, (nf_subif top) as [i|] eqn:I; cbn [andb negb]; try (now rewrite andb_true_r).
  assert (X : subif_each top nfs = []).
  { unfold subif_each. cbn [subif_loop]. unfold subif_iter. change NETIF_PARENT with 10. now rewrite T, I. }
  rewrite X. cbn [flat_map]. rewrite andb_false_r. now destruct (if opt cfg 5 then _ else _).
Qed.
Lemma due_here_eq : flat_map whole (filter (visible (sc_opts cfg)) nfs) = due_here.
Proof.
  rewrite flat_map_filter. unfold due_here, due. rewrite !flat_map_filter, filter_flat_map.
  transitivity (flat_map (fun x => if selected cfg x && eligible cfg x then flat_map (on x) (stands_for os nfs x) else []) nfs).
  { apply flat_map_ext_in. intros a Ha. unfold sc_opts. now apply visible_whole. }
  destruct (opt cfg 1) eqn:O.
  - apply flat_map_ext_in. intros a Ha. destruct (_ && _); [|reflexivity]. rewrite flat_map_filter, filter_flat_map.
    apply flat_map_ext. intros b. unfold on. rewrite O. destruct (eligible cfg b); [|now rewrite andb_false_r].
    rewrite !andb_true_r. symmetry. apply filter_all. intros x Hx. apply in_map_iff in Hx as (p & <- & _). reflexivity.
  - apply flat_map_nil. intros a Ha. destruct (_ && _); [|reflexivity]. apply flat_map_nil. intros b Hb. unfold on. rewrite O. now rewrite andb_false_r.
Qed.
End run.

(** ** What the iterators visit *)
Lemma reported_member os nfs top r : In r (reported os nfs top) -> exists m, In m nfs /\ nf_index m = fst r /\ nf_type m < 10.
Proof.
  assert (A : forall is st r, In r (as_member nfs is st) -> exists m, In m nfs /\ nf_index m = fst r /\ nf_type m < 10).
  { intros is st x. unfold as_member. destruct (find is nfs) as [m|] eqn:E; [|easy]. destruct (nf_type m <? 10) eqn:T; [|easy].
    intros [<-|[]]. apply find_some in E as [E _]. exists m. cbn. split; [assumption|split; [reflexivity|lia]]. }
  unfold reported. destruct (_ =? 12).
  { destruct (no_bond os (nf_name top)) as [[a k]|]; [|easy]. intros H. apply in_flat_map in H as (i & _ & H).
    destruct (no_slave os (nf_name top) i) as [[x st]|]; [|easy]. eapply A; eassumption. }
  destruct (_ =? 13).
  { destruct (no_bridge os (nf_name top)) as [ps|]; [|easy]. intros H. apply in_flat_map in H as (i & _ & H). eapply A; eassumption. }
  destruct (_ =? 11); [|easy].
  destruct (no_team os (nf_index top)) as [[[a ps] k]|]; [|easy]. intros H. apply in_flat_map in H as (i & _ & H). eapply A; eassumption.
Qed.
Lemma chain_incl nfs o ms : member_chain nfs o ms -> incl ms nfs.
Proof. induction 1 as [|i m ms H1 H2 H3 IH]; [intros x []|]. intros x [<-|Hx]; [assumption|now apply IH]. Qed.
Lemma nodup_head {A} (l1 l2 : list A) : NoDup (l1 ++ l2) -> NoDup l1 /\ NoDup l2.
Proof.
  induction l1 as [|x l1 IH]; cbn; intros H; [split; [constructor|assumption]|]. inversion H; subst. destruct (IH H3) as [I1 I2].
  split; [|assumption]. constructor; [|assumption]. intros K. apply H2. apply in_or_app. now left.
Qed.
Lemma nodup_flat {A B} (f : A -> list B) l x : NoDup (flat_map f l) -> In x l -> NoDup (f x).
Proof. induction l as [|y l IH]; cbn; [easy|]. intros H. apply nodup_head in H as [H1 H2]. intros [->|Hx]; auto. Qed.
Lemma stands_each os nfs top : NoDup (indices nfs) -> linked os nfs -> consistent os nfs -> In top nfs -> 0 <= nf_type top ->
  subif_each top nfs = stands_for os nfs top /\ incl (stands_for os nfs top) nfs.
Proof.
  intros ND L [C _] Ht Hty. unfold stands_for. destruct (nf_type top <=? 10) eqn:T.
  - split; [apply subif_each_plain; lia|]. intros x [<-|[]]. assumption.
  - destruct (L top Ht) as (_ & L2 & _). destruct (L2 ltac:(lia)) as (ms & M1 & M2 & M3).
    assert (E : flat_map (fun r => match at_index nfs (Some (fst r)) with Some m => [m] | None => [] end) (reported os nfs top) = ms).
    { rewrite <- M2. pose proof (chain_incl _ _ _ M1) as I. clear M1 M2 M3. induction ms as [|m ms IH]; [reflexivity|]. cbn [map flat_map fst at_index].
      change (find (index_is (nf_index m)) nfs) with (netif_byindex nfs (nf_index m)). rewrite (byindex_in nfs m ND) by (apply I; now left).
      cbn [app]. f_equal. apply IH. intros x Hx. apply I. now right. }
    rewrite E. split; [|now apply (chain_incl nfs (nf_subif top))].
    apply subif_each_members; [assumption|lia|assumption| |].
    + pose proof (nodup_flat _ _ _ C Ht) as D. cbn beta in D. rewrite <- M2, map_map in D. cbn [fst] in D. apply NoDup_map_inv in D. exact D.
    + intros m Hm K. assert (R : In (nf_index m, nf_child m) (reported os nfs top)) by (rewrite <- M2; apply in_map_iff; eauto).
      destruct (reported_member _ _ _ _ R) as (m' & R1 & R2 & R3). cbn in R2.
      assert (m' = top). { apply (some_inj m' top). rewrite <- (byindex_in nfs m' ND R1), <- (byindex_in nfs top ND Ht). f_equal. congruence. }
      subst m'. lia.
Qed.
