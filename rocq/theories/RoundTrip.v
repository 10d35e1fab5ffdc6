(** Decoding of ladvd's own advertisements. *)
From Verif Require Import Base Vis Tlv Types Checks Msg Cdp Edp Fdp Ndp Lldp Protos Spec SpecAdv SpecRound
  Lemmas VisProofs EncProofs EncProofs2 EncProofs3 EncProofs4 EncProps TlvInj DecProofs DecCheck DecCdp DecCdp2 DecEdp DecLldp DecLldp2.

Lemma before_nul_id v : ~ In 0 v -> before_nul v = v.
Proof.
  induction v as [|b v IH]; intros H; [easy|]. cbn. destruct (Z.eq_dec b 0); [cbn in H; tauto|].
  rewrite IH; [easy|]. cbn in H. tauto.
Qed.
Lemma before_nul_end v : ~ In 0 v -> before_nul (v ++ [0]) = v.
Proof.
  induction v as [|b v IH]; intros H; [easy|]. cbn. destruct (Z.eq_dec b 0); [cbn in H; tauto|].
  rewrite IH; [easy|]. cbn in H. tauto.
Qed.
Lemma firstn_short A n (l : list A) : zlen l <= Z.of_nat n -> firstn n l = l.
Proof. intros. apply firstn_all2. unfold zlen in *. lia. Qed.
Lemma shown_c show n v : cstring n v -> n <= 512 -> shown show v = flat_map show v.
Proof.
  intros (_ & H0 & Hl) Hn. unfold shown. rewrite firstn_short by lia. now rewrite before_nul_id.
Qed.
Lemma shown_nul show n v : cstring n v -> n < 512 -> shown show (v ++ [0]) = flat_map show v.
Proof.
  intros (_ & H0 & Hl) Hn. unfold shown. rewrite firstn_short by zlia. now rewrite before_nul_end.
Qed.

(** ** Capability letters *)
Lemma cdp_caps_sent a : 0 <= a ->
  cdp_caps (if a =? 4 then 16 else cap_word [(1, 2); (3, 1); (4, 8)] a)
  = if a =? 4 then bs "H" else letters (Z.land a 26).
Proof.
  intros Ha. destruct (a =? 4); [reflexivity|].
  assert (E : letters (Z.land a 26) = (if Z.testbit a 1 then bs "B" else [])
    ++ (if Z.testbit a 3 then bs "R" else []) ++ (if Z.testbit a 4 then bs "S" else [])).
  { unfold letters.
    let l := eval vm_compute in (combine [0; 1; 2; 3; 4; 5; 6; 7; 8] (bs "rBHRSWCTO")) in
      change (combine [0; 1; 2; 3; 4; 5; 6; 7; 8] (bs "rBHRSWCTO")) with l.
    cbn [filter map fst]. rewrite !Z.land_spec.
    change (Z.testbit 26 0) with false. change (Z.testbit 26 1) with true.
    change (Z.testbit 26 2) with false. change (Z.testbit 26 3) with true.
    change (Z.testbit 26 4) with true. change (Z.testbit 26 5) with false.
    change (Z.testbit 26 6) with false. change (Z.testbit 26 7) with false.
    change (Z.testbit 26 8) with false. rewrite !andb_false_r, !andb_true_r.
    destruct (Z.testbit a 1), (Z.testbit a 3), (Z.testbit a 4); reflexivity. }
  rewrite E. unfold cap_word. cbn [fold_right fst snd].
  destruct (Z.testbit a 1), (Z.testbit a 3), (Z.testbit a 4); reflexivity.
Qed.
Lemma lldp_caps_sent host a : lldp_caps (lldp_capword host a) = if host then bs "H" else lldp_letters a.
Proof.
  unfold lldp_capword, lldp_letters, cap_word. destruct host; [reflexivity|]. cbn [fold_right fst snd].
  destruct (Z.testbit a 1), (Z.testbit a 3), (Z.testbit a 4), (Z.testbit a 5); reflexivity.
Qed.
Lemma lldp_caps_fit host si : caps_consistent si ->
  lldp_caps_ok (lldp_capword host (si_cap si)) (lldp_capword host (si_cap_active si)).
Proof.
  intros H. unfold lldp_caps_ok, lldp_capword, cap_word. destruct host; [easy|].
  cbn [fold_right fst snd]. pose proof (H 1) as H1. pose proof (H 3) as H3. pose proof (H 4) as H4.
  pose proof (H 5) as H5. clear H.
  split.
  - intros i.
    destruct (Z.testbit (si_cap_active si) 1), (Z.testbit (si_cap_active si) 3),
      (Z.testbit (si_cap_active si) 4), (Z.testbit (si_cap_active si) 5);
    repeat match goal with H : true = true -> _ |- _ => specialize (H eq_refl); rewrite H | H : false = true -> _ |- _ => clear H end;
    destruct (Z.testbit (si_cap si) 1), (Z.testbit (si_cap si) 3),
      (Z.testbit (si_cap si) 4), (Z.testbit (si_cap si) 5); try discriminate;
    cbn [orb Z.add Pos.add];
    (destruct (Z.eq_dec i 2) as [->|N2]; [trivial; discriminate|]);
    (destruct (Z.eq_dec i 3) as [->|N3]; [trivial; discriminate|]);
    (destruct (Z.eq_dec i 4) as [->|N4]; [trivial; discriminate|]);
    intros Hi; exfalso; revert Hi; apply Bool.not_true_iff_false;
    (destruct i as [|[[[?|?|]|[?|?|]|]|[[?|?|]|[?|?|]|]|]|]; (reflexivity || lia)).
  - destruct (Z.testbit (si_cap si) 1), (Z.testbit (si_cap si) 3),
      (Z.testbit (si_cap si) 4), (Z.testbit (si_cap si) 5); discriminate.
Qed.

(** ** Frames *)
Lemma snap_is_frame dst src org pid pl : zlen src = 6 -> zlen pl <= 1518 ->
  snap_frame dst org pid (snap dst src org pid pl) pl.
Proof.
  intros. unfold snap. apply snap_untagged; [easy| |]; pose proof (zlen_nonneg _ pl); lia.
Qed.

(** ** CDP *)
Definition slot_opt (s : slot) (v : option (list Z)) : list (slot * list Z) :=
  match v with Some x => [(s, x)] | None => [] end.
Lemma addr_tlv_means t n : t = 2 \/ t = 22 -> netif_ok n ->
  exists attrs, Forall2 cdp_means (addr_tlv t n) attrs
    /\ concat attrs = slot_opt IPv4 (addr4 n) ++ slot_opt IPv6 (addr6 n).
Proof.
  intros Ht Hn. assert (L4 : zlen (nf_ipaddr4 n) = 4) by apply Hn.
  assert (L6 : zlen (nf_ipaddr6 n) = 16) by apply Hn.
  unfold addr_tlv, ip_recs, addr4, addr6.
  destruct (is_set (nf_ipaddr4 n)), (is_set (nf_ipaddr6 n)); cbn [app slot_opt].
  - eexists [_]. split; [constructor; [|constructor]|].
    + rewrite <- (app_nil_r (flat_map _ _)). apply cdp_addrs; [easy|easy|easy|now left| |].
      * repeat constructor; cbn [fst snd]; unfold byte; zlia.
      * constructor; [now constructor|]. constructor; [now constructor|]. constructor.
    + reflexivity.
  - eexists [_]. split; [constructor; [|constructor]|].
    + rewrite <- (app_nil_r (flat_map _ _)). apply cdp_addrs; [easy|easy|easy|now left| |].
      * repeat constructor; cbn [fst snd]; unfold byte; zlia.
      * constructor; [now constructor|]. constructor.
    + reflexivity.
  - eexists [_]. split; [constructor; [|constructor]|].
    + rewrite <- (app_nil_r (flat_map _ _)). apply cdp_addrs; [easy|easy|easy|now left| |].
      * repeat constructor; cbn [fst snd]; unfold byte; zlia.
      * constructor; [now constructor|]. constructor.
    + reflexivity.
  - now exists [].
Qed.
Lemma other_cdp t v : ~ In t [1; 2; 3; 4; 10; 20; 22] -> cdp_means (t, v) [].
Proof. apply cdp_other. Qed.
Lemma when_quiet c t v : ~ In t [1; 2; 3; 4; 10; 20; 22] ->
  exists attrs, Forall2 cdp_means (when c [(t, v)]) attrs /\ concat attrs = [].
Proof.
  intros H. destruct c; cbn [when]; [exists [[]]|exists []]; (split; [|reflexivity]); [|constructor].
  constructor; [now apply cdp_other|constructor].
Qed.
Ltac notin := cbn; intros H; repeat (destruct H as [H|H]; [discriminate H|]); exact H.
Lemma cdp_content_means n p mgmt si :
  netif_ok n -> netif_ok p -> (forall m, mgmt = Some m -> netif_ok m) -> sysinfo_ok si ->
  exists attrs, Forall2 cdp_means (cdp_content n p mgmt si) attrs
    /\ report (concat attrs) = cdp_seen n p mgmt si.
Proof.
  intros Hn Hp Hm Hs.
  assert (Ch : cstring 256 (si_hostname si)) by apply Hs.
  assert (Cn : cstring 16 (nf_name n)) by apply Hn.
  assert (Ra : 0 <= si_cap_active si < 65536) by apply Hs.
  destruct (addr_tlv_means 2 p (or_introl eq_refl) Hp) as (a1 & F1 & E1).
  assert (exists a2, Forall2 cdp_means (match mgmt with Some m => addr_tlv 22 m | None => [] end) a2
    /\ concat a2 = match mgmt with Some m => slot_opt IPv4 (addr4 m) ++ slot_opt IPv6 (addr6 m) | None => [] end)
    as (a2 & F2 & E2).
  { destruct mgmt as [m|]; [|now exists []]. apply (addr_tlv_means 22 m); [now right|now apply Hm]. }
  destruct (when_quiet (negb (nf_mtu n =? 0)) 17 (U32 (nf_mtu n)) ltac:(notin)) as (a3 & F3 & E3).
  destruct (when_quiet (negb (nf_duplex n =? -1)) 11 [nf_duplex n mod 256] ltac:(notin)) as (a4 & F4 & E4).
  destruct (when_quiet (0 <? zlen (si_location si)) 23 (0 :: si_location si) ltac:(notin)) as (a5 & F5 & E5).
  unfold cdp_content.
  set (w := if si_cap_active si =? 4 then 16 else _).
  assert (Hw : 0 <= w < 4294967296).
  { unfold w, cap_word. cbn [fold_right fst snd]. destruct (_ =? 4); [lia|].
    destruct (Z.testbit _ 1), (Z.testbit _ 3), (Z.testbit _ 4); lia. }
  exists ([[(Host, shown show_safe (si_hostname si))]; []; []; [(Port, shown show_safe (nf_name n))];
     [(Caps, cdp_caps w)]] ++ a1 ++ a2 ++ a3 ++ a4 ++ a5 ++ [[(Host, shown show_safe (si_hostname si))]]).
  split.
  - repeat (apply Forall2_app; [assumption || idtac|]).
    + constructor; [now constructor; left|]. constructor; [apply cdp_other; notin|].
      constructor; [apply cdp_other; notin|]. constructor; [constructor|].
      constructor; [|constructor]. now constructor.
    + constructor; [now constructor; right|constructor].
  - rewrite !concat_app, E1, E2, E3, E4, E5. unfold w. rewrite cdp_caps_sent by lia.
    rewrite (shown_c _ _ _ Ch), (shown_c _ _ _ Cn) by lia. cbn [concat app].
    unfold cdp_seen, report. cbn [map first_of slot_eqb].
    unfold addr4, addr6, either. destruct mgmt as [m|];
    repeat match goal with |- context [is_set ?x] => destruct (is_set x) end; reflexivity.
Qed.

Lemma round_cdp p opts count n par mgmt nfs si f c s :
  p = 1 \/ p = 5 -> inputs_ok count n par mgmt nfs si ->
  proto_build p opts count n par mgmt nfs si = Some f ->
  in_buffer c f -> d_mode c = 1 -> s_peer s = no_peers ->
  proto_decode 1 c s = DOk (zlen f, mkDst (cdp_seen n (up n par) mgmt si) 180 p (s_out s)).
Proof.
  intros Hp Hi Hb Hin Hm Hs. pose proof (inputs_up _ _ _ _ _ _ Hi) as Hu.
  destruct (build_advert p opts count n par mgmt nfs si f ltac:(lia) Hi Hb) as [Hf Hl].
  destruct Hi as (Hn & _ & Hmg & _ & Hsi & _). clear Hb.
  destruct (cdp_content_means n (up n par) mgmt si Hn Hu Hmg Hsi) as (attrs & HF & HR).
  set (v := if p =? 1 then 2 else 1).
  assert (Ef : f = cdp_advert v n (up n par) mgmt si) by (destruct Hp as [-> | ->]; exact Hf).
  clear Hf. unfold cdp_advert in Ef. cbv zeta in Ef.
  match type of Ef with _ = snap ?d ?s ?o ?i ?p =>
    remember p as payload eqn:Epl; assert (Hfr : snap_frame d o i f payload) end.
  { rewrite Ef in *. apply snap_is_frame; [apply Hn|]. rewrite zlen_snap in Hl.
    pose proof (zlen_nonneg _ (nf_hwaddr n)). change (zlen [1;0;12;204;204;204]) with 6 in Hl.
    change (zlen [0; 0; 12]) with 3 in Hl. lia. }
  change (proto_decode 1 c s) with (cdp_decode c s).
  apply (cdp_decode_iff c f payload s); [assumption|assumption|lia|assumption|].
  split; [reflexivity|]. exists v, 180, (concat attrs). split.
  - rewrite Epl. apply cdp_packet_intro; [unfold v; destruct (p =? 1); lia|reflexivity| |exact HF].
    apply small_fits. now apply cdp_content_small.
  - rewrite HR. f_equal. unfold v. destruct Hp as [-> | ->]; reflexivity.
Qed.

(** ** EDP *)
Lemma edp_content_means opts n p nfs si : sysinfo_ok si ->
  exists attrs, Forall2 edp_means (map (fun x => (153, x)) (edp_content opts n p nfs si)) attrs
    /\ report (concat attrs) = edp_seen si.
Proof.
  intros Hs. assert (Ch : cstring 256 (si_hostname si)) by apply Hs.
  unfold edp_content. cbn [app map].
  match goal with |- context [map (fun x => (153, x)) ?l] => set (rest := l) end.
  assert (Forall (fun x => fst x <> 1) rest) as Hr.
  { unfold rest. apply Forall_app. split; [|apply Forall_app; split].
    - destruct (is_set _); cbn [when]; repeat constructor; discriminate.
    - apply Forall_map, Forall_forall. intros; discriminate.
    - repeat constructor; discriminate. }
  clearbody rest.
  assert (exists a, Forall2 edp_means (map (fun x => (153, x)) rest) a /\ concat a = []) as (a & Fa & Ea).
  { induction Hr as [|[t v] l H _ (a & Fa & Ea)]; [exists []; split; [constructor|reflexivity]|].
    exists ([] :: a). split; [|easy]. constructor; [now apply edp_other|easy]. }
  exists ([(Host, shown show_strict (si_hostname si ++ [0]))] :: [] :: a). split.
  - constructor; [constructor|]. constructor; [now apply edp_other|exact Fa].
  - cbn [concat app]. rewrite Ea, (shown_nul _ _ _ Ch) by lia. reflexivity.
Qed.
Lemma round_edp opts count n par mgmt nfs si f c s :
  inputs_ok count n par mgmt nfs si ->
  proto_build 2 opts count n par mgmt nfs si = Some f ->
  in_buffer c f -> s_peer s = no_peers ->
  proto_decode 2 c s = DOk (zlen f, mkDst (edp_seen si) 180 (s_proto s) (s_out s)).
Proof.
  intros Hi Hb Hin Hs. pose proof (inputs_up _ _ _ _ _ _ Hi) as Hu.
  destruct (build_advert 2 opts count n par mgmt nfs si f ltac:(lia) Hi Hb) as [Ef Hl].
  destruct Hi as (Hn & _ & Hmg & Hv & Hsi & _). clear Hb.
  destruct (edp_content_means opts n (up n par) nfs si Hsi) as (attrs & HF & HR).
  cbn [advert] in Ef. unfold edp_advert in Ef. cbv zeta in Ef.
  match type of Ef with _ = snap ?d ?s ?o ?i ?p =>
    remember p as payload eqn:Epl; assert (Hfr : snap_frame d o i f payload) end.
  { rewrite Ef in *. apply snap_is_frame; [apply Hn|]. rewrite zlen_snap in Hl.
    pose proof (zlen_nonneg _ (nf_hwaddr n)). change (zlen [0; 224; 43; 0; 0; 0]) with 6 in Hl.
    change (zlen [0; 224; 43]) with 3 in Hl. lia. }
  change (proto_decode 2 c s) with (edp_decode c s).
  apply (edp_decode_iff c f payload s); [assumption|assumption|assumption|].
  split; [reflexivity|]. exists (concat attrs). split; [|now rewrite HR].
  rewrite Epl. rewrite flat_map_concat_map, <- map_map, <- flat_map_concat_map.
  match goal with |- edp_packet_means ((_ ++ ?sz) ++ ?chk ++ ?cnt ++ ?z ++ ?ch ++ ?t) _ =>
    replace (([1; 0] ++ sz) ++ chk ++ cnt ++ z ++ ch ++ t)
      with ([1] ++ (0 :: sz ++ chk ++ cnt ++ z ++ ch) ++ t) by (cbn [app]; now rewrite <- !app_assoc) end.
  apply edp_packet_intro; [| |exact HF].
  - assert (zlen (nf_hwaddr n) = 6) by apply Hn. assert (zlen (si_hwaddr si) = 6) by apply Hsi.
    unfold chk_of. destruct (Z.testbit opts 13); zlia.
  - apply small_edp_fits. now apply edp_content_small.
Qed.

(** ** FDP *)
Lemma fdp_content_means n m si : netif_ok n -> sysinfo_ok si ->
  exists attrs, Forall2 fdp_means (fdp_content n m si) attrs
    /\ report (concat attrs) = fdp_seen n si.
Proof.
  intros Hn Hs. assert (Ch : cstring 256 (si_hostname si)) by apply Hs.
  assert (Cn : cstring 16 (nf_name n)) by apply Hn.
  unfold fdp_content. set (role := if Z.testbit (si_cap_active si) 3 then _ else _).
  assert (exists a, Forall2 fdp_means (addr_tlv 2 m) a /\ concat a = []) as (a & Fa & Ea).
  { unfold addr_tlv. destruct (ip_recs m); [now exists []|]. exists [[]]. split; [|easy].
    constructor; [|constructor]. apply fdp_other. cbn. lia. }
  exists ([[(Host, shown show_strict (si_hostname si))]; [(Port, shown show_strict (nf_name n))];
           [(Caps, letters (fdp_role role))]; []; []] ++ a).
  split.
  - apply Forall2_app; [|exact Fa].
    repeat (constructor; [first [now constructor|apply fdp_other; cbn; lia]|]). constructor.
  - rewrite concat_app, Ea, (shown_c _ _ _ Ch), (shown_c _ _ _ Cn) by lia.
    unfold role. cbn [concat app]. unfold fdp_seen, report. cbn [map first_of slot_eqb].
    destruct (Z.testbit (si_cap_active si) 3), (Z.testbit (si_cap_active si) 4),
      (Z.testbit (si_cap_active si) 1); reflexivity.
Qed.
Lemma round_fdp opts count n par mgmt nfs si f c s :
  inputs_ok count n par mgmt nfs si ->
  proto_build 3 opts count n par mgmt nfs si = Some f ->
  in_buffer c f -> s_peer s = no_peers ->
  proto_decode 3 c s = DOk (zlen f, mkDst (fdp_seen n si) 180 (s_proto s) (s_out s)).
Proof.
  intros Hi Hb Hin Hs. pose proof (inputs_up _ _ _ _ _ _ Hi) as Hu.
  destruct (build_advert 3 opts count n par mgmt nfs si f ltac:(lia) Hi Hb) as [Ef Hl].
  destruct Hi as (Hn & _ & Hmg & Hv & Hsi & _). clear Hb.
  assert (Hm : netif_ok (up (up n par) mgmt)) by (destruct mgmt; [now apply Hmg|easy]).
  destruct (fdp_content_means n (up (up n par) mgmt) si Hn Hsi) as (attrs & HF & HR).
  cbn [advert] in Ef. unfold fdp_advert in Ef. cbv zeta in Ef.
  match type of Ef with _ = snap ?d ?s ?o ?i ?p =>
    remember p as payload eqn:Epl; assert (Hfr : snap_frame d o i f payload) end.
  { rewrite Ef in *. apply snap_is_frame; [apply Hn|]. rewrite zlen_snap in Hl.
    pose proof (zlen_nonneg _ (nf_hwaddr n)). change (zlen [1; 224; 82; 204; 204; 204]) with 6 in Hl.
    change (zlen [0; 224; 82]) with 3 in Hl. lia. }
  change (proto_decode 3 c s) with (fdp_decode c s).
  apply (fdp_decode_iff c f payload s); [assumption|assumption|assumption|].
  split; [reflexivity|]. exists 180, (concat attrs). split; [|now rewrite HR].
  rewrite Epl. apply fdp_packet_intro; [reflexivity| |exact HF].
  apply small_fits. now apply fdp_content_small.
Qed.

(** ** NDP *)
Lemma round_ndp opts count n par mgmt nfs si f c s :
  inputs_ok count n par mgmt nfs si ->
  proto_build 4 opts count n par mgmt nfs si = Some f ->
  in_buffer c f ->
  zlen f = 64 /\ (exists payload, ndp_frame f payload)
  /\ slice f 22 4 = nf_ipaddr4 (up n par)
  /\ exists k, proto_decode 4 c s = DOk (k, mkDst (s_peer s) 180 (s_proto s) (s_out s)).
Proof.
  intros Hi Hb Hin. pose proof (inputs_up _ _ _ _ _ _ Hi) as Hu.
  destruct (build_advert 4 opts count n par mgmt nfs si f ltac:(lia) Hi Hb) as [Ef Hl].
  destruct Hi as (Hn & _ & Hmg & Hv & Hsi & _). clear Hb. cbn [advert] in Ef.
  assert (L4 : zlen (nf_ipaddr4 (up n par)) = 4) by apply Hu.
  assert (Lh : zlen (nf_hwaddr n) = 6) by apply Hn.
  split; [rewrite Ef; now apply ndp_advert_len|].
  unfold ndp_advert in Ef.
  match type of Ef with _ = snap ?d ?s ?o ?i ?p =>
    remember p as payload eqn:Epl; assert (Hfr : snap_frame d o i f payload) end.
  { rewrite Ef in *. apply snap_is_frame; [easy|]. rewrite zlen_snap in Hl.
    change (zlen [1; 0; 129; 0; 1; 0]) with 6 in Hl. change (zlen [0; 0; 129]) with 3 in Hl. lia. }
  split; [now exists payload|]. split.
  - rewrite Ef, Epl. unfold snap. rewrite !app_assoc, <- (app_assoc _ (nf_ipaddr4 _)), <- (app_assoc _ (nf_ipaddr4 _ ++ _)).
    rewrite <- (app_assoc (nf_ipaddr4 _)).
    apply slice_app_m; zlia.
  - exists (zlen f - zlen payload + 11).
    change (proto_decode 4 c s) with (ndp_decode c s). rewrite (ndp_decode_pure c f payload s Hin Hfr).
    replace (zlen payload <? 11) with false by (rewrite Epl; zlia). reflexivity.
Qed.

(** ** LLDP *)
Lemma lldp_body_app l1 : forall l2 seen mid all,
  lldp_body seen l1 mid -> lldp_body mid l2 all -> lldp_body seen (l1 ++ l2) all.
Proof.
  induction l1 as [|x l1 IH]; intros l2 seen mid all H1 H2; inversion H1; subst; [exact H2|].
  cbn [app]. econstructor; [eassumption|]. eapply IH; eassumption.
Qed.
Lemma lldp_body_one seen x attrs : lldp_means seen x attrs -> lldp_body seen [x] (seen ++ attrs).
Proof. intros H. econstructor; [exact H|constructor]. Qed.
(** TLVs that report nothing. *)
Definition silent (x : tlv) : Prop := forall seen, lldp_means seen x [].
Lemma lldp_body_silent l seen : Forall silent l -> lldp_body seen l seen.
Proof.
  induction 1 as [|x l H _ IH]; [constructor|]. econstructor; [apply H|]. now rewrite app_nil_r.
Qed.
Lemma org_silent oui sub v : zlen oui = 3 -> oui <> [0; 128; 194] -> silent (org_tlv oui sub v).
Proof. intros L N seen. unfold org_tlv. now apply lldp_org. Qed.
Lemma vlan_silent v : silent (org_tlv [0; 128; 194] 3 v).
Proof. intros seen. unfold org_tlv. now apply (lldp_8021 seen 3 v). Qed.
Lemma when_silent c l : Forall silent l -> Forall silent (when c l).
Proof. destruct c; [easy|constructor]. Qed.

Lemma lldp_content_means opts n p m nfs si port :
  netif_ok n -> netif_ok p -> netif_ok m -> sysinfo_ok si -> caps_consistent si ->
  port = shown show_safe (nf_name n) ->
  exists attrs, lldp_body [(Port, port)] (lldp_content opts n p m nfs si) attrs
    /\ report attrs = lldp_seen opts n p m si.
Proof.
  intros Hn Hp Hm Hs Hc ->.
  pose proof (port_descr_ok opts n p Hn Hp) as Hd.
  assert (Ch : cstring 256 (si_hostname si)) by apply Hs.
  assert (Cn : cstring 16 (nf_name n)) by apply Hn.
  assert (L4 : zlen (nf_ipaddr4 m) = 4) by apply Hm.
  assert (L6 : zlen (nf_ipaddr6 m) = 16) by apply Hm.
  assert (Lm : zlen (nf_hwaddr m) = 6) by apply Hm.
  assert (R : forall a, 0 <= lldp_capword (si_cap si =? 4) a < 65536).
  { intros a. pose proof (lldp_capword_range (si_cap si =? 4) a). lia. }
  unfold lldp_content. cbv zeta.
  set (d := when (0 <? zlen _) [(4, _)]).
  set (o := map _ (vlans_of _ _ _ _) ++ _).
  assert (Ho : Forall silent o).
  { unfold o. repeat (apply Forall_app; split);
      repeat first [apply when_silent | apply Forall_cons | apply Forall_nil]; try (apply org_silent; [reflexivity|discriminate]).
    apply Forall_map, Forall_forall. intros v _. apply vlan_silent. }
  clearbody o.
  set (d_at := slot_opt PortDescr (if 0 <? zlen (port_descr opts n p)
                 then Some (flat_map show_safe (port_descr opts n p)) else None)).
  set (s1 := [(Port, shown show_safe (nf_name n))] ++ d_at).
  set (s2 := (s1 ++ [(Host, shown show_safe (si_hostname si))]) ++ []).
  set (s3 := s2 ++ [(Caps, lldp_caps (lldp_capword (si_cap si =? 4) (si_cap_active si)))]).
  set (s4 := s3 ++ slot_opt IPv4 (addr4 m)).
  set (s5 := s4 ++ slot_opt IPv6 (addr6 m)).
  set (s6 := s5 ++ [(Mac, mac_str (nf_hwaddr m))]).
  exists s6. split.
  - apply (lldp_body_app _ _ _ s1).
    { unfold d, s1, d_at. destruct (0 <? zlen (port_descr opts n p)); cbn [when slot_opt].
      - apply lldp_body_one. rewrite <- (shown_c _ _ _ Hd) by lia. constructor.
      - constructor. }
    apply (lldp_body_app [_; _; _] _ _ s3).
    { econstructor. { apply lldp_name. { destruct Ch as (_ & _ & ?). lia. }
        unfold s1, d_at. destruct (0 <? _); reflexivity. }
      econstructor. { apply lldp_other. cbn. tauto. }
      econstructor; [|constructor]. apply lldp_caps4; [apply R|apply R|now apply lldp_caps_fit]. }
    apply (lldp_body_app _ _ _ s4).
    { unfold s4, addr4. destruct (is_set (nf_ipaddr4 m)); cbn [when slot_opt].
      - apply lldp_body_one. unfold mgmt_tlv. rewrite L4.
        apply (lldp_mgmt s3 1 IPv4 4 inet_ntop4 (nf_ipaddr4 m) ([2] ++ U32 (nf_index m) ++ [0])); [constructor|easy|discriminate].
      - rewrite app_nil_r. constructor. }
    apply (lldp_body_app _ _ _ s5).
    { unfold s5, addr6. destruct (is_set (nf_ipaddr6 m)); cbn [when slot_opt].
      - apply lldp_body_one. unfold mgmt_tlv. rewrite L6.
        apply (lldp_mgmt s4 2 IPv6 16 inet_ntop6 (nf_ipaddr6 m) ([2] ++ U32 (nf_index m) ++ [0])); [constructor|easy|discriminate].
      - rewrite app_nil_r. constructor. }
    apply (lldp_body_app [_] _ _ s6).
    { apply lldp_body_one. unfold mgmt_tlv. rewrite Lm.
      apply (lldp_mgmt s5 6 Mac 6 mac_str (nf_hwaddr m) ([2] ++ U32 (nf_index m) ++ [0])); [constructor|easy|discriminate]. }
    now apply lldp_body_silent.
  - unfold s6, s5, s4, s3, s2, s1, d_at. rewrite lldp_caps_sent, (shown_c _ _ _ Ch), (shown_c _ _ _ Cn) by lia.
    unfold lldp_seen, report, addr4, addr6. cbv zeta.
    destruct (0 <? zlen (port_descr opts n p)), (is_set (nf_ipaddr4 m)), (is_set (nf_ipaddr6 m)); reflexivity.
Qed.

Lemma round_lldp opts count n par mgmt nfs si f c s :
  inputs_ok count n par mgmt nfs si -> caps_consistent si ->
  proto_build 0 opts count n par mgmt nfs si = Some f ->
  in_buffer c f -> d_mode c = 1 -> s_peer s = no_peers ->
  proto_decode 0 c s =
  DOk (zlen f, mkDst (lldp_seen opts n (up n par) (up (up n par) mgmt) si) 180 (s_proto s) (s_out s)).
Proof.
  intros Hi Hc Hb Hin Hm Hs. pose proof (inputs_up _ _ _ _ _ _ Hi) as Hu.
  destruct (build_advert 0 opts count n par mgmt nfs si f ltac:(lia) Hi Hb) as [Ef Hl].
  destruct Hi as (Hn & _ & Hmg & Hv & Hsi & _). clear Hb.
  assert (Hmn : netif_ok (up (up n par) mgmt)) by (destruct mgmt; [now apply Hmg|easy]).
  destruct (lldp_content_means opts n (up n par) (up (up n par) mgmt) nfs si _ Hn Hu Hmn Hsi Hc eq_refl)
    as (attrs & HB & HR).
  pose proof (lldp_content_small opts n (up n par) (up (up n par) mgmt) nfs si Hn Hu Hmn Hv Hsi) as Hsm.
  assert (Lh : zlen (nf_hwaddr n) = 6) by apply Hn.
  assert (Lh' : zlen (si_hwaddr si) = 6) by apply Hsi.
  assert (Cn : cstring 16 (nf_name n)) by apply Hn.
  assert (Nn : nf_name n <> []) by apply Hn.
  cbn [advert] in Ef. unfold lldp_advert in Ef. cbv zeta in Ef.
  set (ch := if Z.testbit opts 13 then nf_hwaddr n else si_hwaddr si) in *.
  assert (Lc : zlen ch = 6) by (unfold ch; now destruct (Z.testbit opts 13)).
  match type of Ef with _ = _ ++ _ ++ _ ++ ?p =>
    remember p as payload eqn:Epl; assert (Hfr : lldp_frame f payload) end.
  { rewrite Ef. now apply lldp_untagged. }
  change (proto_decode 0 c s) with (lldp_decode c s).
  apply (lldp_decode_iff c f payload s); [assumption|assumption|assumption|assumption|].
  exists (zlen payload), 180, attrs. split; [|split; [lia|now rewrite HR]].
  rewrite <- (app_nil_r payload) at 1. rewrite Epl. destruct Cn as (Bn & _ & Cl).
  apply (lldp_packet_intro (4 :: ch) (5 :: nf_name n) 180 _ attrs []); [zlia| |lia| |].
  - destruct (nf_name n) as [|x l]; [contradiction|]. revert Cl. zl. pose proof (zlen_nonneg _ l). lia.
  - now apply small_lldp_fits.
  - exact HB.
Qed.
