(** Proofs of C104 to C106. *)
From Verif Require Import Base Types Tlv Msg Protos Wire Util Child Netif Sysinfo Send Spec SpecAdv SpecNetif SpecSend SpecMtu SpecTags.
From Verif Require Import Lemmas VisProofs EncProofs EncProofs2 EncProofs3 EncProofs4 EncProps TlvInj ChildProofs4 NetifProofs1 NetifProofs2 NetifProofs3
  NetifProofs5 NetifProofs6 MtuProofs TagProofs1 SendProofs1 SendProofs2 SendProofs3 SendProofs4 SendProofs5 SendProofs6.

(** ** The frames of a run *)
Lemma due_elem cfg os nfs si : forall ds seq i p f, 0 <= seq < 65536 -> In (i, p, f) (frames_due cfg os nfs si seq ds) ->
  exists top sub c, In (top, sub, p) ds /\ nf_index sub = i /\ 0 <= c < 65536 /\ f = frame_due cfg os nfs si c (top, sub, p).
Proof.
  induction ds as [|[[top sub] q] ds IH]; intros seq i p f S; cbn [frames_due]; [easy|]. cbn [fst snd]. intros K.
  apply in_app_or in K as [K|K].
  - destruct (zlen _ <=? 1518); [|easy]. destruct K as [K|[]]. injection K as <- <- <-. exists top, sub, seq. split; [now left|]. now split.
  - destruct (IH (if q =? 2 then (seq + 1) mod 65536 else seq) i p f) as (t & s & c & A & B); [destruct (q =? 2); [apply Z.mod_pos_bound|]; lia|assumption|].
    exists t, s, c. split; [now right|exact B].
Qed.
Definition input (cfg : scfg) (os : nos) (nfs : list netif) (si : sysinfo) (c p : Z) (n : netif) (f : list Z) : Prop :=
  inputs_ok c (netif_media os n) (at_index nfs (nf_parent n)) (at_index nfs (si_mnetif si)) nfs si
  /\ let g := advert p (nc_opts (sc_net cfg)) c (netif_media os n) (at_index nfs (nf_parent n)) (at_index nfs (si_mnetif si)) nfs si in
     f = g \/ f = blanked g.
Lemma sent_frame cfg os index timeout now st nfs si i p f :
  running cfg st -> os_ok os -> refresh cfg os st nfs si -> consistent os nfs ->
  In (SFrame i p f) (snd (child_send cfg os index timeout now st)) ->
  NoDup (indices nfs) /\ table_exact os nfs /\ linked os nfs /\ tagged os nfs /\ slaves_numbered os nfs
  /\ exists n c, In n nfs /\ nf_index n = i /\ 0 <= p < 6 /\ nf_type n <= 10 /\ input cfg os nfs si c p n f.
Proof.
  intros R0 O F CC H. pose proof R0 as R. apply running_inv in R. destruct (child_send cfg os index timeout now st) as [st' eff] eqn:E. cbn [snd] in H.
  destruct (send_core _ _ _ _ _ _ _ _ O R E) as (st1 & eff1 & CO & FR & _). apply in_frames in H. pose proof H as H0. rewrite FR in H.
  destruct (refresh_facts _ _ _ _ _ O R F) as (J & _ & T & _ & L). specialize (L CC). pose proof F as F0. destruct F as (ret & gone & F & Z).
  assert (Sq : 0 <= st_edp st < 65536) by (destruct R; assumption).
  destruct J as [J1 J2 J3 J4 J5 J6 J7]. unfold table in *. cbn [st_child c_nfs set_nfs st_si st_edp] in *.
  destruct CO as [FL'|ret' nfs' si' gone' e FL' F' Z' X|ret' nfs' si' gone' Q e FL' F' Z' G' W N S HT HL X]; [easy|now rewrite X in H|].
  unfold table in F'. rewrite F in F'. injection F' as <- <- <- <-. rewrite X in H.
  split; [assumption|]. split; [assumption|]. split; [exact L|].
  destruct (no_ifaddrs os) as [ias|] eqn:A0; [|rewrite (fetch_none _ _ _ _ A0) in F; injection F as <- _ _ _; lia].
  assert (ND : NoDup (indices (c_nfs (st_child st)))) by (destruct R; assumption).
  split; [exact (fetch_tagged _ _ _ _ _ _ _ _ _ A0 ND F)|]. split; [exact (fetch_numbered _ _ _ _ _ _ _ _ _ A0 ND F)|].
  assert (EF : frames eff = frames_due cfg os nfs si (st_edp st)
      (if opt cfg 1 then filter (fun d => (index =? NETIF_INDEX_MAX) || (index =? nf_index (snd (fst d)))) (due cfg os nfs) else [])).
  { rewrite <- (run_frames cfg os index timeout now st nfs si R0 O F0 CC FL' G'), E. reflexivity. }
  rewrite EF in H0. destruct (due_elem _ _ _ _ _ _ _ _ _ Sq H0) as (top & sub & c & A & B & C & D).
  assert (A' : In (top, sub, p) (due cfg os nfs)) by (destruct (opt cfg 1); [now apply filter_In in A|easy]).
  apply due_iff in A' as (A1 & _ & _ & A2 & _ & A5 & _). pose proof (stands_in os nfs top sub A1 A2) as A3.
  assert (A4 : 0 <= p < 6) by (cbn in A5; lia).
  assert (A6 : nf_type sub <= 10).
  { unfold stands_for in A2. destruct (nf_type top <=? 10) eqn:T1; [destruct A2 as [<-|[]]; lia|]. apply in_flat_map in A2 as (r & Hr & A2).
    destruct (reported_member os nfs top r Hr) as (m & M1 & M2 & M3). cbn [at_index] in A2. change (find (index_is (fst r)) nfs) with (netif_byindex nfs (fst r)) in A2.
    rewrite <- M2, (byindex_in nfs m J2 M1) in A2. destruct A2 as [<-|[]]. lia. }
  exists sub, c. split; [assumption|]. split; [assumption|]. split; [assumption|]. split; [assumption|]. split.
  - split; [apply ok_probed; now apply (well_in nfs)|]. split; [|split; [|split; [|split; assumption]]].
    + intros q Hq. unfold at_index in Hq. destruct (nf_parent sub); [|discriminate]. apply find_some in Hq as [Hq _]. now apply (well_in nfs).
    + intros q Hq. unfold at_index in Hq. destruct (si_mnetif si); [|discriminate]. apply find_some in Hq as [Hq _]. now apply (well_in nfs).
    + intros v Hv. now apply (well_in nfs).
  - cbv zeta. rewrite D. unfold frame_due. destruct (_ && _); [now right|now left].
Qed.
Lemma skip_skip {A} a : forall b (l : list A), skipn (a + b) l = skipn a (skipn b l).
Proof.
  intros b. revert a. induction b as [|b IH]; intros a l; [now rewrite Nat.add_0_r|]. rewrite Nat.add_succ_r. destruct l as [|x l]; [now rewrite !skipn_nil|].
  cbn [skipn]. apply IH.
Qed.
Lemma skip_blank k g : (12 <= k)%nat -> 12 <= zlen g -> skipn k (blanked g) = skipn k g.
Proof.
  intros K L. unfold blanked. replace k with ((k - 12) + 12)%nat by lia. rewrite !skip_skip. f_equal.
  rewrite app_assoc. replace 12%nat with (Z.to_nat (zlen (firstn 6 g ++ [0; 0; 0; 0; 0; 0]))) at 1; [apply skipn_zlen_app|].
  assert (zlen (firstn 6 g) = 6) by (unfold zlen in *; rewrite firstn_length; lia). rewrite zlen_app. zl. lia.
Qed.

(** ** LLDP content *)
Section org.
Variable h : list Z.
Lemma ov_app a b : org_values h (a ++ b) = org_values h a ++ org_values h b.
Proof. unfold org_values. now rewrite filter_app, map_app. Qed.
Lemma ov_when b l : org_values h (when b l) = if b then org_values h l else [].
Proof. now destruct b. Qed.
Lemma ov_org a b c d body : org_values h [org_tlv [a; b; c] d body] = if list_eq_dec Z.eq_dec [a; b; c; d] h then [body] else [].
Proof. unfold org_values, org_tlv. cbn [filter fst snd firstn app Z.eqb Pos.eqb andb]. destruct (list_eq_dec Z.eq_dec [a; b; c; d] h); reflexivity. Qed.
Lemma ov_orgs {A} a b c d (g : A -> list Z) l : org_values h (map (fun v => org_tlv [a; b; c] d (g v)) l)
  = if list_eq_dec Z.eq_dec [a; b; c; d] h then map g l else [].
Proof.
  induction l as [|v l IH]; cbn [map]; [now destruct (list_eq_dec _ _ _)|]. change (?x :: ?y) with ([x] ++ y) at 1. rewrite ov_app, IH, ov_org.
  now destruct (list_eq_dec _ _ _).
Qed.
Lemma ov_other t v : t <> 127 -> org_values h [(t, v)] = [].
Proof. intros H. unfold org_values. cbn [filter fst]. now replace (t =? 127) with false by lia. Qed.
Lemma ov_content opts n p m nfs si : In h [[0; 128; 194; 3]; [0; 18; 15; 3]] -> org_values h (lldp_content opts n p m nfs si)
  = if list_eq_dec Z.eq_dec [0; 128; 194; 3] h
    then map (fun v => U16 (nf_vlan_id v) ++ [zlen (nf_name v)] ++ nf_name v) (vlans_of opts n p nfs)
    else if nf_bonding_mode p =? 1 then [[3] ++ U32 (nf_lacp_index n)] else [].
Proof.
  intros Hh. unfold lldp_content. cbv zeta. rewrite !ov_app, !ov_when.
  change ([(5, si_hostname si); (6, si_uts_str si); ?x]) with ([(5, si_hostname si)] ++ [(6, si_uts_str si)] ++ [x]).
  unfold mgmt_tlv. rewrite !ov_app, !ov_other, !ov_org, ov_orgs by discriminate.
  destruct Hh as [<-|[<-|[]]]; cbn [list_eq_dec app];
  repeat match goal with |- context [if list_eq_dec Z.eq_dec ?a ?b then _ else _] =>
    destruct (list_eq_dec Z.eq_dec a b); [try discriminate|try congruence] end;
  repeat match goal with |- context [if ?b then @nil (list Z) else []] => replace (if b then @nil (list Z) else []) with (@nil (list Z)) by now destruct b end;
  cbn [app]; rewrite ?app_nil_r; reflexivity.
Qed.
Lemma ov_frame opts c n par mgmt nfs si f tlvs : In h [[0; 128; 194; 3]; [0; 18; 15; 3]] ->
  inputs_ok c n par mgmt nfs si ->
  (let g := advert 0 opts c n par mgmt nfs si in f = g \/ f = blanked g) -> lldp_tlvs f tlvs ->
  org_values h tlvs = org_values h (lldp_content opts n (SpecAdv.up n par) (SpecAdv.up (SpecAdv.up n par) mgmt) nfs si).
Proof.
  cbv zeta. intros Hh Hi Hf [Ff E].
  assert (L : 14 <= zlen (advert 0 opts c n par mgmt nfs si)) by (destruct Hi as (Hn0 & _); exact (advert_len _ _ _ _ _ _ _ _ Hn0)).
  assert (E' : skipn 14 (advert 0 opts c n par mgmt nfs si) = flat_map lldp_bytes tlvs).
  { rewrite <- E. destruct Hf as [-> | ->]; [reflexivity|]. symmetry. apply skip_blank; lia. }
  rewrite (lldp_frame_tlvs _ _ _ _ _ _ _ _ _ Hi eq_refl Ff E'). rewrite !ov_app.
  change ([(1, ?a); (2, ?b); (3, ?d)]) with ([(1, a)] ++ [(2, b)] ++ [(3, d)]). rewrite !ov_app, !ov_other by discriminate. cbn [app]. apply app_nil_r.
Qed.
End org.

(** ** EDP content *)
Lemma edp_list_inj l l' : Forall edp_fits l -> Forall edp_fits l' -> flat_map edp_bytes l = flat_map edp_bytes l' -> l = l'.
Proof. apply flat_map_inj; [now intros [m [t v]]|apply edp_bytes_inj]. Qed.
Lemma edp_frame_tlvs opts c n par mgmt nfs si f tlvs : inputs_ok c n par mgmt nfs si ->
  (let g := advert 2 opts c n par mgmt nfs si in f = g \/ f = blanked g) -> edp_tlvs f tlvs ->
  tlvs = map (fun x => (153, x)) (edp_content opts n (SpecAdv.up n par) nfs si).
Proof.
  cbv zeta. intros Hi Hf [Ff E].
  assert (L : 14 <= zlen (advert 2 opts c n par mgmt nfs si)) by (destruct Hi as (Hn0 & _); exact (advert_len _ _ _ _ _ _ _ _ Hn0)).
  assert (E' : skipn 38 (advert 2 opts c n par mgmt nfs si) = flat_map edp_bytes tlvs).
  { rewrite <- E. destruct Hf as [-> | ->]; [reflexivity|]. symmetry. apply skip_blank; lia. }
  pose proof (inputs_up _ _ _ _ _ _ Hi) as Hu. destruct Hi as (Hn & _ & Hm & Hv & Hs & Hc).
  assert (Lh : zlen (nf_hwaddr n) = 6) by apply Hn. assert (Lh' : zlen (si_hwaddr si) = 6) by apply Hs.
  assert (K : flat_map (fun x => edp_bytes (153, x)) (edp_content opts n (SpecAdv.up n par) nfs si) = flat_map edp_bytes tlvs).
  { rewrite <- E'. cbn [advert]. unfold edp_advert, snap, chk_of. cbv zeta.
    set (T := flat_map _ _). symmetry.
    match goal with |- skipn 38 ?x = T => assert (Q : exists a, x = a ++ T /\ zlen a = 38) end.
    { assert (zlen (if Z.testbit opts 13 then nf_hwaddr n else si_hwaddr si) = 6) by now destruct (Z.testbit opts 13).
      eexists. rewrite !app_assoc. split; [reflexivity|]. zl. lia. }
    destruct Q as (a & -> & La). change 38%nat with (Z.to_nat 38). rewrite <- La. apply skipn_zlen_app. }
  symmetry. apply edp_list_inj; [|exact Ff|].
  - now apply small_edp_fits, edp_content_small.
  - rewrite <- K. rewrite !flat_map_concat_map, map_map. reflexivity.
Qed.

(** ** Members and VLANs *)
Lemma owner_parent os nfs n q : NoDup (indices nfs) -> linked os nfs -> In n nfs -> In q (owners os nfs n) ->
  In q nfs /\ 10 < nf_type q /\ nf_parent n = Some (nf_index q) /\ exists c, In (nf_index n, c) (reported os nfs q).
Proof.
  intros D L Hn Hq. unfold owners in Hq. apply filter_In in Hq as [Hq E]. apply existsb_exists in E as ([i c] & Hr & Ei). cbn [fst] in Ei.
  assert (i = nf_index n) by lia. subst i. clear Ei. assert (T : 10 < nf_type q).
  { unfold reported in Hr. destruct (nf_type q =? 12) eqn:T1; [lia|]. destruct (nf_type q =? 13) eqn:T2; [lia|]. destruct (nf_type q =? 11) eqn:T3; [lia|easy]. }
  split; [assumption|]. split; [assumption|]. split; [|now exists c]. destruct (L q Hq) as (_ & K & _). destruct (K T) as (ms & C & M & P).
  rewrite <- M in Hr. apply in_map_iff in Hr as (m & Em & Hm). injection Em as Em _.
  assert (Hmn : In m nfs) by now apply (chain_incl _ _ _ C). rewrite <- (P m Hm). f_equal.
  pose proof (byindex_in nfs m D Hmn) as B1. rewrite Em, (byindex_in nfs n D Hn) in B1. congruence.
Qed.
Lemma owner_none os nfs n : linked os nfs -> In n nfs -> owners os nfs n = [] -> nf_parent n = None /\ nf_child n = 0.
Proof.
  intros L Hn H. destruct (L n Hn) as (_ & _ & K). destruct K as (K1 & K2 & _); [|now split]. intros Q.
  apply in_flat_map in Q as (q & Hq & Q). apply in_map_iff in Q as ([i c] & Ei & Q). cbn [fst] in Ei.
  assert (X : In q (owners os nfs n)); [|now rewrite H in X]. unfold owners. apply filter_In. split; [assumption|]. apply existsb_exists. exists (i, c).
  split; [assumption|]. cbn [fst]. lia.
Qed.
Lemma owners_one os nfs n : NoDup (indices nfs) -> linked os nfs -> In n nfs ->
  (owners os nfs n = [] /\ at_index nfs (nf_parent n) = None) \/
  exists p, In p (owners os nfs n) /\ at_index nfs (nf_parent n) = Some p /\ forall q, In q (owners os nfs n) -> q = p.
Proof.
  intros D L Hn. destruct (owners os nfs n) as [|p l] eqn:E.
  - left. split; [reflexivity|]. destruct (owner_none os nfs n L Hn E) as [-> _]. reflexivity.
  - right. assert (P : forall q, In q (p :: l) -> at_index nfs (nf_parent n) = Some q).
    { intros q Hq. rewrite <- E in Hq. destruct (owner_parent os nfs n q D L Hn Hq) as (A & _ & B & _). rewrite B. cbn [at_index]. exact (byindex_in nfs q D A). }
    exists p. split; [now left|]. split; [apply P; now left|]. intros q Hq. apply P in Hq. rewrite (P p (or_introl eq_refl)) in Hq. congruence.
Qed.
Lemma rests_tagged os nfs v n : tagged os nfs -> In v nfs -> nf_type v = -1 -> 0 < nf_index n ->
  (nf_vlan_parent v =? nf_index n) = rests_on os nfs v n /\ (rests_on os nfs v n = true -> nf_vlan_id v = vid os v).
Proof.
  intros T Hv Ht Hn. specialize (T v Hv). unfold rests_on, vid. rewrite Ht in *. cbn in T. unfold vlan_of in T. cbn [Z.eqb Pos.eqb andb].
  destruct (no_vlan os (nf_name v)) as [dev|]; [|injection T as T1 T2; rewrite T2; split; [lia|discriminate]].
  destruct (find (name_is dev) nfs) as [b|]; [|injection T as T1 T2; rewrite T2; split; [lia|discriminate]].
  injection T as T1 T2. rewrite T2. now split.
Qed.
Lemma vlans_same os nfs opts n m p : NoDup (indices nfs) -> linked os nfs -> tagged os nfs -> vlans_apart os nfs -> numbered nfs ->
  Z.testbit opts 5 = false -> In n nfs -> nf_index m = nf_index n -> p = SpecAdv.up m (at_index nfs (nf_parent n)) ->
  vlans_of opts m p nfs = vlans_at os nfs n /\ forall v, In v (vlans_at os nfs n) -> nf_vlan_id v = vid os v.
Proof.
  intros D L T V N O Hn Hm Hp.
  assert (K : forall v, In v nfs -> visible opts v && (nf_type v =? -1) && ((nf_vlan_parent v =? nf_index m) || (nf_vlan_parent v =? nf_index p))
     = existsb (rests_on os nfs v) (n :: owners os nfs n)
     /\ (existsb (rests_on os nfs v) (n :: owners os nfs n) = true -> nf_vlan_id v = vid os v)).
  { intros v Hv. destruct (nf_type v =? -1) eqn:Ht.
    2:{ rewrite andb_false_r. assert (F : forall q, rests_on os nfs v q = false) by (intros q; unfold rests_on; now rewrite Ht).
        assert (G : forall l, existsb (rests_on os nfs v) l = false) by (induction l as [|x l IH]; [reflexivity|]; cbn [existsb]; now rewrite F, IH).
        rewrite G. now split. }
    assert (Tv : nf_type v = -1) by lia.
    assert (Vi : visible opts v = true).
    { unfold visible. rewrite O, Tv. cbn [Z.ltb Z.compare andb negb]. rewrite andb_true_r.
      assert (W : owners os nfs v = []).
      { destruct (owners os nfs v) as [|q l] eqn:E; [reflexivity|]. destruct (owner_parent os nfs v q D L Hv) as (A & _ & _ & c & B); [rewrite E; now left|].
        destruct (V v q Hv Tv A). apply in_map_iff. now exists (nf_index v, c). }
      destruct (owner_none os nfs v L Hv W) as [_ ->]. reflexivity. }
    rewrite Vi. cbn [andb existsb]. rewrite Hm. destruct (rests_tagged os nfs v n T Hv Tv (N n Hn)) as [R1 R2]. rewrite R1.
    destruct (owners_one os nfs n D L Hn) as [[E1 E2]|(q & E1 & E2 & E3)].
    - rewrite E1. cbn [existsb]. rewrite Hp, E2. cbn [SpecAdv.up]. rewrite Hm, R1. rewrite orb_diag, orb_false_r. split; [reflexivity|assumption].
    - rewrite Hp, E2. cbn [SpecAdv.up]. destruct (owner_parent os nfs n q D L Hn E1) as (A & _).
      destruct (rests_tagged os nfs v q T Hv Tv (N q A)) as [S1 S2]. rewrite S1.
      assert (X : existsb (rests_on os nfs v) (owners os nfs n) = rests_on os nfs v q).
      { destruct (rests_on os nfs v q) eqn:Q; [apply existsb_exists; exists q; now split|].
        destruct (existsb _ _) eqn:Y; [|reflexivity]. apply existsb_exists in Y as (x & Hx & Y). rewrite (E3 x Hx) in Y. congruence. }
      rewrite X. split; [reflexivity|]. intros Y. apply orb_true_iff in Y as [Y|Y]; [now apply R2|now apply S2]. }
  split.
  - unfold vlans_of, vlans_at. apply filter_ext_in. intros v Hv. now apply K.
  - intros v Hv. unfold vlans_at in Hv. apply filter_In in Hv as [Hv Q]. now apply K.
Qed.

(** ** The theorems *)
Lemma media_lacp os n : nf_lacp_index (netif_media os n) = nf_lacp_index n /\ nf_name (netif_media os n) = nf_name n
  /\ nf_bonding_mode (netif_media os n) = nf_bonding_mode n /\ nf_index (netif_media os n) = nf_index n /\ nf_ipaddr4 (netif_media os n) = nf_ipaddr4 n.
Proof.
  unfold netif_media. cbv zeta. destruct (negb _); [easy|]. destruct (no_ecmd os (nf_index n)) as [e|]; [|easy]. now destruct (has _ _).
Qed.
Section sent.
Variables (cfg : scfg) (os : nos) (index : Z) (timeout : bool) (now : Z) (st : sstate) (nfs : list netif) (si : sysinfo).
Hypothesis R : running cfg st.
Hypothesis O : os_ok os.
Hypothesis F : refresh cfg os st nfs si.
Hypothesis C : consistent os nfs.
Lemma lldp_vlans i f tlvs : vlans_apart os nfs -> numbered nfs -> opt cfg 5 = false ->
  In (SFrame i 0 f) (snd (child_send cfg os index timeout now st)) -> lldp_tlvs f tlvs ->
  exists n, In n nfs /\ nf_index n = i /\ vlan_names tlvs = map (vlan_entry os) (vlans_at os nfs n).
Proof.
  intros V N Op H T. destruct (sent_frame cfg os index timeout now st nfs si i 0 f R O F C H) as (D & _ & L & G & _ & n & c & Hn & Hi & _ & _ & Ii & If).
  exists n. split; [assumption|]. split; [assumption|]. unfold vlan_names. rewrite (ov_frame _ _ _ _ _ _ _ _ _ _ (or_introl eq_refl) Ii If T).
  rewrite (ov_content _ _ _ _ _ _ _ (or_introl eq_refl)). destruct (list_eq_dec _ _ _) as [_|X]; [|now destruct X].
  destruct (vlans_same os nfs (nc_opts (sc_net cfg)) n (netif_media os n) _ D L G V N Op Hn (proj1 (proj2 (proj2 (proj2 (media_lacp os n))))) eq_refl) as [E1 E2].
  rewrite E1. apply map_ext_in. intros v Hv. unfold vlan_entry. now rewrite (E2 v Hv).
Qed.
Lemma edp_vlans i f tlvs : vlans_apart os nfs -> numbered nfs -> opt cfg 5 = false ->
  In (SFrame i 2 f) (snd (child_send cfg os index timeout now st)) -> edp_tlvs f tlvs ->
  exists n, In n nfs /\ nf_index n = i
    /\ let a := nf_ipaddr4 (hd n (owners os nfs n)) in
       values 5 (map snd tlvs)
       = when (is_set a) [[128; 0; 0; 0; 0; 0; 0; 0] ++ a ++ nf_name n ++ [0]]
         ++ map (fun v => edp_entry os v (nf_name n)) (vlans_at os nfs n).
Proof.
  intros V N Op H T. destruct (sent_frame cfg os index timeout now st nfs si i 2 f R O F C H) as (D & _ & L & G & _ & n & c & Hn & Hi & _ & _ & Ii & If).
  exists n. split; [assumption|]. split; [assumption|]. cbv zeta. destruct (media_lacp os n) as (M1 & M2 & M3 & M4 & M5).
  rewrite (edp_frame_tlvs _ _ _ _ _ _ _ _ _ Ii If T). rewrite map_map. cbn [snd]. rewrite map_id. unfold edp_content. rewrite M2.
  set (q := SpecAdv.up (netif_media os n) (at_index nfs (nf_parent n))).
  destruct (vlans_same os nfs (nc_opts (sc_net cfg)) n (netif_media os n) q D L G V N Op Hn M4 eq_refl) as [E1 E2].
  assert (A : nf_ipaddr4 q = nf_ipaddr4 (hd n (owners os nfs n))).
  { subst q. destruct (owners_one os nfs n D L Hn) as [[Q1 Q2]|(p & Q1 & Q2 & Q3)]; rewrite Q2; cbn [SpecAdv.up]; [now rewrite Q1, M5|].
    destruct (owners os nfs n) as [|p' l]; [easy|]. cbn [hd]. now rewrite (Q3 p' (or_introl eq_refl)). }
  rewrite !values_app, values_when, A, E1.
  match goal with |- values 5 [(1, ?x); (2, ?y)] ++ _ = _ => change (values 5 [(1, x); (2, y)]) with (@nil (list Z)) end. cbn [app].
  change (values 5 [(0, [])]) with (@nil (list Z)). rewrite app_nil_r. f_equal.
  assert (W : forall l, (forall v, In v l -> nf_vlan_id v = vid os v) ->
    values 5 (map (fun v => (5, [if is_set (nf_ipaddr4 v) then 128 else 0; 0] ++ U16 (nf_vlan_id v) ++ repeat 0 4 ++ nf_ipaddr4 v ++ nf_name n)) l)
    = map (fun v => edp_entry os v (nf_name n)) l).
  { induction l as [|v l IH]; intros X; [reflexivity|]. cbn [map]. change (?x :: ?y) with ([x] ++ y) at 1. rewrite values_app, IH by (intros w Hw; apply X; now right).
    change (?x :: ?y) with ([x] ++ y). f_equal. unfold edp_entry. rewrite <- (X v (or_introl eq_refl)). reflexivity. }
  now apply W.
Qed.
Lemma lldp_lacp i f tlvs :
  In (SFrame i 0 f) (snd (child_send cfg os index timeout now st)) -> lldp_tlvs f tlvs ->
  exists n, In n nfs /\ nf_index n = i
    /\ (forall p, In p (owners os nfs n) -> nf_type p = 12 -> mode_of os p = 1 ->
         exists s, slave_number os p n s /\ aggregation tlvs = [3 :: U32 (s mod 256)])
    /\ ((forall p, In p (owners os nfs n) -> mode_of os p <> 1) -> aggregation tlvs = []).
Proof.
  intros H T. destruct (sent_frame cfg os index timeout now st nfs si i 0 f R O F C H) as (D & _ & L & G & S & n & c & Hn & Hi & _ & Ty & Ii & If).
  exists n. split; [assumption|]. split; [assumption|]. destruct (media_lacp os n) as (M1 & M2 & M3 & M4 & M5).
  assert (E : aggregation tlvs = if nf_bonding_mode (SpecAdv.up (netif_media os n) (at_index nfs (nf_parent n))) =? 1 then [[3] ++ U32 (nf_lacp_index n)] else []).
  { unfold aggregation. rewrite (ov_frame _ _ _ _ _ _ _ _ _ _ (or_intror (or_introl eq_refl)) Ii If T).
    rewrite (ov_content _ _ _ _ _ _ _ (or_intror (or_introl eq_refl))). destruct (list_eq_dec _ _ _) as [X|_]; [discriminate|]. now rewrite M1. }
  rewrite E. destruct (owners_one os nfs n D L Hn) as [[Q1 Q2]|(p & Q1 & Q2 & Q3)].
  - rewrite Q1, Q2. cbn [SpecAdv.up]. rewrite M3, (proj1 (L n Hn)). split; [easy|]. intros _.
    assert (Z0 : mode_of os n = 0); [|now rewrite Z0]. unfold mode_of. replace (nf_type n =? 12) with false by lia. now replace (nf_type n =? 11) with false by lia.
  - rewrite Q2. cbn [SpecAdv.up]. destruct (owner_parent os nfs n p D L Hn Q1) as (P1 & P2 & P3 & _). rewrite (proj1 (L p P1)). split.
    + intros q Hq Tq Mq. rewrite (Q3 q Hq) in *. rewrite Mq. cbn [Z.eqb Pos.eqb app].
      destruct (S n Hn (nf_index p) p P3 (byindex_in nfs p D P1) Tq) as (s & S1 & S2). exists s. split; [assumption|]. now rewrite S2.
    + intros Nq. specialize (Nq p Q1). now replace (mode_of os p =? 1) with false by lia.
Qed.
End sent.
