(** Capabilities, counters and the management interface after netif_fetch; the
    statements about a refresh. *)
From Verif Require Import Base Types Tlv Util Netif Spec SpecAdv SpecNetif SpecSend SpecNetif2.
From Verif Require Import Lemmas VisProofs VisProps ChildProofs ChildProofs4 NetifProofs1 NetifProofs2 NetifProofs3
  NetifProofs5 NetifProofs6 NetifProofs7 NetifProofs8.

(** ** The detection loop on the system information *)
Definition cnt (os : nos) (ia : ifaddr) (si : sysinfo) : sysinfo :=
  match ia_addr ia with
  | Some (SALink h i _) => if h =? 1 then count_type (netif_type os i (ia_name ia)) (up os (ia_name ia)) si else si
  | _ => si
  end.
Definition pick (cfg : ncfg) (os : nos) (ia : ifaddr) (m : option Z) : option Z :=
  match entry_of os ia, nc_mifname cfg with
  | Some i, Some x => if beq (firstn 15 (ia_name ia)) x then Some i else m
  | _, _ => m
  end.
Definition capsof (s : sysinfo) := (si_cap s, si_cap_active s, si_physif_count s).
Lemma count_type_mnetif ty u si : si_mnetif (count_type ty u si) = si_mnetif si.
Proof. unfold count_type. now repeat destruct (_ =? _). Qed.
Lemma fetch_one_si cfg os nfs si c ia nfs' si' c' : fetch_one cfg os (nfs, si, c) ia = (nfs', si', c') ->
  capsof si' = capsof (cnt os ia si) /\ si_mnetif si' = pick cfg os ia (si_mnetif si)
  /\ si_hwaddr si' = si_hwaddr si
  /\ c' = c + match entry_of os ia with Some _ => 1 | None => 0 end.
Proof.
  assert (HW : forall ty u, si_hwaddr (count_type ty u si) = si_hwaddr si) by (intros; unfold count_type; now repeat destruct (_ =? _)).
  unfold fetch_one, cnt, pick, entry_of. unfold ARPHRD_ETHER.
  destruct (ia_addr ia) as [[h i a| | |]|]; try (intros H; injection H as <- <- <-; repeat split; lia).
  destruct (h =? 1); cbn [negb andb]; [|intros H; injection H as <- <- <-; repeat split; lia].
  fold (up os (ia_name ia)). destruct (netif_type os i (ia_name ia) =? NETIF_INVALID); cbn [negb andb].
  { intros H; injection H as <- <- <-. rewrite count_type_mnetif, HW. repeat split; lia. }
  destruct (up os (ia_name ia)) eqn:U; cbn [negb].
  - intros H. injection H as _ <- <-. destruct (nc_mifname cfg) as [x|].
    + destruct (beq _ _).
      * cbn [si_mnetif si_hwaddr set_mnetif]. rewrite HW. repeat split.
      * rewrite count_type_mnetif, HW. repeat split.
    + rewrite count_type_mnetif, HW. repeat split.
  - intros H. injection H as <- <- <-. rewrite count_type_mnetif, HW. repeat split; lia.
Qed.
Definition cstep (os : nos) (t : Z * Z * Z) (ia : ifaddr) : Z * Z * Z :=
  let '(c, a, p) := t in
  match ia_addr ia with
  | Some (SALink h i _) =>
      if h =? 1 then
        let ty := netif_type os i (ia_name ia) in
        if ty =? 0 then (c, a, (p + 1) mod 65536)
        else if ty =? 1 then (Z.lor c 32, Z.lor a (if up os (ia_name ia) then 32 else 0), p)
        else if ty =? 13 then (Z.lor c 2, Z.lor a (if up os (ia_name ia) then 2 else 0), p)
        else t
      else t
  | _ => t
  end.
Lemma cnt_cstep os ia s : capsof (cnt os ia s) = cstep os (capsof s) ia.
Proof.
  unfold cnt, cstep, capsof. destruct (ia_addr ia) as [[h i a| | |]|]; try reflexivity. destruct (h =? 1); [|reflexivity].
  unfold count_type, NETIF_REGULAR, NETIF_WIRELESS, NETIF_BRIDGE. repeat (destruct (_ =? _); [reflexivity|]). reflexivity.
Qed.
Lemma fetch_fold_si cfg os : forall ias nfs si c nfs' si' c',
  fold_left (fetch_one cfg os) ias (nfs, si, c) = (nfs', si', c') ->
  capsof si' = fold_left (cstep os) ias (capsof si)
  /\ si_mnetif si' = fold_left (fun m ia => pick cfg os ia m) ias (si_mnetif si)
  /\ si_hwaddr si' = si_hwaddr si
  /\ c' = c + zlen (filter (fun ia => match entry_of os ia with Some _ => true | None => false end) ias).
Proof.
  induction ias as [|ia ias IH]; intros nfs si c nfs' si' c'; cbn [fold_left filter].
  - intros H. injection H as <- <- <-. rewrite zlen_nil. repeat split; lia.
  - destruct (fetch_one cfg os (nfs, si, c) ia) as [[n1 s1] c1] eqn:E. intros H.
    apply fetch_one_si in E as (E1 & E2 & E3 & E4). apply IH in H as (H1 & H2 & H3 & H4).
    rewrite E1, cnt_cstep in H1. rewrite E2 in H2. rewrite E3 in H3. split; [exact H1|]. split; [exact H2|]. split; [exact H3|].
    destruct (entry_of os ia); rewrite ?zlen_cons; lia.
Qed.
(** The bits. *)
Definition is_ty (os : nos) (ty : Z) (ia : ifaddr) : bool :=
  match ia_addr ia with Some (SALink h i _) => (h =? 1) && (netif_type os i (ia_name ia) =? ty) | _ => false end.
Definition is_up (os : nos) (ia : ifaddr) : bool := up os (ia_name ia).
Lemma bit_lor c k b : 0 <= k -> 0 <= b -> Z.testbit (Z.lor c (2 ^ k)) b = Z.testbit c b || (b =? k).
Proof.
  intros Hk Hb. rewrite Z.lor_spec. f_equal. rewrite Z.pow2_bits_eqb by assumption. apply Z.eqb_sym.
Qed.
Lemma cstep_cases os t ia : cstep os t ia =
  let '(c, a, p) := t in
  (if is_ty os 1 ia then Z.lor c (2 ^ 5) else if is_ty os 13 ia then Z.lor c (2 ^ 1) else c,
   if is_ty os 1 ia && is_up os ia then Z.lor a (2 ^ 5) else if is_ty os 13 ia && is_up os ia then Z.lor a (2 ^ 1) else a,
   if is_ty os 0 ia then (p + 1) mod 65536 else p).
Proof.
  destruct t as [[c a] p]. unfold cstep, is_ty, is_up. destruct (ia_addr ia) as [[h i w| | |]|]; try reflexivity.
  destruct (h =? 1); [|reflexivity]. cbn [andb]. generalize (netif_type os i (ia_name ia)) as ty. intros ty.
  change (2 ^ 5) with 32. change (2 ^ 1) with 2.
  destruct (ty =? 0) eqn:E0.
  { replace (ty =? 1) with false by lia. replace (ty =? 13) with false by lia. reflexivity. }
  destruct (ty =? 1) eqn:E1.
  { cbn [andb]. destruct (up os (ia_name ia)); [reflexivity|]. rewrite Z.lor_0_r. replace (ty =? 13) with false by lia. reflexivity. }
  destruct (ty =? 13); [|reflexivity]. cbn [andb]. destruct (up os (ia_name ia)); [reflexivity|]. now rewrite Z.lor_0_r.
Qed.
Lemma cstep_fold os : forall ias c a p, 0 <= p < 65536 ->
  let '(c', a', p') := fold_left (cstep os) ias (c, a, p) in
  (forall b, 0 <= b -> Z.testbit c' b = Z.testbit c b || ((b =? 5) && existsb (is_ty os 1) ias) || ((b =? 1) && existsb (is_ty os 13) ias))
  /\ (forall b, 0 <= b -> Z.testbit a' b = Z.testbit a b
       || ((b =? 5) && existsb (fun ia => is_ty os 1 ia && is_up os ia) ias) || ((b =? 1) && existsb (fun ia => is_ty os 13 ia && is_up os ia) ias))
  /\ p' = (p + zlen (filter (is_ty os 0) ias)) mod 65536.
Proof.
  induction ias as [|ia ias IH]; intros c a p Hp; cbn [fold_left existsb filter].
  - split; [|split].
    + intros b _. now rewrite !andb_false_r, !orb_false_r.
    + intros b _. now rewrite !andb_false_r, !orb_false_r.
    + rewrite zlen_nil, Z.add_0_r. now rewrite Z.mod_small.
  - rewrite cstep_cases. cbv beta iota zeta.
    set (c1 := if is_ty os 1 ia then _ else _). set (a1 := if is_ty os 1 ia && is_up os ia then _ else _).
    set (p1 := if is_ty os 0 ia then _ else _).
    assert (P1 : 0 <= p1 < 65536) by (unfold p1; destruct (is_ty os 0 ia); [apply Z.mod_pos_bound; lia|assumption]).
    specialize (IH c1 a1 p1 P1). destruct (fold_left (cstep os) ias (c1, a1, p1)) as [[c' a'] p']. destruct IH as (I1 & I2 & I3).
    assert (X : is_ty os 1 ia && is_ty os 13 ia = false).
    { unfold is_ty. destruct (ia_addr ia) as [[h i w| | |]|]; try reflexivity. generalize (netif_type os i (ia_name ia)). intros ty.
      destruct (h =? 1), (ty =? 1) eqn:?, (ty =? 13) eqn:?; try reflexivity. lia. }
    split; [|split].
    + intros b Hb. rewrite (I1 b Hb). unfold c1. clear -X Hb.
      destruct (is_ty os 1 ia); [|destruct (is_ty os 13 ia)]; rewrite ?bit_lor by lia.
      * cbn [andb] in X. rewrite X. destruct (Z.testbit c b), (b =? 5), (b =? 1), (existsb _ ias), (existsb _ ias); reflexivity.
      * destruct (Z.testbit c b), (b =? 5), (b =? 1), (existsb _ ias), (existsb _ ias); reflexivity.
      * destruct (Z.testbit c b), (b =? 5), (b =? 1), (existsb _ ias), (existsb _ ias); reflexivity.
    + intros b Hb. rewrite (I2 b Hb). unfold a1. clear -X Hb.
      destruct (is_ty os 1 ia), (is_ty os 13 ia), (is_up os ia); try discriminate X; cbn [andb]; rewrite ?bit_lor by lia;
        destruct (Z.testbit a b), (b =? 5), (b =? 1), (existsb _ ias), (existsb _ ias); reflexivity.
    + rewrite I3. unfold p1. destruct (is_ty os 0 ia); [|reflexivity]. rewrite zlen_cons, Zplus_mod_idemp_l. f_equal. lia.
Qed.
Lemma is_ty_kind os ty ia : ty <> NETIF_INVALID ->
  (is_ty os ty ia = true <-> exists i a, ia_addr ia = Some (SALink 1 i a) /\ kind os i (ia_name ia) ty).
Proof.
  intros Hn. unfold is_ty. split.
  - destruct (ia_addr ia) as [[h i w| | |]|]; try discriminate. rewrite andb_true_iff. intros [H1 H2]. exists i, w.
    split; [do 2 f_equal; lia|]. assert (E : netif_type os i (ia_name ia) = ty) by lia. rewrite <- E. apply netif_type_kind. congruence.
  - intros (i & a & -> & K). apply kind_netif_type in K as [K _]. rewrite K. cbn. apply Z.eqb_refl.
Qed.
Lemma up_bit os ia : is_up os ia = true <-> exists f, no_flags os (firstn 15 (ia_name ia)) = Some f /\ Z.testbit f 0 = true.
Proof.
  unfold is_up, up. destruct (no_flags os (firstn 15 (ia_name ia))) as [f|].
  - unfold IFF_UP. change 1 with (2 ^ 0). rewrite has_bit by lia. split; [intros H; now exists f|]. intros (g & E & H). congruence.
  - split; [discriminate|]. intros (g & E & H). discriminate.
Qed.
Lemma is_ty_reported os ty ias : no_ifaddrs os = Some ias -> ty <> NETIF_INVALID ->
  (existsb (is_ty os ty) ias = true <-> reported_kind os ty).
Proof.
  intros E Hn. rewrite existsb_exists. split.
  - intros (ia & H1 & H2). apply is_ty_kind in H2 as (i & a & H2 & H3); [|assumption]. exists ias, (ia_name ia), i, a.
    split; [assumption|]. split; [|assumption]. destruct ia as [x y]. cbn in *. now rewrite <- H2.
  - intros (ias' & name & i & a & H1 & H2 & H3). rewrite E in H1. injection H1 as <-. eexists. split; [exact H2|].
    apply is_ty_kind; [assumption|]. now exists i, a.
Qed.
Lemma is_ty_usable os ty ias : no_ifaddrs os = Some ias -> ty <> NETIF_INVALID ->
  (existsb (fun ia => is_ty os ty ia && is_up os ia) ias = true <-> usable_kind os ty).
Proof.
  intros E Hn. rewrite existsb_exists. split.
  - intros (ia & H1 & H2). apply andb_true_iff in H2 as [H2 H4]. apply up_bit in H4. apply is_ty_kind in H2 as (i & a & H2 & H3); [|assumption].
    exists i, (ia_name ia). split; [|now split]. exists ias, a. split; [assumption|]. destruct ia as [x y]. cbn in *. now rewrite <- H2.
  - intros (i & name & (ias' & a & H1 & H2) & H3 & H4). rewrite E in H1. injection H1 as <-. eexists. split; [exact H2|].
    apply andb_true_iff. split; [apply is_ty_kind; [assumption|]; now exists i, a|]. now apply up_bit.
Qed.
Lemma number_filter {A} (P : A -> Prop) f : (forall x, P x <-> f x = true) -> forall l, number P l (zlen (filter f l)).
Proof.
  intros H. induction l as [|x l IH]; cbn [filter]; [constructor|]. destruct (f x) eqn:E.
  - rewrite zlen_cons. rewrite Z.add_comm. constructor; [now apply H|assumption].
  - constructor; [|assumption]. intros K. apply H in K. congruence.
Qed.
Lemma entry_up os ia : up_entry os ia <-> (match entry_of os ia with Some _ => true | None => false end) = true.
Proof.
  unfold up_entry, entry_of. split.
  - intros (i & a & ty & E & K & F). rewrite E. cbn. apply kind_netif_type in K as [K1 K2]. rewrite K1.
    replace (ty =? NETIF_INVALID) with false by lia. cbn. apply up_bit in F. unfold is_up in F. now rewrite F.
  - destruct (ia_addr ia) as [[h i a| | |]|]; try discriminate. unfold ARPHRD_ETHER.
    destruct (h =? 1) eqn:H1; cbn [andb]; [|discriminate].
    destruct (netif_type os i (ia_name ia) =? NETIF_INVALID) eqn:H2; cbn [negb andb]; [discriminate|].
    destruct (up os (ia_name ia)) eqn:H3; [|discriminate]. intros _. exists i, a, (netif_type os i (ia_name ia)).
    split; [do 2 f_equal; lia|]. split; [apply netif_type_kind; lia|]. now apply up_bit.
Qed.

(** ** The later phases on the system information *)
Definition rest (s : sysinfo) := set_mnetif None s.
Lemma addr_one_rest cfg nfs si ia : rest (snd (addr_one cfg (nfs, si) ia)) = rest si.
Proof.
  unfold addr_one. destruct (ia_addr ia) as [sa|]; [|reflexivity]. destruct (netif_byname nfs (ia_name ia)) as [n|]; [|reflexivity].
  destruct sa as [h i a|a|a|]; try reflexivity.
  - destruct (addr_set _); [reflexivity|]. destruct (si_mnetif si); [reflexivity|]. now destruct (_ && _).
  - destruct (addr_set _); [reflexivity|]. destruct (linklocal a); [reflexivity|]. destruct (si_mnetif si); [reflexivity|]. now destruct (_ && _).
Qed.
Lemma addr_fold_rest cfg : forall ias nfs si, rest (snd (fold_left (addr_one cfg) ias (nfs, si))) = rest si.
Proof.
  induction ias as [|ia ias IH]; intros nfs si; cbn [fold_left]; [reflexivity|].
  pose proof (addr_one_rest cfg nfs si ia) as H. destruct (addr_one cfg (nfs, si) ia) as [a b]. now rewrite IH.
Qed.
Lemma addrs_rest cfg ias nfs si nfs' si' : netif_addrs cfg ias nfs si = (nfs', si') ->
  rest si' = rest si /\ si_mnetif si' = si_mnetif (snd (fold_left (addr_one cfg) ias (nfs, si))).
Proof.
  unfold netif_addrs. pose proof (addr_fold_rest cfg ias nfs si) as H. destruct (fold_left _ _ _) as [a b]. cbn [snd] in *.
  intros K. assert (si' = b); [|subst; now split]. destruct (negb _); [now injection K|]. destruct (si_mnetif b); [|now injection K].
  destruct (netif_byindex a z); now injection K.
Qed.
Lemma rest_caps a b : rest a = rest b -> capsof a = capsof b /\ si_hwaddr a = si_hwaddr b.
Proof. intros H. split; [exact (f_equal capsof H)|exact (f_equal si_hwaddr H)]. Qed.

(** ** Capabilities *)
Lemma land12 c b : 0 <= b -> Z.testbit (Z.land c 12) b = Z.testbit c b && ((b =? 2) || (b =? 3)).
Proof.
  intros Hb. rewrite Z.land_spec. f_equal. change 12 with (Z.lor (2 ^ 2) (2 ^ 3)). rewrite bit_lor by lia.
  rewrite Z.pow2_bits_eqb by lia. now rewrite (Z.eqb_sym 2).
Qed.
Lemma caps_from (c c' : Z) (xb xw : bool) (B W : Prop) : (xb = true <-> B) -> (xw = true <-> W) ->
  (forall b, 0 <= b -> Z.testbit c' b = Z.testbit (Z.land c 12) b || ((b =? 5) && xw) || ((b =? 1) && xb)) -> caps_are B W c c'.
Proof.
  intros HB HW H b Hb. rewrite (H b Hb), land12 by assumption.
  destruct (b =? 1) eqn:E1.
  { replace (b =? 2) with false by lia. replace (b =? 3) with false by lia. replace (b =? 5) with false by lia.
    cbn [orb andb]. rewrite andb_false_r. cbn [orb]. assumption. }
  destruct (b =? 5) eqn:E5.
  { replace (b =? 2) with false by lia. replace (b =? 3) with false by lia.
    cbn [orb andb]. rewrite andb_false_r, orb_false_r. cbn [orb]. assumption. }
  cbn [andb]. rewrite !orb_false_r. destruct ((b =? 2) || (b =? 3)); [now rewrite andb_true_r|now rewrite andb_false_r].
Qed.
Lemma fetch_caps cfg os nfs si ret nfs' si' gone ias : no_ifaddrs os = Some ias -> NoDup (indices nfs) ->
  netif_fetch cfg os nfs si = (ret, nfs', si', gone) ->
  caps_are (reported_kind os 13) (reported_kind os 1) (si_cap si) (si_cap si')
  /\ caps_are (usable_kind os 13) (usable_kind os 1) (si_cap_active si) (si_cap_active si')
  /\ exists k, number (regular_entry os) ias k /\ si_physif_count si' = k mod 65536.
Proof.
  intros E Hd H. destruct (fetch_full _ _ _ _ _ _ _ _ _ E Hd H) as (nfs1 & si1 & count & nfs2 & si2 & nfs3 & nfs4 & si4 & F & R & _ & _ & _ & A & S & _).
  apply fetch_fold_si in F as (F1 & _ & _ & _). apply addrs_rest in A as [A _]. apply rest_caps in A as [A _].
  assert (C : capsof si' = capsof si1).
  { rewrite S. transitivity (capsof si4); [now destruct nfs4|]. rewrite A. unfold remove_old in R. injection R as _ <- _.
    destruct (si_mnetif si1); [|reflexivity]. now destruct (existsb _ _). }
  rewrite F1 in C. unfold capsof at 2 in C. cbn [si_cap si_cap_active si_physif_count set_caps] in C.
  pose proof (cstep_fold os ias (Z.land (si_cap si) 12) (Z.land (si_cap_active si) 12) 0 ltac:(lia)) as G.
  destruct (fold_left (cstep os) ias _) as [[c a] p]. unfold capsof in C. injection C as -> -> ->. destruct G as (G1 & G2 & G3).
  split; [|split].
  - eapply caps_from; [| |exact G1]; now apply is_ty_reported.
  - eapply caps_from; [| |exact G2]; now apply is_ty_usable.
  - eexists. split; [|exact G3]. apply number_filter. intros ia. symmetry. now apply is_ty_kind.
Qed.

(** ** The management interface *)
Lemma pick_fold cfg os : forall ias m,
  (exists ia i, In ia ias /\ entry_of os ia = Some i /\ nc_mifname cfg = Some (firstn 15 (ia_name ia))
     /\ fold_left (fun m ia => pick cfg os ia m) ias m = Some i)
  \/ ((forall ia i, In ia ias -> entry_of os ia = Some i -> nc_mifname cfg <> Some (firstn 15 (ia_name ia)))
      /\ fold_left (fun m ia => pick cfg os ia m) ias m = m).
Proof.
  induction ias as [|ia ias IH]; intros m; cbn [fold_left].
  - right. split; [intros ? ? []|reflexivity].
  - destruct (IH (pick cfg os ia m)) as [(x & i & H1 & H2 & H3 & H4)|[H1 H2]].
    + left. exists x, i. split; [now right|]. now repeat split.
    + rewrite H2. unfold pick. destruct (entry_of os ia) as [i|] eqn:E.
      * destruct (nc_mifname cfg) as [x|] eqn:M.
        { destruct (beq _ x) eqn:B.
          - apply beq_true in B. left. exists ia, i. split; [now left|]. split; [assumption|]. split; [congruence|reflexivity].
          - apply beq_false in B. right. split; [|reflexivity]. intros y j [<-|Hy] Ey; [congruence|now apply (H1 y j)]. }
        right. split; [|reflexivity]. intros; discriminate.
      * right. split; [|reflexivity]. intros y j [<-|Hy] Ey; [congruence|now apply (H1 y j)].
Qed.
Definition hit (cfg : ncfg) (n : netif) : Prop :=
  (addr_set (nc_maddr4 cfg) = true /\ nf_ipaddr4 n = nc_maddr4 cfg) \/ (addr_set (nc_maddr6 cfg) = true /\ nf_ipaddr6 n = nc_maddr6 cfg).
Lemma upd_hit cfg n ia : hit cfg n -> hit cfg (upd n ia).
Proof.
  intros [[H1 H2]|[H1 H2]]; unfold upd; destruct (negb _); try (now left); try (now right).
  - left. split; [assumption|]. destruct (ia_addr ia) as [[?|a|a|]|]; try assumption.
    + rewrite H2, H1. assumption.
    + destruct (addr_set (nf_ipaddr6 n)); [assumption|]. now destruct (linklocal a).
  - right. split; [assumption|]. destruct (ia_addr ia) as [[?|a|a|]|]; try assumption.
    + now destruct (addr_set (nf_ipaddr4 n)).
    + rewrite H2, H1. assumption.
Qed.
Lemma addr_one_pick cfg nfs si ia : NoDup (indices nfs) -> NoDup (names nfs) ->
  (forall m, si_mnetif si = Some m -> si_mnetif (snd (addr_one cfg (nfs, si) ia)) = Some m)
  /\ (si_mnetif si = None -> (forall n, In n nfs -> ~ hit cfg n) ->
      match si_mnetif (snd (addr_one cfg (nfs, si) ia)) with
      | Some m => exists n, In n nfs /\ nf_index n = m /\ hit cfg (upd n ia)
      | None => forall n, In n nfs -> ~ hit cfg (upd n ia)
      end).
Proof.
  intros D1 D2. unfold addr_one. destruct (ia_addr ia) as [sa|] eqn:A.
  2:{ split; [easy|]. intros S H. cbn [snd]. rewrite S. intros n Hn. unfold upd. rewrite A. destruct (negb _); now apply H. }
  destruct (netif_byname nfs (ia_name ia)) as [n|] eqn:B.
  2:{ split; [easy|]. intros S H. cbn [snd]. rewrite S. intros n Hn. unfold upd. rewrite (byname_none _ _ _ B Hn). now apply H. }
  assert (U : forall m, In m nfs -> beq (nf_name m) (ia_name ia) = true -> m = n).
  { intros m Hm E. apply byname_in in B as [B1 B2]. apply beq_true in E. apply (nodup_same nf_name nfs); auto. congruence. }
  pose proof (byname_in _ _ _ B) as [B1 B2].
  assert (BB : beq (nf_name n) (ia_name ia) = true) by (rewrite B2; apply beq_refl).
  destruct sa as [h i hw|a|a|].
  - split; [easy|]. intros S H. cbn [snd]. rewrite S. intros m Hm. unfold upd. rewrite A. destruct (negb _); [now apply H|]. apply H in Hm. exact Hm.
  - destruct (addr_set (nf_ipaddr4 n)) eqn:S4.
    + split; [easy|]. intros S H. cbn [snd]. rewrite S. intros m Hm. unfold upd. rewrite A.
      destruct (beq (nf_name m) (ia_name ia)) eqn:E; cbn [negb]; [|now apply H]. rewrite (U m Hm E), S4. now apply H.
    + split; [intros m S; rewrite S; exact S|]. intros S H. rewrite S.
      destruct (addr_set (nc_maddr4 cfg) && beq (nc_maddr4 cfg) a) eqn:Q; cbn [snd].
      * apply andb_true_iff in Q as [Q1 Q2]. apply beq_true in Q2. cbn. exists n. split; [assumption|]. split; [reflexivity|].
        left. split; [assumption|]. unfold upd. rewrite BB, A, S4. cbn. congruence.
      * rewrite S. intros m Hm. unfold upd. rewrite A. destruct (beq (nf_name m) (ia_name ia)) eqn:E; cbn [negb]; [|now apply H].
        rewrite (U m Hm E), S4. intros [[H1 H2]|[H1 H2]].
        { cbn in H2. rewrite H1, H2, beq_refl in Q. discriminate. }
        apply (H n B1). now right.
  - destruct (addr_set (nf_ipaddr6 n)) eqn:S6.
    + split; [easy|]. intros S H. cbn [snd]. rewrite S. intros m Hm. unfold upd. rewrite A.
      destruct (beq (nf_name m) (ia_name ia)) eqn:E; cbn [negb]; [|now apply H]. rewrite (U m Hm E), S6. now apply H.
    + destruct (linklocal a) eqn:L.
      { split; [easy|]. intros S H. cbn [snd]. rewrite S. intros m Hm. unfold upd. rewrite A, L. destruct (negb _); [now apply H|].
        destruct (addr_set (nf_ipaddr6 m)); now apply H. }
      split; [intros m S; rewrite S; exact S|]. intros S H. rewrite S.
      destruct (addr_set (nc_maddr6 cfg) && beq (nc_maddr6 cfg) a) eqn:Q; cbn [snd].
      * apply andb_true_iff in Q as [Q1 Q2]. apply beq_true in Q2. cbn. exists n. split; [assumption|]. split; [reflexivity|].
        right. split; [assumption|]. unfold upd. rewrite BB, A, S6, L. cbn. congruence.
      * rewrite S. intros m Hm. unfold upd. rewrite A. destruct (beq (nf_name m) (ia_name ia)) eqn:E; cbn [negb]; [|now apply H].
        rewrite (U m Hm E), S6, L. intros [[H1 H2]|[H1 H2]].
        { apply (H n B1). now left. }
        cbn in H2. rewrite H1, H2, beq_refl in Q. discriminate.
  - split; [easy|]. intros S H. cbn [snd]. rewrite S. intros m Hm. unfold upd. rewrite A. destruct (negb _); now apply H.
Qed.
Lemma addr_fold_pick cfg : forall ias nfs si, NoDup (indices nfs) -> NoDup (names nfs) ->
  let s := snd (fold_left (addr_one cfg) ias (nfs, si)) in
  (forall m, si_mnetif si = Some m -> si_mnetif s = Some m)
  /\ (si_mnetif si = None -> (forall n, In n nfs -> ~ hit cfg n) ->
      match si_mnetif s with
      | Some m => exists n, In n nfs /\ nf_index n = m /\ hit cfg (fold_left upd ias n)
      | None => forall n, In n nfs -> ~ hit cfg (fold_left upd ias n)
      end).
Proof.
  induction ias as [|ia ias IH]; intros nfs si D1 D2; cbn [fold_left].
  - split; [easy|]. intros S H. cbn [snd]. now rewrite S.
  - destruct (addr_one_pick cfg nfs si ia D1 D2) as [P1 P2]. pose proof (addr_one_map cfg nfs si ia D1 D2) as M.
    destruct (addr_one cfg (nfs, si) ia) as [n1 s1]. cbn [fst snd] in *. subst n1.
    assert (E1 : NoDup (indices (map (fun n => upd n ia) nfs))) by now rewrite upd_indices.
    assert (E2 : NoDup (names (map (fun n => upd n ia) nfs))) by now rewrite upd_names.
    destruct (IH _ s1 E1 E2) as [Q1 Q2]. split; [intros m Hm; apply Q1, P1, Hm|].
    intros S H. specialize (P2 S H). destruct (si_mnetif s1) as [m|] eqn:S1.
    + rewrite (Q1 m eq_refl). destruct P2 as (n & N1 & N2 & N3). exists n. split; [assumption|]. split; [assumption|].
      clear -N3. revert N3. generalize (upd n ia). induction ias as [|x l IH]; intros k H; cbn [fold_left]; [assumption|]. apply IH. now apply upd_hit.
    + assert (H' : forall n, In n (map (fun n => upd n ia) nfs) -> ~ hit cfg n) by (intros n Hn; apply in_map_iff in Hn as (k & <- & Hk); now apply P2).
      specialize (Q2 eq_refl H'). clear Q1. cbv zeta in Q2 |- *.
      destruct (si_mnetif (snd (fold_left (addr_one cfg) ias (map (fun n => upd n ia) nfs, s1)))) as [m|].
      * destruct Q2 as (n & N1 & N2 & N3). apply in_map_iff in N1 as (k & <- & Hk). exists k. split; [assumption|]. rewrite upd_index in N2. now split.
      * intros n Hn. apply Q2. now apply (in_map (fun n => upd n ia)) in Hn.
Qed.

(** ** Everything about one refresh *)
Lemma os_sizes os ias : os_ok os -> no_ifaddrs os = Some ias -> Forall ia_sizes ias.
Proof.
  intros (H & _) E. specialize (H ias E). eapply Forall_impl; [|exact H]. intros ia (_ & _ & K). unfold ia_sizes.
  destruct (ia_addr ia) as [[h i a|a|a|]|]; try exact I; [exact (proj2 K)|exact K].
Qed.
Theorem refresh_rest cfg oss os nfs nfs1 si ret nfs' si' gone ias :
  refreshed cfg oss nfs si -> indices nfs1 = indices nfs -> no_ifaddrs os = Some ias -> os_ok os -> names_apart ias ->
  netif_fetch cfg os nfs1 si = (ret, nfs', si', gone) ->
  addressed cfg ias nfs' si'
  /\ si_hwaddr si' = match nfs' with n :: _ => main_hw ias (nf_name n) | [] => si_hwaddr si end
  /\ marked cfg nfs'
  /\ (nc_ifl cfg <> [] -> all_found cfg nfs' -> ret = zlen (nc_ifl cfg) mod 65536)
  /\ (nc_ifl cfg <> [] -> ~ all_found cfg nfs' -> ret = 0)
  /\ (nc_ifl cfg = [] -> exists k, number (up_entry os) ias k /\ ret = k mod 65536)
  /\ (forall n, In n nfs' -> nc_mifname cfg = Some (nf_name n) -> si_mnetif si' = Some (nf_index n))
  /\ (forall m, si_mnetif si' = Some m -> si_mnetif si = Some m \/ exists n, In n nfs' /\ nf_index n = m /\ wanted cfg ias n)
  /\ ((forall m, si_mnetif si = Some m -> ~ In m (indices nfs')) -> forall n, In n nfs' -> wanted cfg ias n -> si_mnetif si' <> None).
Proof.
  intros HR Hi E Hos Hna H. destruct (refreshed_inv _ _ _ _ HR) as [D M].
  assert (D1 : NoDup (indices nfs1)) by now rewrite Hi. assert (M1 : mgmt_in si nfs1) by (intros m Em; rewrite Hi; now apply M).
  clear HR D M Hi.
  pose proof (fetch_mgmt _ _ _ _ _ _ _ _ _ E D1 H M1) as MG.
  destruct (fetch_full _ _ _ _ _ _ _ _ _ E D1 H) as (tb1 & si1 & count & tb2 & si2 & tb3 & tb4 & si4 & F & R & P2 & C3 & A3 & A & S & V).
  pose proof (phase1_fold cfg os nfs1 D1 ias [] _ _ _ _ _ _ (phase1_start os nfs1 D1) F) as P1. cbn [app] in P1.
  assert (HM0 : mgmt_in (set_caps (Z.land (si_cap si) 12) (Z.land (si_cap_active si) 12) 0 si) (map (set_type NETIF_OLD) nfs1)).
  { intros m Hm. specialize (M1 m Hm). unfold indices in *. rewrite map_map. exact M1. }
  pose proof (phase1_mgmt cfg os nfs1 D1 ias [] _ _ _ _ _ _ (phase1_start os nfs1 D1) HM0 F) as MM1.
  apply fetch_fold_si in F as (_ & F2 & F3 & F4). cbn [si_mnetif set_caps si_hwaddr] in F2, F3.
  pose proof (phase2_names _ _ _ _ Hna P2) as N2. pose proof (proj1 P2) as ND2.
  pose proof (core_names _ _ C3) as CN3. pose proof (core_index _ _ C3) as CI3.
  assert (ND3 : NoDup (indices tb3)) by (rewrite CI3; exact ND2). assert (N3 : NoDup (names tb3)) by now rewrite CN3.
  assert (Z3 : forall n, In n tb3 -> ad n = (repeat 0 6, repeat 0 4, repeat 0 16, 0)).
  { intros n Hn. destruct (ad_in _ _ _ A3 Hn) as (m & Hm & ->). exact (phase2_zero_ad _ _ _ _ _ P2 Hm). }
  assert (R2 : si_mnetif si2 = match si_mnetif si1 with Some m => if existsb (fun i => i =? m) gone then None else Some m | None => None end
     /\ si_hwaddr si2 = si_hwaddr si1 /\ gone = map nf_index (filter old tb1) /\ tb2 = filter (fun n => negb (old n)) tb1).
  { unfold remove_old in R. injection R as <- <- <-. split; [|split; [|split; reflexivity]].
    - destruct (si_mnetif si1) eqn:Q; [|exact Q]. destruct (existsb _ _); [reflexivity|exact Q].
    - destruct (si_mnetif si1); [|reflexivity]. now destruct (existsb _ _). }
  destruct R2 as (R2 & R3 & R4 & R5).
  assert (MM2 : mgmt_in si2 tb3).
  { intros m Hm. rewrite CI3. rewrite R2 in Hm. destruct (si_mnetif si1) as [m1|] eqn:Q; [|discriminate].
    destruct (existsb _ gone) eqn:X; [discriminate|]. injection Hm as ->. specialize (MM1 m Q). apply in_map_iff in MM1 as (n & <- & Hn).
    rewrite R5. apply in_map_iff. exists n. split; [reflexivity|]. apply filter_In. split; [assumption|].
    destruct (old n) eqn:O; [|reflexivity]. exfalso. assert (Y : existsb (fun i => i =? nf_index n) gone = true); [|congruence].
    apply existsb_exists. exists (nf_index n). split; [|apply Z.eqb_refl]. rewrite R4. apply in_map. apply filter_In. now split. }
  destruct (addrs_phase cfg ias tb3 si2 tb4 si4 (os_sizes _ _ Hos E) ND3 N3 Z3 MM2 A) as (AD & AN & AI & AT & AV).
  pose proof (addrs_rest _ _ _ _ _ _ A) as (AR & AM).
  assert (SM : si_mnetif si' = si_mnetif si4) by (rewrite S; now destruct tb4).
  assert (ND4 : NoDup (indices tb4)) by now rewrite AI. assert (N4 : NoDup (names tb4)) by now rewrite AN.
  (* the table with the marks *)
  assert (T : nfs' = map (fun n => fold_left (fun n x => mark x n) (nc_ifl cfg) n) tb4
     /\ ret = if zlen (nc_ifl cfg) =? 0 then count mod 65536
              else (if zlen (filter (ok_arg tb4) (nc_ifl cfg)) =? zlen (nc_ifl cfg) then zlen (nc_ifl cfg) else 0) mod 65536).
  { destruct V as [(V1 & c & V2 & V3)|(V1 & V2 & V3)].
    - rewrite (argv_all _ _ _ ND4 N4) in V2. injection V2 as V2 V4. split; [now symmetry|].
      destruct (zlen (nc_ifl cfg) =? 0) eqn:Q; [contradiction V1; apply zlen_0; lia|].
      rewrite V3. replace c with (zlen (filter (ok_arg tb4) (nc_ifl cfg))) by lia. f_equal.
      destruct (zlen (filter (ok_arg tb4) (nc_ifl cfg)) =? zlen (nc_ifl cfg)) eqn:W; [clear -W; lia|reflexivity].
    - rewrite V1. cbn. rewrite map_id. now split. }
  destruct T as [T TR].
  set (mk := fun n => fold_left (fun n x => mark x n) (nc_ifl cfg) n) in T.
  assert (MK : forall n, nf_index (mk n) = nf_index n /\ nf_name (mk n) = nf_name n /\ nf_hwaddr (mk n) = nf_hwaddr n
     /\ nf_ipaddr4 (mk n) = nf_ipaddr4 n /\ nf_ipaddr6 (mk n) = nf_ipaddr6 n /\ nf_type (mk n) = nf_type n).
  { unfold mk. generalize (nc_ifl cfg). clear. induction l as [|x l IH]; intros n; cbn [fold_left]; [now repeat split|].
    specialize (IH (mark x n)). revert IH. unfold mark. destruct (_ && _); [|easy]. intros (? & ? & ? & ? & ? & ?). now repeat split. }
  assert (IX : indices nfs' = indices tb4).
  { rewrite T. unfold indices. rewrite map_map. apply map_ext. intros n. apply MK. }
  assert (NM : names nfs' = names tb4).
  { rewrite T. unfold names. rewrite map_map. apply map_ext. intros n. apply MK. }
  assert (FM : forall m, option_map nf_name (find (index_is m) nfs') = option_map nf_name (find (index_is m) tb4)).
  { intros m. rewrite T. clear -MK. induction tb4 as [|n l IH]; [reflexivity|]. cbn. unfold index_is at 1 3. rewrite (proj1 (MK n)).
    destruct (nf_index n =? m); [cbn; now rewrite (proj1 (proj2 (MK n)))|exact IH]. }
  assert (OK : forall x, ok_arg tb4 x = true <-> exists n, In n nfs' /\ nf_name n = x /\ nf_type n <> -1).
  { intros x. unfold ok_arg. split.
    - destruct (netif_byname tb4 x) as [n|] eqn:B; [|discriminate]. apply byname_in in B as [B1 B2]. intros K. exists (mk n).
      split; [rewrite T; now apply in_map|]. destruct (MK n) as (_ & -> & _ & _ & _ & ->). split; [assumption|]. lia.
    - intros (n & Hn & Hx & Ht). rewrite T in Hn. apply in_map_iff in Hn as (k & <- & Hk). destruct (MK k) as (_ & Q1 & _ & _ & _ & Q2).
      rewrite Q1 in Hx. rewrite Q2 in Ht. destruct (netif_byname tb4 x) as [q|] eqn:B.
      + apply byname_in in B as [B1 B2]. replace q with k; [lia|]. apply (nodup_same nf_name tb4); auto. congruence.
      + pose proof (byname_none _ _ _ B Hk) as Y. rewrite Hx, beq_refl in Y. discriminate. }
  assert (AFD : all_found cfg nfs' <-> zlen (filter (ok_arg tb4) (nc_ifl cfg)) = zlen (nc_ifl cfg)).
  { rewrite filter_all. unfold all_found. split; intros Q x Hx; apply OK; now apply Q. }
  assert (NE : nc_ifl cfg <> [] -> (zlen (nc_ifl cfg) =? 0) = false).
  { intros Q. destruct (zlen (nc_ifl cfg) =? 0) eqn:W; [|reflexivity]. contradiction Q. apply zlen_0. lia. }
  split; [|split; [|split; [|split; [|split; [|split]]]]].
  - intros n Hn. rewrite T in Hn. apply in_map_iff in Hn as (k & <- & Hk). destruct (MK k) as (_ & Q1 & Q2 & Q3 & Q4 & _).
    rewrite Q1, Q2, Q3, Q4. destruct (AD k Hk) as (W1 & W2 & W3). split; [exact W1|].
    assert (AE : address_name cfg si' nfs' (mk k) = address_name cfg si4 tb4 k).
    { unfold address_name. rewrite SM, Q1. destruct (Z.testbit _ 8); [|reflexivity]. destruct (si_mnetif si4) as [m|]; [|reflexivity].
      specialize (FM m). destruct (find (index_is m) nfs'), (find (index_is m) tb4); cbn in FM; congruence. }
    now rewrite AE.
  - rewrite S, T. destruct tb4 as [|n l].
    + cbn [map]. apply rest_caps in AR as [_ AR]. congruence.
    + cbn [map si_hwaddr set_chassis]. rewrite (proj1 (proj2 (MK n))). apply AD. now left.
  - intros n Hn. rewrite T in Hn. apply in_map_iff in Hn as (k & <- & Hk). destruct (MK k) as (_ & Q1 & _ & _ & _ & Q2).
    rewrite Q1, Q2. unfold mk. rewrite marks_argv. now rewrite (AV k Hk).
  - intros Q1 Q2. rewrite TR, (NE Q1). apply AFD in Q2. now rewrite Q2, Z.eqb_refl.
  - intros Q1 Q2. rewrite TR, (NE Q1).
    destruct (zlen (filter (ok_arg tb4) (nc_ifl cfg)) =? zlen (nc_ifl cfg)) eqn:W; [|reflexivity]. contradiction Q2. apply AFD. clear -W. lia.
  - intros Q. exists count. split; [|rewrite TR, Q; reflexivity]. rewrite F4. rewrite Z.add_0_l. apply number_filter. intros ia. apply entry_up.
  - (* management *)
    assert (Z4 : forall n, In n tb3 -> ~ hit cfg n).
    { intros n Hn [[Q1 Q2]|[Q1 Q2]]; specialize (Z3 n Hn); unfold ad in Z3;
        pose proof (f_equal (fun x : list Z * list Z * list Z * Z => snd (fst (fst x))) Z3) as Y4;
        pose proof (f_equal (fun x : list Z * list Z * list Z * Z => snd (fst x)) Z3) as Y6; cbv beta iota delta [fst snd] in Y4, Y6.
      - rewrite <- Q2, Y4 in Q1. now rewrite zero_addr_set in Q1.
      - rewrite <- Q2, Y6 in Q1. now rewrite zero_addr_set in Q1. }
    destruct (addr_fold_pick cfg ias tb3 si2 ND3 N3) as [PK1 PK2]. rewrite <- AM, <- SM in PK1, PK2.
    assert (HT : forall n, In n tb3 -> (hit cfg (fold_left upd ias n) <->
       (nonzero (nc_maddr4 cfg) = true /\ main4 ias (nf_name n) = nc_maddr4 cfg)
       \/ (nonzero (nc_maddr6 cfg) = true /\ main6 ias (nf_name n) = nc_maddr6 cfg))).
    { intros n Hn. specialize (Z3 n Hn). unfold ad in Z3.
        pose proof (f_equal (fun x : list Z * list Z * list Z * Z => snd (fst (fst x))) Z3) as Y4;
        pose proof (f_equal (fun x : list Z * list Z * list Z * Z => snd (fst x)) Z3) as Y6; cbv beta iota delta [fst snd] in Y4, Y6. unfold hit.
      rewrite (fold_upd_4 ias (os_sizes _ _ Hos E)) by (intros _; exact Y4). rewrite (fold_upd_6 ias (os_sizes _ _ Hos E)) by (intros _; exact Y6).
      rewrite Y4, Y6, !zero_addr_set, !nonzero_set. reflexivity. }
    (* an interface of the final table and of tb2/tb3 *)
    assert (UP : forall n, In n tb3 -> exists k, In k nfs' /\ nf_index k = nf_index n /\ nf_name k = nf_name n).
    { intros n Hn. assert (C4 : map core tb4 = map core tb3). { pose proof (addrs_core cfg ias tb3 si2) as C4. rewrite A in C4. exact C4. }
      destruct (core_in tb3 tb4 n (eq_sym C4) Hn) as (q & Hq & Cq). exists (mk q). split; [rewrite T; now apply in_map|].
      destruct (MK q) as (-> & -> & _). unfold core in Cq. injection Cq. intros. split; congruence. }
    assert (DN : forall n, In n nfs' -> exists k, In k tb3 /\ nf_index k = nf_index n /\ nf_name k = nf_name n).
    { intros n Hn. assert (C4 : map core tb4 = map core tb3). { pose proof (addrs_core cfg ias tb3 si2) as C4. rewrite A in C4. exact C4. }
      rewrite T in Hn. apply in_map_iff in Hn as (q & <- & Hq). destruct (MK q) as (-> & -> & _).
      destruct (core_in _ _ q C4 Hq) as (k & Hk & Ck). exists k. split; [assumption|]. unfold core in Ck. injection Ck. intros. split; congruence. }
    assert (D2 : forall n, In n tb3 -> exists k, In k tb2 /\ nf_index k = nf_index n /\ nf_name k = nf_name n).
    { intros n Hn. destruct (core_in _ _ n C3 Hn) as (k & Hk & Ck). exists k. split; [assumption|]. unfold core in Ck. injection Ck. intros. split; congruence. }
    (* the loop *)
    assert (LP : (exists n, In n tb2 /\ nc_mifname cfg = Some (nf_name n) /\ si_mnetif si2 = Some (nf_index n))
       \/ ((forall n, In n tb2 -> nc_mifname cfg <> Some (nf_name n))
           /\ si_mnetif si2 = match si_mnetif si with Some m => if existsb (fun i => i =? m) gone then None else Some m | None => None end)).
    { destruct (pick_fold cfg os ias (si_mnetif si)) as [(ia & i & H1 & H2 & H3 & H4)|[H1 H2]].
      - left. rewrite H4 in F2. assert (U : usable os i) by (apply (proj1 (seen_usable os ias i E)); now exists ia).
        apply (proj1 (proj2 P2)) in U. apply in_map_iff in U as (n & <- & Hn). exists n. split; [assumption|].
        destruct (phase2_name _ _ _ _ _ Hna P2 Hn) as (x & X1 & X2 & X3).
        assert (Y3 : link_of ia = Some (nf_index n, ia_name ia)).
        { unfold link_of. unfold entry_of in H2. destruct (ia_addr ia) as [[h j a| | |]|]; try discriminate. destruct (_ && _); [|discriminate]. congruence. }
        assert (NN : ia_name ia = nf_name n) by (apply (proj2 Hna ia x _ _ _ _ H1 X1 Y3 X3); reflexivity).
        assert (L : firstn 15 (ia_name ia) = ia_name ia).
        { apply firstn_all2. pose proof (proj1 Hna ia H1) as Q. unfold zlen in Q. lia. }
        split; [congruence|]. rewrite R2, F2. destruct (existsb _ gone) eqn:X; [|reflexivity]. exfalso.
        apply existsb_exists in X as (j & X4 & X5). rewrite R4 in X4. apply in_map_iff in X4 as (o & <- & Ho). apply filter_In in Ho as [Ho1 Ho2].
        rewrite R5 in Hn. apply filter_In in Hn as [Hn1 Hn2].
        assert (o = n) by (apply (nodup_same nf_index tb1); [exact (proj1 P1)|assumption|assumption|lia]). subst o. rewrite Ho2 in Hn2. discriminate.
      - right. split.
        + intros n Hn. destruct (phase2_name _ _ _ _ _ Hna P2 Hn) as (x & X1 & X2 & X3).
          assert (L : firstn 15 (ia_name x) = ia_name x).
          { apply firstn_all2. pose proof (proj1 Hna x X1) as Q. unfold zlen in Q. lia. }
          specialize (H1 x _ X1 X2). rewrite L in H1. unfold link_of in X3. destruct (ia_addr x) as [[h j a| | |]|]; try discriminate.
          injection X3 as _ X3. congruence.
        + rewrite R2, F2, H2. reflexivity. }
    split; [|split].
    + intros n Hn Q. destruct (DN n Hn) as (k3 & K1 & K2 & K3). destruct (D2 k3 K1) as (k2 & K4 & K5 & K6).
      destruct LP as [(q & L1 & L2 & L3)|[L1 _]]; [|contradiction (L1 k2 K4); congruence].
      apply PK1. rewrite L3. f_equal. transitivity (nf_index k2); [|congruence]. f_equal. apply (nodup_same nf_name tb2); auto. congruence.
    + intros m Hm. destruct LP as [(q & L1 & L2 & L3)|[L1 L2]].
      * right. assert (W : exists n, In n tb3 /\ nf_index n = nf_index q /\ nf_name n = nf_name q).
        { destruct (core_in tb2 tb3 q (eq_sym C3) L1) as (k & Hk & Ck). exists k. split; [assumption|]. unfold core in Ck. injection Ck. intros. split; congruence. }
        destruct W as (n & W1 & W2 & W3). destruct (UP n W1) as (k & K1 & K2 & K3). exists k. split; [assumption|].
        rewrite (PK1 _ L3) in Hm. injection Hm as <-. split; [congruence|]. left. congruence.
      * destruct (si_mnetif si2) as [m2|] eqn:Q2.
        { left. rewrite (PK1 _ eq_refl) in Hm. injection Hm as <-. destruct (si_mnetif si) as [m0|]; [|discriminate]. destruct (existsb _ gone); [discriminate|congruence]. }
        { right. specialize (PK2 eq_refl Z4). rewrite Hm in PK2. destruct PK2 as (n & N1 & NI & NH). destruct (UP n N1) as (k & K1 & K2 & K3).
          exists k. split; [assumption|]. split; [congruence|]. right. rewrite K3. now apply HT. }
    + intros Q n Hn W K. destruct LP as [(q & L1 & L2 & L3)|[L1 L2]]; [rewrite (PK1 _ L3) in K; discriminate|].
      destruct (DN n Hn) as (k3 & K1 & K2 & K3). destruct (D2 k3 K1) as (k2 & K4 & K5 & K6).
      assert (S2 : si_mnetif si2 = None).
      { destruct (si_mnetif si2) as [m2|]; [|reflexivity]. rewrite (PK1 _ eq_refl) in K. discriminate. }
      specialize (PK2 S2 Z4). rewrite K in PK2. apply (PK2 k3 K1). apply HT; [assumption|]. rewrite K3.
      destruct W as [W|W]; [|exact W]. contradiction (L1 k2 K4). congruence.
Qed.
