(** Pointers after netif_fetch. *)
From Verif Require Import Base Types Tlv Util Netif Spec SpecAdv SpecNetif.
From Verif Require Import Lemmas VisProofs VisProps ChildProofs ChildProofs4 NetifProofs1 NetifProofs2 NetifProofs3 NetifProofs4.

(** ** Projections the last phases leave alone *)
Section proj.
Context {B : Type} (pj : netif -> B).
Hypothesis pj_ips : forall a b n, pj (set_ips a b n) = pj n.
Hypothesis pj_hw : forall a n, pj (set_hwaddr a n) = pj n.
Hypothesis pj_argv : forall a n, pj (set_argv a n) = pj n.
Lemma pj_assign f i nfs : (forall n, pj (f n) = pj n) -> map pj (nf_assign f i nfs) = map pj nfs.
Proof. intros H. apply assign_keeps. intros n _. apply H. Qed.
Lemma addr_one_pj cfg nfs si ia : map pj (fst (addr_one cfg (nfs, si) ia)) = map pj nfs.
Proof.
  unfold addr_one. destruct (ia_addr ia) as [sa|]; [|reflexivity]. destruct (netif_byname nfs (ia_name ia)) as [n|]; [|reflexivity].
  destruct sa as [h i a|a|a|]; [apply pj_assign, pj_hw| | |reflexivity].
  - destruct (addr_set _); [reflexivity|]. destruct (si_mnetif si); [apply pj_assign; intros; apply pj_ips|].
    destruct (_ && _); apply pj_assign; intros; apply pj_ips.
  - destruct (addr_set _); [reflexivity|]. destruct (linklocal a); [reflexivity|].
    destruct (si_mnetif si); [apply pj_assign; intros; apply pj_ips|]. destruct (_ && _); apply pj_assign; intros; apply pj_ips.
Qed.
Lemma addrs_pj cfg ias nfs si : map pj (fst (netif_addrs cfg ias nfs si)) = map pj nfs.
Proof.
  unfold netif_addrs. assert (H : map pj (fst (fold_left (addr_one cfg) ias (nfs, si))) = map pj nfs).
  { revert nfs si. induction ias as [|ia l IH]; intros nfs si; cbn [fold_left]; [reflexivity|].
    pose proof (addr_one_pj cfg nfs si ia) as H. destruct (addr_one cfg (nfs, si) ia) as [a b]. now rewrite IH. }
  destruct (fold_left _ _ _) as [a b]. cbn [fst] in H. destruct (negb _); [assumption|].
  destruct (si_mnetif b) as [m|]; [|assumption]. destruct (netif_byindex a m) as [mn|]; [|assumption].
  cbn [fst]. rewrite map_map. rewrite <- H. apply map_ext. intros; apply pj_ips.
Qed.
Lemma argv_pj : forall ifl nfs c, map pj (fst (argv_loop ifl nfs c)) = map pj nfs.
Proof.
  induction ifl as [|x ifl IH]; intros nfs c; cbn [argv_loop]; [reflexivity|].
  destruct (netif_byname nfs x) as [n|]; [|apply IH]. destruct (_ =? _); [apply IH|]. rewrite IH. apply pj_assign, pj_argv.
Qed.
End proj.

(** ** The phases *)
Definition lk (n : netif) :=
  (nf_index n, nf_parent n, nf_subif n, nf_child n, nf_bonding_mode n, nf_vlan_id n, nf_vlan_parent n).
Lemma fetch_links cfg os nfs si ret nfs' si' gone ias : no_ifaddrs os = Some ias -> NoDup (indices nfs) ->
  netif_fetch cfg os nfs si = (ret, nfs', si', gone) ->
  exists nfs2, phase2 os nfs ias nfs2 /\ map core nfs' = map core nfs2
    /\ map lk nfs' = map lk (fold_left (detect_one os) (indices nfs2) nfs2).
Proof.
  intros E Hd H. destruct (fetch_phases _ _ _ _ _ _ _ _ _ E H) as (si0 & nfs1 & si1 & count & si4 & nfs4 & _ & F1 & K).
  pose proof (phase1_fold cfg os nfs Hd ias [] _ _ _ _ _ _ (phase1_start os nfs Hd) F1) as P1. cbn [app] in P1.
  pose proof (remove_phase2 os nfs ret ias nfs1 si1 E P1) as P2.
  destruct (remove_old nfs1 si1) as [[nfs2 si2] g]. cbn [fst] in P2. destruct K as (_ & A & _ & V).
  exists nfs2. split; [assumption|].
  set (nfs3 := fold_left (detect_one os) (map nf_index nfs2) nfs2) in A.
  pose proof (addrs_core cfg ias nfs3 si2) as C4. pose proof (addrs_pj lk (fun _ _ _ => eq_refl) (fun _ _ => eq_refl) cfg ias nfs3 si2) as L4.
  rewrite A in C4, L4. cbn [fst] in C4, L4. assert (C3 : map core nfs3 = map core nfs2) by (unfold nfs3; apply detect_all_core).
  destruct V as [(_ & c & V & _)|(_ & -> & _)]; [|split; [congruence|exact L4]].
  pose proof (argv_core (nc_ifl cfg) nfs4 0) as C5. pose proof (argv_pj lk (fun _ _ => eq_refl) (nc_ifl cfg) nfs4 0) as L5.
  rewrite V in C5, L5. cbn [fst] in C5, L5. split; [congruence|]. rewrite L5. exact L4.
Qed.
Lemma lk_index a b : map lk a = map lk b -> indices a = indices b.
Proof.
  intros H. apply (f_equal (map (fun x => fst (fst (fst (fst (fst (fst x)))))))) in H. now rewrite !map_map in H.
Qed.
Lemma lk_in a b n : map lk a = map lk b -> In n a -> exists m, In m b /\ lk n = lk m.
Proof.
  intros H K. apply (in_map lk) in K. rewrite H in K. apply in_map_iff in K as (m & E & Hm). now exists m.
Qed.
Lemma phase2_zero os nfs ias nfs2 n : phase2 os nfs ias nfs2 -> In n nfs2 ->
  lk n = (nf_index n, None, None, 0, 0, 0, 0) /\ nf_type n <> 10.
Proof.
  intros (_ & _ & P) H. destruct (P n H) as (ia & H1 & H2 & H3). split.
  - rewrite H3. unfold fresh_of. destruct (netif_byindex nfs (nf_index n)); reflexivity.
  - rewrite H3. rewrite fresh_type. unfold entry_of in H2. destruct (ia_addr ia) as [[h j a| | |]|]; try discriminate.
    destruct (h =? ARPHRD_ETHER); cbn [andb] in H2; [|discriminate].
    destruct (netif_type os j (ia_name ia) =? NETIF_INVALID) eqn:T; cbn [negb andb] in H2; [discriminate|].
    destruct (up os (ia_name ia)); [|discriminate]. injection H2 as <-.
    assert (K : kind os j (ia_name ia) (netif_type os j (ia_name ia))) by (apply netif_type_kind; lia). apply kind_range in K. lia.
Qed.

(** ** No dangling pointer *)
Definition inside (I : list Z) (n : netif) : Prop :=
  (forall i, nf_parent n = Some i -> In i I) /\ (forall i, nf_subif n = Some i -> In i I)
  /\ (nf_vlan_parent n <> 0 -> In (nf_vlan_parent n) I).
Lemma inside_assign I f i nfs : (forall n, inside I n -> inside I (f n)) -> Forall (inside I) nfs -> Forall (inside I) (nf_assign f i nfs).
Proof.
  intros H K. rewrite Forall_forall in *. intros n Hn. apply assign_in in Hn as [Hn|(m & Hm & _ & ->)]; [now apply K|apply H; now apply K].
Qed.
Lemma inside_member I p last s c la nfs : In p I -> In s I -> Forall (inside I) nfs -> Forall (inside I) (add_member p last s c la nfs).
Proof.
  intros Hp Hs H. unfold add_member. apply inside_assign; [|apply inside_assign; [|assumption]].
  - intros n (H1 & H2 & H3). split; [exact H1|]. split; [|exact H3]. intros i E. cbn in E. congruence.
  - intros n (H1 & H2 & H3). split; [|split; [exact H2|exact H3]]. intros i E. cbn in E. congruence.
Qed.
Lemma inside_bond I os p pn : In p I -> forall k i last nfs, indices nfs = I -> Forall (inside I) nfs ->
  Forall (inside I) (bond_loop os p pn k i last nfs).
Proof.
  intros Hp. induction k as [|k IH]; intros i last nfs HI H; cbn [bond_loop]; [assumption|].
  destruct (no_slave os pn i) as [[nm st]|]; [|now apply IH]. destruct (netif_byname nfs nm) as [s|] eqn:B; [|now apply IH].
  destruct (_ <? _); [|now apply IH]. apply IH; [rewrite member_indices; assumption|]. apply inside_member; [assumption| |assumption].
  rewrite <- HI. apply byname_in in B as [B _]. now apply in_map.
Qed.
Lemma inside_bridge I p : In p I -> forall ports last nfs, indices nfs = I -> Forall (inside I) nfs ->
  Forall (inside I) (bridge_loop p ports last nfs).
Proof.
  intros Hp. induction ports as [|i ports IH]; intros last nfs HI H; cbn [bridge_loop]; [assumption|].
  destruct (netif_byindex nfs i) as [s|] eqn:B; [|now apply IH].
  destruct (_ <? _); [|now apply IH]. apply IH; [rewrite member_indices; assumption|]. apply inside_member; [assumption| |assumption].
  rewrite <- HI. apply byindex_some in B as [B _]. now apply in_map.
Qed.
Lemma inside_team I p ch : In p I -> forall ports last nfs, indices nfs = I -> Forall (inside I) nfs ->
  Forall (inside I) (team_loop p ch ports last nfs).
Proof.
  intros Hp. induction ports as [|i ports IH]; intros last nfs HI H; cbn [team_loop]; [assumption|].
  destruct (netif_byindex nfs i) as [s|] eqn:B; [|now apply IH].
  destruct (_ <? _); [now apply IH|]. apply IH; [rewrite member_indices; assumption|]. apply inside_member; [assumption| |assumption].
  rewrite <- HI. apply byindex_some in B as [B _]. now apply in_map.
Qed.
Lemma inside_detect I os nfs i : indices nfs = I -> Forall (inside I) nfs -> Forall (inside I) (detect_one os nfs i).
Proof.
  intros HI H. unfold detect_one. destruct (netif_byindex nfs i) as [n|] eqn:B; [|assumption].
  assert (Hn : In (nf_index n) I) by (rewrite <- HI; apply byindex_some in B as [B _]; now apply in_map).
  destruct (_ =? _).
  { unfold netif_team. destruct (no_team os (nf_index n)) as [[[m p] a]|]; [|assumption].
    assert (G : Forall (inside I) (nf_assign (set_bonding_mode m) (nf_index n) nfs)) by (apply inside_assign; [|assumption]; intros x K; exact K).
    assert (GI : indices (nf_assign (set_bonding_mode m) (nf_index n) nfs) = I) by (rewrite <- HI; apply core_index; now apply mild_assign).
    destruct (_ =? _); [apply inside_assign; [intros x K; exact K|]|]; now apply inside_team. }
  destruct (_ =? _).
  { unfold netif_bond. destruct (no_bond os (nf_name n)) as [[m s]|]; [|assumption]. apply inside_bond; [assumption| |].
    - rewrite <- HI. apply core_index. destruct (_ =? _); [now apply mild_assign|]. destruct (_ =? _); [now apply mild_assign|reflexivity].
    - destruct (_ =? _); [apply inside_assign; [intros x K; exact K|assumption]|].
      destruct (_ =? _); [apply inside_assign; [intros x K; exact K|assumption]|assumption]. }
  destruct (_ =? _).
  { unfold netif_bridge. destruct (no_bridge os (nf_name n)); [now apply inside_bridge|assumption]. }
  destruct (_ =? _).
  { unfold netif_vlan. destruct (no_vlan os (nf_name n)) as [d|]; [|assumption].
    destruct (netif_byname nfs d) as [q|] eqn:Q; [|assumption]. apply inside_assign; [|assumption].
    intros x (K1 & K2 & K3). split; [exact K1|]. split; [exact K2|]. intros _. cbn. rewrite <- HI. apply byname_in in Q as [Q _]. now apply in_map. }
  destruct (_ =? _); [|assumption].
  unfold netif_device_id. destruct (negb _); [assumption|]. apply inside_assign; [intros x K; exact K|assumption].
Qed.
Lemma inside_detect_all I os : forall l nfs, indices nfs = I -> Forall (inside I) nfs -> Forall (inside I) (fold_left (detect_one os) l nfs).
Proof.
  induction l as [|i l IH]; intros nfs HI H; cbn [fold_left]; [assumption|]. apply IH; [|now apply inside_detect].
  rewrite <- HI. apply core_index, detect_core.
Qed.
Lemma fetch_no_dangling cfg os nfs si ret nfs' si' gone ias : no_ifaddrs os = Some ias -> NoDup (indices nfs) ->
  netif_fetch cfg os nfs si = (ret, nfs', si', gone) -> no_dangling nfs'.
Proof.
  intros E Hd H. destruct (fetch_links _ _ _ _ _ _ _ _ _ E Hd H) as (nfs2 & P2 & C & L).
  assert (F : Forall (inside (indices nfs2)) (fold_left (detect_one os) (indices nfs2) nfs2)).
  { apply inside_detect_all; [reflexivity|]. apply Forall_forall. intros n Hn. destruct (phase2_zero _ _ _ _ _ P2 Hn) as [Z _].
    injection Z as Z1 Z2 Z3 Z4 Z5 Z6. unfold inside. rewrite Z1, Z2, Z6. repeat split; congruence. }
  intros n Hn. destruct (lk_in _ _ _ L Hn) as (m & Hm & Em). rewrite Forall_forall in F. specialize (F m Hm).
  injection Em as E1 E2 E3 E4 E5 E6 E7. rewrite (core_index _ _ C). unfold inside in F. rewrite E2, E3, E7. exact F.
Qed.

(** ** Members *)
Lemma look_in {B} (g : netif -> B) d nfs n : NoDup (indices nfs) -> In n nfs -> look g d nfs (nf_index n) = g n.
Proof. intros H K. unfold look. now rewrite (byindex_in nfs n H K). Qed.
Lemma look_lk {B} (g : netif -> B) d a b j : (forall n m, lk n = lk m -> g n = g m) -> map lk a = map lk b -> look g d a j = look g d b j.
Proof.
  intros Hg. revert b. induction a as [|x a IH]; intros [|y b] H; try discriminate; [reflexivity|]. cbn in H.
  apply (f_equal (fun l => (hd (lk x) l, tl l))) in H. cbn in H. apply pair_equal_spec in H as [H1 H2].
  unfold look, netif_byindex. cbn [find]. assert (Ei : nf_index x = nf_index y) by (injection H1; auto). rewrite Ei.
  destruct (nf_index y =? j); [now apply Hg|]. now apply IH.
Qed.
Lemma path_chain nfs : NoDup (indices nfs) -> forall l o, path (sub nfs) o l -> (forall s, In s l -> In s (indices nfs)) ->
  exists ms, member_chain nfs o ms /\ map nf_index ms = l.
Proof.
  intros Hd. induction l as [|s l IH]; intros o; cbn [path].
  - intros -> _. exists []. split; [constructor|reflexivity].
  - intros [-> P] H. destruct (byindex_ex nfs s) as [m Hm]; [apply H; now left|]. apply byindex_some in Hm as [Hm Es].
    rewrite <- Es in P. unfold sub in P. rewrite look_in in P by assumption.
    destruct (IH _ P) as (ms & C & E); [intros x Hx; apply H; now right|]. exists (m :: ms). cbn. split; [|congruence].
    now constructor.
Qed.
Lemma reported_flat os a b : map core a = map core b ->
  flat_map (fun p => map fst (reported os a p)) a = flat_map (fun p => map fst (reported os b p)) b.
Proof.
  intros H. assert (G : forall x y, map core x = map core y ->
    flat_map (fun p => map fst (reported os a p)) x = flat_map (fun p => map fst (reported os b p)) y).
  { induction x as [|p x IH]; intros [|q y] E; try discriminate; [reflexivity|]. cbn [map] in E.
    apply (f_equal (fun l => (hd (core p) l, tl l))) in E. cbn [hd tl] in E. apply pair_equal_spec in E as [E1 E2].
    cbn [flat_map]. rewrite (IH y E2), (reported_core os a b p q H E1). reflexivity. }
  now apply G.
Qed.
Lemma consistent_core os a b : map core a = map core b -> consistent os a -> consistent os b.
Proof.
  intros H [C1 C2]. split; [rewrite <- (reported_flat os a b H); assumption|]. intros p ports active Hp Ht Hn.
  destruct (core_in b a p (eq_sym H) Hp) as (q & Hq & Eq). apply core_fields in Eq as Ef. destruct Ef as (F1 & F2 & F3).
  rewrite <- (core_index _ _ H). rewrite <- (reported_core os a b q p H (eq_sym Eq)). apply (C2 q ports active Hq); congruence.
Qed.
Lemma mode_core os n m : core n = core m -> mode_of os n = mode_of os m.
Proof. intros H. apply core_fields in H as (H1 & H2 & H3). unfold mode_of. now rewrite H1, H2, H3. Qed.
Lemma map_pair_eq {A} (f : A -> Z) (g : A -> Z) : forall (l : list A) (r : list (Z * Z)), map f l = map fst r ->
  (forall x c, In x l -> In (f x, c) r -> g x = c) -> NoDup (map fst r) -> map (fun x => (f x, g x)) l = r.
Proof.
  induction l as [|x l IH]; intros [|[s c] r] E H Hd; try discriminate; [reflexivity|]. cbn in E. injection E as E1 E2.
  cbn [map]. inversion Hd as [|? ? N Hd']; subst. f_equal; [f_equal; apply H; now left|]. apply IH; try assumption.
  intros y k Hy Hk. apply H; now right.
Qed.
Lemma fetch_linked cfg os nfs si ret nfs' si' gone ias : no_ifaddrs os = Some ias -> NoDup (indices nfs) ->
  netif_fetch cfg os nfs si = (ret, nfs', si', gone) -> consistent os nfs' -> linked os nfs'.
Proof.
  intros E Hd H HC. destruct (fetch_links _ _ _ _ _ _ _ _ _ E Hd H) as (nfs2 & P2 & C & L).
  set (nfs3 := fold_left (detect_one os) (indices nfs2) nfs2) in *.
  pose proof (consistent_core _ _ _ C HC) as HC2. assert (Hn2 : NoDup (indices nfs2)) by apply P2.
  assert (T2 : forall n, In n nfs2 -> nf_type n <> 10) by (intros n Hn; now apply (phase2_zero os nfs ias nfs2 n P2)).
  assert (Z2 : forall j, sub nfs2 j = None /\ par nfs2 j = None /\ chi nfs2 j = 0 /\ bmo nfs2 j = 0).
  { intros j. unfold sub, par, chi, bmo, look. destruct (netif_byindex nfs2 j) as [n|] eqn:B; [|now repeat split].
    apply byindex_some in B as [B _]. destruct (phase2_zero _ _ _ _ _ P2 B) as [Z _]. injection Z as Z1 Z2 Z3 Z4 Z5 Z6. now rewrite Z1, Z2, Z3, Z4. }
  assert (S : linv os nfs2 [] nfs2).
  { split; [reflexivity|]. split; [easy|]. split; [easy|]. split; [intros j _; split; apply Z2|]. split; [intros j _ _; apply Z2|].
    intros j. destruct (in_dec _ _ _); [easy|apply Z2]. }
  assert (ND : NoDup (all os nfs2 (indices nfs2))) by (rewrite all_base by assumption; apply HC2).
  pose proof (linv_fold os nfs2 Hn2 T2 HC2 ND (indices nfs2) [] nfs2 eq_refl S) as (I1 & I2 & I3 & I4 & I5 & I6).
  cbn [app] in *. fold nfs3 in I1, I2, I3, I4, I5, I6.
  assert (Hd' : NoDup (indices nfs')) by now rewrite (core_index _ _ C).
  assert (Fsub : forall j, sub nfs' j = sub nfs3 j) by (intros j; apply look_lk; [intros n m K; injection K; auto|assumption]).
  assert (Fpar : forall j, par nfs' j = par nfs3 j) by (intros j; apply look_lk; [intros n m K; injection K; auto|assumption]).
  assert (Fchi : forall j, chi nfs' j = chi nfs3 j) by (intros j; apply look_lk; [intros n m K; injection K; auto|assumption]).
  assert (Fbmo : forall j, bmo nfs' j = bmo nfs3 j) by (intros j; apply look_lk; [intros n m K; injection K; auto|assumption]).
  intros p Hp. destruct (core_in _ _ _ C Hp) as (q & Hq & Eq). apply core_fields in Eq as Ef. destruct Ef as (F1 & F2 & F3).
  assert (Iq : In (nf_index p) (indices nfs2)) by (rewrite F1; now apply in_map).
  assert (Rp : rep os nfs2 (nf_index p) = reported os nfs' p).
  { unfold rep. rewrite F1, look_in by assumption. symmetry. now apply reported_core. }
  assert (Tp : typ nfs2 (nf_index p) = nf_type p) by (unfold typ; rewrite F1, look_in by assumption; congruence).
  split; [|split].
  - specialize (I6 (nf_index p)). rewrite <- Fbmo in I6. unfold bmo in I6. rewrite look_in in I6 by assumption. rewrite I6.
    destruct (in_dec _ _ _); [|contradiction]. unfold mde. rewrite F1, look_in by assumption. symmetry. now apply mode_core.
  - intros Ht. rewrite <- Tp in Ht. pose proof (I2 _ Iq Ht) as P. apply (path_ext _ (sub nfs')) in P; [|intros s _; now rewrite Fsub].
    rewrite <- Fsub in P. unfold sub at 2 in P. rewrite look_in in P by assumption. rewrite Rp in P.
    destruct (path_chain nfs' Hd' _ _ P) as (ms & M1 & M2).
    { intros s Hs. rewrite <- Rp in Hs. apply rep_ports in Hs as [Hs _]; [|assumption]. now rewrite (core_index _ _ C). }
    exists ms. split; [assumption|].
    assert (In_ms : forall m, In m ms -> In m nfs').
    { clear -M1. induction M1 as [|i m ms Hm Em M1 IH]; [easy|]. intros x [<-|Hx]; [assumption|now apply IH]. }
    split.
    + apply map_pair_eq; [assumption| |].
      * intros m c Hm Hc. rewrite <- Rp in Hc. destruct (I3 _ _ _ Iq Hc) as [_ K]. rewrite <- Fchi in K. unfold chi in K.
        rewrite look_in in K by (try assumption; now apply In_ms). exact K.
      * rewrite <- Rp. destruct (in_split _ _ Iq) as (a & b & Eab). rewrite Eab in ND. now apply all_split in ND.
    + intros m Hm. assert (K : In (nf_index m) (map fst (reported os nfs' p))) by (rewrite <- M2; now apply in_map).
      apply in_map_iff in K as ([s c] & Es & K). cbn in Es. subst s. rewrite <- Rp in K. destruct (I3 _ _ _ Iq K) as [Q _].
      rewrite <- Fpar in Q. unfold par in Q. rewrite look_in in Q by (try assumption; now apply In_ms). exact Q.
  - intros N. rewrite (reported_flat os nfs' nfs2 C), <- all_base in N by assumption.
    destruct (I4 _ N) as [Q1 Q2]. rewrite <- Fpar in Q1. rewrite <- Fchi in Q2. unfold par in Q1. unfold chi in Q2.
    rewrite look_in in Q1 by assumption. rewrite look_in in Q2 by assumption. split; [assumption|]. split; [assumption|]. intros Ht.
    pose proof (I5 _ N (or_intror (eq_ind_r (fun z => z <= 10) Ht Tp))) as Q3. rewrite <- Fsub in Q3. unfold sub in Q3. now rewrite look_in in Q3.
Qed.

(** ** VLANs *)
Definition vl (n : netif) := (nf_index n, nf_vlan_id n, nf_vlan_parent n).
Definition vlan (n : netif) := (nf_vlan_id n, nf_vlan_parent n).
Lemma vl_assign f i nfs : (forall n, vl (f n) = vl n) -> map vl (nf_assign f i nfs) = map vl nfs.
Proof. intros H. apply assign_keeps. intros n _. apply H. Qed.
Lemma vl_member p last s c la nfs : map vl (add_member p last s c la nfs) = map vl nfs.
Proof. unfold add_member. rewrite !vl_assign; [reflexivity|intros n; reflexivity|intros n; reflexivity]. Qed.
Lemma vl_bond os par pn : forall k i last nfs, map vl (bond_loop os par pn k i last nfs) = map vl nfs.
Proof.
  induction k as [|k IH]; intros i last nfs; cbn [bond_loop]; [reflexivity|].
  destruct (no_slave os pn i) as [[nm st]|]; [|apply IH]. destruct (netif_byname nfs nm) as [s|]; [|apply IH].
  destruct (_ <? _); [|apply IH]. rewrite IH. apply vl_member.
Qed.
Lemma vl_bridge par : forall ports last nfs, map vl (bridge_loop par ports last nfs) = map vl nfs.
Proof.
  induction ports as [|p ports IH]; intros last nfs; cbn [bridge_loop]; [reflexivity|].
  destruct (netif_byindex nfs p) as [s|]; [|apply IH]. destruct (_ <? _); [|apply IH]. rewrite IH. apply vl_member.
Qed.
Lemma vl_team par ch : forall ports last nfs, map vl (team_loop par ch ports last nfs) = map vl nfs.
Proof.
  induction ports as [|p ports IH]; intros last nfs; cbn [team_loop]; [reflexivity|].
  destruct (netif_byindex nfs p) as [s|]; [|apply IH]. destruct (_ <? _); [apply IH|]. rewrite IH. apply vl_member.
Qed.
Lemma look_vl a b j : map vl a = map vl b -> look vlan (0, 0) a j = look vlan (0, 0) b j.
Proof.
  revert b. induction a as [|x a IH]; intros [|y b] H; try discriminate; [reflexivity|]. cbn in H.
  apply (f_equal (fun l => (hd (vl x) l, tl l))) in H. cbn in H. apply pair_equal_spec in H as [H1 H2].
  unfold look, netif_byindex. cbn [find]. injection H1 as E1 E2 E3. rewrite E1.
  destruct (nf_index y =? j); [unfold vlan; congruence|]. now apply IH.
Qed.
Section tags.
Variable os : nos.
Variable base : list netif.
Hypothesis base_nodup : NoDup (indices base).
Definition vof (i : Z) : Z * Z := look (vlan_of os base) (0, 0) base i.
Lemma detect_vlan nfs i j : In i (indices base) -> map core nfs = map core base -> look vlan (0, 0) nfs i = (0, 0) ->
  look vlan (0, 0) (detect_one os nfs i) j
  = if (j =? i) && (typ base i =? -1) then vof i else look vlan (0, 0) nfs j.
Proof.
  intros Ii HC HV. unfold detect_one.
  assert (Ii' : In i (indices nfs)) by now rewrite (core_index _ _ HC).
  destruct (byindex_ex nfs i Ii') as [n Hn]. rewrite Hn. destruct (byindex_core base nfs i n HC Hn) as (b & Hb & Cb).
  apply byindex_some in Hn as Hn'. destruct Hn' as [Nin Ni]. apply core_fields in Cb as Cf. destruct Cf as (C1 & C2 & C3).
  assert (Tb : typ base i = nf_type b) by (unfold typ, look; now rewrite Hb).
  assert (Vb : vof i = vlan_of os base b) by (unfold vof, look; now rewrite Hb).
  rewrite C3. change NETIF_TEAMING with 11. change NETIF_BONDING with 12. change NETIF_BRIDGE with 13.
  change NETIF_VLAN with (-1). change NETIF_REGULAR with 0. rewrite Tb.
  destruct (nf_type b =? -1) eqn:T.
  2:{ rewrite andb_false_r. apply look_vl. clear T.
      destruct (nf_type b =? 11).
      { unfold netif_team. destruct (no_team os (nf_index n)) as [[[m p] a]|]; [|reflexivity]. destruct (_ =? _).
        - rewrite vl_assign by (intros x; reflexivity). rewrite vl_team. now apply vl_assign.
        - rewrite vl_team. now apply vl_assign. }
      destruct (nf_type b =? 12).
      { unfold netif_bond. destruct (no_bond os (nf_name n)) as [[m s]|]; [|reflexivity]. rewrite vl_bond.
        destruct (_ =? _); [now apply vl_assign|]. destruct (_ =? _); [now apply vl_assign|reflexivity]. }
      destruct (nf_type b =? 13).
      { unfold netif_bridge. destruct (no_bridge os (nf_name n)); [apply vl_bridge|reflexivity]. }
      destruct (nf_type b =? 0); [|reflexivity].
      unfold netif_device_id. destruct (negb _); [reflexivity|]. now apply vl_assign. }
  replace (nf_type b =? 11) with false by lia. replace (nf_type b =? 12) with false by lia. replace (nf_type b =? 13) with false by lia.
  rewrite andb_true_r, Vb. unfold vlan_of, netif_vlan. rewrite C2.
  destruct (no_vlan os (nf_name b)) as [dev|].
  2:{ destruct (j =? i) eqn:E; [|reflexivity]. replace j with i by lia. assumption. }
  pose proof (core_find (name_is dev) nfs base (name_is_core dev) HC) as F. rewrite find_byname in F.
  destruct (netif_byname nfs dev) as [p|]; cbn [option_map] in F; destruct (find (name_is dev) base) as [q|]; try discriminate.
  2:{ destruct (j =? i) eqn:E; [|reflexivity]. replace j with i by lia. assumption. }
  cbn in F. assert (Epq : core p = core q) by congruence. apply core_fields in Epq as (Epq & _).
  rewrite look_assign by (intros m Em; exact Em). rewrite Ni. destruct (j =? i); [|reflexivity]. rewrite Hn. cbn. rewrite Epq.
  destruct (no_vid os (nf_name b)); [reflexivity|]. unfold look in HV. rewrite Hn in HV. unfold vlan in HV. injection HV as HV _. now rewrite HV.
Qed.
Lemma detect_vlans : forall rest done nfs, indices base = done ++ rest -> map core nfs = map core base ->
  (forall j, look vlan (0, 0) nfs j = if in_dec Z.eq_dec j done then (if typ base j =? -1 then vof j else (0, 0)) else (0, 0)) ->
  forall j, look vlan (0, 0) (fold_left (detect_one os) rest nfs) j
    = if in_dec Z.eq_dec j (done ++ rest) then (if typ base j =? -1 then vof j else (0, 0)) else (0, 0).
Proof.
  induction rest as [|i rest IH]; intros done nfs HI HC HV; cbn [fold_left]; [now rewrite app_nil_r|].
  replace (done ++ i :: rest) with ((done ++ [i]) ++ rest) by now rewrite <- app_assoc. apply IH.
  - now rewrite <- app_assoc.
  - now rewrite detect_core.
  - assert (Nd : ~ In i done).
    { intros K. rewrite HI in base_nodup. apply NoDup_remove_2 in base_nodup. apply base_nodup, in_app_iff. now left. }
    intros j. rewrite detect_vlan; [|rewrite HI; apply in_app_iff; right; now left|assumption|].
    2:{ rewrite HV. destruct (in_dec _ _ _); [contradiction|reflexivity]. }
    rewrite HV. destruct (j =? i) eqn:E; cbn [andb].
    + replace j with i by lia. destruct (in_dec Z.eq_dec i (done ++ [i])) as [_|K]; [|exfalso; apply K, in_app_iff; right; now left].
      destruct (in_dec Z.eq_dec i done); [contradiction|reflexivity].
    + destruct (in_dec Z.eq_dec j done) as [K|K], (in_dec Z.eq_dec j (done ++ [i])) as [Q|Q]; try reflexivity.
      * exfalso. apply Q, in_app_iff. now left.
      * apply in_app_iff in Q as [Q|[Q|[]]]; [contradiction|lia].
Qed.
End tags.
Lemma vlan_of_core os a b n m : map core a = map core b -> core n = core m -> vlan_of os a n = vlan_of os b m.
Proof.
  intros H K. apply core_fields in K as (_ & K & _). unfold vlan_of. rewrite K. destruct (no_vlan os (nf_name m)) as [d|]; [|reflexivity].
  pose proof (core_find (name_is d) a b (name_is_core d) H) as F.
  destruct (find (name_is d) a) as [p|], (find (name_is d) b) as [q|]; try discriminate; [|reflexivity].
  cbn in F. assert (E : core p = core q) by congruence. apply core_fields in E as (-> & _). reflexivity.
Qed.
Lemma fetch_tagged cfg os nfs si ret nfs' si' gone ias : no_ifaddrs os = Some ias -> NoDup (indices nfs) ->
  netif_fetch cfg os nfs si = (ret, nfs', si', gone) -> tagged os nfs'.
Proof.
  intros E Hd H. destruct (fetch_links _ _ _ _ _ _ _ _ _ E Hd H) as (nfs2 & P2 & C & L).
  assert (Hn2 : NoDup (indices nfs2)) by apply P2.
  assert (Hd' : NoDup (indices nfs')) by now rewrite (core_index _ _ C).
  pose proof (detect_vlans os nfs2 Hn2 (indices nfs2) [] nfs2 eq_refl eq_refl) as V. cbn [app] in V.
  intros v Hv. destruct (core_in _ _ _ C Hv) as (q & Hq & Eq). apply core_fields in Eq as Ef. destruct Ef as (F1 & F2 & F3).
  change (vlan v = if nf_type v =? -1 then vlan_of os nfs' v else (0, 0)).
  rewrite <- (look_in vlan (0, 0) nfs' v Hd' Hv).
  rewrite (look_lk vlan (0, 0) _ _ (nf_index v)) with (2 := L) by (intros n m K; unfold vlan; injection K; congruence).
  rewrite V.
  - rewrite F1. destruct (in_dec _ _ _) as [_|K]; [|exfalso; apply K; now apply in_map]. unfold typ, vof. rewrite !look_in by assumption.
    rewrite F3. destruct (_ =? _); [|reflexivity]. symmetry. now apply vlan_of_core.
  - intros j. cbn [in_dec]. unfold look. destruct (in_dec Z.eq_dec j []) as [N|N]; [easy|].
    destruct (netif_byindex nfs2 j) as [n|] eqn:B; [|reflexivity]. apply byindex_some in B as [B _].
    destruct (phase2_zero _ _ _ _ _ P2 B) as [Z _]. injection Z as Z1 Z2 Z3 Z4 Z5 Z6. unfold vlan. congruence.
Qed.
