(** The table after netif_fetch: which interfaces, what is kept. *)
From Verif Require Import Base Types Tlv Util Netif Spec SpecNetif.
From Verif Require Import Lemmas VisProofs VisProps ChildProofs ChildProofs4 NetifProofs1.

(** ** What the later phases leave alone *)
Definition core (n : netif) :=
  (nf_index n, nf_name n, nf_type n, nf_description n, nf_protos n, nf_link_event n, nf_update n).
Lemma core_index a b : map core a = map core b -> indices a = indices b.
Proof.
  intros H. apply (f_equal (map (fun x => fst (fst (fst (fst (fst (fst x)))))))) in H. now rewrite !map_map in H.
Qed.
Lemma core_in a b n : map core a = map core b -> In n a -> exists m, In m b /\ core n = core m.
Proof.
  intros H K. apply (in_map core) in K. rewrite H in K. apply in_map_iff in K as (m & E & Hm). now exists m.
Qed.

(** Assignments that leave the core alone. *)
Definition mild (f : netif -> netif) : Prop := forall n, core (f n) = core n.
Lemma mild_assign f i nfs : mild f -> map core (nf_assign f i nfs) = map core nfs.
Proof. intros H. apply assign_keeps. intros n _. apply H. Qed.
Lemma add_member_core par last sub ch la nfs : map core (add_member par last sub ch la nfs) = map core nfs.
Proof. unfold add_member. rewrite !mild_assign; [reflexivity|intros n; reflexivity|intros n; reflexivity]. Qed.
Lemma bond_loop_core os par pn : forall k i last nfs, map core (bond_loop os par pn k i last nfs) = map core nfs.
Proof.
  induction k as [|k IH]; intros i last nfs; cbn [bond_loop]; [reflexivity|].
  destruct (no_slave os pn i) as [[nm st]|]; [|apply IH]. destruct (netif_byname nfs nm) as [s|]; [|apply IH].
  destruct (_ <? _); [|apply IH]. rewrite IH. apply add_member_core.
Qed.
Lemma bridge_loop_core par : forall ports last nfs, map core (bridge_loop par ports last nfs) = map core nfs.
Proof.
  induction ports as [|p ports IH]; intros last nfs; cbn [bridge_loop]; [reflexivity|].
  destruct (netif_byindex nfs p) as [s|]; [|apply IH]. destruct (_ <? _); [|apply IH]. rewrite IH. apply add_member_core.
Qed.
Lemma team_loop_core par ch : forall ports last nfs, map core (team_loop par ch ports last nfs) = map core nfs.
Proof.
  induction ports as [|p ports IH]; intros last nfs; cbn [team_loop]; [reflexivity|].
  destruct (netif_byindex nfs p) as [s|]; [|apply IH]. destruct (_ <? _); [apply IH|]. rewrite IH. apply add_member_core.
Qed.
Lemma detect_core os nfs i : map core (detect_one os nfs i) = map core nfs.
Proof.
  unfold detect_one. destruct (netif_byindex nfs i) as [n|]; [|reflexivity].
  destruct (_ =? _).
  { unfold netif_team. destruct (no_team os (nf_index n)) as [[[m p] a]|]; [|reflexivity]. destruct (_ =? _).
    - rewrite mild_assign by (intros x; reflexivity). rewrite team_loop_core. now apply mild_assign.
    - rewrite team_loop_core. now apply mild_assign. }
  destruct (_ =? _).
  { unfold netif_bond. destruct (no_bond os (nf_name n)) as [[m s]|]; [|reflexivity]. rewrite bond_loop_core.
    destruct (_ =? _); [now apply mild_assign|]. destruct (_ =? _); [now apply mild_assign|reflexivity]. }
  destruct (_ =? _).
  { unfold netif_bridge. destruct (no_bridge os (nf_name n)); [apply bridge_loop_core|reflexivity]. }
  destruct (_ =? _).
  { unfold netif_vlan. destruct (no_vlan os (nf_name n)) as [d|]; [|reflexivity].
    destruct (netif_byname nfs d); [now apply mild_assign|reflexivity]. }
  destruct (_ =? _); [|reflexivity].
  unfold netif_device_id. destruct (negb _); [reflexivity|]. now apply mild_assign.
Qed.
Lemma detect_all_core os : forall l nfs, map core (fold_left (detect_one os) l nfs) = map core nfs.
Proof. induction l as [|i l IH]; intros nfs; cbn [fold_left]; [reflexivity|]. rewrite IH. apply detect_core. Qed.
Lemma addr_one_core cfg nfs si ia : map core (fst (addr_one cfg (nfs, si) ia)) = map core nfs.
Proof.
  unfold addr_one. destruct (ia_addr ia) as [sa|]; [|reflexivity]. destruct (netif_byname nfs (ia_name ia)) as [n|]; [|reflexivity].
  destruct sa as [h i a|a|a|]; [now apply mild_assign| | |reflexivity].
  - destruct (addr_set _); [reflexivity|]. destruct (si_mnetif si); [now apply mild_assign|].
    destruct (_ && _); now apply mild_assign.
  - destruct (addr_set _); [reflexivity|]. destruct (linklocal a); [reflexivity|].
    destruct (si_mnetif si); [now apply mild_assign|]. destruct (_ && _); now apply mild_assign.
Qed.
Lemma addr_fold_core cfg : forall ias nfs si, map core (fst (fold_left (addr_one cfg) ias (nfs, si))) = map core nfs.
Proof.
  induction ias as [|ia ias IH]; intros nfs si; cbn [fold_left]; [reflexivity|].
  pose proof (addr_one_core cfg nfs si ia) as H. destruct (addr_one cfg (nfs, si) ia) as [a b]. now rewrite IH.
Qed.
Lemma addrs_core cfg ias nfs si : map core (fst (netif_addrs cfg ias nfs si)) = map core nfs.
Proof.
  unfold netif_addrs. pose proof (addr_fold_core cfg ias nfs si) as H.
  destruct (fold_left _ _ _) as [a b]. cbn [fst] in H. destruct (negb _); [assumption|].
  destruct (si_mnetif b) as [m|]; [|assumption]. destruct (netif_byindex a m) as [mn|]; [|assumption].
  cbn [fst]. rewrite map_map. rewrite <- H. now apply map_ext.
Qed.
Lemma argv_core : forall ifl nfs c, map core (fst (argv_loop ifl nfs c)) = map core nfs.
Proof.
  induction ifl as [|x ifl IH]; intros nfs c; cbn [argv_loop]; [reflexivity|].
  destruct (netif_byname nfs x) as [n|]; [|apply IH]. destruct (_ =? _); [apply IH|]. rewrite IH. now apply mild_assign.
Qed.

(** The management interface in netif_addrs. *)
Lemma byname_in nfs x n : netif_byname nfs x = Some n -> In n nfs /\ nf_name n = x.
Proof. unfold netif_byname. intros H. apply find_some in H as [H1 H2]. apply beq_true in H2. now split. Qed.
Lemma addr_one_mgmt cfg nfs si ia : mgmt_in si nfs ->
  mgmt_in (snd (addr_one cfg (nfs, si) ia)) (fst (addr_one cfg (nfs, si) ia)).
Proof.
  intros H m. pose proof (addr_one_core cfg nfs si ia) as E. apply core_index in E. rewrite E. clear E.
  assert (G : forall s, s = si -> si_mnetif s = Some m -> In m (indices nfs)) by (intros s ->; apply H).
  unfold addr_one. destruct (ia_addr ia) as [sa|]; [|now apply G]. destruct (netif_byname nfs (ia_name ia)) as [n|] eqn:B; [|now apply G].
  apply byname_in in B as [B _]. apply (in_map nf_index) in B. fold (indices nfs) in B.
  destruct sa as [h i a|a|a|]; cbn [snd]; try (now apply G).
  - destruct (addr_set (nf_ipaddr4 n)); [now apply G|]. destruct (si_mnetif si) eqn:S; [cbn [snd]; rewrite S; intros K; apply H; congruence|].
    destruct (_ && _); cbn [snd]; [cbn; congruence|now apply G].
  - destruct (addr_set (nf_ipaddr6 n)); [now apply G|]. destruct (linklocal a); [now apply G|].
    destruct (si_mnetif si) eqn:S; [cbn [snd]; rewrite S; intros K; apply H; congruence|].
    destruct (_ && _); cbn [snd]; [cbn; congruence|now apply G].
Qed.
Lemma addrs_mgmt cfg ias nfs si : mgmt_in si nfs ->
  mgmt_in (snd (netif_addrs cfg ias nfs si)) (fst (netif_addrs cfg ias nfs si)).
Proof.
  intros H. assert (G : forall l nfs si, mgmt_in si nfs ->
    mgmt_in (snd (fold_left (addr_one cfg) l (nfs, si))) (fst (fold_left (addr_one cfg) l (nfs, si)))).
  { clear. induction l as [|ia l IH]; intros nfs si H; cbn [fold_left]; [assumption|].
    pose proof (addr_one_mgmt cfg nfs si ia H) as K. destruct (addr_one cfg (nfs, si) ia) as [a b]. now apply IH. }
  specialize (G ias nfs si H). unfold netif_addrs. destruct (fold_left _ _ _) as [a b]. cbn [fst snd] in G.
  destruct (negb _); [assumption|]. destruct (si_mnetif b) as [m|] eqn:S; [|assumption].
  destruct (netif_byindex a m) as [mn|]; [|assumption]. cbn [fst snd]. intros x Hx.
  replace (indices _) with (indices a); [now apply G|]. unfold indices. rewrite map_map. now apply map_ext.
Qed.

(** ** The whole function *)
Section whole.
Variables (cfg : ncfg) (os : nos) (nfs : list netif) (si : sysinfo).
Variables (ret : Z) (nfs' : list netif) (si' : sysinfo) (gone : list Z) (ias : list ifaddr).
Definition old (n : netif) : bool := nf_type n =? NETIF_OLD.
Lemma fetch_phases : no_ifaddrs os = Some ias -> netif_fetch cfg os nfs si = (ret, nfs', si', gone) ->
  exists si0 nfs1 si1 count si4 nfs4,
    si_mnetif si0 = si_mnetif si
    /\ fold_left (fetch_one cfg os) ias (map (set_type NETIF_OLD) nfs, si0, 0) = (nfs1, si1, count)
    /\ let '(nfs2, si2, g) := remove_old nfs1 si1 in
       gone = g /\ netif_addrs cfg ias (fold_left (detect_one os) (map nf_index nfs2) nfs2) si2 = (nfs4, si4)
       /\ si_mnetif si' = si_mnetif si4
       /\ ((0 < zlen (nc_ifl cfg) /\ exists c, argv_loop (nc_ifl cfg) nfs4 0 = (nfs', c)
              /\ ret = (if c =? zlen (nc_ifl cfg) then c else 0) mod 65536)
           \/ (nc_ifl cfg = [] /\ nfs' = nfs4 /\ ret = count mod 65536)).
Proof.
  intros E. unfold netif_fetch. rewrite E.
  set (si0 := set_caps _ _ _ si). set (f1 := fold_left (fetch_one cfg os) ias _). destruct f1 as [[nfs1 si1] count] eqn:F1.
  destruct (remove_old nfs1 si1) as [[nfs2 si2] g] eqn:R.
  set (f3 := fold_left (detect_one os) _ _). destruct (netif_addrs cfg ias f3 si2) as [nfs4 si4] eqn:A.
  set (si5 := match nfs4 with _ :: _ => _ | _ => _ end). assert (M5 : si_mnetif si5 = si_mnetif si4) by (unfold si5; now destruct nfs4).
  intros H. exists si0, nfs1, si1, count, si4, nfs4. split; [reflexivity|]. split; [exact F1|]. rewrite R.
  destruct (0 <? zlen (nc_ifl cfg)) eqn:L.
  - destruct (argv_loop (nc_ifl cfg) nfs4 0) as [nfs5 c] eqn:AL. injection H as <- <- <- <-.
    split; [reflexivity|]. split; [exact A|]. split; [exact M5|]. left. split; [lia|]. exists c. now split.
  - injection H as <- <- <- <-. split; [reflexivity|]. split; [exact A|]. split; [exact M5|]. right.
    split; [|now split]. apply zlen_0. pose proof (zlen_nonneg _ (nc_ifl cfg)). lia.
Qed.

Lemma entry_usable ia i : no_ifaddrs os = Some ias -> In ia ias -> entry_of os ia = Some i ->
  usable_as os i (ia_name ia) (netif_type os i (ia_name ia)).
Proof.
  intros E H K. unfold entry_of in K. destruct (ia_addr ia) as [[h j a| | |]|] eqn:A; try discriminate.
  destruct (h =? ARPHRD_ETHER) eqn:H1; cbn [andb] in K; [|discriminate].
  destruct (netif_type os j (ia_name ia) =? NETIF_INVALID) eqn:H2; cbn [negb andb] in K; [discriminate|].
  destruct (up os (ia_name ia)) eqn:H3; [|discriminate]. injection K as ->. split; [|split].
  - exists ias, a. split; [assumption|]. replace h with 1 in A by (unfold ARPHRD_ETHER in *; lia).
    destruct ia as [nm ad]. cbn in *. now rewrite <- A.
  - apply netif_type_kind. lia.
  - unfold up in H3. destruct (no_flags os (firstn 15 (ia_name ia))) as [f|]; [|discriminate]. exists f. split; [reflexivity|].
    unfold IFF_UP in H3. change 1 with (2 ^ 0) in H3. now rewrite has_bit in H3 by lia.
Qed.
Lemma usable_entry i name ty : no_ifaddrs os = Some ias -> usable_as os i name ty ->
  exists a, In (mkIfa name (Some (SALink 1 i a))) ias /\ entry_of os (mkIfa name (Some (SALink 1 i a))) = Some i.
Proof.
  intros E ((ias' & a & E' & Hin) & Hk & f & Hf & Hb). rewrite E in E'. injection E' as <-. exists a. split; [assumption|].
  unfold entry_of, up. cbn [ia_addr ia_name]. apply kind_netif_type in Hk as [-> Hty]. rewrite Hf.
  unfold IFF_UP, ARPHRD_ETHER. assert (B : has f 1 = true) by (rewrite <- Hb; change 1 with (2 ^ 0); apply has_bit; lia). rewrite B.
  replace (ty =? NETIF_INVALID) with false by lia. reflexivity.
Qed.
Lemma seen_usable i : no_ifaddrs os = Some ias -> (seen os ias i <-> usable os i).
Proof.
  intros E. split.
  - intros (ia & H & K). exists (ia_name ia), (netif_type os i (ia_name ia)). now apply entry_usable.
  - intros (name & ty & H). destruct (usable_entry i name ty E H) as (a & H1 & H2). eexists. split; [exact H1|exact H2].
Qed.

(** The table before members are linked. *)
Definition phase2 (tbl : list netif) : Prop :=
  NoDup (indices tbl)
  /\ (forall i, In i (indices tbl) <-> usable os i)
  /\ (forall n, In n tbl -> exists ia, In ia ias /\ entry_of os ia = Some (nf_index n) /\ n = fresh_of os nfs ia (nf_index n)).
Lemma remove_phase2 tbl s : no_ifaddrs os = Some ias -> phase1 os nfs ias tbl -> phase2 (fst (fst (remove_old tbl s))).
Proof.
  intros E (Hd & Hn & Hi). unfold remove_old. cbn [fst]. fold old.
  assert (F : forall n, In n tbl -> (negb (old n) = true <-> seen os ias (nf_index n))).
  { intros n K. destruct (Hn n K) as [(S1 & o & Ho & ->)|(ia & S1 & S2 & S3)].
    - split; [discriminate|]. intros S. contradiction.
    - split; [intros _; now exists ia|]. intros _. rewrite S3. unfold old. rewrite fresh_type.
      pose proof (entry_usable ia (nf_index n) E S1 S2) as (_ & Hk & _). apply kind_range in Hk. unfold NETIF_OLD. lia. }
  split; [|split].
  - now apply NoDup_map_filter.
  - intros i. rewrite <- seen_usable by assumption. unfold indices. rewrite in_map_iff. split.
    + intros (n & <- & K). apply filter_In in K as [K1 K2]. now apply F.
    + intros S. assert (K : In i (indices tbl)) by (apply Hi; now right). apply in_map_iff in K as (n & <- & K).
      exists n. split; [reflexivity|]. apply filter_In. split; [assumption|]. now apply F.
  - intros n K. apply filter_In in K as [K1 K2]. destruct (Hn n K1) as [(S1 & _)|S]; [|assumption].
    apply F in K2; [contradiction|assumption].
Qed.
Lemma remove_gone tbl s i : no_ifaddrs os = Some ias -> phase1 os nfs ias tbl ->
  (In i (snd (remove_old tbl s)) <-> In i (indices nfs) /\ ~ usable os i).
Proof.
  intros E (Hd & Hn & Hi). unfold remove_old. cbn [snd]. rewrite <- seen_usable by assumption. rewrite in_map_iff. split.
  - intros (n & <- & K). apply filter_In in K as [K1 K2]. destruct (Hn n K1) as [(S1 & o & Ho & ->)|(ia & S1 & S2 & S3)].
    + split; [now apply (in_map nf_index) in Ho|assumption].
    + rewrite S3, fresh_type in K2. pose proof (entry_usable ia (nf_index n) E S1 S2) as (_ & Hk & _). apply kind_range in Hk.
      unfold NETIF_OLD in K2. exfalso. lia.
  - intros (K & S). assert (K' : In i (indices tbl)) by (apply Hi; now left). apply in_map_iff in K' as (n & <- & K').
    exists n. split; [reflexivity|]. apply filter_In. split; [assumption|].
    destruct (Hn n K') as [(S1 & o & Ho & ->)|(ia & S1 & S2 & S3)]; [reflexivity|]. contradiction S. now exists ia.
Qed.
Lemma fetch_core : no_ifaddrs os = Some ias -> NoDup (indices nfs) -> netif_fetch cfg os nfs si = (ret, nfs', si', gone) ->
  exists nfs2, phase2 nfs2 /\ map core nfs' = map core nfs2.
Proof.
  intros E Hd H. destruct (fetch_phases E H) as (si0 & nfs1 & si1 & count & si4 & nfs4 & _ & F1 & K).
  pose proof (phase1_fold cfg os nfs Hd ias [] _ _ _ _ _ _ (phase1_start os nfs Hd) F1) as P1. cbn [app] in P1.
  pose proof (remove_phase2 nfs1 si1 E P1) as P2.
  destruct (remove_old nfs1 si1) as [[nfs2 si2] g]. cbn [fst] in P2. destruct K as (_ & A & _ & V).
  exists nfs2. split; [assumption|]. pose proof (addrs_core cfg ias (fold_left (detect_one os) (map nf_index nfs2) nfs2) si2) as C4.
  rewrite A in C4. cbn [fst] in C4. rewrite detect_all_core in C4. destruct V as [(_ & c & V & _)|(_ & -> & _)]; [|assumption].
  pose proof (argv_core (nc_ifl cfg) nfs4 0) as C5. rewrite V in C5. cbn [fst] in C5. congruence.
Qed.
Lemma fetch_exact : no_ifaddrs os = Some ias -> NoDup (indices nfs) -> netif_fetch cfg os nfs si = (ret, nfs', si', gone) ->
  table_exact os nfs' /\ (forall n, In n nfs' -> survives nfs n /\ nf_update n = 0)
  /\ (forall i, In i gone <-> In i (indices nfs) /\ ~ usable os i).
Proof.
  intros E Hd H. destruct (fetch_core E Hd H) as (nfs2 & (P1 & P2 & P3) & C).
  pose proof (core_index _ _ C) as CI.
  assert (D : forall n, In n nfs' -> exists ia, In ia ias /\ entry_of os ia = Some (nf_index n)
    /\ core n = core (fresh_of os nfs ia (nf_index n))).
  { intros n Hn. destruct (core_in _ _ _ C Hn) as (m & Hm & Cm). destruct (P3 m Hm) as (ia & I1 & I2 & I3).
    assert (Ei : nf_index n = nf_index m) by (injection Cm; auto). exists ia. rewrite Ei. split; [assumption|]. split; [assumption|].
    rewrite <- I3. exact Cm. }
  split; [split; [now rewrite CI|split]|split].
  - intros i. rewrite CI. apply P2.
  - intros n Hn. destruct (D n Hn) as (ia & I1 & I2 & I3). exists (ia_name ia).
    unfold core, fresh_of in I3. destruct (netif_byindex nfs (nf_index n)) as [o|]; cbn in I3; injection I3 as E1 E2 E3 E4 E5 E6;
      rewrite E1, E2, E3, <- cstr_before_nul; (split; [now apply entry_usable|now split]).
  - intros n Hn. destruct (D n Hn) as (ia & I1 & I2 & I3). unfold core, fresh_of in I3.
    destruct (netif_byindex nfs (nf_index n)) as [o|] eqn:B; cbn in I3; injection I3 as E1 E2 E3 E4 E5 E6.
    + apply byindex_some in B as [B1 B2]. split; [|assumption]. split.
      * intros o' Ho' Eo. replace o' with o; [now split|].
        pose proof (byindex_in nfs o Hd B1) as Q1. pose proof (byindex_in nfs o' Hd Ho') as Q2. rewrite B2 in Q1. rewrite Eo in Q2. congruence.
      * intros K. contradiction K. rewrite <- B2. now apply in_map.
    + apply byindex_none in B. split; [|assumption]. split; [|now split]. intros o Ho Eo. contradiction B. rewrite <- Eo. now apply in_map.
  - destruct (fetch_phases E H) as (si0 & nfs1 & si1 & count & si4 & nfs4 & _ & F1 & K).
    pose proof (phase1_fold cfg os nfs Hd ias [] _ _ _ _ _ _ (phase1_start os nfs Hd) F1) as Q1. cbn [app] in Q1.
    intros i. pose proof (remove_gone nfs1 si1 i E Q1) as G. destruct (remove_old nfs1 si1) as [[a b] g]. destruct K as (-> & _). exact G.
Qed.
Lemma fetch_mgmt : no_ifaddrs os = Some ias -> NoDup (indices nfs) -> netif_fetch cfg os nfs si = (ret, nfs', si', gone) ->
  mgmt_in si nfs -> mgmt_in si' nfs'.
Proof.
  intros E Hd H Hm. destruct (fetch_phases E H) as (si0 & nfs1 & si1 & count & si4 & nfs4 & M0 & F1 & K).
  pose proof (phase1_start os nfs Hd) as S0.
  assert (Hm0 : mgmt_in si0 (map (set_type NETIF_OLD) nfs)).
  { intros m Em. rewrite M0 in Em. apply Hm in Em. unfold indices. rewrite map_map. exact Em. }
  pose proof (phase1_mgmt cfg os nfs Hd ias [] _ _ _ _ _ _ S0 Hm0 F1) as M1.
  assert (M2 : mgmt_in (snd (fst (remove_old nfs1 si1))) (fst (fst (remove_old nfs1 si1)))).
  { unfold remove_old. cbn [fst snd]. intros m. destruct (si_mnetif si1) as [k|] eqn:S; [|rewrite S; discriminate].
    destruct (existsb _ _) eqn:X; [discriminate|]. rewrite S. intros Q. injection Q as ->.
    pose proof (M1 m S) as Q. apply in_map_iff in Q as (n & En & Q). apply in_map_iff. exists n. split; [assumption|].
    apply filter_In. split; [assumption|]. apply negb_true_iff. apply not_true_is_false. intros O.
    apply not_true_iff_false in X. apply X. apply existsb_exists. exists m. split; [|lia]. apply in_map_iff. exists n.
    split; [assumption|]. now apply filter_In. }
  destruct (remove_old nfs1 si1) as [[nfs2 si2] g]. cbn [fst snd] in M2. destruct K as (_ & A & M5 & V).
  assert (M3 : mgmt_in si2 (fold_left (detect_one os) (map nf_index nfs2) nfs2)).
  { intros m Em. rewrite (core_index _ nfs2 (detect_all_core os _ _)). now apply M2. }
  pose proof (addrs_mgmt cfg ias _ _ M3) as M4. rewrite A in M4. cbn [fst snd] in M4.
  assert (Q : indices nfs' = indices nfs4).
  { destruct V as [(_ & c & V & _)|(_ & -> & _)]; [|reflexivity].
    pose proof (argv_core (nc_ifl cfg) nfs4 0) as C5. rewrite V in C5. now apply core_index in C5. }
  intros m Em. rewrite Q. apply M4. congruence.
Qed.
End whole.
