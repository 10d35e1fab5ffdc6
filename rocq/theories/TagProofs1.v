(** Proofs of C105: the numbers of the slaves of a bond. *)
From Verif Require Import Base Types Tlv Util Netif Spec SpecAdv SpecNetif SpecTags.
From Verif Require Import Lemmas VisProofs VisProps ChildProofs ChildProofs4 NetifProofs1 NetifProofs2 NetifProofs3 NetifProofs4 NetifProofs5.

Definition snum (os : nos) (base : list netif) (n : netif) : Prop :=
  forall q p, nf_parent n = Some q -> netif_byindex base q = Some p -> nf_type p = 12 ->
  exists i, slave_number os p n i /\ nf_lacp_index n = i mod 256.
Definition slaves_numbered (os : nos) (nfs : list netif) : Prop := forall n, In n nfs -> snum os nfs n.
Lemma snum_assign os base f i nfs : (forall n, In n nfs -> nf_index n = i -> snum os base n -> snum os base (f n)) ->
  Forall (snum os base) nfs -> Forall (snum os base) (nf_assign f i nfs).
Proof.
  intros H K. rewrite Forall_forall in *. intros n Hn. apply assign_in in Hn as [Hn|(m & Hm & Em & ->)]; [now apply K|]. apply H; [assumption|assumption|now apply K].
Qed.
Lemma snum_member os base par last s ch la nfs :
  (forall n, In n nfs -> nf_index n = s -> forall p, netif_byindex base par = Some p -> nf_type p = 12 -> exists i, slave_number os p n i /\ la = i mod 256) ->
  Forall (snum os base) nfs -> Forall (snum os base) (add_member par last s ch la nfs).
Proof.
  intros H K. unfold add_member. apply snum_assign; [intros n _ _ Q; exact Q|]. apply snum_assign; [|assumption].
  intros n Hn En _ q p Hq Hp Ht. cbn [set_child nf_parent] in Hq. injection Hq as <-. exact (H n Hn En p Hp Ht).
Qed.
Lemma snum_bond os base p pn m k : NoDup (indices base) -> nf_name p = pn -> netif_byindex base (nf_index p) = Some p -> no_bond os pn = Some (m, k) ->
  forall j i last nfs, map core nfs = map core base -> 0 <= i -> i + Z.of_nat j <= k -> Forall (snum os base) nfs ->
  Forall (snum os base) (bond_loop os (nf_index p) pn j i last nfs).
Proof.
  intros D Ep Bp Bm. induction j as [|j IH]; intros i last nfs C Hi Hj H; cbn [bond_loop]; [assumption|].
  destruct (no_slave os pn i) as [[x st]|] eqn:NS; [|apply IH; (assumption || lia)].
  destruct (netif_byname nfs x) as [s|] eqn:B; [|apply IH; (assumption || lia)]. destruct (_ <? _); [|apply IH; (assumption || lia)].
  apply IH; [rewrite add_member_core; assumption|lia|lia|]. apply snum_member; [|assumption]. intros n Hn En p' Hp' _.
  rewrite Bp in Hp'. injection Hp' as <-. exists i. split; [|reflexivity]. exists m, k, st. rewrite Ep. split; [assumption|]. split; [lia|].
  apply byname_in in B as [B1 B2]. assert (Dn : NoDup (indices nfs)) by now rewrite (core_index _ _ C).
  pose proof (byindex_in nfs n Dn Hn) as X. rewrite En, (byindex_in nfs s Dn B1) in X. injection X as ->. now rewrite B2.
Qed.
Lemma snum_bridge os base par p : netif_byindex base par = Some p -> nf_type p <> 12 -> forall ports last nfs,
  Forall (snum os base) nfs -> Forall (snum os base) (bridge_loop par ports last nfs).
Proof.
  intros B T. induction ports as [|i ports IH]; intros last nfs H; cbn [bridge_loop]; [assumption|].
  destruct (netif_byindex nfs i); [|now apply IH]. destruct (_ <? _); [|now apply IH]. apply IH, snum_member; [|assumption]. intros; congruence.
Qed.
Lemma snum_team os base par ch p : netif_byindex base par = Some p -> nf_type p <> 12 -> forall ports last nfs,
  Forall (snum os base) nfs -> Forall (snum os base) (team_loop par ch ports last nfs).
Proof.
  intros B T. induction ports as [|i ports IH]; intros last nfs H; cbn [team_loop]; [assumption|].
  destruct (netif_byindex nfs i); [|now apply IH]. destruct (_ <? _); [now apply IH|]. apply IH, snum_member; [|assumption]. intros; congruence.
Qed.
Lemma snum_detect os base nfs i : NoDup (indices base) -> map core nfs = map core base -> Forall (snum os base) nfs ->
  Forall (snum os base) (detect_one os nfs i).
Proof.
  intros D C H. unfold detect_one. destruct (netif_byindex nfs i) as [n|] eqn:B; [|assumption].
  destruct (byindex_core base nfs i n C B) as (b & Hb & Eb). apply core_fields in Eb as (E1 & E2 & E3).
  apply byindex_some in B as B'. destruct B' as [Nin Ni]. subst i. rewrite E3. change NETIF_TEAMING with 11. change NETIF_BONDING with 12. change NETIF_BRIDGE with 13.
  destruct (nf_type b =? 11) eqn:T1.
  { unfold netif_team. destruct (no_team os (nf_index n)) as [[[m ports] a]|]; [|assumption].
    assert (G : Forall (snum os base) (nf_assign (set_bonding_mode m) (nf_index n) nfs)) by (apply snum_assign; [intros x _ _ K; exact K|assumption]).
    destruct (m =? NETIF_BONDING_FAILOVER); [apply snum_assign; [intros x _ _ K; exact K|]|]; apply (snum_team os base _ _ b Hb); (assumption || lia). }
  destruct (nf_type b =? 12) eqn:T2.
  { unfold netif_bond. destruct (no_bond os (nf_name n)) as [[m s]|] eqn:NB; [|assumption].
    destruct (Z.le_gt_cases 0 s) as [Ps|Ps].
    - rewrite E1, E2. rewrite E2 in NB. apply byindex_some in Hb as Hb'. destruct Hb' as [_ Hbi].
      apply (snum_bond os base b (nf_name b) m s D eq_refl); [congruence|assumption| |lia|lia|].
      + rewrite <- C. destruct (m =? BOND_MODE_8023AD); [now apply mild_assign|]. destruct (m =? BOND_MODE_ACTIVEBACKUP); [now apply mild_assign|reflexivity].
      + destruct (m =? BOND_MODE_8023AD); [apply snum_assign; [intros x _ _ K; exact K|assumption]|].
        destruct (m =? BOND_MODE_ACTIVEBACKUP); [apply snum_assign; [intros x _ _ K; exact K|assumption]|assumption].
    - replace (Z.to_nat s) with 0%nat by lia. cbn [bond_loop].
      destruct (m =? BOND_MODE_8023AD); [apply snum_assign; [intros x _ _ K; exact K|assumption]|].
      destruct (m =? BOND_MODE_ACTIVEBACKUP); [apply snum_assign; [intros x _ _ K; exact K|assumption]|assumption]. }
  destruct (nf_type b =? 13) eqn:T3.
  { unfold netif_bridge. destruct (no_bridge os (nf_name n)); [|assumption]. apply (snum_bridge os base _ b Hb); (assumption || lia). }
  destruct (nf_type b =? NETIF_VLAN).
  { unfold netif_vlan. destruct (no_vlan os (nf_name n)) as [d|]; [|assumption].
    destruct (netif_byname nfs d) as [q|]; [|assumption]. apply snum_assign; [intros x _ _ K; exact K|assumption]. }
  destruct (nf_type b =? NETIF_REGULAR); [|assumption].
  unfold netif_device_id. destruct (negb _); [assumption|]. apply snum_assign; [intros x _ _ K; exact K|assumption].
Qed.
Lemma snum_all os base : NoDup (indices base) -> forall l nfs, map core nfs = map core base -> Forall (snum os base) nfs ->
  Forall (snum os base) (fold_left (detect_one os) l nfs).
Proof.
  intros D. induction l as [|i l IH]; intros nfs C H; cbn [fold_left]; [assumption|]. apply IH; [rewrite detect_core; assumption|now apply snum_detect].
Qed.
(** What the last steps leave alone. *)
Definition pl (n : netif) := (nf_parent n, nf_lacp_index n, nf_name n).
Lemma fetch_numbered cfg os nfs si ret nfs' si' gone ias : no_ifaddrs os = Some ias -> NoDup (indices nfs) ->
  netif_fetch cfg os nfs si = (ret, nfs', si', gone) -> slaves_numbered os nfs'.
Proof.
  intros E Hd H. destruct (fetch_phases _ _ _ _ _ _ _ _ _ E H) as (si0 & nfs1 & si1 & count & si4 & nfs4 & _ & F1 & K).
  pose proof (phase1_fold cfg os nfs Hd ias [] _ _ _ _ _ _ (phase1_start os nfs Hd) F1) as P1. cbn [app] in P1.
  pose proof (remove_phase2 os nfs ret ias nfs1 si1 E P1) as P2.
  destruct (remove_old nfs1 si1) as [[nfs2 si2] g]. cbn [fst] in P2. destruct K as (_ & A & _ & V).
  set (nfs3 := fold_left (detect_one os) (map nf_index nfs2) nfs2) in A.
  assert (ND : NoDup (indices nfs2)) by apply P2.
  assert (S3 : Forall (snum os nfs2) nfs3).
  { apply snum_all; [assumption|reflexivity|]. apply Forall_forall. intros n Hn q p Hq. destruct (phase2_zero _ _ _ _ _ P2 Hn) as [Z _].
    injection Z as Z1 Z2 Z3 Z4 Z5 Z6. congruence. }
  pose proof (addrs_core cfg ias nfs3 si2) as C4. pose proof (addrs_pj pl (fun _ _ _ => eq_refl) (fun _ _ => eq_refl) cfg ias nfs3 si2) as L4.
  rewrite A in C4, L4. cbn [fst] in C4, L4. assert (C3 : map core nfs3 = map core nfs2) by (unfold nfs3; apply detect_all_core).
  assert (X : map core nfs' = map core nfs2 /\ map pl nfs' = map pl nfs3).
  { destruct V as [(_ & c & V & _)|(_ & -> & _)]; [|split; [congruence|exact L4]].
    pose proof (argv_core (nc_ifl cfg) nfs4 0) as C5. pose proof (argv_pj pl (fun _ _ => eq_refl) (nc_ifl cfg) nfs4 0) as L5.
    rewrite V in C5, L5. cbn [fst] in C5, L5. split; [congruence|]. rewrite L5. exact L4. }
  destruct X as [X1 X2]. intros n Hn q p Hq Hp Ht. apply (in_map pl) in Hn. rewrite X2 in Hn. apply in_map_iff in Hn as (n3 & E3 & Hn3).
  injection E3 as Q1 Q2 Q3. rewrite Forall_forall in S3. destruct (byindex_core nfs2 nfs' q p X1 Hp) as (b & Hb & Eb). apply core_fields in Eb as (B1 & B2 & B3).
  destruct (S3 n3 Hn3 q b) as (i & (m & k & st & I1 & I2 & I3) & I4); [congruence|assumption|congruence|].
  exists i. split; [|congruence]. exists m, k, st. rewrite B2. split; [assumption|]. split; [assumption|]. congruence.
Qed.
