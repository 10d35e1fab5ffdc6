(** Proofs of C146. *)
From Verif Require Import Base Types Tlv Msg Protos Wire Util Child Netif Sysinfo Send Bsd HostBsd BsdSend Opts Getopt Config
  Spec SpecChild SpecAdv SpecNetif SpecNetif2 SpecSend SpecSys SpecOpts SpecGetopt SpecCmd SpecCmd2 SpecCmd3 SpecFlow SpecBsd SpecHostBsd SpecBsdSend SpecBsdE2E.
From Verif Require Import Lemmas VisProofs TypesProofs OptsProofs GetoptProofs ChildProofs4 NetifProofs6 NetifProofs8 NetifProofs9 SendProofs1 SendProofs2 SendProofs3 SendProofs4 SendProofs5 SendProofs6
  SysProofs1 SysProofs3 BsdProofs1 BsdProofs3 BsdSendProofs1 BsdSendProofs2 BsdSendProofs3 CmdProofs CmdProofs2 CmdBsdProofs CmdProofs5.

Lemma keep_addrs k k' : keep k = keep k' -> nf_hwaddr k = nf_hwaddr k' /\ nf_ipaddr4 k = nf_ipaddr4 k' /\ nf_ipaddr6 k = nf_ipaddr6 k'.
Proof. intros E. split; [exact (f_equal nf_hwaddr E)|]. split; [exact (f_equal nf_ipaddr4 E)|exact (f_equal nf_ipaddr6 E)]. Qed.
Lemma source_name n o names s nfs T k k' si x :
  main_opts n o names = Some s -> NoDup (indices nfs) -> map keep T = map keep nfs -> keep k = keep k' ->
  (forall q, In q nfs -> nc_mifname (sc_net (conf_of s names)) = Some (nf_name q) -> si_mnetif si = Some (nf_index q)) ->
  (unmanaged (sc_net (conf_of s names)) -> si_mnetif si = None) ->
  source n o T k x -> address_name (sc_net (conf_of s names)) si nfs k' = x.
Proof.
  intros M D KT Kk MI UN So. destruct (keep_is _ _ Kk) as (_ & Nk & _). unfold address_name. change (nc_opts (sc_net (conf_of s names))) with (u_opts s).
  pose proof (opt_on n o names s M OPT_MADDR 8 (bs "n")) as X. change (opt (conf_of s names) 8) with (Z.testbit (u_opts s) 8) in X. rewrite X by (cbn; auto 20 || reflexivity || lia). clear X.
  destruct So as [G|before m G1 G2 G3].
  - destruct (given (bs "n") o) eqn:Gn; [|congruence]. destruct G as [G|G]; [discriminate|]. rewrite (UN (opts_unmanaged n o names s M G)). congruence.
  - rewrite G1. destruct (keep_in T nfs m KT G3) as (q & Hq & Kq). destruct (keep_is _ _ Kq) as (K1 & K2 & _).
    rewrite (MI q Hq) by (rewrite (opts_managed n o names s before _ M G2); now rewrite K2).
    pose proof (at_in nfs q D Hq) as A. cbn [at_index] in A. rewrite A. now symmetry.
Qed.
Lemma cmd_addresses n perm words s names o st e st' eff i p f ias k x :
  main_argv n perm words = Some (s, names) -> says perm daemon_letters words o names ->
  running (conf_of s names) st -> event_ok e -> lists e ias -> names_apart ias ->
  send_step (conf_of s names) st e = DOk (st', eff) -> In (SFrame i p f) eff ->
  In k (table st') -> source n o (table st') k x ->
  nf_hwaddr k = main_hw ias (nf_name k) /\ nf_ipaddr4 k = main4 ias x /\ nf_ipaddr6 k = main6 ias x.
Proof.
  intros A Y R Oe Le NA H K Hk So. apply daemon_iff in A as (o' & Y' & M). destruct (says_unique _ _ _ _ _ _ _ (or_introl eq_refl) Y Y') as [<- _]. clear Y'.
  destruct (step_l_origin _ _ _ _ _ _ _ _ (running_inv _ _ R) Oe H K) as (os & Q & O & L).
  destruct L as (ret & nfs & gone & seq & top & sub & Fe & NZ & W & D & Si & _ & _ & _ & _ & KT).
  destruct (running_refreshed _ _ R) as (oss & nfs0 & R1 & R2).
  assert (Ei : no_ifaddrs os = Some ias) by (destruct e; cbn in Q, Le; [now subst|now subst|easy]).
  destruct (refresh_rest _ _ _ _ _ _ _ _ _ _ _ R1 R2 Ei O NA Fe) as (Ad & _ & _ & _ & _ & _ & MI & _).
  destruct (keep_in (table st') nfs k KT Hk) as (k' & Hk' & Kk). destruct (keep_addrs _ _ Kk) as (-> & -> & ->). destruct (keep_is _ _ Kk) as (_ & -> & _).
  destruct (Ad k' Hk') as (A1 & A2 & A3). rewrite A1, A2, A3.
  rewrite (source_name n o names s nfs (table st') k k' (st_si st') x M D KT Kk MI); [now repeat split| |exact So].
  intros U. exact (running_unmanaged _ _ U (run_event _ _ _ _ _ R Oe H)).
Qed.
Lemma b_cmd_addresses n perm words s names o pf st e st' eff i p f ias k x :
  main_argv n perm words = Some (s, names) -> says perm daemon_letters words o names ->
  b_running (conf_of s names) pf st -> b_event_ok e -> b_lists e ias ->
  bc_step (conf_of s names) pf st e = DOk (st', eff) -> In (SFrame i p f) eff ->
  In k (table st') -> source n o (table st') k x ->
  nf_hwaddr k = main_hw ias (nf_name k) /\ nf_ipaddr4 k = main4 ias x /\ nf_ipaddr6 k = main6 ias x.
Proof.
  intros A Y R Oe Le H K Hk So. apply daemon_iff in A as (o' & Y' & M). destruct (says_unique _ _ _ _ _ _ _ (or_introl eq_refl) Y Y') as [<- _]. clear Y'.
  destruct (step_bl_origin _ _ _ _ _ _ _ _ _ (b_running_inv _ _ _ R) Oe H K) as (os & Q & O & L).
  destruct L as (ret & nfs & gone & seq & top & sub & Fe & NZ & W & D & Si & _ & _ & _ & _ & KT).
  destruct (b_running_refreshed _ _ _ R) as (nfs0 & R1 & R2).
  assert (Ei : bo_ifaddrs os = Some ias) by (destruct e; cbn in Q, Le; [now subst|now subst|easy]).
  destruct (b_rest _ _ _ _ _ _ _ _ _ _ _ R1 R2 Ei O Fe) as (Ad & _ & _ & _ & _ & _ & MI & _).
  destruct (keep_in (table st') nfs k KT Hk) as (k' & Hk' & Kk). destruct (keep_addrs _ _ Kk) as (-> & -> & ->). destruct (keep_is _ _ Kk) as (_ & -> & _).
  destruct (Ad k' Hk') as (A1 & A2 & A3). rewrite A1, A2, A3.
  rewrite (source_name n o names s nfs (table st') k k' (st_si st') x M D KT Kk MI); [now repeat split| |exact So].
  intros U. exact (b_running_unmanaged _ _ _ U (brun_event _ _ _ _ _ _ R Oe H)).
Qed.
Lemma source_self n o T m before : m_interfaces n o = before ++ [nf_name m] -> In m T -> source n o T m (nf_name m).
Proof. intros G H. destruct (given (bs "n") o) eqn:X; [now apply (of_management n o T m before m)|]. apply own. now left. Qed.
Lemma cmd_wire n perm words s names o st e st' eff i f tlvs ias before m :
  main_argv n perm words = Some (s, names) -> says perm daemon_letters words o names ->
  running (conf_of s names) st -> event_ok e -> lists e ias -> names_apart ias ->
  send_step (conf_of s names) st e = DOk (st', eff) -> In (SFrame i 0 f) eff ->
  Forall lldp_fits tlvs -> skipn 14 f = flat_map lldp_bytes tlvs ->
  m_interfaces n o = before ++ [nf_name m] -> In m (table st') ->
  let x := nf_name m in
  filter (fun t => fst t =? 8) tlvs
  = when (is_set (main4 ias x)) [mgmt_tlv 1 (main4 ias x) (nf_index m)]
    ++ when (is_set (main6 ias x)) [mgmt_tlv 2 (main6 ias x) (nf_index m)] ++ [mgmt_tlv 6 (main_hw ias x) (nf_index m)].
Proof.
  intros A Y R Oe Le NA H K F E G Hm x.
  assert (Ap : event_apart e) by (destruct e; cbn in Le |- *; [intros l El; rewrite Le in El; apply (f_equal (fun o => match o with Some y => y | None => [] end)) in El; cbn in El; now subst|intros l El; rewrite Le in El; apply (f_equal (fun o => match o with Some y => y | None => [] end)) in El; cbn in El; now subst|exact I]).
  rewrite (cmd_managed n perm words s names o st e st' eff i f tlvs before m A Y R Oe Ap H K F E G Hm).
  destruct (cmd_addresses n perm words s names o st e st' eff i 0 f ias m x A Y R Oe Le NA H K Hm (source_self n o _ m before G Hm)) as (A1 & A2 & A3).
  unfold managed. now rewrite A1, A2, A3.
Qed.
Lemma b_cmd_wire n perm words s names o pf st e st' eff i f tlvs ias before m :
  main_argv n perm words = Some (s, names) -> says perm daemon_letters words o names ->
  b_running (conf_of s names) pf st -> b_event_ok e -> b_lists e ias ->
  bc_step (conf_of s names) pf st e = DOk (st', eff) -> In (SFrame i 0 f) eff ->
  Forall lldp_fits tlvs -> skipn 14 f = flat_map lldp_bytes tlvs ->
  m_interfaces n o = before ++ [nf_name m] -> In m (table st') ->
  let x := nf_name m in
  filter (fun t => fst t =? 8) tlvs
  = when (is_set (main4 ias x)) [mgmt_tlv 1 (main4 ias x) (nf_index m)]
    ++ when (is_set (main6 ias x)) [mgmt_tlv 2 (main6 ias x) (nf_index m)] ++ [mgmt_tlv 6 (main_hw ias x) (nf_index m)].
Proof.
  intros A Y R Oe Le H K F E G Hm x.
  rewrite (b_cmd_managed n perm words s names o pf st e st' eff i f tlvs before m A Y R Oe H K F E G Hm).
  destruct (b_cmd_addresses n perm words s names o pf st e st' eff i 0 f ias m x A Y R Oe Le H K Hm (source_self n o _ m before G Hm)) as (A1 & A2 & A3).
  unfold managed. now rewrite A1, A2, A3.
Qed.
