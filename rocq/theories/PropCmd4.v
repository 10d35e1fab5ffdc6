(** C146: with whose addresses the command line has interfaces announced. *)
From Verif Require Import Base Types Tlv Wire Util Child Netif Sysinfo Send Bsd HostBsd BsdSend Opts Getopt Config
  Spec SpecAdv SpecNetif SpecNetif2 SpecSend SpecSys SpecOpts SpecGetopt SpecCmd SpecBsd SpecHostBsd SpecBsdSend SpecCmd3.
From Verif Require Import Lemmas SendProofs6 CmdProofs6 Cases6 Cases8 Cases14 PropGetopt PropCmd PropBsdSend PropCmdBsd.

(** Whenever the daemon sends anything, every interface in its table has the hardware
    address the kernel lists for it at that moment, and the first usable IPv4 and IPv6
    address listed for it, or with -n for the last interface given with -m. *)
Theorem C146_addresses n perm words s names o st e st' eff i p f ias k x :
  main_argv n perm words = Some (s, names) -> says perm daemon_letters words o names ->
  running (conf_of s names) st -> event_ok e -> lists e ias -> names_apart ias ->
  send_step (conf_of s names) st e = DOk (st', eff) -> In (SFrame i p f) eff ->
  In k (table st') -> source n o (table st') k x ->
  nf_hwaddr k = main_hw ias (nf_name k) /\ nf_ipaddr4 k = main4 ias x /\ nf_ipaddr6 k = main6 ias x.
Proof. exact (cmd_addresses n perm words s names o st e st' eff i p f ias k x). Qed.
Print Assumptions C146_addresses.

(** From the command line and the list of the kernel to the wire: with -m, each LLDP
    frame has as management addresses those listed for that interface. *)
Theorem C146_wire n perm words s names o st e st' eff i f tlvs ias before m :
  main_argv n perm words = Some (s, names) -> says perm daemon_letters words o names ->
  running (conf_of s names) st -> event_ok e -> lists e ias -> names_apart ias ->
  send_step (conf_of s names) st e = DOk (st', eff) -> In (SFrame i 0 f) eff ->
  Forall lldp_fits tlvs -> skipn 14 f = flat_map lldp_bytes tlvs ->
  m_interfaces n o = before ++ [nf_name m] -> In m (table st') ->
  let x := nf_name m in
  filter (fun t => fst t =? 8) tlvs
  = when (is_set (main4 ias x)) [mgmt_tlv 1 (main4 ias x) (nf_index m)]
    ++ when (is_set (main6 ias x)) [mgmt_tlv 2 (main6 ias x) (nf_index m)] ++ [mgmt_tlv 6 (main_hw ias x) (nf_index m)].
Proof. exact (cmd_wire n perm words s names o st e st' eff i f tlvs ias before m). Qed.
Print Assumptions C146_wire.

(** The same on FreeBSD and OpenBSD. *)
Theorem C146_addresses_bsd n perm words s names o pf st e st' eff i p f ias k x :
  main_argv n perm words = Some (s, names) -> says perm daemon_letters words o names ->
  b_running (conf_of s names) pf st -> b_event_ok e -> b_lists e ias ->
  bc_step (conf_of s names) pf st e = DOk (st', eff) -> In (SFrame i p f) eff ->
  In k (table st') -> source n o (table st') k x ->
  nf_hwaddr k = main_hw ias (nf_name k) /\ nf_ipaddr4 k = main4 ias x /\ nf_ipaddr6 k = main6 ias x.
Proof. exact (b_cmd_addresses n perm words s names o pf st e st' eff i p f ias k x). Qed.
Print Assumptions C146_addresses_bsd.

Theorem C146_wire_bsd n perm words s names o pf st e st' eff i f tlvs ias before m :
  main_argv n perm words = Some (s, names) -> says perm daemon_letters words o names ->
  b_running (conf_of s names) pf st -> b_event_ok e -> b_lists e ias ->
  bc_step (conf_of s names) pf st e = DOk (st', eff) -> In (SFrame i 0 f) eff ->
  Forall lldp_fits tlvs -> skipn 14 f = flat_map lldp_bytes tlvs ->
  m_interfaces n o = before ++ [nf_name m] -> In m (table st') ->
  let x := nf_name m in
  filter (fun t => fst t =? 8) tlvs
  = when (is_set (main4 ias x)) [mgmt_tlv 1 (main4 ias x) (nf_index m)]
    ++ when (is_set (main6 ias x)) [mgmt_tlv 2 (main6 ias x) (nf_index m)] ++ [mgmt_tlv 6 (main_hw ias x) (nf_index m)].
Proof. exact (b_cmd_wire n perm words s names o pf st e st' eff i f tlvs ias before m). Qed.
Print Assumptions C146_wire_bsd.

(** *** Examples *)
(** ladvd -fLn -m eth0, on a host with eth0 (10.0.0.1) and a bond of eth1 and eth2: eth1
    is announced with 10.0.0.1. *)
Definition cp_w : list (list Z) := [bs "-fLn"; bs "-m"; bs "eth0"].
Definition cp_o : list (Z * list Z) := [(102, []); (76, []); (110, []); (109, bs "eth0")].
Definition cp_s : setup := Eval vm_compute in match main_argv gg_n false cp_w with Some (s, _) => s | None => cc_s end.
Lemma cp_says perm : says perm daemon_letters cp_w cp_o [].
Proof.
  apply (says_bare perm daemon_letters (bs "fLn") _ [(109, bs "eth0")]); [discriminate|gg_letters|].
  apply (says_apart perm daemon_letters [] 109 (bs "eth0") _ []); [gg_letters|cbn; auto 20|apply says_nothing].
Qed.
Definition cp_st1 : sstate := Eval vm_compute in w_after (conf_of cp_s []) w_st0 w_run.
Definition cp_eff : list seff := Eval vm_compute in w_eff (conf_of cp_s []) w_st0 w_run.
Definition cp_f : list Z := Eval vm_compute in match filter (fun x => fst (fst x) =? 2) (frames cp_eff) with (_, _, f) :: _ => f | [] => [] end.
Definition cp_tlvs : list tlv := Eval vm_compute in cc_split 100 (skipn 14 cp_f).
Lemma cp_management n o T k before m x : nf_name m = x -> given (bs "n") o = true -> m_interfaces n o = before ++ [x] -> In m T -> source n o T k x.
Proof. intros <-. apply of_management. Qed.
Example C146_case :
  main_argv gg_n false cp_w = Some (cp_s, []) /\ says false daemon_letters cp_w cp_o [] /\ running (conf_of cp_s []) w_st0
  /\ event_ok w_run /\ lists w_run cc_ias /\ names_apart cc_ias /\ send_step (conf_of cp_s []) w_st0 w_run = DOk (cp_st1, cp_eff)
  /\ In (SFrame 2 0 cp_f) cp_eff /\ Forall lldp_fits cp_tlvs /\ skipn 14 cp_f = flat_map lldp_bytes cp_tlvs
  /\ (exists k, In k (table cp_st1) /\ nf_name k = bs "eth1" /\ source gg_n cp_o (table cp_st1) k (bs "eth0") /\ nf_ipaddr4 k = [10; 0; 0; 1])
  /\ main4 cc_ias (bs "eth0") = [10; 0; 0; 1] /\ main4 cc_ias (bs "eth1") = [0; 0; 0; 0]
  /\ (exists m, m_interfaces gg_n cp_o = [] ++ [nf_name m] /\ In m (table cp_st1))
  /\ filter (fun t => fst t =? 8) cp_tlvs = [(8, [5; 1; 10; 0; 0; 1; 2; 0; 0; 0; 1; 0]); (8, [7; 6; 2; 0; 0; 0; 0; 1; 2; 0; 0; 0; 1; 0])].
Proof.
  split; [vm_compute; reflexivity|]. split; [exact (cp_says false)|]. split; [apply w_boot|]. split; [exact w_run_ok|]. split; [vm_compute; reflexivity|].
  split; [apply apart_ok; vm_compute; reflexivity|]. split; [vm_compute; reflexivity|]. split; [apply (proj2 (in_frames 2 0 cp_f _)); vm_compute; auto 20|].
  split; [repeat (apply Forall_cons; [split; [cbn; lia|vm_compute; reflexivity]|]); apply Forall_nil|]. split; [vm_compute; reflexivity|].
  assert (HM : exists m, In m (table cp_st1) /\ nf_name m = bs "eth0") by (eexists; split; [vm_compute; left; reflexivity|vm_compute; reflexivity]).
  split.
  { eexists. split; [vm_compute; right; left; reflexivity|]. split; [vm_compute; reflexivity|]. split; [|vm_compute; reflexivity].
    destruct HM as (m & M1 & M2). apply (cp_management _ _ _ _ [] m _ M2); [vm_compute; reflexivity| |exact M1]. vm_compute. reflexivity. }
  split; [vm_compute; reflexivity|]. split; [vm_compute; reflexivity|].
  split; [destruct HM as (m & M1 & M2); exists m; split; [rewrite M2; vm_compute; reflexivity|exact M1]|]. vm_compute. reflexivity.
Qed.
(** Without -m on FreeBSD (the daemon of C144_case): lagg0 has its own address. *)
Lemma cp_own n o T k x : nf_name k = x -> given (bs "m") o = false -> source n o T k x.
Proof. intros <- G. apply own. now right. Qed.
Example C146_own_case :
  b_lists (BRun f_os1 1000) (match bo_ifaddrs f_os1 with Some l => l | None => [] end)
  /\ exists k, In k (table (fst cv_run)) /\ source cv_n cv_o (table (fst cv_run)) k (bs "lagg0") /\ nf_ipaddr4 k = [10; 0; 0; 2].
Proof.
  split; [vm_compute; reflexivity|]. eexists. split; [vm_compute; right; right; left; reflexivity|].
  split; [apply cp_own; vm_compute; reflexivity|]. vm_compute. reflexivity.
Qed.
