(** C145: which management addresses the command line asks for. *)
From Verif Require Import Base Types Tlv Wire Util Child Netif Sysinfo Send Bsd HostBsd BsdSend Opts Getopt Config
  Spec SpecAdv SpecNetif SpecNetif2 SpecSend SpecSys SpecOpts SpecGetopt SpecCmd SpecBsd SpecHostBsd SpecBsdSend SpecCmd2.
From Verif Require Import Lemmas SendProofs6 CmdProofs5 Cases6 Cases8 Cases14 PropGetopt PropCmd PropBsdSend PropCmdBsd.

(** If the last interface given with -m is in the table, every LLDP frame, on whichever
    interface, has the management addresses of that one and no others. *)
Theorem C145_named n perm words s names o st e st' eff i f tlvs before m :
  main_argv n perm words = Some (s, names) -> says perm daemon_letters words o names ->
  running (conf_of s names) st -> event_ok e -> event_apart e ->
  send_step (conf_of s names) st e = DOk (st', eff) -> In (SFrame i 0 f) eff ->
  Forall lldp_fits tlvs -> skipn 14 f = flat_map lldp_bytes tlvs ->
  m_interfaces n o = before ++ [nf_name m] -> In m (table st') ->
  filter (fun t => fst t =? 8) tlvs = managed m.
Proof. exact (cmd_managed n perm words s names o st e st' eff i f tlvs before m). Qed.
Print Assumptions C145_named.

(** Without -m every LLDP frame has the management addresses of the interface it is sent
    on, or of the bond or bridge the interface belongs to, and no others. *)
Theorem C145_default n perm words s names o st e st' eff i f tlvs :
  main_argv n perm words = Some (s, names) -> says perm daemon_letters words o names ->
  running (conf_of s names) st -> event_ok e ->
  send_step (conf_of s names) st e = DOk (st', eff) -> In (SFrame i 0 f) eff ->
  Forall lldp_fits tlvs -> skipn 14 f = flat_map lldp_bytes tlvs ->
  given (bs "m") o = false ->
  exists port, In port (table st') /\ nf_index port = i
    /\ filter (fun t => fst t =? 8) tlvs = managed (up port (at_index (table st') (nf_parent port))).
Proof. exact (cmd_unmanaged n perm words s names o st e st' eff i f tlvs). Qed.
Print Assumptions C145_default.

(** The same on FreeBSD and OpenBSD. *)
Theorem C145_named_bsd n perm words s names o pf st e st' eff i f tlvs before m :
  main_argv n perm words = Some (s, names) -> says perm daemon_letters words o names ->
  b_running (conf_of s names) pf st -> b_event_ok e ->
  bc_step (conf_of s names) pf st e = DOk (st', eff) -> In (SFrame i 0 f) eff ->
  Forall lldp_fits tlvs -> skipn 14 f = flat_map lldp_bytes tlvs ->
  m_interfaces n o = before ++ [nf_name m] -> In m (table st') ->
  filter (fun t => fst t =? 8) tlvs = managed m.
Proof. exact (b_cmd_managed n perm words s names o pf st e st' eff i f tlvs before m). Qed.
Print Assumptions C145_named_bsd.

Theorem C145_default_bsd n perm words s names o pf st e st' eff i f tlvs :
  main_argv n perm words = Some (s, names) -> says perm daemon_letters words o names ->
  b_running (conf_of s names) pf st -> b_event_ok e ->
  bc_step (conf_of s names) pf st e = DOk (st', eff) -> In (SFrame i 0 f) eff ->
  Forall lldp_fits tlvs -> skipn 14 f = flat_map lldp_bytes tlvs ->
  given (bs "m") o = false ->
  exists port, In port (table st') /\ nf_index port = i
    /\ filter (fun t => fst t =? 8) tlvs = managed (up port (at_index (table st') (nf_parent port))).
Proof. exact (b_cmd_unmanaged n perm words s names o pf st e st' eff i f tlvs). Qed.
Print Assumptions C145_default_bsd.

(** *** Examples *)
(** ladvd -fL -m eth1 -m eth0, on a host with eth0 and a bond of eth1 and eth2: the frame
    on eth1 has the address of eth0. *)
Definition cn_w : list (list Z) := [bs "-fL"; bs "-m"; bs "eth1"; bs "-m"; bs "eth0"].
Definition cn_o : list (Z * list Z) := [(102, []); (76, []); (109, bs "eth1"); (109, bs "eth0")].
Definition cn_s : setup := Eval vm_compute in match main_argv gg_n false cn_w with Some (s, _) => s | None => cc_s end.
Lemma cn_says perm : says perm daemon_letters cn_w cn_o [].
Proof.
  apply (says_bare perm daemon_letters (bs "fL") _ [(109, bs "eth1"); (109, bs "eth0")]); [discriminate|gg_letters|].
  apply (says_apart perm daemon_letters [] 109 (bs "eth1") _ [(109, bs "eth0")]); [gg_letters|cbn; auto|].
  apply (says_apart perm daemon_letters [] 109 (bs "eth0") _ []); [gg_letters|cbn; auto 20|apply says_nothing].
Qed.
Definition cn_st1 : sstate := Eval vm_compute in w_after (conf_of cn_s []) w_st0 w_run.
Definition cn_eff : list seff := Eval vm_compute in w_eff (conf_of cn_s []) w_st0 w_run.
Definition cn_f : list Z := Eval vm_compute in match filter (fun x => fst (fst x) =? 2) (frames cn_eff) with (_, _, f) :: _ => f | [] => [] end.
Definition cn_tlvs : list tlv := Eval vm_compute in cc_split 100 (skipn 14 cn_f).
Example C145_named_case :
  main_argv gg_n false cn_w = Some (cn_s, []) /\ says false daemon_letters cn_w cn_o [] /\ running (conf_of cn_s []) w_st0
  /\ event_ok w_run /\ event_apart w_run /\ send_step (conf_of cn_s []) w_st0 w_run = DOk (cn_st1, cn_eff) /\ In (SFrame 2 0 cn_f) cn_eff
  /\ Forall lldp_fits cn_tlvs /\ skipn 14 cn_f = flat_map lldp_bytes cn_tlvs
  /\ exists m, m_interfaces gg_n cn_o = [bs "eth1"] ++ [nf_name m] /\ In m (table cn_st1)
     /\ filter (fun t => fst t =? 8) cn_tlvs = managed m /\ nf_index m = 1 /\ nf_ipaddr4 m = [10; 0; 0; 1].
Proof.
  split; [vm_compute; reflexivity|]. split; [exact (cn_says false)|]. split; [apply w_boot|]. split; [exact w_run_ok|].
  split; [intros ias E; assert (X : ias = cc_ias) by (apply (f_equal (fun o => match o with Some l => l | None => [] end)) in E; symmetry; exact E); rewrite X; apply apart_ok; vm_compute; reflexivity|].
  split; [vm_compute; reflexivity|]. split; [apply (proj2 (in_frames 2 0 cn_f _)); vm_compute; auto 20|].
  split; [repeat (apply Forall_cons; [split; [cbn; lia|vm_compute; reflexivity]|]); apply Forall_nil|].
  split; [vm_compute; reflexivity|].
  eexists. split; [|split; [vm_compute; left; reflexivity|]]; [vm_compute; reflexivity|]. split; [vm_compute; reflexivity|]. split; vm_compute; reflexivity.
Qed.
(** ladvd -fqLE -e igb1 -cnl -l attic on FreeBSD: no -m; igb0 belongs to lagg0, and the
    frame on igb0 has the addresses of lagg0. *)
Definition cn_b : list tlv := Eval vm_compute in cc_split 100 (skipn 14 (match cv_out with (_, f) :: _ => f | [] => [] end)).
Example C145_default_case :
  given (bs "m") cv_o = false /\ given (bs "m") cc_o = false
  /\ exists port parent, In port (table (fst cv_run)) /\ nf_name port = bs "igb0" /\ at_index (table (fst cv_run)) (nf_parent port) = Some parent
     /\ nf_name parent = bs "lagg0" /\ nf_ipaddr4 parent = [10; 0; 0; 2]
     /\ filter (fun t => fst t =? 8) cn_b = managed parent.
Proof.
  split; [vm_compute; reflexivity|]. split; [vm_compute; reflexivity|].
  eexists _, _. split; [vm_compute; left; reflexivity|]. split; [vm_compute; reflexivity|]. split; [vm_compute; reflexivity|]. split; [vm_compute; reflexivity|]. split; vm_compute; reflexivity.
Qed.
