(** C147: the addresses in CDP and FDP frames, from the command line. *)
From Verif Require Import Base Types Tlv Wire Util Child Netif Sysinfo Send Bsd HostBsd BsdSend Opts Getopt Config
  Spec SpecAdv SpecNetif SpecNetif2 SpecSend SpecSys SpecOpts SpecGetopt SpecCmd SpecBsd SpecHostBsd SpecBsdSend SpecCmd2 SpecMtu.
From Verif Require Import Lemmas MtuProofs SendProofs6 CmdProofs7 Cases6 Cases8 Cases14 PropGetopt PropCmd PropBsdSend PropCmdBsd.

(** If the last interface given with -m is in the table, every CDP frame (protocols 1 and 5)
    has the addresses of that interface as management addresses (type 22), and those of the
    sending interface, or of the bond or bridge it belongs to, as addresses (type 2); every
    FDP frame (protocol 3) has those of the interface given as addresses (type 2). *)
Theorem C147_named n perm words s names o st e st' eff i p f tlvs before m :
  main_argv n perm words = Some (s, names) -> says perm daemon_letters words o names ->
  running (conf_of s names) st -> event_ok e -> event_apart e ->
  send_step (conf_of s names) st e = DOk (st', eff) -> In (SFrame i p f) eff -> In p [1; 3; 5] -> cdp_tlvs f tlvs ->
  m_interfaces n o = before ++ [nf_name m] -> In m (table st') ->
  let k := if p =? 3 then 2 else 22 in
  filter (fun t => fst t =? k) tlvs = addr_tlv k m
  /\ (p <> 3 -> exists port, In port (table st') /\ nf_index port = i
      /\ filter (fun t => fst t =? 2) tlvs = addr_tlv 2 (up port (at_index (table st') (nf_parent port)))).
Proof. exact (cmd_cisco n perm words s names o st e st' eff i p f tlvs before m). Qed.
Print Assumptions C147_named.

(** Without -m every CDP and FDP frame has the addresses of the sending interface, or of the
    bond or bridge it belongs to, and no management addresses. *)
Theorem C147_default n perm words s names o st e st' eff i p f tlvs :
  main_argv n perm words = Some (s, names) -> says perm daemon_letters words o names ->
  running (conf_of s names) st -> event_ok e ->
  send_step (conf_of s names) st e = DOk (st', eff) -> In (SFrame i p f) eff -> In p [1; 3; 5] -> cdp_tlvs f tlvs ->
  given (bs "m") o = false ->
  exists port, In port (table st') /\ nf_index port = i
    /\ filter (fun t => fst t =? 2) tlvs = addr_tlv 2 (up port (at_index (table st') (nf_parent port))) /\ filter (fun t => fst t =? 22) tlvs = [].
Proof. exact (cmd_cisco_default n perm words s names o st e st' eff i p f tlvs). Qed.
Print Assumptions C147_default.

(** The same on FreeBSD and OpenBSD. *)
Theorem C147_named_bsd n perm words s names o pf st e st' eff i p f tlvs before m :
  main_argv n perm words = Some (s, names) -> says perm daemon_letters words o names ->
  b_running (conf_of s names) pf st -> b_event_ok e ->
  bc_step (conf_of s names) pf st e = DOk (st', eff) -> In (SFrame i p f) eff -> In p [1; 3; 5] -> cdp_tlvs f tlvs ->
  m_interfaces n o = before ++ [nf_name m] -> In m (table st') ->
  let k := if p =? 3 then 2 else 22 in
  filter (fun t => fst t =? k) tlvs = addr_tlv k m
  /\ (p <> 3 -> exists port, In port (table st') /\ nf_index port = i
      /\ filter (fun t => fst t =? 2) tlvs = addr_tlv 2 (up port (at_index (table st') (nf_parent port)))).
Proof. exact (b_cmd_cisco n perm words s names o pf st e st' eff i p f tlvs before m). Qed.
Print Assumptions C147_named_bsd.

Theorem C147_default_bsd n perm words s names o pf st e st' eff i p f tlvs :
  main_argv n perm words = Some (s, names) -> says perm daemon_letters words o names ->
  b_running (conf_of s names) pf st -> b_event_ok e ->
  bc_step (conf_of s names) pf st e = DOk (st', eff) -> In (SFrame i p f) eff -> In p [1; 3; 5] -> cdp_tlvs f tlvs ->
  given (bs "m") o = false ->
  exists port, In port (table st') /\ nf_index port = i
    /\ filter (fun t => fst t =? 2) tlvs = addr_tlv 2 (up port (at_index (table st') (nf_parent port))) /\ filter (fun t => fst t =? 22) tlvs = [].
Proof. exact (b_cmd_cisco_default n perm words s names o pf st e st' eff i p f tlvs). Qed.
Print Assumptions C147_default_bsd.

(** *** Examples *)
(** ladvd -fCF -m eth0, on a host with eth0 (10.0.0.1) and a bond, without an address, of eth1
    and eth2: the CDP frame on eth1 has no address and 10.0.0.1 as management address; the FDP
    frame has 10.0.0.1 as address. *)
Definition cx_w : list (list Z) := [bs "-fCF"; bs "-m"; bs "eth0"].
Definition cx_o : list (Z * list Z) := [(102, []); (67, []); (70, []); (109, bs "eth0")].
Definition cx_s : setup := Eval vm_compute in match main_argv gg_n false cx_w with Some (s, _) => s | None => cc_s end.
Lemma cx_says perm : says perm daemon_letters cx_w cx_o [].
Proof.
  apply (says_bare perm daemon_letters (bs "fCF") _ [(109, bs "eth0")]); [discriminate|gg_letters|].
  apply (says_apart perm daemon_letters [] 109 (bs "eth0") _ []); [gg_letters|cbn; auto 20|apply says_nothing].
Qed.
Definition cx_st1 : sstate := Eval vm_compute in w_after (conf_of cx_s []) w_st0 w_run.
Definition cx_eff : list seff := Eval vm_compute in w_eff (conf_of cx_s []) w_st0 w_run.
Definition cx_frame (effs : list seff) (i p : Z) : list Z := match filter (fun x => (fst (fst x) =? i) && (snd (fst x) =? p)) (frames effs) with (_, _, f) :: _ => f | [] => [] end.
Fixpoint cx_split (fuel : nat) (l : list Z) : list tlv :=
  match fuel, l with
  | S fuel', a :: b :: c :: d :: r => (a * 256 + b, firstn (Z.to_nat (c * 256 + d - 4)) r) :: cx_split fuel' (skipn (Z.to_nat (c * 256 + d - 4)) r)
  | _, _ => []
  end.
Definition cx_c : list Z := Eval vm_compute in cx_frame cx_eff 2 1.
Definition cx_f : list Z := Eval vm_compute in cx_frame cx_eff 2 3.
Definition cx_ct : list tlv := Eval vm_compute in cx_split 100 (skipn 26 cx_c).
Definition cx_ft : list tlv := Eval vm_compute in cx_split 100 (skipn 26 cx_f).
Lemma cx_apart : event_apart w_run.
Proof. intros ias E; assert (X : ias = cc_ias) by (apply (f_equal (fun o => match o with Some l => l | None => [] end)) in E; symmetry; exact E); rewrite X; apply apart_ok; vm_compute; reflexivity. Qed.
Example C147_named_case :
  main_argv gg_n false cx_w = Some (cx_s, []) /\ says false daemon_letters cx_w cx_o [] /\ running (conf_of cx_s []) w_st0
  /\ event_ok w_run /\ event_apart w_run /\ send_step (conf_of cx_s []) w_st0 w_run = DOk (cx_st1, cx_eff)
  /\ In (SFrame 2 1 cx_c) cx_eff /\ In (SFrame 2 3 cx_f) cx_eff /\ cdp_tlvs cx_c cx_ct /\ cdp_tlvs cx_f cx_ft
  /\ (exists m, m_interfaces gg_n cx_o = [] ++ [nf_name m] /\ In m (table cx_st1))
  /\ filter (fun t => fst t =? 22) cx_ct = [(22, [0; 0; 0; 1; 1; 1; 204; 0; 4; 10; 0; 0; 1])] /\ filter (fun t => fst t =? 2) cx_ct = []
  /\ filter (fun t => fst t =? 2) cx_ft = [(2, [0; 0; 0; 1; 1; 1; 204; 0; 4; 10; 0; 0; 1])].
Proof.
  split; [vm_compute; reflexivity|]. split; [exact (cx_says false)|]. split; [apply w_boot|]. split; [exact w_run_ok|]. split; [exact cx_apart|].
  split; [vm_compute; reflexivity|]. split; [apply (proj2 (in_frames 2 1 cx_c _)); vm_compute; auto 20|]. split; [apply (proj2 (in_frames 2 3 cx_f _)); vm_compute; auto 20|].
  split; [split; [apply cdp_fits_b; vm_compute; reflexivity|vm_compute; reflexivity]|].
  split; [split; [apply cdp_fits_b; vm_compute; reflexivity|vm_compute; reflexivity]|].
  split; [eexists; split; [|vm_compute; left; reflexivity]; vm_compute; reflexivity|]. split; [vm_compute; reflexivity|]. split; vm_compute; reflexivity.
Qed.
(** ladvd -fC on FreeBSD: the frame on igb0 has the address of lagg0. *)
Definition cx_s2 : setup := Eval vm_compute in match main_argv cv_n false [bs "-fC"] with Some (s, _) => s | None => cc_s end.
Definition cx_run : sstate * list seff := Eval vm_compute in bc_send (conf_of cx_s2 []) FreeBSD f_os1 NETIF_INDEX_MAX true 1000 bd_st0.
Definition cx_b : list Z := Eval vm_compute in cx_frame (snd cx_run) 1 1.
Definition cx_bt : list tlv := Eval vm_compute in cx_split 100 (skipn 26 cx_b).
Example C147_default_case :
  main_argv cv_n false [bs "-fC"] = Some (cx_s2, []) /\ says false daemon_letters [bs "-fC"] [(102, []); (67, [])] []
  /\ b_running (conf_of cx_s2 []) FreeBSD bd_st0 /\ b_event_ok (BRun f_os1 1000) /\ bc_step (conf_of cx_s2 []) FreeBSD bd_st0 (BRun f_os1 1000) = DOk cx_run
  /\ In (SFrame 1 1 cx_b) (snd cx_run) /\ cdp_tlvs cx_b cx_bt /\ given (bs "m") [(102, []); (67, [])] = false
  /\ filter (fun t => fst t =? 2) cx_bt = [(2, [0; 0; 0; 1; 1; 1; 204; 0; 4; 10; 0; 0; 2])].
Proof.
  split; [vm_compute; reflexivity|]. split; [apply (says_bare false daemon_letters (bs "fC") _ []); [discriminate|gg_letters|apply says_nothing]|].
  split; [apply bd_boot|]. split; [exact f_os1_ok|]. split; [vm_compute; reflexivity|]. split; [apply (proj2 (in_frames 1 1 cx_b _)); vm_compute; auto 20|].
  split; [split; [apply cdp_fits_b; vm_compute; reflexivity|vm_compute; reflexivity]|]. split; vm_compute; reflexivity.
Qed.
