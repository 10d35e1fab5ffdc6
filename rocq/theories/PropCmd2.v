(** C143: what the command line says about listening, descriptions and the chassis. *)
From Verif Require Import Base Types Tlv Wire Util Child Parent Netif Sysinfo Send Opts Getopt Config Spec SpecNet SpecAdv SpecNetif SpecNetif2 SpecSend SpecJoint SpecSys SpecOpts SpecGetopt SpecCmd.
From Verif Require Import CmdProofs CmdProofs3 CmdProofs4 Cases6 Cases8 PropGetopt PropCmd.

(** A periodic run of a daemon started with these words asks for a socket to listen on an
    interface if and only if one of -a, -r, -y and -z is given, and the interface is, or
    belongs to, a chosen one, and the options allow to use both; with -a those where a
    protocol was heard have one already. *)
Theorem C143_listen n perm words s names o os now st nfs si i ias :
  main_argv n perm words = Some (s, names) -> says perm daemon_letters words o names ->
  running (conf_of s names) st -> os_ok os -> no_ifaddrs os = Some ias -> names_apart ias ->
  refresh (conf_of s names) os st nfs si -> consistent os nfs ->
  (In i (SpecJoint.opens (snd (child_send (conf_of s names) os NETIF_INDEX_MAX true now st)))
   <-> given (bs "aryz") o = true /\ exists top sub,
        In top nfs /\ chosen names top /\ allowed o top
        /\ In sub (stands_for os nfs top) /\ allowed o sub /\ nf_index sub = i
        /\ (given (bs "a") o = true -> nf_protos sub = 0)).
Proof. exact (cmd_listen n perm words s names o os now st nfs si i ias). Qed.
Print Assumptions C143_listen.

(** A socket opened joins the groups of the protocols with a letter given, of all with
    -a, and no others; none without listening and none with -d. *)
Theorem C143_groups n perm words s names o pci team fds index name os fds' eff j op g :
  main_argv n perm words = Some (s, names) -> says perm daemon_letters words o names ->
  parent_open (pconf_of s pci team) fds index name os = Some (fds', eff, true) ->
  (In (EMulti j op g) eff <->
   given (bs "aryz") o = true /\ given (bs "d") o = false /\ j = index /\ op = 1
   /\ exists p, In p [0; 1; 2; 3; 4] /\ g = group_address p /\ (given (letter_of p) o = true \/ given (bs "a") o = true)).
Proof. exact (cmd_groups n perm words s names o pci team fds index name os fds' eff j op g). Qed.
Print Assumptions C143_groups.

(** Without -y and -z the daemon never describes an interface, whatever happens. *)
Theorem C143_describes n perm words s names o st e st' eff i t :
  main_argv n perm words = Some (s, names) -> says perm daemon_letters words o names ->
  send_step (conf_of s names) st e = DOk (st', eff) -> In (SChild (CDescr i t)) eff -> given (bs "yz") o = true.
Proof. exact (cmd_descr n perm words s names o st e st' eff i t). Qed.
Print Assumptions C143_describes.

(** Every LLDP frame names as chassis the address of the interface it is sent on if -q
    is given, and that of the host if not, and the interface as port. *)
Theorem C143_chassis n perm words s names o st e st' eff i f tlvs :
  main_argv n perm words = Some (s, names) -> says perm daemon_letters words o names ->
  running (conf_of s names) st -> event_ok e ->
  send_step (conf_of s names) st e = DOk (st', eff) -> In (SFrame i 0 f) eff ->
  Forall lldp_fits tlvs -> skipn 14 f = flat_map lldp_bytes tlvs ->
  exists port rest, In port (table st') /\ nf_index port = i
    /\ tlvs = [(1, 4 :: (if given (bs "q") o then nf_hwaddr port else si_hwaddr (st_si st'))); (2, 5 :: nf_name port)] ++ rest.
Proof. exact (cmd_chassis n perm words s names o st e st' eff i f tlvs). Qed.
Print Assumptions C143_chassis.

(** *** Examples *)
(** The daemon of C142_case: eth0 and eth1, but not eth2, which is excluded; before
    anything was heard. *)
Definition ck_tab : list netif := Eval vm_compute in fst (w_next cc_c w_osb w_st0).
Definition ck_si : sysinfo := Eval vm_compute in snd (w_next cc_c w_osb w_st0).
Example C143_case :
  running (conf_of cc_s []) w_st0 /\ refresh (conf_of cc_s []) w_osb w_st0 ck_tab ck_si /\ consistent w_osb ck_tab
  /\ SpecJoint.opens (snd (child_send cc_c w_osb NETIF_INDEX_MAX true 2000 w_st0)) = [1; 2].
Proof.
  split; [apply w_boot|]. split; [exists 4, []; split; [vm_compute; reflexivity|discriminate]|].
  split; [apply w_consistent; vm_compute; reflexivity|]. vm_compute. reflexivity.
Qed.
(** ladvd -frLC: the groups of LLDP and CDP. *)
Definition ck_pos : pos := mkPos (Some (bs "eth0")) (SockFd 9) 100 false true [] 5 None [] None true.
Definition ck_s : setup := mkSetup 6 (bs "ladvd") [] None None None [] [] [true; true; false; false; false; false].
Example C143_groups_case :
  main_argv gg_n true [bs "-frLC"] = Some (ck_s, []) /\ says true daemon_letters [bs "-frLC"] [(102, []); (114, []); (76, []); (67, [])] []
  /\ parent_open (pconf_of ck_s true true) [] 1 (bs "eth0") ck_pos
     = Some ([mkRaw 1 (bs "eth0") 9 true], [EOpen 1 (bs "eth0"); EMulti 1 1 [1; 128; 194; 0; 0; 14]; EMulti 1 1 [1; 0; 12; 204; 204; 204]], true).
Proof.
  split; [vm_compute; reflexivity|]. split; [|vm_compute; reflexivity].
  apply (says_bare true daemon_letters (bs "frLC") _ []); [discriminate|gg_letters|apply says_nothing].
Qed.
(** ladvd -fzLq: CDP heard on eth1 becomes its description, and eth1 is its own chassis. *)
Definition ck_z : setup := mkSetup 10246 (bs "ladvd") [] None None None [] [] [true; false; false; false; false; false].
Lemma ck_main : main_argv gg_n true [bs "-fzLq"] = Some (ck_z, []). Proof. vm_compute. reflexivity. Qed.
Lemma ck_says : says true daemon_letters [bs "-fzLq"] [(102, []); (122, []); (76, []); (113, [])] [].
Proof. apply (says_bare true daemon_letters (bs "fzLq") _ []); [discriminate|gg_letters|apply says_nothing]. Qed.
Definition ck_c : scfg := conf_of ck_z [].
Definition ck_st1 : sstate := Eval vm_compute in w_after ck_c w_st0 w_run.
Definition ck_eff : list seff := Eval vm_compute in w_eff ck_c ck_st1 w_heard.
Definition ck_st2 : sstate := Eval vm_compute in w_after ck_c ck_st1 w_heard.
Example C143_describes_case :
  main_argv gg_n true [bs "-fzLq"] = Some (ck_z, []) /\ send_step (conf_of ck_z []) ck_st1 w_heard = DOk (ck_st2, ck_eff)
  /\ exists t, In (SChild (CDescr 2 t)) ck_eff /\ t <> [].
Proof.
  split; [exact ck_main|]. split; [vm_compute; reflexivity|]. eexists. split; [vm_compute; left; reflexivity|discriminate].
Qed.
Definition ck_eff1 : list seff := Eval vm_compute in w_eff ck_c w_st0 w_run.
Definition ck_f : list Z := Eval vm_compute in match filter (fun x => fst (fst x) =? 2) (frames ck_eff1) with (_, _, f) :: _ => f | [] => [] end.
Definition ck_tlvs : list tlv := Eval vm_compute in cc_split 100 (skipn 14 ck_f).
Example C143_chassis_case :
  says true daemon_letters [bs "-fzLq"] [(102, []); (122, []); (76, []); (113, [])] [] /\ running (conf_of ck_z []) w_st0 /\ event_ok w_run
  /\ send_step (conf_of ck_z []) w_st0 w_run = DOk (ck_st1, ck_eff1) /\ In (SFrame 2 0 ck_f) ck_eff1
  /\ Forall lldp_fits ck_tlvs /\ skipn 14 ck_f = flat_map lldp_bytes ck_tlvs
  /\ firstn 2 ck_tlvs = [(1, [4; 2; 0; 0; 0; 0; 2]); (2, 5 :: bs "eth1")] /\ si_hwaddr (st_si ck_st1) = [2; 0; 0; 0; 0; 1].
Proof.
  split; [exact ck_says|]. split; [apply w_boot|]. split; [exact w_run_ok|]. split; [vm_compute; reflexivity|]. split; [vm_compute; auto 20|].
  split; [repeat (apply Forall_cons; [split; [cbn; lia|vm_compute; reflexivity]|]); apply Forall_nil|]. split; [vm_compute; reflexivity|].
  split; vm_compute; reflexivity.
Qed.
