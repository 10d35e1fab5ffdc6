(** C148: what the command line says about listening and descriptions on FreeBSD and OpenBSD. *)
From Verif Require Import Base Types Tlv Wire Util Child Parent Netif Sysinfo Send Bsd HostBsd BsdSend Opts Getopt Config
  Spec SpecNet SpecAdv SpecNetif SpecNetif2 SpecSend SpecJoint SpecSys SpecOpts SpecGetopt SpecCmd SpecBsd SpecHostBsd SpecBsdSend.
From Verif Require Import CmdBsdProofs CmdBsdProofs2 Cases6 Cases8 Cases14 PropGetopt PropCmd PropCmd2 PropBsdSend PropCmdBsd.

(** A periodic run of a daemon started with these words asks for a socket to listen on an
    interface if and only if one of -a, -r, -y and -z is given, and the interface is, or
    belongs to, a chosen one, and the options allow to use both; with -a those where a
    protocol was heard have one already. *)
Theorem C148_listen n perm words s names o pf b now st nfs si i :
  main_argv n perm words = Some (s, names) -> says perm daemon_letters words o names ->
  b_running (conf_of s names) pf st -> b_ok b -> b_refresh (conf_of s names) pf b st nfs si -> b_consistent b nfs ->
  (In i (SpecJoint.opens (snd (bc_send (conf_of s names) pf b NETIF_INDEX_MAX true now st)))
   <-> given (bs "aryz") o = true /\ exists top sub,
        In top nfs /\ chosen names top /\ allowed o top
        /\ In sub (b_stands_for b nfs top) /\ allowed o sub /\ nf_index sub = i
        /\ (given (bs "a") o = true -> nf_protos sub = 0)).
Proof. exact (b_cmd_listen n perm words s names o pf b now st nfs si i). Qed.
Print Assumptions C148_listen.

(** Without -y and -z the daemon never describes an interface, whatever happens. *)
Theorem C148_describes n perm words s names o pf st e st' eff i t :
  main_argv n perm words = Some (s, names) -> says perm daemon_letters words o names ->
  bc_step (conf_of s names) pf st e = DOk (st', eff) -> In (SChild (CDescr i t)) eff -> given (bs "yz") o = true.
Proof. exact (b_cmd_descr n perm words s names o pf st e st' eff i t). Qed.
Print Assumptions C148_describes.

(** *** Examples *)
(** ladvd -fzLq on the FreeBSD host of C134: sockets on the members of lagg0 and on em0,
    and none on lagg0 and bridge0; then CDP heard on igb1 becomes its description. *)
Definition cy_c : scfg := conf_of ck_z [].
Definition cy_fetch : Z * list netif * sysinfo * list Z := bsd_fetch (sc_net cy_c) FreeBSD f_os1 (table bd_st0) (st_si bd_st0).
Definition cy_tab : list netif := Eval vm_compute in snd (fst (fst cy_fetch)).
Definition cy_si : sysinfo := Eval vm_compute in snd (fst cy_fetch).
Lemma cy_consistent : b_consistent f_os1 cy_tab.
Proof.
  unfold b_consistent. assert (E : flat_map (fun p => map fst (b_reported f_os1 cy_tab p)) cy_tab = [2; 1; 5]) by (vm_compute; reflexivity).
  rewrite E. repeat constructor; cbn; intuition lia.
Qed.
Definition cy_run : sstate * list seff := Eval vm_compute in bc_send cy_c FreeBSD f_os1 NETIF_INDEX_MAX true 1000 bd_st0.
Example C148_case :
  main_argv gg_n true [bs "-fzLq"] = Some (ck_z, []) /\ says true daemon_letters [bs "-fzLq"] [(102, []); (122, []); (76, []); (113, [])] []
  /\ b_running (conf_of ck_z []) FreeBSD bd_st0 /\ b_ok f_os1
  /\ b_refresh (conf_of ck_z []) FreeBSD f_os1 bd_st0 cy_tab cy_si /\ b_consistent f_os1 cy_tab
  /\ SpecJoint.opens (snd (bc_send (conf_of ck_z []) FreeBSD f_os1 NETIF_INDEX_MAX true 1000 bd_st0)) = [2; 1; 5]
  /\ map nf_index cy_tab <> [2; 1; 5].
Proof.
  split; [exact ck_main|]. split; [exact ck_says|]. split; [apply bd_boot|]. split; [exact f_os1_ok|].
  split; [eexists _, _; split; [vm_compute; reflexivity|discriminate]|]. split; [exact cy_consistent|].
  split; [vm_compute; reflexivity|vm_compute; discriminate].
Qed.
Definition cy_ev : bevent := match w_heard with EvChild e => BChild e | _ => BRun f_os1 0 end.
Definition cy_next : sstate * list seff := Eval vm_compute in match bc_step cy_c FreeBSD (fst cy_run) cy_ev with DOk x => x | _ => cy_run end.
Example C148_describes_case :
  bc_step (conf_of ck_z []) FreeBSD (fst cy_run) cy_ev = DOk cy_next /\ exists t, In (SChild (CDescr 2 t)) (snd cy_next) /\ t <> [].
Proof.
  split; [vm_compute; reflexivity|]. eexists. split; [vm_compute; left; reflexivity|discriminate].
Qed.
