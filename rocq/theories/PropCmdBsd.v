(** C144: from the command line to the wire on FreeBSD and OpenBSD. *)
From Verif Require Import Base Types Tlv Wire Util Child Netif Sysinfo Send Bsd HostBsd BsdSend Opts Getopt Config
  Spec SpecAdv SpecNetif SpecNetif2 SpecSend SpecSys SpecOpts SpecGetopt SpecCmd SpecBsd SpecHostBsd SpecBsdSend SpecBsdE2E.
From Verif Require Import Lemmas VisProps SendProofs6 CmdBsdProofs Cases8 Cases14 PropGetopt PropCmd PropBsdSend PropBsdE2E.

(** A periodic run of a daemon started with these words sends a frame of protocol [p] on
    interface [i] if and only if -s is not given and [i] is, or belongs to, an interface
    chosen by the names on the command line, the options allow to use both, and the
    protocol is asked for; the frame has to fit 1518 bytes.  (A run that does not find
    all of the names sends nothing: C37.) *)
Theorem C144_frames n perm words s names o pf b now st nfs si i p :
  main_argv n perm words = Some (s, names) -> says perm daemon_letters words o names ->
  b_running (conf_of s names) pf st -> b_ok b -> b_refresh (conf_of s names) pf b st nfs si -> b_consistent b nfs ->
  ((exists f, In (SFrame i p f) (snd (bc_send (conf_of s names) pf b NETIF_INDEX_MAX true now st)))
   <-> given (bs "s") o = false /\ exists top sub,
        In top nfs /\ chosen names top /\ allowed o top
        /\ In sub (b_stands_for b nfs top) /\ allowed o sub /\ nf_index sub = i
        /\ In p [0; 1; 2; 3; 4; 5] /\ asked o top p
        /\ zlen (b_frame_due (conf_of s names) b nfs si 0 (top, sub, p)) <= 1518).
Proof. exact (b_cmd_frames n perm words s names o pf b now st nfs si i p). Qed.
Print Assumptions C144_frames.

(** Every LLDP frame the daemon sends, whenever, has a location if and only if -c and -l
    are given, and it is the one given with the last of them. *)
Theorem C144_location n perm words s names o pf sos st e st' eff i f tlvs body :
  main_argv n perm words = Some (s, names) -> says perm daemon_letters words o names ->
  b_running_on (conf_of s names) pf sos (u_country s) (u_location s) st -> b_event_ok e ->
  bc_step (conf_of s names) pf st e = DOk (st', eff) -> In (SFrame i 0 f) eff ->
  Forall lldp_fits tlvs -> skipn 14 f = flat_map lldp_bytes tlvs ->
  (In (tia 3 body) tlvs <->
   given (bs "c") o = true /\ given (bs "l") o = true
   /\ exists cc, Forall2 capital (last (args_of 99 o) []) cc /\ body = civic cc (firstn 255 (last (args_of 108 o) []))).
Proof. exact (b_cmd_place n perm words s names o pf sos st e st' eff i f tlvs body). Qed.
Print Assumptions C144_location.

(** Every LLDP frame names as chassis the address of the interface it is sent on if -q
    is given, and that of the host if not, and the interface as port. *)
Theorem C144_chassis n perm words s names o pf st e st' eff i f tlvs :
  main_argv n perm words = Some (s, names) -> says perm daemon_letters words o names ->
  b_running (conf_of s names) pf st -> b_event_ok e ->
  bc_step (conf_of s names) pf st e = DOk (st', eff) -> In (SFrame i 0 f) eff ->
  Forall lldp_fits tlvs -> skipn 14 f = flat_map lldp_bytes tlvs ->
  exists port rest, In port (table st') /\ nf_index port = i
    /\ tlvs = [(1, 4 :: (if given (bs "q") o then nf_hwaddr port else si_hwaddr (st_si st'))); (2, 5 :: nf_name port)] ++ rest.
Proof. exact (b_cmd_chassis n perm words s names o pf st e st' eff i f tlvs). Qed.
Print Assumptions C144_chassis.

(** *** Examples *)
(** ladvd -fqLE -e igb1 -cnl -l attic, on the FreeBSD host of C134: lagg0 of igb0 and igb1,
    and bridge0 of em0. *)
Definition cv_w : list (list Z) := [bs "-fqLE"; bs "-e"; bs "igb1"; bs "-cnl"; bs "-l"; bs "attic"].
Definition cv_o : list (Z * list Z) := [(102, []); (113, []); (76, []); (69, []); (101, bs "igb1"); (99, bs "nl"); (108, bs "attic")].
Definition cv_n : naming := mkNaming (fun x => if beq x (bs "igb1") then 2 else 0) (fun _ => None) (fun _ => None).
Definition cv_s : setup := Eval vm_compute in match main_argv cv_n false cv_w with Some (s, _) => s | None => cc_s end.
Lemma cv_says perm : says perm daemon_letters cv_w cv_o [].
Proof.
  apply (says_bare perm daemon_letters (bs "fqLE") _ [(101, bs "igb1"); (99, bs "nl"); (108, bs "attic")]); [discriminate|gg_letters|].
  apply (says_apart perm daemon_letters [] 101 (bs "igb1") _ [(99, bs "nl"); (108, bs "attic")]); [gg_letters|cbn; auto|].
  apply (says_joined perm daemon_letters [] 99 (bs "nl") _ [(108, bs "attic")]); [gg_letters|cbn; auto 20|discriminate|].
  apply (says_apart perm daemon_letters [] 108 (bs "attic") _ []); [gg_letters|cbn; auto 20|apply says_nothing].
Qed.
Definition cv_fetch : Z * list netif * sysinfo * list Z := bsd_fetch (sc_net (conf_of cv_s [])) FreeBSD f_os1 (table bd_st0) (st_si bd_st0).
Definition cv_tab : list netif := Eval vm_compute in snd (fst (fst cv_fetch)).
Definition cv_si : sysinfo := Eval vm_compute in snd (fst cv_fetch).
Lemma cv_consistent : b_consistent f_os1 cv_tab.
Proof.
  unfold b_consistent. assert (E : flat_map (fun p => map fst (b_reported f_os1 cv_tab p)) cv_tab = [2; 1; 5]) by (vm_compute; reflexivity).
  rewrite E. repeat constructor; cbn; intuition lia.
Qed.
Definition cv_run : sstate * list seff := Eval vm_compute in bc_send (conf_of cv_s []) FreeBSD f_os1 NETIF_INDEX_MAX true 1000 bd_st0.
Definition cv_out : list (Z * Z * list Z) := Eval vm_compute in frames (snd cv_run).
Example C144_case :
  main_argv cv_n false cv_w = Some (cv_s, []) /\ says false daemon_letters cv_w cv_o [] /\ b_running (conf_of cv_s []) FreeBSD bd_st0 /\ b_ok f_os1
  /\ b_refresh (conf_of cv_s []) FreeBSD f_os1 bd_st0 cv_tab cv_si /\ b_consistent f_os1 cv_tab
  /\ map fst cv_out = [(1, 0); (1, 2); (5, 0); (5, 2)].
Proof.
  split; [vm_compute; reflexivity|]. split; [exact (cv_says false)|]. split; [apply bd_boot|]. split; [exact f_os1_ok|].
  split; [eexists _, _; split; [vm_compute; reflexivity|discriminate]|]. split; [exact cv_consistent|].
  vm_compute. reflexivity.
Qed.
(** The location and the chassis of the frame on em0. *)
Definition cv_f : list Z := Eval vm_compute in match cv_out with [_; _; (_, f); _] => f | _ => [] end.
Definition cv_tlvs : list tlv := Eval vm_compute in cc_split 100 (skipn 14 cv_f).
Example C144_location_case :
  b_running_on (conf_of cv_s []) FreeBSD bd_sys (u_country cv_s) (u_location cv_s) bd_st0 /\ b_event_ok (BRun f_os1 1000)
  /\ bc_step (conf_of cv_s []) FreeBSD bd_st0 (BRun f_os1 1000) = DOk cv_run /\ In (SFrame 5 0 cv_f) (snd cv_run)
  /\ Forall lldp_fits cv_tlvs /\ skipn 14 cv_f = flat_map lldp_bytes cv_tlvs /\ In (tia 3 (civic (bs "NL") (bs "attic"))) cv_tlvs
  /\ firstn 2 cv_tlvs = [(1, 4 :: [2; 0; 0; 0; 0; 5]); (2, 5 :: bs "em0")] /\ si_hwaddr (st_si (fst cv_run)) <> [2; 0; 0; 0; 0; 5].
Proof.
  split; [apply be_on|]. split; [exact f_os1_ok|]. split; [vm_compute; reflexivity|].
  split; [apply (proj2 (in_frames 5 0 cv_f _)); vm_compute; auto|].
  split; [repeat (apply Forall_cons; [split; [cbn; lia|vm_compute; reflexivity]|]); apply Forall_nil|]. split; [vm_compute; reflexivity|].
  split; [vm_compute; auto 40|]. split; [vm_compute; reflexivity|vm_compute; discriminate].
Qed.
