(** C142: from the command line to the wire. *)
From Verif Require Import Base Types Tlv Wire Util Child Netif Sysinfo Send Opts Getopt Config Spec SpecAdv SpecNetif SpecNetif2 SpecSend SpecSys SpecOpts SpecGetopt SpecCmd.
From Verif Require Import CmdProofs CmdProofs2 Cases6 Cases8 PropGetopt.

(** A periodic run of a daemon started with these words sends a frame of protocol [p] on
    interface [i] if and only if -s is not given and [i] is, or belongs to, an interface
    chosen by the names on the command line, the options allow to use both, and the
    protocol is asked for; the frame has to fit 1518 bytes.  (A run that does not find
    all of the names sends nothing: C37.) *)
Theorem C142_frames n perm words s names o os now st nfs si i p ias :
  main_argv n perm words = Some (s, names) -> says perm daemon_letters words o names ->
  running (conf_of s names) st -> os_ok os -> no_ifaddrs os = Some ias -> names_apart ias ->
  refresh (conf_of s names) os st nfs si -> consistent os nfs ->
  ((exists f, In (SFrame i p f) (snd (child_send (conf_of s names) os NETIF_INDEX_MAX true now st)))
   <-> given (bs "s") o = false /\ exists top sub,
        In top nfs /\ chosen names top /\ allowed o top
        /\ In sub (stands_for os nfs top) /\ allowed o sub /\ nf_index sub = i
        /\ In p [0; 1; 2; 3; 4; 5] /\ asked o top p
        /\ zlen (frame_due (conf_of s names) os nfs si 0 (top, sub, p)) <= 1518).
Proof. exact (cmd_frames n perm words s names o os now st nfs si i p ias). Qed.
Print Assumptions C142_frames.

(** Every LLDP frame the daemon sends, whenever, has a location if and only if -c and -l
    are given, and it is the one given with the last of them. *)
Theorem C142_location n perm words s names o sos st e st' eff i f tlvs body :
  main_argv n perm words = Some (s, names) -> says perm daemon_letters words o names ->
  running_on (conf_of s names) sos (u_country s) (u_location s) st -> event_ok e ->
  send_step (conf_of s names) st e = DOk (st', eff) -> In (SFrame i 0 f) eff ->
  Forall lldp_fits tlvs -> skipn 14 f = flat_map lldp_bytes tlvs ->
  (In (tia 3 body) tlvs <->
   given (bs "c") o = true /\ given (bs "l") o = true
   /\ exists cc, Forall2 capital (last (args_of 99 o) []) cc /\ body = civic cc (firstn 255 (last (args_of 108 o) []))).
Proof. exact (cmd_place n perm words s names o sos st e st' eff i f tlvs body). Qed.
Print Assumptions C142_location.

(** *** Examples *)
(** ladvd -faL -e eth2 -cnl -l attic, on a host with eth0 and a bond of eth1 and eth2;
    CDP was heard on eth1. *)
Definition cc_w : list (list Z) := [bs "-faL"; bs "-e"; bs "eth2"; bs "-cnl"; bs "-l"; bs "attic"].
Definition cc_o : list (Z * list Z) := [(102, []); (97, []); (76, []); (101, bs "eth2"); (99, bs "nl"); (108, bs "attic")].
Definition cc_s : setup := mkSetup 14 (bs "ladvd") [bs "eth2"] None None None (bs "NL") (bs "attic") [true; false; false; false; false; false].
Lemma cc_main : main_argv gg_n false cc_w = Some (cc_s, []). Proof. vm_compute. reflexivity. Qed.
Lemma cc_says perm : says perm daemon_letters cc_w cc_o [].
Proof.
  apply (says_bare perm daemon_letters (bs "faL") _ [(101, bs "eth2"); (99, bs "nl"); (108, bs "attic")]); [discriminate|gg_letters|].
  apply (says_apart perm daemon_letters [] 101 (bs "eth2") _ [(99, bs "nl"); (108, bs "attic")]); [gg_letters|cbn; auto|].
  apply (says_joined perm daemon_letters [] 99 (bs "nl") _ [(108, bs "attic")]); [gg_letters|cbn; auto 20|discriminate|].
  apply (says_apart perm daemon_letters [] 108 (bs "attic") _ []); [gg_letters|cbn; auto 20|apply says_nothing].
Qed.
Definition cc_c : scfg := conf_of cc_s [].
Definition cc_st1 : sstate := Eval vm_compute in w_after cc_c w_st0 w_run.
Definition cc_st2 : sstate := Eval vm_compute in w_after cc_c cc_st1 w_heard.
Lemma cc_on0 c : running_on c w_sios (bs "NL") (bs "attic") w_st0.
Proof.
  assert (E : w_st0 = mkSt child_start (sysinfo_fetch w_sios (bs "NL") (bs "attic")) 0) by (vm_compute; reflexivity).
  rewrite E. apply on_boot; [exact w_sios_ok| |]; (split; [repeat constructor; unfold byte; lia|split; [cbn; intuition discriminate|now vm_compute]]).
Qed.
Lemma cc_on_step c st e : running_on c w_sios (bs "NL") (bs "attic") st -> event_ok e -> w_good c st e = true -> running_on c w_sios (bs "NL") (bs "attic") (w_after c st e).
Proof. intros R O G. exact (on_event _ _ _ _ st e _ _ R O (w_step _ _ _ G)). Qed.
Lemma cc_on2 : running_on cc_c w_sios (bs "NL") (bs "attic") cc_st2.
Proof.
  replace cc_st2 with (w_after cc_c cc_st1 w_heard) by (vm_compute; reflexivity). apply cc_on_step; [|exact I|vm_compute; reflexivity].
  replace cc_st1 with (w_after cc_c w_st0 w_run) by (vm_compute; reflexivity). apply cc_on_step; [apply cc_on0|exact w_run_ok|vm_compute; reflexivity].
Qed.
Lemma cc_running2 : running cc_c cc_st2.
Proof.
  replace cc_st2 with (w_after cc_c cc_st1 w_heard) by (vm_compute; reflexivity). apply w_running; [|exact I|vm_compute; reflexivity].
  replace cc_st1 with (w_after cc_c w_st0 w_run) by (vm_compute; reflexivity). apply w_running; [apply w_boot|exact w_run_ok|vm_compute; reflexivity].
Qed.
Definition cc_tab : list netif := Eval vm_compute in fst (w_next cc_c w_osb cc_st2).
Definition cc_si : sysinfo := Eval vm_compute in snd (w_next cc_c w_osb cc_st2).
Definition cc_ias : list ifaddr := Eval vm_compute in match no_ifaddrs w_osb with Some l => l | None => [] end.
Definition cc_out : list (Z * Z * list Z) := Eval vm_compute in frames (snd (child_send cc_c w_osb NETIF_INDEX_MAX true 2000 cc_st2)).
Example C142_case :
  main_argv gg_n false cc_w = Some (cc_s, []) /\ says false daemon_letters cc_w cc_o [] /\ running (conf_of cc_s []) cc_st2 /\ os_ok w_osb
  /\ no_ifaddrs w_osb = Some cc_ias /\ names_apart cc_ias /\ refresh (conf_of cc_s []) w_osb cc_st2 cc_tab cc_si /\ consistent w_osb cc_tab
  /\ map fst cc_out = [(1, 0); (2, 0); (2, 1)].
Proof.
  split; [exact cc_main|]. split; [exact (cc_says false)|]. split; [exact cc_running2|]. split; [exact w_run_ok|]. split; [vm_compute; reflexivity|].
  split; [apply apart_ok; vm_compute; reflexivity|]. split; [exists 4, []; split; [vm_compute; reflexivity|discriminate]|].
  split; [apply w_consistent; vm_compute; reflexivity|]. vm_compute. reflexivity.
Qed.
(** The location of the first of these frames. *)
Definition cc_f : list Z := Eval vm_compute in match cc_out with (_, _, f) :: _ => f | [] => [] end.
Fixpoint cc_split (fuel : nat) (l : list Z) : list tlv :=
  match fuel, l with
  | S fuel', a :: b :: r => (a / 2, firstn (Z.to_nat (a mod 2 * 256 + b)) r) :: cc_split fuel' (skipn (Z.to_nat (a mod 2 * 256 + b)) r)
  | _, _ => []
  end.
Definition cc_tlvs : list tlv := Eval vm_compute in cc_split 100 (skipn 14 cc_f).
Definition cc_after : sstate := Eval vm_compute in w_after cc_c cc_st2 (EvRun w_osb 2000).
Definition cc_eff : list seff := Eval vm_compute in w_eff cc_c cc_st2 (EvRun w_osb 2000).
Example C142_location_case :
  running_on (conf_of cc_s []) w_sios (u_country cc_s) (u_location cc_s) cc_st2 /\ event_ok (EvRun w_osb 2000)
  /\ send_step (conf_of cc_s []) cc_st2 (EvRun w_osb 2000) = DOk (cc_after, cc_eff) /\ In (SFrame 1 0 cc_f) cc_eff
  /\ Forall lldp_fits cc_tlvs /\ skipn 14 cc_f = flat_map lldp_bytes cc_tlvs /\ In (tia 3 (civic (bs "NL") (bs "attic"))) cc_tlvs.
Proof.
  split; [exact cc_on2|]. split; [exact w_run_ok|]. split; [vm_compute; reflexivity|]. split; [vm_compute; auto 20|].
  split; [repeat (apply Forall_cons; [split; [cbn; lia|vm_compute; reflexivity]|]); apply Forall_nil|]. split; [vm_compute; reflexivity|]. vm_compute. auto 40.
Qed.
(** With the interface eth0 named, and without -a, it alone sends. *)
Definition cc_n : setup := mkSetup 34 (bs "ladvd") [] None None None [] [] [true; false; false; false; false; false].
Example C142_named :
  main_argv gg_n true [bs "eth0"; bs "-fL"] = Some (cc_n, [bs "eth0"])
  /\ map fst (frames (snd (child_send (conf_of cc_n [bs "eth0"]) w_osb NETIF_INDEX_MAX true 2000 w_st0))) = [(1, 0)].
Proof. split; vm_compute; reflexivity. Qed.
