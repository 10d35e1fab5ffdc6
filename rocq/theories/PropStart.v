(** Properties of start-up and shutdown: C42, C43, C60-C65. *)
From Verif Require Import Base Types Start SpecStart Spec StartProofs2 StartProofs4 StartProofs5.

(** An operating system for the examples: everything succeeds, fork answers [f],
    directories belong to root with mode 0755. *)
Definition s_sys (f : Z) : kernel := fun h =>
  match last h KLoop with
  | KGetpw _ => mkAns 0 0 105 106
  | KGetpid => mkAns 4321 0 0 0
  | KWritePid t => mkAns (zlen t) 0 0 0
  | KFork => mkAns f 0 0 0
  | KUmask _ => mkAns 18 0 0 0
  | KStat _ => mkAns 0 0 0 16877
  | _ => mkAns 0 0 0 0
  end.
(** The same, but the call [c] is answered [a]. *)
Definition s_but (f : Z) (c : call -> bool) (a : answer) : kernel := fun h => if c (last h KLoop) then a else s_sys f h.
Definition s_fail : answer := mkAns (-1) 1 0 0.
Definition s_world : world := mkW 0 0 None [47] (Some (bs "/root")) None None None 18 None None false.
Definition s_hist (k : kernel) (opts : Z) : list call := snd (child_init k opts (Some (mkPw 105 106)) []).

(** C42: whenever the child sends its first advertisement, opens the link socket
    or enters its event loop, it has given up its privileges; the steps come in
    the stated order; a step that fails ends the process with status 1 before
    anything else happens. *)
Theorem C42_confined k w opts p e h pre c post :
  started w -> has opts OPT_DEBUG = false -> child_init k opts (Some p) [] = (e, h) ->
  h = pre ++ c :: post ->
  (talks c -> confined p chroot_dir (after k w pre))
  /\ in_turn p chroot_dir (after k w pre) c
  /\ (guards c -> refused c (k (pre ++ [c])) -> post = [] /\ e = EExit 1).
Proof.
  exact (fun Hw Hd R Eh => conj (child_confined k w opts p e h pre c post Hw Hd R Eh)
    (conj (child_in_turn k w opts p e h pre c post Hw Hd R Eh) (child_refused k w opts p e h pre c post Hw Hd R Eh))).
Qed.
Print Assumptions C42_confined.
Example C42_case :
  started s_world /\ has 7 OPT_DEBUG = false
  /\ s_hist (s_sys 0) 7
     = [KSocket; KUmask 127; KUnlinkSock; KBind; KListen; KChmod 504; KChown 106; KUmask 18; KSocket;
        KStat (bs "/"); KStat (bs "/var/"); KStat (bs "/var/run/"); KStat (bs "/var/run/ladvd");
        KChdir (bs "/var/run/ladvd"); KChroot (bs "/var/run/ladvd"); KChdir (bs "/");
        KSetgroups; KSetresgid 106; KSetresuid 105; KNproc 0; KFsize 0; KSend; KLink; KLoop]
  /\ confined (mkPw 105 106) chroot_dir (after (s_sys 0) s_world (s_hist (s_sys 0) 7)).
Proof.
  split; [repeat split|]. split; [reflexivity|]. split; [vm_compute; reflexivity|].
  repeat split; vm_compute; reflexivity.
Qed.
(** Group privileges cannot be dropped. *)
Example C42_refused_case :
  child_init (s_but 0 (fun c => match c with KSetgroups => true | _ => false end) s_fail) 7 (Some (mkPw 105 106)) []
  = (EExit 1, firstn 17 (s_hist (s_sys 0) 7))
  /\ nth 16 (s_hist (s_sys 0) 7) KLoop = KSetgroups.
Proof. split; vm_compute; reflexivity. Qed.

(** C43: the root directory is only changed to [path] itself, an absolute path,
    when stat has just shown every directory on the way to it, and [path], to be
    a directory of root that nobody else can write to. *)
Theorem C43_trusted_path k opts path e h pre d post :
  my_chroot k opts 0 path [] = (e, h) -> h = pre ++ KChroot d :: post ->
  d = path /\ hd 0 path = 47
  /\ forall q, on_the_way q path -> exists a b, pre = a ++ KStat q :: b /\ trusted (k (a ++ [KStat q])).
Proof. exact (chroot_way k opts path e h pre d post). Qed.
Print Assumptions C43_trusted_path.
Theorem C43_child k w opts p e h pre d post q :
  started w -> has opts OPT_DEBUG = false -> child_init k opts (Some p) [] = (e, h) ->
  h = pre ++ KChroot d :: post -> on_the_way q d ->
  exists a b, pre = a ++ KStat q :: b /\ trusted (k (a ++ [KStat q])).
Proof. exact (child_way k w opts p e h pre d post q). Qed.
Print Assumptions C43_child.
Example C43_case :
  snd (my_chroot (s_sys 0) 0 0 (bs "/srv/jail") [])
  = [KStat (bs "/"); KStat (bs "/srv/"); KStat (bs "/srv/jail"); KChdir (bs "/srv/jail"); KChroot (bs "/srv/jail"); KChdir (bs "/")]
  /\ on_the_way (bs "/srv/") (bs "/srv/jail") /\ trusted (s_sys 0 [KStat (bs "/srv/")])
  /\ my_chroot (s_but 0 (fun c => match c with KStat p => beq p (bs "/srv/") | _ => false end) (mkAns 0 0 0 16893)) 0 0 (bs "/srv/jail") []
     = (EExit 1, [KStat (bs "/"); KStat (bs "/srv/")]).
Proof.
  split; [vm_compute; reflexivity|]. split; [right; exists (bs "/srv"), (bs "jail"); split; reflexivity|].
  split; [repeat split|vm_compute; reflexivity].
Qed.

(** C60 is false in full: when fork fails, the process sends SIGTERM to every
    process of the system. *)
Theorem C60_kill_all_refuted : exists k opts e h,
  main_start k CapNg opts (bs "ladvd") [] = (e, h) /\ In (KKill (-1) 15) h.
Proof.
  exists (s_but 0 (fun c => match c with KFork | KWaitpid _ => true | _ => false end) s_fail), 3.
  eexists. exists (snd (main_start (s_but 0 (fun c => match c with KFork | KWaitpid _ => true | _ => false end) s_fail) CapNg 3 (bs "ladvd") [])).
  split; [vm_compute; reflexivity|].
  match goal with |- In ?x ?l => change (In x (firstn 19 l ++ nth 19 l KLoop :: skipn 20 l)) end.
  apply in_or_app. right. left. vm_compute. reflexivity.
Qed.
Print Assumptions C60_kill_all_refuted.
(** C60, partial: if fork succeeds, only the process it made is signalled, also
    when a signal arrives later.  Missing: a fork that fails. *)
Theorem C60_own_child_partial k lib opts user e h :
  main_start k lib opts user [] = (e, h) ->
  (forall pre post, h = pre ++ KFork :: post -> a_ret (k (pre ++ [KFork])) <> -1) ->
  forall p s, In (KKill p s) h ->
  exists pre post, h = pre ++ KFork :: post /\ a_ret (k (pre ++ [KFork])) = p /\ p <> 0 /\ p <> -1.
Proof. exact (main_kills k lib opts user e h). Qed.
Print Assumptions C60_own_child_partial.
Theorem C60_signal_partial k opts sig pid h e h' :
  parent_signal k opts sig pid h = (e, h') ->
  exists t, h' = h ++ t /\ forall p s, In (KKill p s) t -> p = pid.
Proof. exact (signal_kills k opts sig pid h e h'). Qed.
Print Assumptions C60_signal_partial.
Example C60_case :
  skipn 17 (snd (main_start (s_sys 4322) CapNg 3 (bs "ladvd") []))
  = [KFork; KSocket; KCaps [5; 12; 13; 11]; KWaitpid 4322; KLoop; KWaitpid 4322; KKill 4322 15; KCloseRaw; KUnlinkSock].
Proof. vm_compute. reflexivity. Qed.
Example C60_signal_case :
  parent_signal (s_sys 4322) 3 15 4322 [] = (EExit 0, [KWaitpid 4322; KKill 4322 15; KCloseRaw; KUnlinkSock])
  /\ parent_signal (s_sys 4322) 3 1 4322 [] = (ERet tt, []).
Proof. split; vm_compute; reflexivity. Qed.

(** C61 is false in full: the privileged process ends with status 0 when it
    cannot limit its capabilities. *)
Theorem C61_status_refuted : exists k h pre c post,
  main_start k CapNg 3 (bs "ladvd") [] = (EExit 0, h) /\ h = pre ++ c :: post /\ vital c /\ a_ret (k (pre ++ [c])) = -1.
Proof.
  exists (s_but 4322 (fun c => match c with KCaps _ => true | _ => false end) s_fail).
  exists (snd (main_start (s_but 4322 (fun c => match c with KCaps _ => true | _ => false end) s_fail) CapNg 3 (bs "ladvd") [])).
  exists (firstn 19 (snd (main_start (s_sys 4322) CapNg 3 (bs "ladvd") []))), (KCaps [5; 12; 13; 11]).
  exists [KWaitpid 4322; KKill 4322 15; KCloseRaw; KUnlinkSock].
  split; [vm_compute; reflexivity|]. split; [vm_compute; reflexivity|]. split; [exact I|]. vm_compute. reflexivity.
Qed.
Print Assumptions C61_status_refuted.
(** C61, partial: before the fork, and in the child, a
    failure ends the process at once with status 1.  Missing: the privileged
    process after the fork. *)
Theorem C61_status_partial k lib opts user e h pre c post :
  main_start k lib opts user [] = (e, h) -> h = pre ++ c :: post -> vital c -> a_ret (k (pre ++ [c])) = -1 ->
  (forall a b, pre ++ [c] = a ++ KFork :: b -> a_ret (k (a ++ [KFork])) = 0) ->
  post = [] /\ e = EExit 1.
Proof. exact (main_status k lib opts user e h pre c post). Qed.
Print Assumptions C61_status_partial.
Example C61_case :
  main_start (s_but 0 (fun c => match c with KLockPid => true | _ => false end) s_fail) CapNg 3 (bs "ladvd") []
  = (EExit 1, [KGetpw (bs "ladvd"); KSysinfo; KDaemon; KOpenPid; KLockPid])
  /\ vital KLockPid
  /\ fst (main_start (s_but 0 (fun c => match c with KSetresuid _ => true | _ => false end) s_fail) CapNg 3 (bs "ladvd") []) = EExit 1.
Proof. split; [vm_compute; reflexivity|]. split; [exact I|]. vm_compute. reflexivity. Qed.

(** C62 is false in full: the file is not cut, so a longer content leaves its
    tail behind. *)
Theorem C62_content_refuted : exists k w e h pre post,
  started w /\ w_pidfile w = Some (bs "1234567" ++ [10], 420)
  /\ main_start k CapNg 3 (bs "ladvd") [] = (e, h) /\ h = pre ++ KFork :: post
  /\ w_pidfile (after k w pre) = Some (bs "4321" ++ [10] ++ bs "67" ++ [10], 420).
Proof.
  exists (s_sys 4322), (mkW 0 0 None [47] (Some (bs "/root")) None None None 18 None (Some (bs "1234567" ++ [10], 420)) false).
  exists (EExit 0), (snd (main_start (s_sys 4322) CapNg 3 (bs "ladvd") [])).
  exists (firstn 17 (snd (main_start (s_sys 4322) CapNg 3 (bs "ladvd") []))), (skipn 18 (snd (main_start (s_sys 4322) CapNg 3 (bs "ladvd") []))).
  split; [repeat split|]. repeat (split; [vm_compute; reflexivity|]). vm_compute. reflexivity.
Qed.
Print Assumptions C62_content_refuted.
(** C62, partial: the daemon only forks with the lock on the pid file held and
    its number written at the start of the file, followed by what was in the
    file beyond that length.  Missing: that nothing follows. *)
Theorem C62_pidfile_partial k lib opts user w e h pre post :
  main_start k lib opts user [] = (e, h) -> has opts OPT_DAEMON = true -> h = pre ++ KFork :: post ->
  (forall past, 0 < a_ret (k (past ++ [KGetpid])) < 2147483648) ->
  w_locked (after k w pre) = true
  /\ exists a b old m, pre = a ++ KGetpid :: b
  /\ (let t := decimal (a_ret (k (a ++ [KGetpid]))) ++ [10] in
      w_pidfile (after k w pre) = Some (t ++ skipn (length t) old, m))
  /\ match w_pidfile w with Some pf => pf = (old, m) | None => old = [] end.
Proof. exact (main_pid_text k lib opts user w e h pre post). Qed.
Print Assumptions C62_pidfile_partial.
Example C62_case :
  (forall past, 0 < a_ret (s_sys 4322 (past ++ [KGetpid])) < 2147483648)
  /\ w_pidfile (after (s_sys 4322) s_world (firstn 17 (snd (main_start (s_sys 4322) CapNg 3 (bs "ladvd") []))))
     = Some (bs "4321" ++ [10], 420).
Proof. split; [intros past; unfold s_sys; rewrite last_last; cbn; split; reflexivity|vm_compute; reflexivity]. Qed.

(** C63: from its creation on, nobody but root and the daemon's group has any
    permission on the client socket. *)
Theorem C63_private_socket k w opts p e h pre post :
  started w -> has opts OPT_DEBUG = false -> child_init k opts (Some p) [] = (e, h) ->
  h = pre ++ post -> private (pw_gid p) (after k w pre).
Proof. exact (child_private k w opts p e h pre post). Qed.
Print Assumptions C63_private_socket.
Example C63_case :
  map (fun n => w_sock (after (s_sys 0) s_world (firstn n (s_hist (s_sys 0) 7)))) [2; 3; 4; 5; 6; 7]%nat
  = [None; None; Some (384, 0); Some (384, 0); Some (504, 0); Some (504, 106)].
Proof. vm_compute. reflexivity. Qed.

(** C64: with a capability library the privileged process handles requests with
    no capabilities but those to signal, to administer interfaces and to use
    packet sockets. *)
Theorem C64_capabilities k lib opts pid w e h pre post :
  parent_init k lib opts pid [] = (e, h) -> has opts OPT_DEBUG = false ->
  lib <> NoCaps -> h = pre ++ KLoop :: post -> w_caps (after k w pre) = Some [5; 12; 13; 11].
Proof. exact (parent_caps k lib opts pid w e h pre post). Qed.
Print Assumptions C64_capabilities.
Example C64_case :
  snd (parent_init (s_sys 0) LibCap 3 4322 [])
  = [KSocket; KCapText; KCaps [5; 12; 13; 11]; KWaitpid 4322] ++ KLoop :: [KWaitpid 4322; KKill 4322 15; KCloseRaw; KUnlinkSock].
Proof. vm_compute. reflexivity. Qed.

(** C65: no options and no failures make start-up use a missing account. *)
Theorem C65_no_null k lib opts user : fst (main_start k lib opts user []) <> EUB.
Proof. exact (main_no_null k lib opts user). Qed.
Print Assumptions C65_no_null.
Example C65_case :
  main_start (s_but 0 (fun c => match c with KGetpw _ => true | _ => false end) s_fail) CapNg 3 (bs "nobody2") []
  = (EExit 1, [KGetpw (bs "nobody2")])
  /\ my_drop_privs (s_sys 0) 0 0 None [] = (EUB, [KSetgroups]).
Proof. split; vm_compute; reflexivity. Qed.
