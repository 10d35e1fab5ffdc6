(** Running once, and the client socket: C87-C89. *)
From Verif Require Import Base Types Wire Parent Start Once Spec SpecNet SpecStart SpecOnce Cases2 PropStart PropNet OnceProofs.

(** C87: with -o the child opens no client socket, no link socket and no event loop.
    It sends once, as the very last thing it does, and exits with status 0; or a
    step of its set-up was refused, and it exits with status 1 and has sent nothing. *)
Theorem C87_once k opts pw e h : child_init k opts pw [] = (e, h) -> has opts OPT_ONCE = true ->
  (pw = None -> has opts OPT_DEBUG = true) ->
  (forall c, In c h -> ~ serves c)
  /\ ((e = EExit 0 /\ exists pre, h = pre ++ [KSend] /\ ~ In KSend pre)
      \/ (e = EExit 1 /\ ~ In KSend h /\ exists pre c, h = pre ++ [c] /\ refused c (k h))).
Proof. exact (child_once k opts pw e h). Qed.
Print Assumptions C87_once.
(** OPT_SEND and OPT_ONCE. *)
Definition s_once : Z := Z.lor OPT_SEND OPT_ONCE.
Example C87_once_case :
  has s_once OPT_ONCE = true /\ has s_once OPT_DEBUG = false
  /\ child_init (s_sys 0) s_once (Some (mkPw 105 106)) []
     = (EExit 0, [KSocket; KStat (bs "/"); KStat (bs "/var/"); KStat (bs "/var/run/"); KStat (bs "/var/run/ladvd");
                  KChdir (bs "/var/run/ladvd"); KChroot (bs "/var/run/ladvd"); KChdir (bs "/");
                  KSetgroups; KSetresgid 106; KSetresuid 105; KNproc 0; KFsize 0; KSend])
  /\ child_init (s_but 0 (fun c => match c with KSetgroups => true | _ => false end) s_fail) s_once (Some (mkPw 105 106)) []
     = (EExit 1, [KSocket; KStat (bs "/"); KStat (bs "/var/"); KStat (bs "/var/run/"); KStat (bs "/var/run/ladvd");
                  KChdir (bs "/var/run/ladvd"); KChroot (bs "/var/run/ladvd"); KChdir (bs "/"); KSetgroups]).
Proof. vm_compute. repeat split. Qed.

(** C87: the privileged process enters its event loop only directly after waitpid
    said that the child is running.  When everything before succeeded and waitpid says
    otherwise, it exits with status 1; when waitpid says so, it enters the loop. *)
Theorem C87_child_watched k lib opts pid e h : parent_init k lib opts pid [] = (e, h) ->
  (forall pre post, h = pre ++ KLoop :: post -> exists q, pre = q ++ [KWaitpid pid] /\ a_ret (k pre) = 0)
  /\ (forall pre post, h = pre ++ KWaitpid pid :: post -> ~ In (KWaitpid pid) pre ->
      (forall a c b, pre = a ++ c :: b -> a_ret (k (a ++ [c])) <> -1) ->
      if a_ret (k (pre ++ [KWaitpid pid])) =? 0 then exists r, post = KLoop :: r else post = [] /\ e = EExit 1).
Proof. exact (parent_waited k lib opts pid e h). Qed.
Print Assumptions C87_child_watched.
Example C87_child_watched_case :
  parent_init (s_but 99 (fun c => match c with KWaitpid _ => true | _ => false end) (mkAns 99 0 0 0)) CapNg 7 99 []
  = (EExit 1, [KSocket; KCaps kept_caps; KWaitpid 99])
  /\ firstn 4 (snd (parent_init (s_sys 99) CapNg 7 99 [])) = [KSocket; KCaps kept_caps; KWaitpid 99; KLoop].
Proof. vm_compute. repeat split. Qed.

(** C88 is false: every frame was written before the child exited, but the event loop
    reads one datagram in a turn, and the death of the child ends the privileged process
    in that turn: the second frame is not transmitted although there is nothing wrong with
    it. *)
Definition s_two : list (list Z) := [t_dgram; msg_bytes 4 [] 1 0 (zlen c_cdp) c_cdp].
Definition s_eth : pos := t_os (Some (bs "eth0")).
Theorem C88_all_frames_refuted :
  exists cfg frames ms os,
    let s := once_run cfg (once_init frames) ms in
    o_left s = [] /\ o_dead s = true /\ o_phase s = OEnded
    /\ (forall fd data, ~ In (EFrame 4 fd data) (o_eff s))
    /\ exists fd data, In (EFrame 4 fd data) (r_eff (parent_run cfg [] (map (fun d => PSend d os) frames))).
Proof.
  exists t_cfg, s_two, [OEnter; OWrite; OWrite; OExit; OTurn false s_eth], s_eth.
  cbv zeta. split; [vm_compute; reflexivity|]. split; [vm_compute; reflexivity|]. split; [vm_compute; reflexivity|]. split.
  - intros fd data H.
    assert (E : o_eff (once_run t_cfg (once_init s_two) [OEnter; OWrite; OWrite; OExit; OTurn false s_eth])
      = [EOpen 3 (bs "eth0"); EMulti 3 1 (group_address 0); EMulti 3 1 (group_address 1); EFrame 3 9 c_cdp]) by (vm_compute; reflexivity).
    rewrite E in H. repeat (destruct H as [H|H]; [discriminate H|]). exact H.
  - exists 9, c_cdp.
    assert (E : r_eff (parent_run t_cfg [] (map (fun d => PSend d s_eth) s_two))
      = [EOpen 3 (bs "eth0"); EMulti 3 1 (group_address 0); EMulti 3 1 (group_address 1); EFrame 3 9 c_cdp;
         EOpen 4 (bs "eth0"); EMulti 4 1 (group_address 0); EMulti 4 1 (group_address 1); EFrame 4 9 c_cdp]) by (vm_compute; reflexivity).
    rewrite E. do 7 right. now left.
Qed.
Print Assumptions C88_all_frames_refuted.
(** C88, whatever the schedule: the privileged process handles a prefix of the frames,
    in their order and none twice, just as it would handle them in a daemon that stays;
    those not handled are still in the socket or not yet written. *)
Theorem C88_in_order cfg frames ms :
  exists es, let s := once_run cfg (once_init frames) ms in
    o_eff s = r_eff (parent_run cfg [] es) /\ frames = frames_of es ++ o_queue s ++ o_left s.
Proof. exact (once_prefix cfg frames ms). Qed.
Print Assumptions C88_in_order.
(** C88: when the socket is empty as the child exits, and the privileged process is in
    its loop, every frame is handled and the next turn ends the privileged process.
    Missing: the frames still in the socket, see above. *)
Theorem C88_all_frames_partial cfg frames a b : let s := once_run cfg (once_init frames) a in
  o_left s = [] -> o_queue s = [] -> o_phase s = OLooping -> (exists f os, In (OTurn f os) b) ->
  exists es, let s' := once_run cfg (once_init frames) (a ++ OExit :: b) in
    o_eff s' = r_eff (parent_run cfg [] es) /\ frames_of es = frames /\ o_phase s' = OEnded.
Proof. exact (once_drained cfg frames a b). Qed.
Print Assumptions C88_all_frames_partial.
Example C88_case :
  let a := [OEnter; OReq (t_req 0 4 0 []) s_eth; OWrite; OTurn false s_eth; OWrite; OTurn true s_eth] in
  let s := once_run t_cfg (once_init s_two) a in
  let s' := once_run t_cfg (once_init s_two) (a ++ [OExit; OTurn true s_eth]) in
  o_left s = [] /\ o_queue s = [] /\ o_phase s = OLooping /\ o_phase s' = OEnded
  /\ In (EFrame 3 9 c_cdp) (o_eff s') /\ In (EFrame 4 9 c_cdp) (o_eff s').
Proof.
  cbv zeta. do 4 (split; [vm_compute; reflexivity|]).
  assert (E : forall A f l r (x : A), filter f l = r -> In x r -> In x l) by (intros A f l r x <- H; now apply filter_In in H).
  split; apply (E _ (fun e => match e with EFrame _ _ _ => true | _ => false end) _ [EFrame 3 9 c_cdp; EFrame 4 9 c_cdp]).
  - vm_compute. reflexivity.
  - now left.
  - vm_compute. reflexivity.
  - right. now left.
Qed.

(** C89 is false: a daemon started in the foreground to run once never makes a client
    socket, and removes that of another daemon when it ends. *)
Theorem C89_own_socket_refuted :
  exists k lib opts user w h0 h1 pid,
    has opts OPT_ONCE = true
    /\ (exists e t, main_start k lib opts user [] = (e, h0 ++ t)) /\ last h0 KSend = KLoop
    /\ (exists a b, h0 = a ++ KFork :: b /\ a_ret (k (a ++ [KFork])) = pid)
    /\ ~ In KBind h0 /\ (forall k' pw e h, child_init k' opts (Some pw) [] = (e, h) -> ~ In KBind h)
    /\ parent_signal k opts 17 pid h0 = (EExit 0, h1)
    /\ w_sock (after k w h0) = Some (504, 106) /\ w_sock (after k w h1) = None.
Proof.
  set (h0 := [KGetpw (bs "ladvd"); KSysinfo] ++ flat_map (fun _ => [KSocketpair; KSockopt; KSockopt; KSockopt; KSockopt]) [1; 2]
    ++ [KFork; KSocket; KCaps kept_caps; KWaitpid 99; KLoop]).
  exists (s_sys 99), CapNg, s_once, (bs "ladvd"), (mkW 0 0 None [47] (Some (bs "/root")) None None None 18 (Some (504, 106)) None false),
    h0, (h0 ++ [KWaitpid 99; KKill 99 17; KCloseRaw; KUnlinkSock]), 99.
  split; [reflexivity|]. split; [do 2 eexists; vm_compute; reflexivity|]. split; [reflexivity|].
  split; [exists (firstn 12 h0), (skipn 13 h0); split; vm_compute; reflexivity|].
  split; [cbn; intuition discriminate|]. split.
  - intros k' pw e h R H. destruct (child_once k' s_once (Some pw) e h R eq_refl) as [N _]; [discriminate|]. exact (N KBind H I).
  - split; [vm_compute; reflexivity|]. split; vm_compute; reflexivity.
Qed.
Print Assumptions C89_own_socket_refuted.
(** C89 for a daemon in the background: the socket is removed only with the lock of the
    pid file, at the start of the child, at a failure and at a signal.  Missing: daemons
    in the foreground or in debug mode, see above. *)
Theorem C89_own_socket_partial k lib opts user w e h sig pid pre post : main_start k lib opts user [] = (e, h) ->
  has opts OPT_DAEMON = true ->
  (h = pre ++ KUnlinkSock :: post
   \/ exists h0 e', (exists t, h = h0 ++ t) /\ In KFork h0
      /\ (exists t, parent_signal k opts sig pid h0 = (e', h0 ++ t) /\ h0 ++ t = pre ++ KUnlinkSock :: post)) ->
  w_locked (after k w pre) = true.
Proof. exact (unlink_locked k lib opts user w e h sig pid pre post). Qed.
Print Assumptions C89_own_socket_partial.
Example C89_case :
  let opts := Z.lor OPT_DAEMON 7 in
  exists e h h0 t pre post,
    main_start (s_sys 99) CapNg opts (bs "ladvd") [] = (e, h) /\ has opts OPT_DAEMON = true /\ h = h0 ++ t /\ In KFork h0
    /\ parent_signal (s_sys 99) opts 15 99 h0 = (EExit 0, pre ++ KUnlinkSock :: post)
    /\ w_locked s_world = false /\ w_locked (after (s_sys 99) s_world pre) = true.
Proof.
  cbv zeta.
  set (h0 := [KGetpw (bs "ladvd"); KSysinfo; KDaemon; KOpenPid; KLockPid; KGetpid; KWritePid (bs "4321" ++ [10])]
    ++ flat_map (fun _ => [KSocketpair; KSockopt; KSockopt; KSockopt; KSockopt]) [1; 2]
    ++ [KFork; KSocket; KCaps kept_caps; KWaitpid 99; KLoop]).
  eexists _, _, h0, _, (h0 ++ [KWaitpid 99; KKill 99 15; KCloseRaw]), []. split; [vm_compute; reflexivity|]. split; [reflexivity|].
  split; [vm_compute; reflexivity|]. split; [cbn; tauto|]. split; [vm_compute; reflexivity|]. split; vm_compute; reflexivity.
Qed.
