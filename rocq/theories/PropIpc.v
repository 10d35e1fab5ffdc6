(** The two processes and the sockets between them: C125. *)
From Verif Require Import Base Types Tlv Checks Wire Parent Netif Mreq Util Child Send Ipc SpecIpc
  Cases Cases2 Cases3 Cases6 Conformance PropNet IpcProofs.

(** C125 is false: with sockets of any finite size, a daemon that receives can come to a
    halt for good in its first run.  The child waits for the answer to a request, the
    privileged process to hand over one frame of many that came meanwhile. *)
Definition ip_cfg : pcfg := mkPcfg 14 [true; false; false; false; false; false] false false.
Definition ip_eff : list seff := Eval vm_compute in snd (child_send w_cfg w_osb NETIF_INDEX_MAX true 1000 w_st0).
Definition ip_os : pos := t_os (Some (bs "eth0")).
Lemma ip_run : a_run (tree_of ip_eff).
Proof. exists w_cfg, w_osb, 1000, w_st0. f_equal. Qed.
Theorem C125_halt_refuted room : takes_one room -> finite room ->
  exists t es s, a_run t /\ isteps room a_run ip_cfg (ipc_start t) es s /\ deadlock room a_run ip_cfg s.
Proof.
  intros T F. exists (tree_of ip_eff).
  destruct (wedge_opens room ip_cfg ip_eff 1 2 0 (match ip_eff with _ :: SFrame _ _ f :: _ => f | _ => [] end) (skipn 3 ip_eff)
              ip_os (mkRaw 1 (bs "eth0") 9 true) c_cdp (msg_bytes 1 [] 1 0 (zlen c_cdp) c_cdp) T F) as (es & s & A & B);
    [reflexivity|reflexivity|vm_compute; reflexivity|exact ip_run| |left; vm_compute; reflexivity|vm_compute; reflexivity|].
  - apply answered. vm_compute. reflexivity.
  - exists es, s. split; [exact ip_run|]. now split.
Qed.
Print Assumptions C125_halt_refuted.
(** C125, partial: that is the only way.  Whatever the events make the child do, neither
    halts unless the privileged process waits to hand over a received frame, while the
    other waits for an answer or to hand over a frame. *)
Theorem C125_halts_partial room starts cfg t es s : takes_one room -> (exists t, starts t) -> isteps room starts cfg (ipc_start t) es s ->
  (deadlock room starts cfg s <-> both_live s /\ parent_waits room s /\ child_waits room s).
Proof. exact (deadlock_iff room starts cfg t es s). Qed.
Print Assumptions C125_halts_partial.
(** So it goes on as long as the frames received fit into the socket. *)
Theorem C125_few_partial room starts cfg t es s n :
  takes_one room -> (exists t, starts t) -> holds room n -> isteps room starts cfg (ipc_start t) es s ->
  (pending s <= n)%nat -> ~ deadlock room starts cfg s.
Proof. exact (few_live room starts cfg t es s n). Qed.
Print Assumptions C125_few_partial.
(** And always without -r (or -a, -z), and with -d. *)
Theorem C125_sender_partial room starts cfg t es s :
  takes_one room -> (exists t, starts t) -> has (pc_opts cfg) OPT_RECV = false \/ has (pc_opts cfg) OPT_DEBUG = true ->
  isteps room starts cfg (ipc_start t) es s -> ~ deadlock room starts cfg s.
Proof. exact (fun T S M R => mute_lives room starts cfg t es s T S M R). Qed.
Print Assumptions C125_sender_partial.

(** Sockets for ten datagrams.  The child has asked for the second socket, three frames
    came on the first: all can still go on. *)
Definition ip_room (q : list (list Z)) (d : list Z) : bool := zlen q <? 10.
Definition ip_msg : list Z := msg_bytes 1 [] 1 0 (zlen c_cdp) c_cdp.
Definition ip_st : ipc :=
  mkIpc (Await (fun _ => TLoop)) (PRecv [ip_msg; ip_msg]) [mkRaw 1 (bs "eth0") 9 true] [mreq_out (q_open 2)] [] [] [ip_msg].
Definition ip_two : ctree := TReq (mreq_out (q_open 1)) (fun _ => TReq (mreq_out (q_open 2)) (fun _ => TLoop)).
Example C125_case : takes_one ip_room /\ finite ip_room /\ holds ip_room 10 /\ (exists t, a_run t)
  /\ (exists es, isteps ip_room a_run ip_cfg (ipc_start ip_two) es ip_st) /\ (pending ip_st <= 10)%nat /\ both_live ip_st
  /\ child_waits ip_room ip_st /\ ~ parent_waits ip_room ip_st.
Proof.
  split; [intros d; reflexivity|]. split; [exists 10%nat; intros q d H; unfold ip_room, zlen; apply Z.ltb_ge; lia|].
  split; [intros q d H; unfold ip_room, zlen; apply Z.ltb_lt; lia|]. split; [exists (tree_of ip_eff); exact ip_run|]. split.
  - eexists. eapply is_step; [apply c_request; reflexivity|].
    eapply is_step; [apply (p_request _ _ _ _ _ _ _ _ _ _ ip_os)|].
    match goal with |- isteps _ _ _ ?s _ _ => let s' := eval vm_compute in s in change s with s' end.
    eapply is_step; [apply p_answer; reflexivity|]. eapply is_step; [apply c_answer|]. cbn beta.
    eapply is_step; [apply c_request; reflexivity|].
    eapply is_step; [apply (p_packets _ _ _ _ _ _ _ _ _ (mkRaw 1 (bs "eth0") 9 true) [c_cdp; c_cdp; c_cdp]); [now left|reflexivity|reflexivity]|].
    change (parent_recv (rf_index (mkRaw 1 (bs "eth0") 9 true)) [c_cdp; c_cdp; c_cdp]) with (parent_recv 1 (repeat c_cdp 3)).
    rewrite (recv_repeat 1 c_cdp ip_msg 3) by (vm_compute; reflexivity). cbn [repeat].
    eapply is_step; [apply p_write; reflexivity|]. apply is_none.
  - split; [vm_compute; lia|]. split; [split; discriminate|]. split; [left; eexists; split; reflexivity|].
    intros (m & ms & E & R). discriminate R.
Qed.
