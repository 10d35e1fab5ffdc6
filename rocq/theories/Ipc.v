(** The two processes running at the same time, with the sockets between them that hold
    only so much: /repo/src/util.c 116-133 and 284-299, child.c 278-280 and 319,
    parent.c 192-201, 257-260, 309-316 and 815-817. *)
From Verif Require Import Base Types Tlv Checks Wire Parent Netif Mreq Util Child Send.

(** What the child is about to do: wait in its loop (event_dispatch, child.c 156), write a
    request and read the answer (my_mreq, util.c 289-296), write a frame for the network
    (child.c 278-280), or nothing more, since it has ended. *)
Inductive ctree :=
| TLoop
| TEnd
| TReq (d : list Z) (k : list Z -> ctree)
| TFrame (d : list Z) (k : ctree).
(** The child: doing that, or between the write and the read of my_mreq, util.c 289-294. *)
Inductive cproc :=
| Run (t : ctree)
| Await (k : list Z -> ctree).
(** The parent: in its loop (parent.c 152), in parent_recv with these messages still to
    be written (784-820), in parent_req before the answer is written (258), or ended. *)
Inductive pproc :=
| PIdle
| PRecv (msgs : list (list Z))
| PReply (d : list Z)
| PEnd.
(** Both, the raw sockets, and the datagrams under way: requests and answers on the first
    pair of sockets, frames for the network and frames received on the second (main.c
    243-245). *)
Record ipc := mkIpc {
  i_child : cproc; i_parent : pproc; i_fds : list rawfd;
  i_req : list (list Z); i_rep : list (list Z); i_out : list (list Z); i_in : list (list Z)
}.
(** What becomes of the child after a request: my_mreq of Mreq.v (util.c 284-299). *)
Definition asks (q : preq) (k : preq -> ctree) : ctree :=
  TReq (mreq_out q) (fun d => match my_mreq q (Some d) with DOk a => k a | _ => TEnd end).
(** The writes of child_send in order (child.c 163-296), from the effects of Send.v, and
    the loop.  Simplified: of the requests of netif_fetch only those to close sockets and
    those for descriptions are among the effects. *)
Fixpoint tree_of (l : list seff) : ctree :=
  match l with
  | [] => TLoop
  | SOpen i :: l' => asks (q_open i) (fun _ => tree_of l')
  | SClose i :: l' => asks (q_close preq0 i) (fun _ => tree_of l')
  | SFrame i p f :: l' => TFrame (frame_dgram i p f) (tree_of l')
  | SChild (CDescr i text) :: l' => asks (q_descr i text) (fun _ => tree_of l')
  | SChild (CSent _ _) :: l' => tree_of l'
  end.

(** What happens in a step: an event makes the child begin to do [t]; child_queue reads a
    message (child.c 319) and begins to do [t]; my_mreq writes its request (util.c 289) and
    reads the answer (294); child_send writes a frame (child.c 278); parent_req reads a
    request and acts (parent.c 192-255) with the answer [a], none if it ends the process, and
    writes the answer (258); parent_send reads a frame and acts (309-354); parent_recv starts
    with the packets captured on interface [i] (769-785), writes a message (815) and returns
    (821). *)
Inductive ievent :=
| IBegin (t : ctree)
| ITake (d : list Z) (t : ctree)
| IAsk (d : list Z)
| IGot (d : list Z)
| IPut (d : list Z)
| IServe (d : list Z) (os : pos) (a : option (list Z))
| IAnswer (d : list Z)
| ISend (d : list Z) (os : pos)
| ICapture (i : Z) (captured : list (list Z))
| IHand (m : list Z)
| IReturn.
(** One step of one of them.  [starts] tells what an event may make the child do;
    [room q d] whether the kernel takes the datagram [d] when [q] waits to be read (the
    buffers of my_socketpair, util.c 116-133).  The sockets are not made non-blocking, so a
    write without room waits, as does a read without a datagram; a waiting process has no
    step. *)
Inductive istep (room : list (list Z) -> list Z -> bool) (starts : ctree -> Prop) (cfg : pcfg) : ipc -> ievent -> ipc -> Prop :=
(** A timer, a link event or a client: child.c 121-122, 136-153. *)
| c_event p fds rq rp o i t : starts t ->
    istep room starts cfg (mkIpc (Run TLoop) p fds rq rp o i) (IBegin t) (mkIpc (Run t) p fds rq rp o i)
(** child_queue reads a message, child.c 319. *)
| c_message p fds rq rp o d i t : starts t ->
    istep room starts cfg (mkIpc (Run TLoop) p fds rq rp o (d :: i)) (ITake d t) (mkIpc (Run t) p fds rq rp o i)
(** my_mreq writes, util.c 289. *)
| c_request p fds rq rp o i d k : room rq d = true ->
    istep room starts cfg (mkIpc (Run (TReq d k)) p fds rq rp o i) (IAsk d) (mkIpc (Await k) p fds (rq ++ [d]) rp o i)
(** my_mreq reads, util.c 294. *)
| c_answer p fds rq d rp o i k :
    istep room starts cfg (mkIpc (Await k) p fds rq (d :: rp) o i) (IGot d) (mkIpc (Run (k d)) p fds rq rp o i)
(** child_send writes, child.c 278. *)
| c_frame p fds rq rp o i d k : room o d = true ->
    istep room starts cfg (mkIpc (Run (TFrame d k)) p fds rq rp o i) (IPut d) (mkIpc (Run k) p fds rq rp (o ++ [d]) i)
(** parent_req reads and acts, parent.c 192-255. *)
| p_request c fds d rq rp o i os :
    let r := parent_req cfg fds d os in
    istep room starts cfg (mkIpc c PIdle fds (d :: rq) rp o i) (IServe d os (parent_reply d os r))
      (mkIpc c (match parent_reply d os r with Some a => PReply a | None => PEnd end) (r_fds r) rq rp o i)
(** parent_req answers, parent.c 258. *)
| p_answer c fds rq rp o i d : room rp d = true ->
    istep room starts cfg (mkIpc c (PReply d) fds rq rp o i) (IAnswer d) (mkIpc c PIdle fds rq (rp ++ [d]) o i)
(** parent_send, parent.c 309-354. *)
| p_send c fds rq rp d o i os :
    let r := parent_send cfg fds d os in
    istep room starts cfg (mkIpc c PIdle fds rq rp (d :: o) i) (ISend d os)
      (mkIpc c (if r_alive r then PIdle else PEnd) (r_fds r) rq rp o i)
(** Packets for a socket with a registered event (parent.c 374, 382-384): parent_recv
    begins, 769-785. *)
| p_packets c fds rq rp o i r captured :
    In r fds -> has (pc_opts cfg) OPT_RECV = true -> has (pc_opts cfg) OPT_DEBUG = false ->
    istep room starts cfg (mkIpc c PIdle fds rq rp o i) (ICapture (rf_index r) captured)
      (mkIpc c (PRecv (parent_recv (rf_index r) captured)) fds rq rp o i)
(** It writes a message, 815. *)
| p_write c fds rq rp o i m ms : room i m = true ->
    istep room starts cfg (mkIpc c (PRecv (m :: ms)) fds rq rp o i) (IHand m) (mkIpc c (PRecv ms) fds rq rp o (i ++ [m]))
(** It returns, 821. *)
| p_return c fds rq rp o i :
    istep room starts cfg (mkIpc c (PRecv []) fds rq rp o i) IReturn (mkIpc c PIdle fds rq rp o i).
(** Any number of steps, and what happened; helper without a counterpart in the C code. *)
Inductive isteps (room : list (list Z) -> list Z -> bool) (starts : ctree -> Prop) (cfg : pcfg) : ipc -> list ievent -> ipc -> Prop :=
| is_none s : isteps room starts cfg s [] s
| is_step s1 e s2 es s3 : istep room starts cfg s1 e s2 -> isteps room starts cfg s2 es s3 -> isteps room starts cfg s1 (e :: es) s3.
(** The start: the child is about to do [t] (child.c 122), the parent enters its loop. *)
Definition ipc_start (t : ctree) : ipc := mkIpc (Run t) PIdle [] [] [] [] [].
