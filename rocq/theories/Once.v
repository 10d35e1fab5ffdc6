(** A daemon that runs once (option -o): the child writes its frames to the message
    socket and exits, the privileged process reads them in its event loop. *)
From Verif Require Import Base Types Parent.

(** Where the privileged process is: before the waitpid of parent_init
    (/repo/src/parent.c 80-147), in event_dispatch (152), or at its end. *)
Inductive ophase := OStarting | OLooping | OEnded.
(** Both processes: the datagrams child_send has yet to write (/repo/src/child.c
    163-288), those waiting in the socket made by my_socketpair (/repo/src/util.c
    115-133), whether the child has exited (child.c 128-129), and the privileged
    process with its sockets and what it did so far. *)
Record ostate := mkO {
  o_left : list (list Z); o_queue : list (list Z); o_dead : bool;
  o_phase : ophase; o_fds : list rawfd; o_eff : list peff
}.
(** The state behind fork, /repo/src/main.c 247. *)
Definition once_init (frames : list (list Z)) : ostate := mkO frames [] false OStarting [] [].

(** What happens next, the scheduler's choice: the child writes a datagram (child.c
    282), makes a request and waits for the reply (/repo/src/util.c 284-299), or exits;
    the privileged process enters its event loop, or the loop makes a turn with the
    signal of the child's death taken before ([true]) or after the message socket.
    Simplified: a socket that is full is not modelled, the child just waits. *)
Inductive omove := OWrite | OReq (dgram : list Z) (os : pos) | OExit | OEnter | OTurn (signal_first : bool) (os : pos).

(** The event handler parent_req or parent_send (/repo/src/parent.c 192-261, 309-354)
    runs; assert and my_fatal end the process. *)
Definition once_handle (cfg : pcfg) (s : ostate) (queue : list (list Z)) (e : pevent) : ostate :=
  let r := parent_step cfg (o_fds s) e in
  mkO (o_left s) queue (o_dead s) (if r_alive r then o_phase s else OEnded) (r_fds r) (o_eff s ++ r_eff r).
(** parent_signal for SIGCHLD, parent.c 162-183: the process ends. *)
Definition once_end (s : ostate) : ostate :=
  mkO (o_left s) (o_queue s) (o_dead s) OEnded (o_fds s) (o_eff s).
(** One move.  A turn of the loop runs parent_send at most once and reads one datagram
    (parent.c 315); moves that are not possible change nothing. *)
Definition once_step (cfg : pcfg) (s : ostate) (m : omove) : ostate :=
  match m with
  | OWrite =>
      match o_left s with
      | d :: l => mkO l (o_queue s ++ [d]) (o_dead s) (o_phase s) (o_fds s) (o_eff s)
      | [] => s
      end
  | OReq d os =>
      match o_phase s with
      | OLooping => if o_dead s then s else once_handle cfg s (o_queue s) (PReq d os)
      | _ => s
      end
  | OExit =>
      match o_left s with
      | [] => mkO [] (o_queue s) true (o_phase s) (o_fds s) (o_eff s)
      | _ => s
      end
  | OEnter =>
      match o_phase s with
      | OStarting =>
          if o_dead s then once_end s
          else mkO (o_left s) (o_queue s) (o_dead s) OLooping (o_fds s) (o_eff s)
      | _ => s
      end
  | OTurn signal_first os =>
      match o_phase s with
      | OLooping =>
          let s1 := if o_dead s && signal_first then once_end s
                    else match o_queue s with
                         | d :: q => once_handle cfg s q (PSend d os)
                         | [] => s
                         end in
          if o_dead s then once_end s1 else s1
      | _ => s
      end
  end.
(** A schedule: the moves of child.c 126-129 and parent.c 148-152 in any order. *)
Fixpoint once_run (cfg : pcfg) (s : ostate) (ms : list omove) : ostate :=
  match ms with
  | [] => s
  | m :: ms' => once_run cfg (once_step cfg s m) ms'
  end.
