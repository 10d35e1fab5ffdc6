(** The two processes together: vocabulary of C118 and C119. *)
From Verif Require Import Base Types Wire Util Child Parent Netif Mreq Send Spec SpecNet SpecMreq SpecSend SpecOnce.

(** The frames given to the kernel among the effects of the privileged process:
    interface and content, in order. *)
Definition on_wire (eff : list peff) : list (Z * list Z) :=
  flat_map (fun e => match e with EFrame i _ data => [(i, data)] | _ => [] end) eff.
(** The frames the other process wants sent in a history: interface, protocol and
    content, in order. *)
Definition advertised (effs : list (list seff)) : list (Z * Z * list Z) := flat_map SpecSend.frames effs.
Definition target (x : Z * Z * list Z) : Z * list Z := (fst (fst x), snd x).
(** The events of the privileged process that serve these frames: they arrive in
    order on the message socket, [rest] has not been read yet; at any time there
    are requests of the other process on the other socket.  The answers of the
    operating system are arbitrary, except that packet capture can be set up (C84)
    and answers can be written. *)
Definition handles (cfg : pcfg) (frames : list (Z * Z * list Z)) (pes : list pevent) (rest : list (Z * Z * list Z)) : Prop :=
  (exists done, frames = done ++ rest /\ frames_of pes = map (fun x => frame_dgram (fst (fst x)) (snd (fst x)) (snd x)) done)
  /\ Forall (fun e =>
       match e with
       | PReq d os => os_sock os <> SockFatal /\ os_reply os = true
                      /\ exists q, asked cfg q /\ 0 <= rq_index q < 4294967296 /\ d = mreq_out q
       | PSend _ os => os_sock os <> SockFatal
       end) pes.
(** A list with some elements left out. *)
Inductive some_of {A} : list A -> list A -> Prop :=
| some_none : some_of [] []
| some_take x a b : some_of a b -> some_of (x :: a) (x :: b)
| some_skip x a b : some_of a b -> some_of a (x :: b).
(** The interface exists and a socket can be had. *)
Definition workable (os : pos) : Prop := os_name os <> None /\ exists fd, os_sock os = SockFd fd /\ 0 <= fd.

(** ** Listening *)
(** The raw sockets the other process asks for, and those it has closed. *)
Definition opens (eff : list seff) : list Z := flat_map (fun e => match e with SOpen i => [i] | _ => [] end) eff.
Definition closes (eff : list seff) : list Z := flat_map (fun e => match e with SClose i => [i] | _ => [] end) eff.
(** The interfaces to listen on: what the selected ones stand for, as far as no
    protocol was heard there yet (only with automatic protocols is that ever
    recorded, and then the socket has been there). *)
Definition listened (cfg : scfg) (os : nos) (nfs : list netif) : list Z :=
  if opt cfg 2
  then flat_map (fun top => map nf_index (filter (fun s => eligible cfg s && (nf_protos s =? 0)) (stands_for os nfs top)))
         (filter (fun top => selected cfg top && eligible cfg top) nfs)
  else [].
(** There is a raw socket for the interface. *)
Definition listens (fds : list rawfd) (i : Z) : Prop := exists r, In r fds /\ rf_index r = i.
(** The event takes the socket of the interface away: it is to be closed, or a
    frame could not be sent because the interface is gone. *)
Definition loses (i : Z) (e : pevent) : Prop :=
  match e with
  | PReq d _ => pr_op (req_mem d) = 1 /\ pr_index (req_mem d) = i
  | PSend d os => pm_index (msg_mem d) = i /\ os_rawlen os = -1 /\ os_gone os = true
  end.
