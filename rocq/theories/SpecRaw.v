(** The raw sockets in memory: vocabulary of C124. *)
From Verif Require Import Base Types Tlv Checks Wire Parent RawMem.

(** A state the privileged process is in after some events since its start. *)
Definition lives (cfg : pcfg) (st : rst) : Prop :=
  exists es eff msgs, raw_run cfg raw_start es = DOk (st, eff, msgs, true).
(** The pointer [p] leads to the socket [r], in use. *)
Definition at_ptr (st : rst) (p : Z) (r : rawfd) : Prop := In (p, r) (rs_mem st).
(** The list of sockets, read through its pointers. *)
Definition sockets_are (st : rst) (fds : list rawfd) : Prop := Forall2 (at_ptr st) (rs_list st) fds.
(** The daemon reads from its sockets: it receives, and is not in debug mode. *)
Definition reads (cfg : pcfg) : Prop := Z.testbit (pc_opts cfg) 2 = true /\ Z.testbit (pc_opts cfg) 6 = false.
(** The interfaces whose sockets were closed, in order. *)
Definition closed_in (eff : list peff) : list Z := flat_map (fun e => match e with EClose i => [i] | _ => [] end) eff.
