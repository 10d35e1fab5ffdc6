(** When nothing comes from outside any more: vocabulary of C127. *)
From Verif Require Import Base Types Tlv Checks Wire Parent Netif Mreq Util Child Send Ipc.

(** A timer, a link event, a client or a captured packet. *)
Definition outside (e : ievent) : Prop := match e with IBegin _ | ICapture _ _ => True | _ => False end.
(** Without such an event neither process does anything any more. *)
Definition settled (room : list (list Z) -> list Z -> bool) (starts : ctree -> Prop) (cfg : pcfg) (s : ipc) : Prop :=
  forall e s', istep room starts cfg s e s' -> outside e.
(** Both are in their event loops, and nothing is in the sockets between them. *)
Definition at_rest (s : ipc) : Prop :=
  i_child s = Run TLoop /\ i_parent s = PIdle /\ i_req s = [] /\ i_rep s = [] /\ i_out s = [] /\ i_in s = [].
