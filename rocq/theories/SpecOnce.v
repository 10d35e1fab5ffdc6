(** Specification vocabulary: running once. *)
From Verif Require Import Base Types Parent Start SpecStart.

(** Calls of a daemon that stays: the client socket, the link socket, the loop. *)
Definition serves (c : call) : Prop :=
  match c with
  | KUmask _ | KUnlinkSock | KBind | KListen | KChmod _ | KChown _ | KLink | KLoop => True
  | _ => False
  end.
(** The frames read from the message socket, in order. *)
Definition frames_of (es : list pevent) : list (list Z) :=
  flat_map (fun e => match e with PSend d _ => [d] | PReq _ _ => [] end) es.
