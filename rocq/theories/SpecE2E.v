(** Two daemons on one wire: vocabulary of C81 and C82. *)
From Verif Require Import Base Types Bpf Wire Parent Util Child Spec SpecAdv SpecRound SpecNet SpecChild.

(** How a receiver shows a name advertised by protocol [p]: NDP has no names, FDP
    is shown with blanks and all other unusual characters escaped, the others
    with blanks left as they are. *)
Definition told (p : Z) (name : list Z) : option (list Z) :=
  if p =? 4 then None
  else if p =? 3 then Some (flat_map show_strict name)
  else Some (flat_map show_safe name).

(** A daemon with options [opts] hears the frame [f] on its interface [index]: it
    passes the filter on the socket, the privileged process hands over one
    datagram for it, and the other process takes this datagram, its state going
    from [c] to [c']. *)
Definition hears (opts : Z) (c : child) (index : Z) (f : list Z) (now now2 : Z) (c' : child) : Prop :=
  socket_filter opts f = true
  /\ exists d eff, parent_recv index [f] = [d] /\ child_queue opts c d now now2 = DOk (c', eff).
