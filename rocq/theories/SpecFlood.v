(** How many neighbours the table holds: vocabulary of C133. *)
From Verif Require Import Base Types Wire Util Child.

(** The event is a frame handed to the child at time [t] or later. *)
Definition since (t : Z) (e : cevent) : bool :=
  match e with CRecv _ now _ => t <=? now | _ => false end.
(** The source addresses a sender may make up. *)
Definition made_up (k : Z) : list Z :=
  [2; 33; k / 16777216 mod 256; k / 65536 mod 256; k / 256 mod 256; k mod 256].
