(** The loops over the members of an aggregate: vocabulary of C103. *)
From Verif Require Import Base Types.

(** What the call number [k], counted from 0, of subif_iter in such a loop returns;
    [None] ends the loop. *)
Fixpoint call (k : nat) (n : netif) (nfs : list netif) : option netif :=
  match k with
  | O => subif_iter None n nfs
  | S j => match call j n nfs with Some s => subif_iter (Some s) n nfs | None => None end
  end.
(** The loop over the members of [n] ends. *)
Definition loop_ends (n : netif) (nfs : list netif) : Prop := exists k, call k n nfs = None.
