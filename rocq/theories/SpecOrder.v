(** The order of the neighbour table: vocabulary of C112. *)
From Verif Require Import Base Types Util Child Spec SpecChild.

(** The neighbour a message is from: interface and source address. *)
Definition neighbour (e : entry) : Z * list Z := (q_index e, source e).
(** [x] comes before [y] in [l]. *)
Definition before {A} (x y : A) (l : list A) : Prop := exists l1 l2 l3, l = l1 ++ x :: l2 ++ y :: l3.
