(** Vocabulary for C149: which neighbours the words given to the client ask for. *)
From Verif Require Import Base Types Wire Util Child Cli Spec SpecCli.

(** The letter is among the options. *)
Definition says_letter (x : Z) (o : list (Z * list Z)) : bool := existsb (Z.eqb x) (map fst o).
(** The neighbour is asked for, by protocol and by interface; -C (67) is for version 2 of
    CDP only. *)
Definition wanted (o : list (Z * list Z)) (names : list (list Z)) (ifindex : list Z -> Z) (e : entry) : bool :=
  asked (map fst o) (q_proto e) && asked_if names ifindex (q_index e) && negb (says_letter 67 o && (q_proto e =? 5)).
(** Those shown: with -o (111) the first only. *)
Definition to_show (o : list (Z * list Z)) (names : list (list Z)) (ifindex : list Z -> Z) (es : list entry) : list entry :=
  let l := filter (wanted o names ifindex) es in if says_letter 111 o then firstn 1 l else l.
(** None of these letters is given. *)
Definition without (ls : list Z) (o : list (Z * list Z)) : Prop := forall x, In x ls -> says_letter x o = false.
