(** Vocabulary for C113: which allocations are in use. *)
From Coq Require Import Permutation.
From Verif Require Import Base Types Tlv Msg Wire Util Child Heap.

(** Allocations held by slots of peer[]. *)
Fixpoint held (slots : list (option Z)) : list Z :=
  match slots with
  | [] => []
  | Some a :: l => a :: held l
  | None :: l => held l
  end.
(** The allocations of the message being decoded. *)
Definition held_by (s : hst) : list Z := held (map (option_map fst) (h_peer s)).
(** In use are these allocations and no others, and none of them twice. *)
Definition in_use (h : heap) (l : list Z) : Prop :=
  NoDup l /\ Permutation (live h) l /\ Forall (fun a => a < next h) l.
(** A table entry uses its own allocation and the ones of its strings. *)
Definition entry_uses (e : hentry) : list Z := he_ptr e :: held (he_strs e).
(** All that the process may use: the table and the sessions. *)
Definition child_uses (c : hchild) : list Z :=
  flat_map entry_uses (hc_queue c) ++ map snd (hc_sess c).
(** There are eight slots, and one has an allocation exactly if it has a string. *)
Definition backed (e : hentry) : Prop :=
  length (he_strs e) = 8%nat /\
  map (fun a : option Z => if a then true else false) (he_strs e)
  = map (fun s : option (list Z) => if s then true else false) (q_peer (he_entry e)).
(** What a function did, without the allocations. *)
Definition ran {A} (r : dres A * hst) : dres (A * dst) :=
  match r with
  | (DOk a, s) => DOk (a, erase s)
  | (DFail, _) => DFail
  | (DAbort, _) => DAbort
  | (DUB, _) => DUB
  | (DLoop, _) => DLoop
  end.
(** A history, without the allocations. *)
Definition ran_child (r : dres (hchild * list ceff)) : dres (child * list ceff) :=
  match r with
  | DOk (c, eff) => DOk (plain c, eff)
  | DFail => DFail
  | DAbort => DAbort
  | DUB => DUB
  | DLoop => DLoop
  end.
(** The lines over descriptions that have several lines, and how many were printed. *)
Definition headings : list (list Z) :=
  map (fun t => t ++ [58; 10]) [bs "Version"; bs "Platform"; bs "Port Description"; bs "System Description"].
Definition headed (out : list (list Z)) : Z := zlen (filter (fun l => existsb (beq l) headings) out).
