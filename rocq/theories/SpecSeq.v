(** Sequence numbers of EDP frames: vocabulary of C132. *)
From Verif Require Import Base Types Tlv Wire Util Child Netif Send SpecSend.

(** The sequence number of an EDP frame, bytes 28 and 29; the numbers of the EDP frames
    (protocol 2) sent, in order. *)
Definition edp_number (f : list Z) : Z := 256 * nth 28 f 0 + nth 29 f 0.
Definition edp_numbers (effs : list (list seff)) : list Z :=
  map (fun x => edp_number (snd x)) (filter (fun x => snd (fst x) =? 2) (frames (concat effs))).

(** [l] are numbers, kept in 16 bits, that get larger from frame to frame; the first is
    not below [n] and the last is below [m]. *)
Inductive growing : Z -> list Z -> Z -> Prop :=
| grow_end n m : n <= m -> growing n [] m
| grow_next n k l m : n <= k -> growing (k + 1) l m -> growing n (k mod 65536 :: l) m.
(** [l] are the numbers from [n] up to, but not including, [m]. *)
Inductive consecutive : Z -> list Z -> Z -> Prop :=
| cons_end n : consecutive n [] n
| cons_next n l m : consecutive (n + 1) l m -> consecutive n (n mod 65536 :: l) m.

(** The VLAN interfaces in the table. *)
Definition vlan_count (st : sstate) : Z := zlen (filter (fun n => nf_type n =? -1) (table st)).
