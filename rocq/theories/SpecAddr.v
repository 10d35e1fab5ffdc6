(** Specification vocabulary: reading addresses back from their text. *)
From Verif Require Import Base Spec.

(** The fields of a text between separators. *)
Fixpoint fields (sep : Z) (t : list Z) : list (list Z) :=
  match t with
  | [] => [[]]
  | c :: t' =>
      if c =? sep then [] :: fields sep t'
      else match fields sep t' with g :: gs => (c :: g) :: gs | [] => [[c]] end
  end.
(** A digit: 0-9, a-f. *)
Definition digit (c : Z) : option Z :=
  if (48 <=? c) && (c <=? 57) then Some (c - 48)
  else if (97 <=? c) && (c <=? 102) then Some (c - 87) else None.
(** A number to a base, most significant digit first, without leading zeros. *)
Fixpoint value (base acc : Z) (t : list Z) : option Z :=
  match t with
  | [] => Some acc
  | c :: t' =>
      match digit c with
      | Some d => if d <? base then value base (base * acc + d) t' else None
      | None => None
      end
  end.
Definition number (base : Z) (t : list Z) : option Z :=
  match t with
  | [] => None
  | [c] => value base 0 t
  | c :: _ => if c =? 48 then None else value base 0 t
  end.
Fixpoint all {A B} (f : A -> option B) (l : list A) : option (list B) :=
  match l with
  | [] => Some []
  | a :: l' => match f a, all f l' with Some b, Some r => Some (b :: r) | _, _ => None end
  end.

(** Dotted quad: four decimal numbers below 256. *)
Definition read4 (t : list Z) : option (list Z) :=
  match all (number 10) (fields 46 t) with
  | Some [a; b; c; d] =>
      if (a <? 256) && (b <? 256) && (c <? 256) && (d <? 256) then Some [a; b; c; d] else None
  | _ => None
  end.
(** An Ethernet address: six fields of two hexadecimal digits. *)
Definition octet (t : list Z) : option Z := if zlen t =? 2 then value 16 0 t else None.
Definition read802 (t : list Z) : option (list Z) :=
  match all octet (fields 58 t) with
  | Some l => if zlen l =? 6 then Some l else None
  | None => None
  end.

(** RFC 4291, 2.2.  A text cut at its first "::". *)
Fixpoint cut (t : list Z) : option (list Z * list Z) :=
  match t with
  | [] => None
  | c :: t' =>
      if (c =? 58) && (match t' with d :: _ => d =? 58 | [] => false end) then Some ([], tl t')
      else match cut t' with Some (l, r) => Some (c :: l, r) | None => None end
  end.
(** One 16-bit group. *)
Definition group (t : list Z) : option Z :=
  match number 16 t with Some w => if w <? 65536 then Some w else None | None => None end.
(** Groups; the last one may be a dotted quad that stands for two. *)
Fixpoint groups (fs : list (list Z)) : option (list Z) :=
  match fs with
  | [] => Some []
  | [t] =>
      match group t, read4 t with
      | Some w, _ => Some [w]
      | None, Some [a; b; c; d] => Some [256 * a + b; 256 * c + d]
      | None, _ => None
      end
  | t :: fs' =>
      match group t, groups fs' with Some w, Some ws => Some (w :: ws) | _, _ => None end
  end.
Definition side (t : list Z) : option (list Z) := match t with [] => Some [] | _ => groups (fields 58 t) end.
(** Eight groups; "::" stands for the missing ones, all zero. *)
Definition read6 (t : list Z) : option (list Z) :=
  match cut t with
  | None => match side t with Some ws => if zlen ws =? 8 then Some ws else None | None => None end
  | Some (l, r) =>
      match all group (match l with [] => [] | _ => fields 58 l end), side r with
      | Some lw, Some rw =>
          if zlen lw + zlen rw <=? 7 then Some (lw ++ repeat 0 (8 - length lw - length rw) ++ rw) else None
      | _, _ => None
      end
  end.
(** RFC 5952, 4.2: "::" stands for the first of the longest runs of two zeros or more,
    and is used where there is one. *)
Definition shortened (t : list Z) (ws : list Z) : Prop :=
  match cut t with
  | None => forall p m q, ws = p ++ repeat 0 m ++ q -> (m < 2)%nat
  | Some (l, r) =>
      exists lw n rw, all group (match l with [] => [] | _ => fields 58 l end) = Some lw /\ side r = Some rw
        /\ (2 <= n)%nat /\ ws = lw ++ repeat 0 n ++ rw
        /\ forall p m q, ws = p ++ repeat 0 m ++ q -> (m <= n)%nat /\ (m = n -> (length lw <= length p)%nat)
  end.
(** The 16-bit words of 16 bytes. *)
Fixpoint words (a : list Z) : list Z :=
  match a with x :: y :: a' => 256 * x + y :: words a' | _ => [] end.
(** A text in an address slot of a neighbour denotes the address [a]; it fits the
    buffer of [INET_ADDRSTRLEN] or [INET6_ADDRSTRLEN] bytes with its NUL. *)
Definition denotes (s : slot) (t a : list Z) : Prop :=
  match s with
  | IPv4 => read4 t = Some a /\ zlen t < 16
  | IPv6 => read6 t = Some (words a) /\ shortened t (words a) /\ zlen t < 46
  | Mac => read802 t = Some a
  | _ => False
  end.
