(** Specification of displayed text. *)
From Verif Require Import Base.

(** Reading escaped text back: a backslash introduces either a second
    backslash or three octal digits. *)
Fixpoint unshow (fuel : nat) (s : list Z) : list Z :=
  match fuel, s with
  | S f, c :: r =>
      if c =? 92 then
        match r with
        | d :: r1 =>
            if d =? 92 then 92 :: unshow f r1
            else match r1 with
                 | e :: g :: r2 => ((d - 48) * 64 + (e - 48) * 8 + (g - 48)) :: unshow f r2
                 | _ => []
                 end
        | [] => []
        end
      else c :: unshow f r
  | _, _ => []
  end.
