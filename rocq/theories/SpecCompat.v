(** Specification vocabulary for C strings. *)
From Verif Require Import Base.

(** The memory [m] starts with the C string [s]. *)
Definition c_string (m s : list Z) : Prop := ~ In 0 s /\ exists r, m = s ++ 0 :: r.
(** [m'] is [m] with the C string [s] put at its start; bytes after the string are
    those of [m]. *)
Definition holds_string (m m' s : list Z) : Prop := m' = s ++ 0 :: skipn (S (length s)) m.
