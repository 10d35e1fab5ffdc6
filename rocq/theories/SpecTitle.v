(** Vocabulary for the process title (C95). *)
From Verif Require Import Base Title Spec.

(** One byte of a title as it is shown: printable characters stand for themselves, a
    backslash is doubled, the seven control characters with a letter in C have it,
    all else is octal. *)
Definition show_title (b : Z) : list Z :=
  if b =? 92 then bs "\\"
  else if (32 <=? b) && (b <=? 126) then [b]
  else if b =? 7 then bs "\a"
  else if b =? 8 then bs "\b"
  else if b =? 9 then bs "\t"
  else if b =? 10 then bs "\n"
  else if b =? 11 then bs "\v"
  else if b =? 12 then bs "\f"
  else if b =? 13 then bs "\r"
  else octal b.
(** As many bytes of [l], each shown as a whole, as fit in [n] characters. *)
Fixpoint fitting (n : Z) (l : list Z) : list Z :=
  match l with
  | [] => []
  | b :: l' => if zlen (show_title b) <=? n then show_title b ++ fitting (n - zlen (show_title b)) l' else []
  end.
(** The title of a program: "name: text", in an array of 1024 bytes before and after
    it is made visible. *)
Definition title (prog text : list Z) : list Z := fitting 1023 (firstn 1023 (prog ++ bs ": " ++ text)).

(** Strings as the kernel places them for a new program: one behind the other from
    address [a] on. *)
Fixpoint laid (a : Z) (l : list (list Z)) : list pstr :=
  match l with
  | [] => []
  | s :: l' => (a, s) :: laid (a + zlen s + 1) l'
  end.
Definition strings (l : list (list Z)) : list Z := flat_map (fun s => s ++ [0]) l.
Definition c_text (s : list Z) : Prop := bytes s /\ ~ In 0 s.
(** Address [x] belongs to one of the strings, its NUL included. *)
Definition inside (l : list pstr) (x : Z) : Prop := exists a s, In (a, s) l /\ a <= x <= a + zlen s.
