(** strlcpy and strlcat of /repo/src/compat, byte by byte.  The destination and
    the source are objects of their own; touching a byte outside of them is
    undefined. *)
From Verif Require Import Base.

(** Reading and writing one byte of an object; helpers for "*p" in compat/strlcpy.c
    and strlcat.c. *)
Definition rd (m : list Z) (i : Z) : dres Z :=
  if (0 <=? i) && (i <? zlen m) then DOk (nth (Z.to_nat i) m 0) else DUB.
(** Writing. *)
Definition wr (m : list Z) (i v : Z) : dres (list Z) :=
  if (0 <=? i) && (i <? zlen m) then DOk (firstn (Z.to_nat i) m ++ v :: skipn (S (Z.to_nat i)) m) else DUB.

(** "while ( *s++ );", /repo/src/compat/strlcpy.c 51-52. *)
Fixpoint skip_string (fuel : nat) (src : list Z) (s : Z) : dres Z :=
  match fuel with
  | O => DLoop
  | S f => let* b := rd src s in if b =? 0 then DOk (s + 1) else skip_string f src (s + 1)
  end.
(** The do loop, strlcpy.c 41-44: destination, d, s and n after it. *)
Fixpoint copy_loop (fuel : nat) (dst src : list Z) (d s n : Z) : dres (list Z * Z * Z * Z) :=
  match fuel with
  | O => DLoop
  | S f =>
      let* b := rd src s in
      let* dst' := wr dst d b in
      if b =? 0 then DOk (dst', d + 1, s + 1, n)
      else if n - 1 =? 0 then DOk (dst', d + 1, s + 1, 0)
      else copy_loop f dst' src (d + 1) (s + 1) (n - 1)
  end.
(** strlcpy, strlcpy.c 32-56; [siz] is a size_t. *)
Definition strlcpy (dst src : list Z) (siz : Z) : dres (list Z * Z) :=
  let fuel := S (length src) in
  let n := siz in
  let* (dst, d, s, n) :=
    (if negb (n =? 0) then
       if negb (n - 1 =? 0) then copy_loop fuel dst src 0 0 (n - 1) else DOk (dst, 0, 0, 0)
     else DOk (dst, 0, 0, 0)) in
  if n =? 0 then
    let* dst := (if negb (siz =? 0) then wr dst d 0 else DOk dst) in
    let* s := skip_string fuel src s in
    DOk (dst, s - 0 - 1)
  else DOk (dst, s - 0 - 1).

(** "while (n-- != 0 && *d != 0) d++;", /repo/src/compat/strlcat.c 42-43; n is
    assigned afterwards, so its last decrement does not matter. *)
Fixpoint find_end (fuel : nat) (dst : list Z) (d n : Z) : dres Z :=
  match fuel with
  | O => DLoop
  | S f =>
      if n =? 0 then DOk d
      else let* b := rd dst d in if b =? 0 then DOk d else find_end f dst (d + 1) (n - 1)
  end.
(** strlen(3). *)
Fixpoint strlen_from (fuel : nat) (src : list Z) (s : Z) : dres Z :=
  match fuel with
  | O => DLoop
  | S f => let* b := rd src s in if b =? 0 then DOk s else strlen_from f src (s + 1)
  end.
(** The second loop, strlcat.c 49-55: destination, d and s after it. *)
Fixpoint append_loop (fuel : nat) (dst src : list Z) (d s n : Z) : dres (list Z * Z * Z) :=
  match fuel with
  | O => DLoop
  | S f =>
      let* b := rd src s in
      if b =? 0 then DOk (dst, d, s)
      else if negb (n =? 1) then let* dst' := wr dst d b in append_loop f dst' src (d + 1) (s + 1) (n - 1)
      else append_loop f dst src d (s + 1) n
  end.
(** strlcat, strlcat.c 34-60. *)
Definition strlcat (dst src : list Z) (siz : Z) : dres (list Z * Z) :=
  let* dlen := find_end (S (length dst)) dst 0 siz in
  let n := siz - dlen in
  if n =? 0 then let* l := strlen_from (S (length src)) src 0 in DOk (dst, dlen + l)
  else
    let* (dst, d, s) := append_loop (S (length src)) dst src dlen 0 n in
    let* dst := wr dst d 0 in
    DOk (dst, dlen + (s - 0)).
