(** Model of the string escaping in /repo/src/compat/vis.c. *)
From Verif Require Import Base.

(** Flag bits, /repo/src/compat/vis.h. *)
Definition VIS_OCTAL := 1.
Definition VIS_CSTYLE := 2. (* compat/vis.h 49 *)
Definition VIS_SP := 4. (* compat/vis.h 55 *)
Definition VIS_TAB := 8. (* compat/vis.h 56 *)
Definition VIS_NL := 16. (* compat/vis.h 57 *)
Definition VIS_SAFE := 32. (* compat/vis.h 59 *)
Definition VIS_NOSLASH := 64. (* compat/vis.h 64 *)
Definition VIS_GLOB := 256. (* compat/vis.h 65 *)

(** isgraph(3) and iscntrl(3) in the "C" locale (the program never calls
    setlocale). *)
Definition isgraph (c : Z) : bool := (33 <=? c) && (c <=? 126).
(** iscntrl(3) in the C locale, vis.c 128. *)
Definition iscntrl (c : Z) : bool := (c <? 32) || (c =? 127).

(** A byte read through a signed [char] into an [int]
    (vis.c 176, "c = *src"). *)
Definition schar (b : Z) : Z := if b <? 128 then b else b - 256.

(** Glob characters, vis.c 47 and 115. *)
Definition isglob (c : Z) : bool :=
  (c =? 42) || (c =? 63) || (c =? 91) || (c =? 35).

(** isvisible(c), vis.c 45-54.  [c] is the sign-extended character. *)
Definition isvisible (flag c : Z) : bool :=
  ((c mod 4294967296 <=? 255) && (c mod 256 <? 128) &&
     (negb (isglob c) || negb (has flag VIS_GLOB)) && isgraph (c mod 256))
  || (negb (has flag VIS_SP) && (c =? 32))
  || (negb (has flag VIS_TAB) && (c =? 9))
  || (negb (has flag VIS_NL) && (c =? 10))
  || (has flag VIS_SAFE &&
       ((c =? 8) || (c =? 7) || (c =? 13) || isgraph (c mod 256))).

(** isoctal(c), vis.c 44. *)
Definition isoctal (c : Z) : bool := (48 <=? c mod 256) && (c mod 256 <=? 55).

(** The VIS_CSTYLE switch, vis.c 70-113: [Some] of the two (or four) bytes
    written, [None] when no case applies. *)
Definition vis_cstyle (c nextc : Z) : option (list Z) :=
  if c =? 10 then Some [92; 110]
  else if c =? 13 then Some [92; 114]
  else if c =? 8 then Some [92; 98]
  else if c =? 7 then Some [92; 97]
  else if c =? 11 then Some [92; 118]
  else if c =? 9 then Some [92; 116]
  else if c =? 12 then Some [92; 102]
  else if c =? 32 then Some [92; 115]
  else if c =? 0 then
    Some ([92; 48] ++ (if isoctal nextc then [48; 48] else []))
  else None.

(** vis(dst, c, flag, nextc), vis.c 59-141: the bytes written at dst (without
    the terminating NUL). *)
Definition vis (c flag nextc : Z) : list Z :=
  if isvisible flag c then
    [c mod 256] ++ (if (c =? 92) && negb (has flag VIS_NOSLASH) then [92] else [])
  else
    match (if has flag VIS_CSTYLE then vis_cstyle c nextc else None) with
    | Some l => l
    | None =>
      if (Z.land c 127 =? 32) || has flag VIS_OCTAL
         || (has flag VIS_GLOB && isglob c)
      then
        let u := c mod 256 in
        [92; u / 64 + 48; (u / 8) mod 8 + 48; u mod 8 + 48]
      else
        (if has flag VIS_NOSLASH then [] else [92]) ++
        (let m := has c 128 in
         let c' := if m then Z.land c 127 else c in
         (if m then [77] else []) ++
         (if iscntrl (c' mod 256)
          then [94; if c' =? 127 then 63 else c' + 64]
          else [45; c' mod 256]))
    end.

(** "*dst++ = c", vis.c 59-228.  Storing one byte at the end of a buffer of [siz]
    bytes: outside is [DUB].
    Models "*dst++ = c" with dst = start + length out. *)
Definition put (siz : Z) (out : list Z) (b : Z) : dres (list Z) :=
  if zlen out <? siz then DOk (out ++ [b]) else DUB.

(** Storing several bytes, memcpy(dst, tbuf, i) at vis.c 194. *)
Fixpoint puts (siz : Z) (out : list Z) (l : list Z) : dres (list Z) :=
  match l with
  | [] => DOk out
  | b :: l' => let* out' := put siz out b in puts siz out' l'
  end.

(** The copying loop of strnvis, vis.c 176-201, from the current source
    position; returns what was stored at dst (before the final NUL).
    [end] is start + siz - 1.  The return value of strnvis (length needed,
    204-209) is not used by ladvd and not modelled. *)
Fixpoint strnvis_loop (siz flag : Z) (src : list Z) (out : list Z) : dres (list Z) :=
  match src with
  | [] => DOk out
  | b :: src' =>
      let c := schar b in
      if (b =? 0) || negb (zlen out <? siz - 1) then DOk out
      else if isvisible flag c then
        let* out1 := put siz out b in
        if (c =? 92) && negb (has flag VIS_NOSLASH) then
          if zlen out1 <? siz - 1
          then let* out2 := put siz out1 92 in strnvis_loop siz flag src' out2
          else DOk out
        else strnvis_loop siz flag src' out1
      else
        let nextc := match src' with n :: _ => schar n | [] => 0 end in
        let t := vis c flag nextc in
        if zlen out + zlen t <=? siz - 1
        then let* out1 := puts siz out t in strnvis_loop siz flag src' out1
        else DOk out
  end.

(** strnvis(dst, src, siz, flag), vis.c 168-210: the C string left in dst.
    [src] is the NUL terminated source without its NUL. The final
    "*dst = NUL" (202-203) is bounds checked as well. *)
Definition strnvis (siz flag : Z) (src : list Z) : dres (list Z) :=
  let* out := strnvis_loop siz flag src [] in
  if 0 <? siz
  then (let* _ := put siz out 0 in DOk out)
  else DOk out.
