(** The emulation of setproctitle(3), /repo/src/compat/setproctitle.c, as it is built
    where the system has none (SPT_REUSEARGV). *)
From Verif Require Import Base Vis Compat.

(** A string of argv or environ: its address and its text; the NUL follows. *)
Definition pstr : Type := Z * list Z.
(** argv_start and argv_env_len, setproctitle.c 61-62. *)
Record spt := mkSpt { sp_start : Z; sp_len : Z }.

(** "lastargv" over the arguments, setproctitle.c 97-100; [None] is NULL. *)
Fixpoint last_arg (last : option Z) (args : list pstr) : option Z :=
  match args with
  | [] => last
  | (a, s) :: args' =>
      last_arg (if match last with None => true | Some e => e + 1 =? a end then Some (a + zlen s) else last) args'
  end.
(** ... and over the environment, 101-104. *)
Fixpoint last_env (last : Z) (env : list pstr) : Z :=
  match env with
  | [] => last
  | (a, s) :: env' => last_env (if last + 1 =? a then a + zlen s else last) env'
  end.
(** The new environment, 114-116, as getenv(3) finds it: up to the first NULL.
    [dup i] tells whether strdup(3) of string i had memory. *)
Fixpoint copy_env (dup : Z -> bool) (i : Z) (env : list pstr) : list (list Z) :=
  match env with
  | [] => []
  | (_, s) :: env' => if dup i then s :: copy_env dup (i + 1) env' else []
  end.
(** compat_init_setproctitle, 68-118: the two static variables, [None] when they keep
    their 0, and the environment.  [room] tells whether calloc(3) had memory.  The
    arguments themselves were copied before (main.c 71-76), so "argv[1] = NULL" (106)
    is not seen by anyone and left out. *)
Definition compat_init (room : bool) (dup : Z -> bool) (args env : list pstr) : option spt * list (list Z) :=
  match args with
  | [] => (None, map snd env)
  | (a0, _) :: _ =>
      if negb room then (None, map snd env)
      else
        let last := match last_arg None args with Some e => e | None => 0 end in
        let last := last_env last env in
        (Some (mkSpt a0 ((last - a0 - 1) mod 18446744073709551616)), copy_env dup 0 env)
  end.

(** "buf", setproctitle.c 138-146: the name, ": " and the text by vsnprintf(3) at
    buf + len.  [buf0] is what the array has before; [text] is the formatted text
    ("parent [priv]" at parent.c 95, "child" at child.c 119). *)
Definition title_buf (buf0 prog text : list Z) : dres (list Z) :=
  let* (buf, _) := strlcpy buf0 (prog ++ [0]) 1024 in
  let* (buf, len) := strlcat buf (bs ": " ++ [0]) 1024 in
  if len <? 1024 then
    let t := firstn (Z.to_nat (1024 - len - 1)) text ++ [0] in
    DOk (firstn (Z.to_nat len) buf ++ t ++ skipn (Z.to_nat (len + zlen t)) buf)
  else DOk buf.
(** VIS_CSTYLE|VIS_NL|VIS_TAB|VIS_OCTAL, setproctitle.c 148. *)
Definition TITLE_FLAGS := Z.lor VIS_CSTYLE (Z.lor VIS_NL (Z.lor VIS_TAB VIS_OCTAL)).
(** "for (; len < argv_env_len; len++) argv_start[len] = SPT_PADCHAR", 157-158. *)
Fixpoint pad_loop (fuel : nat) (mem : list Z) (len n : Z) : dres (list Z) :=
  match fuel with
  | O => DLoop
  | S f => if len <? n then let* mem := wr mem len 0 in pad_loop f mem (len + 1) n else DOk mem
  end.
(** setproctitle, 121-162: the memory of the process from argv_start on. *)
Definition setproctitle (sp : option spt) (buf0 prog text : list Z) (mem : list Z) : dres (list Z) :=
  match sp with
  | None => DOk mem
  | Some sp =>
      if sp_len sp <=? 0 then DOk mem
      else
        let* buf := title_buf buf0 prog text in
        let* ptitle := strnvis 1024 TITLE_FLAGS (cstr buf) in
        let* (mem, len) := strlcpy mem (ptitle ++ [0]) (sp_len sp) in
        pad_loop (S (length mem)) mem len (sp_len sp)
  end.
