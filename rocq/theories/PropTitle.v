(** The process title (C95): theorems, their assumptions and concrete cases. *)
From Verif Require Import Base Vis Compat Title Spec SpecCompat SpecTitle TitleProofs.

(** C95.  The arguments and the environment as the kernel lays them out: the title,
    as much of it as there is room for, stands at argv[0]; NUL bytes follow it up to
    the last two bytes of the area; these and all memory behind them keep what they
    had.  The area of a single character stays as it is. *)
Theorem C95_title dup a args env rest buf0 prog text : args <> [] -> zlen buf0 = 1024 -> c_text prog -> c_text text ->
  let room := zlen (strings (args ++ env)) in
  2 <= room < 18446744073709551616 ->
  let mem := strings (args ++ env) ++ rest in
  setproctitle (fst (compat_init true dup (laid a args) (laid (a + zlen (strings args)) env))) buf0 prog text mem
  = DOk (if room =? 2 then mem
         else let t := firstn (Z.to_nat (room - 3)) (title prog text) in
              t ++ repeat 0 (Z.to_nat (room - 2 - zlen t)) ++ skipn (Z.to_nat (room - 2)) mem).
Proof. exact (title_set dup a args env rest buf0 prog text). Qed.
Print Assumptions C95_title.
(** A program with a plain name shows "name: text". *)
Theorem C95_plain prog text : Forall (fun b => 32 <= b <= 126 /\ b <> 92) (prog ++ text) -> zlen prog + zlen text <= 1021 ->
  title prog text = prog ++ bs ": " ++ text.
Proof. exact (title_plain prog text). Qed.
Print Assumptions C95_plain.
(** The variables of the environment are still found, whatever the title does. *)
Theorem C95_environ room dup args env : (forall i, dup i = true) -> snd (compat_init room dup args env) = map snd env.
Proof. exact (environ_kept room dup args env). Qed.
Print Assumptions C95_environ.
(** Wherever the strings are, in any order and with any gaps: when argv[0] is not
    empty or another string follows it, no byte is changed that is not part of one of them. *)
Theorem C95_inside dup a s args env buf0 prog text mem : 0 < zlen s \/ (exists t, In (a + 1, t) (args ++ env)) ->
  zlen buf0 = 1024 -> c_text prog -> c_text text -> zlen mem < 18446744073709551616 ->
  (forall x, a <= x -> inside (((a, s) :: args) ++ env) x -> x < a + zlen mem) ->
  exists mem', setproctitle (fst (compat_init true dup ((a, s) :: args) env)) buf0 prog text mem = DOk mem'
    /\ zlen mem' = zlen mem
    /\ forall k, 0 <= k -> nth (Z.to_nat k) mem' 0 <> nth (Z.to_nat k) mem 0 -> inside (((a, s) :: args) ++ env) (a + k).
Proof. exact (set_inside dup a s args env buf0 prog text mem). Qed.
Print Assumptions C95_inside.
(** With an empty argv[0], no further argument and no environment the length is -1
    as a size_t: the memory behind the area, here the path the program was started
    with and the end of the stack, is overwritten and left. *)
Theorem C95_empty_refuted : exists args env rest buf0 prog text,
  args <> [] /\ zlen buf0 = 1024 /\ c_text prog /\ c_text text
  /\ setproctitle (fst (compat_init true (fun _ => true) (laid 140737488355000 args)
                          (laid (140737488355000 + zlen (strings args)) env))) buf0 prog text (strings (args ++ env) ++ rest) = DUB.
Proof.
  exists [[]], [], (bs "/usr/sbin/ladvd" ++ repeat 0 9), (repeat 0 1024), [], (bs "parent [priv]").
  split; [discriminate|]. split; [reflexivity|]. split; [split; [constructor|easy]|].
  split; [|vm_compute; reflexivity].
  split.
  - repeat constructor; vm_compute; congruence.
  - intros K. vm_compute in K. repeat (destruct K as [K|K]; [discriminate|]). exact K.
Qed.
Print Assumptions C95_empty_refuted.

(** ladvd -a eth0 with one variable; then the same where only the arguments are
    contiguous, with a name that has a control character. *)
Example C95_case :
  let args := [bs "/usr/sbin/ladvd"; bs "-a"; bs "eth0"] in
  let env := [bs "PATH=/bin"; bs "LANG=C"] in
  let mem := strings (args ++ env) ++ bs "/usr/sbin/ladvd" ++ [0] in
  zlen (strings (args ++ env)) = 41
  /\ setproctitle (fst (compat_init true (fun _ => true) (laid 1000 args) (laid 1024 env))) (repeat 9 1024) (bs "ladvd") (bs "parent [priv]") mem
     = DOk (bs "ladvd: parent [priv]" ++ repeat 0 19 ++ bs "C" ++ [0] ++ bs "/usr/sbin/ladvd" ++ [0])
  /\ setproctitle (fst (compat_init true (fun _ => true) (laid 1000 args) (laid 1025 env))) (repeat 9 1024) (bs "l" ++ [10; 27]) (bs "parent [priv]") mem
     = DOk (bs "l\n\033: parent [priv" ++ [0] ++ bs "0" ++ [0] ++ strings env ++ bs "/usr/sbin/ladvd" ++ [0])
  /\ snd (compat_init true (fun _ => true) (laid 1000 args) (laid 1024 env)) = env
  /\ title (bs "ladvd") (bs "child") = bs "ladvd: child"
  /\ setproctitle (fst (compat_init true (fun _ => true) [(5, bs "x")] [])) (repeat 9 1024) (bs "ladvd") (bs "child") (bs "x" ++ [0; 1])
     = DOk (bs "x" ++ [0; 1]).
Proof. cbv zeta. repeat split; vm_compute; reflexivity. Qed.
(** The hypotheses of the theorem for scattered strings. *)
Example C95_inside_case :
  let l := [(1000, bs "ladvd"); (900, bs "-a"); (1006, bs "eth0")] in
  forall x, 1000 <= x -> inside l x -> x < 1000 + zlen (bs "ladvd" ++ [0] ++ bs "eth0" ++ [0; 7; 7]).
Proof.
  cbv zeta. intros x H (a & s & K & L). change (zlen (bs "ladvd" ++ _)) with 13.
  destruct K as [K|[K|[K|[]]]]; injection K as <- <-.
  - change (zlen _) with 5 in L. lia.
  - change (zlen _) with 2 in L. lia.
  - change (zlen _) with 4 in L. lia.
Qed.
