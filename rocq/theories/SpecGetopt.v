(** Vocabulary for C141: what a command line says. *)
From Verif Require Import Base.

(** An option string in the words of a manual page: the letters that stand alone and
    those with an argument. *)
Record letters := mkLetters { alone : list Z; valued : list Z }.
(** Of the daemon and of the client. *)
Definition daemon_letters := mkLetters (bs "adfhnoqrstvwyzLCEFN") (bs "emucl").
Definition client_letters := mkLetters (bs "LCEFNbdfovh") (bs "p").

(** A word that begins with '-' and is longer. *)
Definition dashed (w : list Z) : Prop := exists c r, w = 45 :: c :: r.
(** Letters without arguments as options. *)
Definition bare (fl : list Z) : list (Z * list Z) := map (fun c => (c, [])) fl.

(** [says perm L words o names]: the words say the options [o], in this order, and the
    operands [names].  Letters may be put together in one word; the last may have an
    argument, in the same word or as the next one, whatever it looks like; "--" ends
    the options.  Operands stand behind the options; with [perm] anywhere. *)
Inductive says (perm : bool) (L : letters) : list (list Z) -> list (Z * list Z) -> list (list Z) -> Prop :=
| says_nothing : says perm L [] [] []
| says_end names : says perm L (bs "--" :: names) [] names
| says_bare fl ws o names : fl <> [] -> incl fl (alone L) -> says perm L ws o names ->
    says perm L ((45 :: fl) :: ws) (bare fl ++ o) names
| says_joined fl c a ws o names : incl fl (alone L) -> In c (valued L) -> a <> [] -> says perm L ws o names ->
    says perm L ((45 :: fl ++ c :: a) :: ws) (bare fl ++ (c, a) :: o) names
| says_apart fl c a ws o names : incl fl (alone L) -> In c (valued L) -> says perm L ws o names ->
    says perm L ((45 :: fl ++ [c]) :: a :: ws) (bare fl ++ (c, a) :: o) names
| says_name w ws o names : perm = true -> ~ dashed w -> says perm L ws o names -> says perm L (w :: ws) o (w :: names)
| says_names w ws : perm = false -> ~ dashed w -> says perm L (w :: ws) [] (w :: ws).
