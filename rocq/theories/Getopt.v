(** The command lines of the daemon and the client as they are typed, in words:
    /repo/src/main.c 84-194 and /repo/src/cli.c 77-147 with getopt(3). *)
From Verif Require Import Base Types Opts Cli Post.

(** What the option string says about a letter: [None] if it is no option, else
    whether it takes an argument (a colon behind it).  main.c 84, cli.c 77. *)
Fixpoint takes (spec : list Z) (c : Z) : option bool :=
  match spec with
  | [] => None
  | x :: spec' =>
      if (x =? c) && negb (c =? 58) then Some (match spec' with y :: _ => y =? 58 | [] => false end)
      else takes spec' c
  end.
(** The letters of one word behind its '-', main.c 84, cli.c 77: the results of
    getopt, and the letter whose argument has to be the next word.  For a letter that
    is no option the result is '?' (63). *)
Fixpoint word_opts (spec : list Z) (l : list Z) : list (Z * list Z) * option Z :=
  match l with
  | [] => ([], None)
  | c :: l' =>
      match takes spec c with
      | None => let '(o, p) := word_opts spec l' in ((63, []) :: o, p)
      | Some false => let '(o, p) := word_opts spec l' in ((c, []) :: o, p)
      | Some true => match l' with [] => ([], Some c) | _ => ([(c, l')], None) end
      end
  end.
(** The calls of getopt until it returns -1, main.c 84, cli.c 77, and the operands,
    main.c 193-194, cli.c 133-134.  With [perm], as in the GNU C library, operands
    before options are moved behind them; else, as on BSD and with POSIXLY_CORRECT,
    the first operand ends the options.  An argument that is missing gives '?'.
    (Options are ASCII; optstring begins with neither '+', '-' nor ':'.) *)
Fixpoint getopt (perm : bool) (spec : list Z) (words : list (list Z)) : list (Z * list Z) * list (list Z) :=
  match words with
  | [] => ([], [])
  | w :: ws =>
      if beq w (bs "--") then ([], ws)
      else match w with
      | d :: ((_ :: _) as l) =>
          if d =? 45 then
            let '(o, p) := word_opts spec l in
            match p with
            | None => let '(o', r) := getopt perm spec ws in (o ++ o', r)
            | Some c =>
                match ws with
                | [] => (o ++ [(63, [])], [])
                | a :: ws' => let '(o', r) := getopt perm spec ws' in (o ++ (c, a) :: o', r)
                end
            end
          else if perm then let '(o', r) := getopt perm spec ws in (o', w :: r)
          else ([], w :: ws)
      | _ => if perm then let '(o', r) := getopt perm spec ws in (o', w :: r) else ([], w :: ws)
      end
  end.

(** The daemon, main.c 84-210: what the words behind its name set, and the interfaces;
    [None] is usage(). *)
Definition main_argv (n : naming) (perm : bool) (words : list (list Z)) : option (setup * list (list Z)) :=
  let '(ol, ops) := getopt perm (bs "ade:fhm:noqrstu:vwyzc:l:LCEFN") words in
  let? s := main_opts n ol ops in Some (s, ops).
(** The client, cli.c 77-147: what the letters set, the target of -p, the numbers of
    the interfaces; [None] is usage() or an unknown interface (144-146). *)
Definition cli_argv (ifindex : list Z -> Z) (perm : bool) (words : list (list Z))
  : option (cconf * option (list Z * list Z) * list Z) :=
  let '(ol, ops) := getopt perm (bs "LCEFNbdfp:ovh") words in
  let? (c, t) := cli_args (mkCli 0 MODE_CLI false) None ol in
  let c := if cl_proto c =? 0 then mkCli 255 (cl_mode c) (cl_once c) else c in
  let? idx := cli_indexes ifindex ops in
  Some (c, t, idx).
