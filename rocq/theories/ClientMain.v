(** The client from its command line on: cli_main in /repo/src/cli.c. *)
From Verif Require Import Base Types Cli Post Getopt.

(** cli_main, cli.c 65-232: the words behind the name of the program are read as by
    [cli_argv], then as [cli_run]; usage() ends with status 1. *)
Definition ladvdc (perm : bool) (words : list (list Z)) (env : client_env) (reads : list (list Z)) : dres client_run :=
  let '(ol, ops) := getopt perm (bs "LCEFNbdfp:ovh") words in cli_run ol ops env reads.
