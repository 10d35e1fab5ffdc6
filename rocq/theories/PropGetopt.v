(** C141: what the words of a command line mean. *)
From Verif Require Import Base Types Opts Cli Post Getopt SpecGetopt Lemmas GetoptProofs.

(** The daemon starts with what the words say, set as C51 has it, and with the
    operands as interfaces; words that say nothing are refused. *)
Theorem C141_daemon n perm words s names :
  main_argv n perm words = Some (s, names) <->
  exists o, says perm daemon_letters words o names /\ main_opts n o names = Some s.
Proof. exact (daemon_iff n perm words s names). Qed.
Print Assumptions C141_daemon.

(** The same for the client, with its settings (C75) and numbers of interfaces. *)
Theorem C141_client ifindex perm words c t idx :
  cli_argv ifindex perm words = Some (c, t, idx) <->
  exists o names c0, says perm client_letters words o names /\ cli_args (mkCli 0 MODE_CLI false) None o = Some (c0, t)
    /\ c = (if cl_proto c0 =? 0 then mkCli 255 (cl_mode c0) (cl_once c0) else c0) /\ cli_indexes ifindex names = Some idx.
Proof. exact (client_iff ifindex perm words c t idx). Qed.
Print Assumptions C141_client.

(** However the same is said, and whatever the C library, the daemon and the client do
    the same. *)
Theorem C141_same n ix perm perm' ws ws' o names :
  (says perm daemon_letters ws o names -> says perm' daemon_letters ws' o names -> main_argv n perm ws = main_argv n perm' ws')
  /\ (says perm client_letters ws o names -> says perm' client_letters ws' o names -> cli_argv ix perm ws = cli_argv ix perm' ws').
Proof. exact (conj (daemon_same n perm perm' ws ws' o names) (client_same ix perm perm' ws ws' o names)). Qed.
Print Assumptions C141_same.

(** Words say one thing at most. *)
Theorem C141_one perm L ws o names o' names' : L = daemon_letters \/ L = client_letters ->
  says perm L ws o names -> says perm L ws o' names' -> o = o' /\ names = names'.
Proof. exact (says_unique perm L ws o names o' names'). Qed.
Print Assumptions C141_one.

(** Options first and then the interfaces: that says the same with every C library. *)
Theorem C141_portable n perm perm' ws o names :
  says perm daemon_letters ws o [] -> ~ In (bs "--") ws -> (forall w, In w names -> ~ dashed w) ->
  main_argv n perm (ws ++ names) = main_argv n perm' (ws ++ names).
Proof. exact (fun A B C => daemon_same n perm perm' (ws ++ names) (ws ++ names) o names (says_before perm perm _ ws o names A B C) (says_before perm perm' _ ws o names A B C)). Qed.
Print Assumptions C141_portable.

(** *** Examples *)
Definition gg_o : list (Z * list Z) := [(102, []); (76, []); (118, []); (101, bs "eth2"); (108, bs "-attic")].
(** ladvd -fLv -eeth2 -l -attic eth0 eth1 *)
Definition gg_a : list (list Z) := [bs "-fLv"; bs "-eeth2"; bs "-l"; bs "-attic"; bs "eth0"; bs "eth1"].
(** ladvd eth0 -f -L -ve eth2 -l-attic -- eth1 *)
Definition gg_b : list (list Z) := [bs "eth0"; bs "-f"; bs "-L"; bs "-ve"; bs "eth2"; bs "-l-attic"; bs "--"; bs "eth1"].
Definition gg_names : list (list Z) := [bs "eth0"; bs "eth1"].
Ltac gg_letters := intros x X; cbn in X |- *; intuition.
Lemma gg_opts perm ws names : says perm daemon_letters ws [] names -> says perm daemon_letters ([bs "-fLv"; bs "-eeth2"; bs "-l"; bs "-attic"] ++ ws) gg_o names.
Proof.
  intros H. apply (says_bare perm daemon_letters (bs "fLv") _ [(101, bs "eth2"); (108, bs "-attic")]); [discriminate|gg_letters|].
  apply (says_joined perm daemon_letters [] 101 (bs "eth2") _ [(108, bs "-attic")]); [gg_letters|cbn; auto|discriminate|].
  apply (says_apart perm daemon_letters [] 108 (bs "-attic") _ []); [gg_letters|cbn; auto 10|exact H].
Qed.
Example gg_says_a : says false daemon_letters gg_a gg_o gg_names.
Proof. apply (gg_opts false [bs "eth0"; bs "eth1"]). apply says_names; [reflexivity|]. intros (c & r & E). discriminate. Qed.
Example gg_says_b : says true daemon_letters gg_b gg_o gg_names.
Proof.
  apply says_name; [reflexivity|intros (c & r & E); discriminate|].
  apply (says_bare true daemon_letters (bs "f") _ [(76, []); (118, []); (101, bs "eth2"); (108, bs "-attic")]); [discriminate|gg_letters|].
  apply (says_bare true daemon_letters (bs "L") _ [(118, []); (101, bs "eth2"); (108, bs "-attic")]); [discriminate|gg_letters|].
  apply (says_apart true daemon_letters (bs "v") 101 (bs "eth2") _ [(108, bs "-attic")]); [gg_letters|cbn; auto|].
  apply (says_joined true daemon_letters [] 108 (bs "-attic") _ []); [gg_letters|cbn; auto 10|discriminate|].
  apply says_end.
Qed.
Definition gg_n : naming := mkNaming (fun x => if beq (firstn 3 x) (bs "eth") then 4 else 0) (fun _ => None) (fun _ => None).
Example gg_same : main_argv gg_n false gg_a = main_argv gg_n true gg_b.
Proof. exact (proj1 (C141_same gg_n (fun _ => 0) false true gg_a gg_b gg_o gg_names) gg_says_a gg_says_b). Qed.
Example gg_started : main_argv gg_n false gg_a = Some (mkSetup (Z.lor OPT_SEND OPT_ARGV) (bs "ladvd") [bs "eth2"] None None None [] (bs "-attic") [true; false; false; false; false; false], gg_names).
Proof. vm_compute. reflexivity. Qed.
(** On BSD everything behind the first interface is one. *)
Example gg_bsd : getopt false (bs "ade:fhm:noqrstu:vwyzc:l:LCEFN") [bs "-L"; bs "em0"; bs "-f"] = ([(76, [])], [bs "em0"; bs "-f"]).
Proof. vm_compute. reflexivity. Qed.
(** An unknown letter, a missing argument, a long option: refused. *)
Example gg_refused : map (main_argv gg_n true) [[bs "-Lx"]; [bs "-L"; bs "-u"]; [bs "-L"; bs "--help"]] = [None; None; None].
Proof. vm_compute. reflexivity. Qed.
Example gg_portable_case : main_argv gg_n true gg_a = main_argv gg_n false gg_a.
Proof.
  apply (C141_portable gg_n true false [bs "-fLv"; bs "-eeth2"; bs "-l"; bs "-attic"] gg_o [bs "eth0"; bs "eth1"]).
  - exact (gg_opts true [] [] (says_nothing _ _)).
  - cbn. intuition discriminate.
  - intros w [<-|[<-|[]]] (c & r & E); discriminate.
Qed.
(** The client: ladvdc eth0 -Lb -p http://h/x *)
Example gg_client_says : says true client_letters [bs "eth0"; bs "-Lb"; bs "-p"; bs "http://h/x"] [(76, []); (98, []); (112, bs "http://h/x")] [bs "eth0"].
Proof.
  apply says_name; [reflexivity|intros (c & r & E); discriminate|].
  apply (says_bare true client_letters (bs "Lb") _ [(112, bs "http://h/x")]); [discriminate|gg_letters|].
  apply (says_apart true client_letters [] 112 (bs "http://h/x") _ []); [gg_letters|cbn; auto|apply says_nothing].
Qed.
Example gg_client : cli_argv (fun _ => 4) true [bs "eth0"; bs "-Lb"; bs "-p"; bs "http://h/x"] = Some (mkCli 1 MODE_HTTP false, Some (bs "h", bs "/x"), [4]).
Proof. vm_compute. reflexivity. Qed.
