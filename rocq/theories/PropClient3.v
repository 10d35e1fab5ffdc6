(** C151: from the wire to the terminal. *)
From Verif Require Import Base Tlv Types Bpf Parent Wire Util Child Cli Post Opts Getopt ClientMain Spec SpecAdv SpecRound SpecNet SpecChild SpecHold SpecCli SpecTruth SpecPost SpecGetopt SpecClient.
From Verif Require Import ClientProofs3 PostProofs2 Cases2 Cases3 Cases4 Cases7 Cases9 PropCli PropE2E PropTruth PropClient.

(** Take any history of the daemon in which all datagrams are frames of the wire that
    passed the filter, and a client, started with these words, that connects afterwards and
    is served completely, among other clients.  Without -b, -d, -f, -p and -o it prints the
    table with one row for each neighbour asked for: the last word of each, and of no
    neighbour twice.  (As in C121: no client had to wait before, none of the entries asked
    for has expired, and with -C there is no version 1 in the table.) *)
Theorem C151_terminal perm words o names env opts es c eff sid ses c' eff' :
  reached opts es c eff -> Forall (from_wire opts) es -> Forall unblocked es -> Forall (past (ce_now env)) es -> 0 <= ce_now env < 9223372036854775808 ->
  ~ In sid (map ss_id (c_sess c)) -> Forall session_event ses -> ~ In (CAccept sid) ses ->
  child_run opts c (CAccept sid :: ses) = DOk (c', eff') ->
  ~ In sid (map ss_id (c_sess c')) -> ~ Exists (breaks sid) ses ->
  says perm client_letters words o names -> usable (map fst o) names (ce_ifindex env) -> without (bs "bdfpo") o ->
  (forall e, In e (c_queue c) -> q_proto e = 5 -> says_letter 67 o = false) ->
  (forall e, In e (c_queue c) -> wanted o names (ce_ifindex env) e = true -> fresh (ce_now env) e = true) ->
  exists hw pw heading rs shown,
  ladvdc perm words env (sent_to sid eff') = DOk (mkRun (legend ++ heading ++ concat rs) [] 0)
  /\ row hw None (bs "Device ID") (bs "Local Intf") (bs "Proto") (bs "Hold-time") (bs "Capability") (bs "Port ID") heading
  /\ Forall2 (row_of hw pw) (map (display (ce_now env)) shown) rs
  /\ NoDup (map who shown)
  /\ forall en, In en shown <-> last_word opts es (ce_now env) en /\ wanted o names (ce_ifindex env) en = true.
Proof. exact (terminal perm words o names env opts es c eff sid ses c' eff'). Qed.
Print Assumptions C151_terminal.

(** *** Example *)
(** ladvdc -LC at time 140, connected to the daemon of C121_case. *)
Definition ct_env : client_env := mkCEnv x_ifindex 140 None false false (fun _ => None) y_http percent [].
Definition ct_o : list (Z * list Z) := [(76, []); (67, [])].
Definition ct_check (e : entry) : bool := negb (q_proto e =? 5) && (negb (wanted ct_o [] x_ifindex e) || fresh 140 e).
Lemma ct_checked : forallb ct_check (c_queue d_c) = true. Proof. vm_compute. reflexivity. Qed.
Example C151_case :
  (exists eff, reached 4 d_es d_c eff) /\ Forall (from_wire 4) d_es /\ Forall (past 140) d_es
  /\ says true client_letters [bs "-LC"] ct_o [] /\ usable (map fst ct_o) [] (ce_ifindex ct_env) /\ without (bs "bdfpo") ct_o
  /\ (forall e, In e (c_queue d_c) -> q_proto e = 5 -> says_letter 67 ct_o = false)
  /\ (forall e, In e (c_queue d_c) -> wanted ct_o [] x_ifindex e = true -> fresh 140 e = true)
  /\ match d_end with
     | Some (_, sent) => match ladvdc true [bs "-LC"] ct_env sent with
       | DOk r => skipn (Z.to_nat (zlen legend)) (cr_out r)
         = bs "Device ID            Local Intf    Proto   Hold-time    Capability    Port ID" ++ [10]
        ++ bs "sw2.example.org      eth0          LLDP    111                        Eth1/7" ++ [10]
        ++ bs "                     eth1          CDP     142          S             Gi0/17" ++ [10]
        ++ bs "sw1.example.org      eth0          LLDP    6                          ge-0/0/1" ++ [10]
       | _ => False
       end
     | None => False
     end.
Proof.
  split; [apply z_reached; vm_compute; reflexivity|]. split; [exact d_wire|].
  split; [repeat (apply Forall_cons; [first [exact Logic.I | split; vm_compute; discriminate]|]); apply Forall_nil|].
  split; [apply (says_bare true client_letters (bs "LC") _ []); [discriminate|cz_letters|apply says_nothing]|].
  split; [apply x_usable; vm_compute; reflexivity|]. split; [intros x X; cbn in X; intuition; subst; reflexivity|].
  pose proof ct_checked as H. rewrite forallb_forall in H.
  split; [intros e K Q; specialize (H e K); unfold ct_check in H; rewrite Q in H; discriminate|].
  split; [intros e K Q; specialize (H e K); unfold ct_check in H; rewrite Q in H; apply andb_true_iff in H as [_ H]; exact H|].
  vm_compute. reflexivity.
Qed.
