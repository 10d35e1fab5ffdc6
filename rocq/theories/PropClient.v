(** C149: from the words given to the client to its output. *)
From Verif Require Import Base Tlv Types Wire Util Child Cli Post Getopt ClientMain Spec SpecAdv SpecRound SpecNet SpecChild SpecCli SpecPost SpecGetopt SpecClient.
From Verif Require Import ClientProofs Cases7 Cases9 PropCli.

(** Without -b, -d, -f and -p, the client prints a table and succeeds: the legend, the
    heading, and one row for each neighbour asked for, in the order of the daemon, with -o
    for the first only.  (None of those asked for has expired; for others see C44.) *)
Theorem C149_table perm words o names env es :
  says perm client_letters words o names -> usable (map fst o) names (ce_ifindex env) -> without (bs "bdfp") o ->
  0 <= ce_now env < 9223372036854775808 -> Forall genuine es -> (forall e, In e es -> q_received e <= ce_now env) ->
  (forall e, In e es -> wanted o names (ce_ifindex env) e = true -> fresh (ce_now env) e = true) ->
  exists hw pw heading rs,
  ladvdc perm words env (map entry_bytes es) = DOk (mkRun (legend ++ heading ++ concat rs) [] 0)
  /\ 20 <= hw <= 30
  /\ match pw with Some w => exists col, ce_ws env = Some col /\ 0 < col /\ hw + 50 + w = Z.max 80 col
                 | None => forall col, ce_ws env = Some col -> col <= 0 end
  /\ row hw None (bs "Device ID") (bs "Local Intf") (bs "Proto") (bs "Hold-time") (bs "Capability") (bs "Port ID") heading
  /\ Forall2 (row_of hw pw) (map (display (ce_now env)) (to_show o names (ce_ifindex env) es)) rs.
Proof. exact (client_table perm words o names env es). Qed.
Print Assumptions C149_table.

(** With -b and without -d, -f and -p, a shell that reads the output has the documented
    variables of these neighbours, and nothing else. *)
Theorem C149_batch perm words o names env es :
  says perm client_letters words o names -> usable (map fst o) names (ce_ifindex env) -> says_letter 98 o = true -> without (bs "dfp") o ->
  0 <= ce_now env < 9223372036854775808 -> Forall genuine es -> zlen es <= 4294967296 ->
  (forall e, In e es -> q_received e <= ce_now env /\ ~ In 39 (q_name e)) ->
  (forall e, In e es -> wanted o names (ce_ifindex env) e = true -> fresh (ce_now env) e = true) ->
  exists text, ladvdc perm words env (map entry_bytes es) = DOk (mkRun text [] 0)
  /\ sh_read (InName []) text = Some (documented_all 0 (map (display (ce_now env)) (to_show o names (ce_ifindex env) es))).
Proof. exact (client_batch perm words o names env es). Qed.
Print Assumptions C149_batch.

(** Words that say nothing, or nothing usable (an unknown option, -h, -p twice, an
    interface that does not exist), make the client fail without output. *)
Theorem C149_refused perm words env reads :
  (forall o names, says perm client_letters words o names -> ~ usable (map fst o) names (ce_ifindex env)) ->
  ladvdc perm words env reads = DOk (mkRun [] [] 1).
Proof. exact (client_refused perm words env reads). Qed.
Print Assumptions C149_refused.

(** *** Examples *)
Definition cz_text (perm : bool) (words : list (list Z)) : list Z :=
  match ladvdc perm words y_env (map entry_bytes x_last) with DOk r => cr_out r | _ => [] end.
Lemma cz_fresh o names : forallb (fun e => negb (wanted o names x_ifindex e) || fresh 150 e) x_last = true ->
  forall e, In e x_last -> wanted o names x_ifindex e = true -> fresh 150 e = true.
Proof. intros H e K W. rewrite forallb_forall in H. specialize (H e K). rewrite W in H. exact H. Qed.
Lemma cz_names now es : forallb (fun e => (q_received e <=? now) && negb (existsb (Z.eqb 39) (q_name e))) es = true ->
  forall e, In e es -> q_received e <= now /\ ~ In 39 (q_name e).
Proof.
  intros H e K. rewrite forallb_forall in H. specialize (H e K). apply andb_true_iff in H as [H1 H2]. split; [lia|]. intros Q.
  apply negb_true_iff in H2. rewrite <- not_true_iff_false in H2. apply H2, existsb_exists. exists 39. auto.
Qed.
Ltac cz_letters := intros x X; cbn in X |- *; intuition.
(** ladvdc eth0 -v, with a C library that finds options behind operands. *)
Definition cz_w : list (list Z) := [bs "eth0"; bs "-v"].
Example C149_table_case :
  says true client_letters cz_w [(118, [])] [bs "eth0"] /\ usable [118] [bs "eth0"] (ce_ifindex y_env) /\ without (bs "bdfp") [(118, [])]
  /\ Forall genuine x_last /\ (forall e, In e x_last -> q_received e <= ce_now y_env)
  /\ (forall e, In e x_last -> wanted [(118, [])] [bs "eth0"] x_ifindex e = true -> fresh 150 e = true)
  /\ zlen x_last = 4 /\ zlen (to_show [(118, [])] [bs "eth0"] x_ifindex x_last) = 2
  /\ skipn (Z.to_nat (zlen legend)) (cz_text true cz_w)
  = bs "Device ID            Local Intf    Proto   Hold-time    Capability    Port ID" ++ [10]
 ++ bs "sw2.example.org      eth0          LLDP    71                         Eth1/7" ++ [10]
 ++ bs "old.example.org      eth0          CDP1    133                        Fa0/3" ++ [10].
Proof.
  split.
  { apply says_name; [reflexivity|intros (c & r & E); discriminate|].
    apply (says_bare true client_letters (bs "v") _ []); [discriminate|cz_letters|apply says_nothing]. }
  split; [apply x_usable; vm_compute; reflexivity|].
  split; [intros x X; cbn in X; intuition; subst; reflexivity|].
  split; [exact x_last_genuine|]. split; [apply x_before; vm_compute; reflexivity|]. split; [apply cz_fresh; vm_compute; reflexivity|].
  split; [vm_compute; reflexivity|]. split; vm_compute; reflexivity.
Qed.
(** ladvdc -bo eth0 *)
Definition cz_b : list (list Z) := [bs "-bo"; bs "eth0"].
Example C149_batch_case :
  says false client_letters cz_b [(98, []); (111, [])] [bs "eth0"] /\ usable [98; 111] [bs "eth0"] (ce_ifindex y_env)
  /\ says_letter 98 [(98, []); (111, [])] = true /\ without (bs "dfp") [(98, []); (111, [])]
  /\ (forall e, In e x_last -> wanted [(98, []); (111, [])] [bs "eth0"] x_ifindex e = true -> fresh 150 e = true)
  /\ (forall e, In e x_last -> q_received e <= ce_now y_env /\ ~ In 39 (q_name e))
  /\ firstn 46 (cz_text false cz_b) = bs "INTERFACE_0='eth0'" ++ [10] ++ bs "HOSTNAME_0='sw2.example.org" /\ zlen (cz_text false cz_b) = 211.
Proof.
  split.
  { apply (says_bare false client_letters (bs "bo") _ []); [discriminate|cz_letters|].
    apply says_names; [reflexivity|intros (c & r & E); discriminate]. }
  split; [apply x_usable; vm_compute; reflexivity|]. split; [reflexivity|].
  split; [intros x X; cbn in X; intuition; subst; reflexivity|].
  split; [apply cz_fresh; vm_compute; reflexivity|].
  split; [apply cz_names; vm_compute; reflexivity|]. split; vm_compute; reflexivity.
Qed.
(** ladvdc -x says nothing. *)
Example C149_refused_case : forall o names, says true client_letters [bs "-x"] o names -> ~ usable (map fst o) names (ce_ifindex y_env).
Proof.
  intros o names H (U & _). assert (E : map fst o = [63]).
  { pose proof (f_equal (fun p => map fst (fst p)) (client_getopt _ _ _ _ H)) as K. cbn [fst] in K. rewrite <- K. vm_compute. reflexivity. }
  rewrite E in U. specialize (U 63 (or_introl eq_refl)). vm_compute in U. intuition discriminate.
Qed.
