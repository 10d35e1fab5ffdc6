(** Proofs of C151. *)
From Verif Require Import Base Tlv Types Bpf Parent Wire Util Child Cli Post Opts Getopt ClientMain Spec SpecAdv SpecRound SpecNet SpecChild SpecHold SpecCli SpecTruth SpecPost SpecGetopt SpecClient.
From Verif Require Import Lemmas WireProofs NetProofs ChildProofs ChildProofs2 ChildProofs6 CliProofs5 CliProofs6 CliProofs8 HoldProofs HoldProofs2 PostProofs3 TruthProofs GetoptProofs ClientProofs ClientProofs2.

Lemma terminal perm words o names env opts es c eff sid ses c' eff' :
  reached opts es c eff -> Forall (from_wire opts) es -> Forall unblocked es -> Forall (past (ce_now env)) es -> 0 <= ce_now env < 9223372036854775808 ->
  ~ In sid (map ss_id (c_sess c)) -> Forall session_event ses -> ~ In (CAccept sid) ses ->
  child_run opts c (CAccept sid :: ses) = DOk (c', eff') ->
  ~ In sid (map ss_id (c_sess c')) -> ~ Exists (breaks sid) ses ->
  says perm client_letters words o names -> usable (map fst o) names (ce_ifindex env) -> without (bs "bdfpo") o ->
  (forall e, In e (c_queue c) -> q_proto e = 5 -> says_letter 67 o = false) ->
  (forall e, In e (c_queue c) -> wanted o names (ce_ifindex env) e = true -> fresh (ce_now env) e = true) ->
  exists hw pw heading rs shown,
  ladvdc perm words env (sent_to sid eff') = DOk (mkRun (legend ++ heading ++ concat rs) [] 0)
  /\ row hw None (bs "Device ID") (bs "Local Intf") (bs "Proto") (bs "Hold-time") (bs "Capability") (bs "Port ID") heading
  /\ Forall2 (row_of hw pw) (map (display (ce_now env)) shown) rs
  /\ NoDup (map who shown)
  /\ forall en, In en shown <-> last_word opts es (ce_now env) en /\ wanted o names (ce_ifindex env) en = true.
Proof.
  intros R W Ub Pa Ht S1 S2 S3 S4 S5 S6 Y U X V F.
  assert (De : Forall daemon_event es) by (eapply Forall_impl; [|exact W]; apply wire_daemon).
  pose proof (table_genuine opts es c eff De R) as G.
  assert (A : forall e, In e (c_queue c) -> asked (map fst o) (q_proto e) && asked_if names (ce_ifindex env) (q_index e) = wanted o names (ce_ifindex env) e).
  { intros e K. unfold wanted. destruct (Z.eqb_spec (q_proto e) 5) as [Q|Q]; [rewrite (V e K Q)|rewrite andb_false_r]; now rewrite andb_true_r. }
  assert (X' : forall x, In x (bs "bdfpo") -> ~ In x (map fst o)) by (intros x K; now apply letter_out, X).
  destruct (truth (map fst o) names (ce_ifindex env) (ce_ws env) opts es c eff sid ses c' eff' (ce_now env)) as (shown & text & E & ND & I); try assumption.
  - apply X'. cbn. auto.
  - apply X'. cbn. auto 10.
  - intros e K Q. now apply letter_out, (V e).
  - intros pre a mid b post Ees Wa Fa _. exfalso. assert (K : In a (c_queue c)) by (rewrite Ees; apply in_or_app; right; left; reflexivity).
    rewrite (F a K) in Fa; [discriminate|]. rewrite <- (A a K). exact Wa.
  - assert (Q : sent_to sid eff' = map entry_bytes (c_queue c)) by exact (proj2 (session_sent opts c _ sid ses c' eff' (reached_ok opts es c eff R) S1 S2 S3 S4) S5 S6).
    assert (B : Forall bytes (sent_to sid eff')).
    { rewrite Q. apply Forall_forall. intros m M. apply in_map_iff in M as (e & <- & M). rewrite Forall_forall in G. now apply entry_all_bytes, G. }
    destruct (table_rows _ _ _ _ _ _ _ _ U ltac:(intros x K; repeat split; intros ->; (eapply X'; [|exact K]); cbn; auto) B E)
      as (hw & pw & ms & heading & rs & H1 & H2 & H3 & H4 & H5 & H6 & _).
    exists hw, pw, heading, rs, shown. rewrite (client_words _ _ _ _ _ _ Y). split; [|split; [exact H5|split; [|split; [exact ND|]]]].
    + rewrite <- H4. apply (run_text o names env (sent_to sid eff') U 0 _ _) in E; [exact E| |lia|lia].
      right. split; [reflexivity|]. intros x K1 K2. apply (X' x); [|exact K1]. cbn in K2 |- *. tauto.
    + apply shown_inj in H3. rewrite H3. exact H6.
    + intros en. rewrite I. split.
      * intros (L & L1 & L2). split; [exact L|]. unfold wanted. rewrite L1, L2. cbn [andb].
        destruct (Z.eqb_spec (q_proto en) 5) as [P5|P5]; [|now rewrite andb_false_r].
        assert (O : Forall ordinary es) by (eapply Forall_impl; [|exact W]; apply wire_ordinary).
        pose proof (word_known _ _ _ _ _ _ R (past_until _ _ Pa) L) as K.
        destruct (known_listed opts es en K O c eff R) as (x & X1 & X2). rewrite (V x X1); [reflexivity|]. rewrite <- X2 in P5. exact P5.
      * intros (L & L1). unfold wanted in L1. apply andb_true_iff in L1 as [L1 _]. apply andb_true_iff in L1 as [L1 L2]. auto.
Qed.
