(** Proofs for C121. *)
From Verif Require Import Base Types Tlv Bpf Wire Parent Util Child Cli Spec SpecAdv SpecRound SpecNet SpecChild SpecHold SpecCli SpecTruth
  Lemmas BpfProofs WireProofs DecSafe NetProofs ChildProofs ChildProofs2 ChildProofs6 CliProofs5 CliProofs6 HoldProofs HoldProofs2.
From Coq Require Import Lia.

Lemma caught_carries opts index f d : caught opts index f d -> exists p pl, 0 <= p < 5 /\ firstn 6 f = group_address p
  /\ 60 <= zlen (firstn 1518 f) <= 1518 /\ bytes (firstn 1518 f) /\ carries d index p 0 (firstn 1518 f) /\ proto_frame p (firstn 1518 f) pl.
Proof.
  intros (Hb & Hi & Hf & Hr). destruct (Z.testbit opts 2) eqn:Eo; [|now rewrite reject_all in Hf].
  apply filter_iff in Hf; [|assumption|assumption]. cbn [parent_recv] in Hr.
  destruct (forward_cases index f Hi Hb) as (A & B & C).
  destruct (Z_lt_le_dec (zlen f) 60) as [L|L]; [now rewrite A in Hr|].
  destruct (recv_proto f) as [p|] eqn:E.
  2:{ rewrite B in Hr; [discriminate|assumption|now apply recv_proto_none]. }
  apply recv_proto_spec in E as [Hp E]. destruct (C p L Hp E) as (d' & Ed & Hc).
  rewrite Ed in Hr. injection Hr as ->.
  destruct (filter_proto f p Hf Hp E) as [pl Hpl].
  destruct (proto_cut p f pl 1518 ltac:(lia) Hpl) as [pl' Hpl'].
  pose proof (zlen_cut f). exists p, pl'. split; [assumption|]. split; [assumption|]. split; [lia|]. split; [now apply bytes_firstn|]. now split.
Qed.
Lemma wire_ordinary opts e : from_wire opts e -> ordinary e.
Proof.
  destruct e as [d now now2|now|nfs|s|s ws|s]; cbn [from_wire ordinary]; try tauto.
  intros (H1 & H2 & index & f & K). destruct (caught_carries _ _ _ _ K) as (p & pl & P1 & _ & P3 & P4 & P5 & P6).
  split; [lia|]. split; [lia|]. exists index, p, (firstn 1518 f), pl. repeat (split; [assumption || lia|]). assumption.
Qed.
Lemma wire_daemon opts e : from_wire opts e -> daemon_event e.
Proof.
  destruct e as [d now now2|now|nfs|s|s ws|s]; cbn [from_wire daemon_event]; try tauto.
  intros (H1 & H2 & index & f & K). destruct (caught_carries _ _ _ _ K) as (p & pl & P1 & _ & P3 & P4 & P5 & P6).
  split; [lia|]. exists index, p, (firstn 1518 f), pl. repeat (split; [assumption || lia|]). assumption.
Qed.
Lemma source_cut (f : list Z) : firstn 6 (skipn 6 (firstn 1518 f)) = firstn 6 (skipn 6 f).
Proof. now rewrite skipn_firstn_comm, firstn_firstn. Qed.
Lemma word_known opts es t en c eff : reached opts es c eff -> Forall (until t) es -> last_word opts es t en -> known opts es en.
Proof.
  intros R U (es1 & d & now & now2 & es2 & c1 & eff1 & index & f & p & proto & ttl & attrs & sub & -> & R1 & K & P & G & B1 & B2 & (A & ->) & T & H & N).
  apply (known_split opts es1 _ _ c1 eff1 R1) with (c := c) (eff := eff); [|exact T|exact R|exact N|].
  - destruct (caught_carries _ _ _ _ K) as (p' & pl & P1 & G' & P3 & P4 & P5 & P6).
    assert (p' = p). { pose proof (recv_proto_first f p P G) as E1. pose proof (recv_proto_first f p' P1 G') as E2. congruence. } subst p'.
    exists d, now, now2, index, p, (firstn 1518 f), sub, proto, ttl, attrs. split; [reflexivity|]. split; [assumption|]. split; [assumption|].
    split; [lia|]. split; [assumption|]. split; [assumption|]. split; [assumption|]. rewrite source_cut. now split.
  - intros t' (a & e & b & c2 & e2 & E & _ & C). cbn [q_received q_ttl].
    assert (U' : until t e). { rewrite Forall_forall in U. apply U. apply in_app_iff. right. right. rewrite E. apply in_app_iff. right. now left. }
    assert (t' <= t); [|lia]. destruct C as [->|(d' & n' & x & -> & _)]; exact U'.
Qed.
Lemma known_word opts es t en : Forall (from_wire opts) es -> known opts es en -> t <= q_received en + q_ttl en -> last_word opts es t en.
Proof.
  intros W K H. destruct (known_inv _ _ _ K) as (es1 & e & es2 & c1 & eff1 & -> & R1 & N & T & U & _).
  assert (We : from_wire opts e) by (rewrite Forall_forall in W; apply W; apply in_app_iff; right; now left).
  destruct N as (d & now & now2 & index & p & f0 & sub & proto & ttl & attrs & -> & B & L & P & Ca & A & B1 & B2 & ->).
  destruct We as (_ & _ & index' & f & Kf). destruct (caught_carries _ _ _ _ Kf) as (p' & pl & P1 & G' & P3 & P4 & P5 & P6).
  destruct (carries_inj _ _ _ _ _ _ _ _ _ (proj2 L) (proj2 P3) Ca P5) as (<- & <- & ->).
  rewrite source_cut in B2. exists es1, d, now, now2, es2, c1, eff1, index, f, p, proto, ttl, attrs, sub.
  split; [reflexivity|]. split; [assumption|]. split; [assumption|]. split; [assumption|]. split; [assumption|]. split; [assumption|]. split; [assumption|].
  split; [split; [assumption|reflexivity]|]. cbn [q_received q_ttl] in *. split; [exact T|]. split; [exact H|]. exact U.
Qed.
Lemma past_until t es : Forall (past t) es -> Forall (until t) es.
Proof. apply Forall_impl. intros e. unfold past, until. destruct (clock e) as [[a b]|]; tauto. Qed.
Lemma received_past opts es t c eff x : reached opts es c eff -> Forall ordinary es -> Forall unblocked es -> Forall (past t) es -> In x (c_queue c) -> q_received x <= t.
Proof.
  intros R O Ub U H. pose proof (listed_known opts es O Ub c eff x R H) as K.
  destruct (known_inv _ _ _ K) as (es1 & e & es2 & c1 & eff1 & -> & R1 & N & _).
  assert (Ue : past t e) by (rewrite Forall_forall in U; apply U; apply in_app_iff; right; now left).
  destruct (news_received _ _ _ N) as (b & E). unfold past in Ue. rewrite E in Ue. exact (proj1 Ue).
Qed.
Theorem truth letters names ifindex ws opts es c eff sid ses c' eff' t :
  reached opts es c eff -> Forall (from_wire opts) es -> Forall unblocked es -> Forall (past t) es -> 0 <= t < 9223372036854775808 ->
  ~ In sid (map ss_id (c_sess c)) -> Forall session_event ses -> ~ In (CAccept sid) ses ->
  child_run opts c (CAccept sid :: ses) = DOk (c', eff') ->
  ~ In sid (map ss_id (c_sess c')) -> ~ Exists (breaks sid) ses ->
  usable letters names ifindex -> ~ In 102 letters -> ~ In 111 letters ->
  (forall e, In e (c_queue c) -> q_proto e = 5 -> ~ In 67 letters) ->
  undisturbed (fun e => asked letters (q_proto e) && asked_if names ifindex (q_index e)) (fresh t) (c_queue c) ->
  exists words text, cli_main letters names ifindex t ws (sent_to sid eff') = Some (DOk (map OShow (map (display t) words), text))
  /\ NoDup (map who words)
  /\ forall en, In en words <-> last_word opts es t en /\ asked letters (q_proto en) = true /\ asked_if names ifindex (q_index en) = true.
Proof.
  intros R W Ub Pa Ht S1 S2 S3 S4 S5 S6 Us L1 L2 L3 Un.
  assert (O : Forall ordinary es) by (eapply Forall_impl; [|exact W]; apply wire_ordinary).
  assert (De : Forall daemon_event es) by (eapply Forall_impl; [|exact W]; apply wire_daemon).
  rewrite (proj2 (session_sent opts c _ sid ses c' eff' (reached_ok opts es c eff R) S1 S2 S3 S4) S5 S6).
  destruct (client_shows letters names ifindex t ws (c_queue c) Us L1 Ht (table_genuine opts es c eff De R)
    (fun e => received_past opts es t c eff e R O Ub Pa) L3 Un) as (text & E).
  replace (existsb (Z.eqb 111) letters) with false in E.
  2:{ symmetry. destruct (existsb (Z.eqb 111) letters) eqn:X; [|reflexivity]. apply existsb_exists in X as (y & Y1 & Y2). apply Z.eqb_eq in Y2. now subst y. }
  set (l := filter _ (c_queue c)) in E.
  exists (map content l), text. assert (M : map (display t) (map content l) = map (display t) l) by (rewrite map_map; reflexivity). rewrite M. split; [exact E|]. clear M. split.
  - rewrite map_map. rewrite (map_ext _ who) by reflexivity. unfold l. apply NoDup_map_filter. exact (t_who _ _ (reached_ok opts es c eff R)).
  - intros en. split.
    + intros H. apply in_map_iff in H as (x & <- & H). apply filter_In in H as [H1 H2]. apply andb_true_iff in H2 as [H2 H4]. apply andb_true_iff in H2 as [H2 H3].
      split; [|now split]. apply known_word; [assumption|exact (listed_known opts es O Ub c eff x R H1)|]. unfold fresh in H4. cbn [content q_received q_ttl]. lia.
    + intros (H1 & H2 & H3). pose proof (word_known _ _ _ _ _ _ R (past_until _ _ Pa) H1) as K.
      destruct (known_listed opts es en K O c eff R) as (x & X1 & X2). apply in_map_iff. exists x. split; [exact X2|].
      apply filter_In. split; [exact X1|]. rewrite <- X2 in H2, H3. cbn [content q_proto q_index] in H2, H3. rewrite H2, H3. cbn [andb].
      destruct H1 as (es1 & d & now & now2 & es2 & c1 & eff1 & index & f & p & proto & ttl & attrs & sub & _ & _ & _ & _ & _ & _ & _ & (_ & E1) & _ & E2 & _).
      rewrite E1 in X2. pose proof (f_equal q_received X2) as X3. pose proof (f_equal q_ttl X2) as X4. cbn [content q_received q_ttl] in X3, X4. unfold fresh. lia.
Qed.
(** Nothing that passes the filter is withheld. *)
Theorem all_caught opts index fs : 0 <= index < 4294967296 -> Forall bytes fs -> Forall (fun f => socket_filter opts f = true /\ firstn 6 f <> [0; 14; 43; 0; 0; 0]) fs ->
  exists ds, parent_recv index fs = ds /\ Forall2 (caught opts index) (filter (fun f => 60 <=? zlen f) fs) ds.
Proof.
  intros Hi. induction fs as [|f fs IH]; intros B F; cbn [parent_recv filter]; [exists []; split; [reflexivity|constructor]|].
  inversion B as [|? ? B1 B2]; subst. inversion F as [|? ? [F1 F0] F2]; subst. destruct (IH B2 F2) as (ds & -> & H).
  destruct (forward_cases index f Hi B1) as (A & _ & C).
  destruct (Z_lt_le_dec (zlen f) 60) as [L|L].
  { rewrite A by assumption. replace (60 <=? zlen f) with false by lia. now exists ds. }
  replace (60 <=? zlen f) with true by lia.
  assert (N : named_frame f). { destruct (Z.testbit opts 2) eqn:Eo; [|now rewrite reject_all in F1]. now apply filter_iff in F1. }
  assert (G : exists p, 0 <= p < 5 /\ firstn 6 f = group_address p).
  { destruct N as (pl & [H1|[H1|[H1|[H1|H1]]]]).
    1: exists 0; split; [lia|]; now apply lldp_dst in H1.
    all: apply snap_dst in H1; [|reflexivity].
    1: exists 1; split; [lia|exact H1]. 1: exists 3; split; [lia|exact H1]. 1: exists 4; split; [lia|exact H1]. contradiction. }
  destruct G as (p & P & G). destruct (C p L P G) as (d & E & Ca). rewrite E. exists (d :: ds). split; [reflexivity|].
  constructor; [|exact H]. split; [assumption|]. split; [assumption|]. split; [assumption|]. cbn [parent_recv]. now rewrite E.
Qed.
