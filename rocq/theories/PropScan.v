(** Clients while the table changes: C123. *)
From Verif Require Import Base Types Tlv Msg Protos Parent Wire Util Child
  Spec SpecAdv SpecRound SpecNet SpecChild SpecScan Cases2 Cases3 Cases4 Lemmas.
From Verif Require Import ChildProofs5 ScanProofs.

(** C123.  Session [sid] starts in [c]; then frames arrive, entries expire, interfaces
    change and other clients come and go.  The neighbours of any set [W] that are in the
    table all along are sent to the session once each and in order; if it ends by itself,
    all of them.  Missing (and false, below): a frame of a neighbour whose entry some session
    is waiting to write. *)
Theorem C123_each_once_partial opts W c t sid es c' eff :
  calm opts c t -> ~ In sid (map ss_id (c_sess c)) -> ~ In (CAccept sid) es ->
  calm_run opts (same_neighbours W c) c t (CAccept sid :: es) c' eff ->
  exists l, sent_to sid eff = map entry_bytes l
  /\ (exists k, filter W (map who l) = firstn k (filter W (map who (c_queue c))))
  /\ (~ In sid (map ss_id (c_sess c')) -> ~ Exists (breaks sid) es ->
      filter W (map who l) = filter W (map who (c_queue c))).
Proof. exact (scan_seen opts W c t sid es c' eff). Qed.
Print Assumptions C123_each_once_partial.
(** Whatever is sent is in the table when it is sent. *)
Theorem C123_in_table opts c e c' eff sid m :
  considerate c e -> child_step opts c e = DOk (c', eff) -> In m (sent_to sid eff) ->
  exists x, In x (c_queue c) /\ m = entry_bytes x.
Proof. exact (scan_current opts c e c' eff sid m). Qed.
Print Assumptions C123_in_table.

(** The neighbour with source address number [k] on interface 1. *)
Definition q_key (k : Z) : Z * Z * list Z := (1, 0, [1; 128; 194; 0; 0; 14] ++ u_src k).
Definition q_is (k : Z) (w : Z * Z * list Z) : bool :=
  (fst (fst w) =? 1) && (snd (fst w) =? 0) && beq (snd w) (snd (q_key k)).
Lemma q_is_iff k w : q_is k w = true <-> w = q_key k.
Proof.
  unfold q_is, q_key. destruct w as [[i p] h]. cbn [fst snd]. rewrite !andb_true_iff, beq_true. split.
  - intros ((A & B) & ->). f_equal. f_equal; lia.
  - intros H. inversion H. subst. repeat split.
Qed.
Lemma q_same k c0 c : existsb (q_is k) (map who (c_queue c)) = existsb (q_is k) (map who (c_queue c0)) ->
  same_neighbours (q_is k) c0 c.
Proof.
  intros H w Hw. apply q_is_iff in Hw. subst w.
  assert (G : forall q, In (q_key k) (map who q) <-> existsb (q_is k) (map who q) = true).
  { intros q. rewrite existsb_exists. split.
    - intros I. exists (q_key k). split; [exact I|now apply q_is_iff].
    - intros (x & Hx & Ex). apply q_is_iff in Ex. now subst x. }
  rewrite !G. now rewrite H.
Qed.
Lemma q_cons opts k c0 c e es c' eff : existsb (q_is k) (map who (c_queue c)) = existsb (q_is k) (map who (c_queue c0)) ->
  considerate c e -> u_good opts c e && (zlen (c_sess (u_next opts c e)) <=? 255) && (expelled c e =? 0) = true ->
  calm_run opts (same_neighbours (q_is k) c0) (u_next opts c e) 0 es c' eff ->
  calm_run opts (same_neighbours (q_is k) c0) c 0 (e :: es) c'
    (match child_step opts c e with DOk (_, x) => x | _ => [] end ++ eff).
Proof.
  intros A B H R. rewrite !andb_true_iff in H. destruct H as ((H1 & H2) & H3). unfold u_good, u_next in *.
  destruct (child_step opts c e) as [[c1 eff1]| | | |] eqn:E; try discriminate.
  eapply calm_run_cons; [now apply q_same|exact B|exact E|lia|]. now replace (0 + expelled c e) with 0 by lia.
Qed.
Lemma q_frame k ttl : 0 <= k < 256 -> 0 <= ttl < 256 -> proto_frame 0 (u_sw k ttl) (skipn 14 (u_sw k ttl)).
Proof. intros Hk Ht. apply (t_lldp (u_sw k ttl)); reflexivity. Qed.
(** A client is held up after the first of two neighbours.  A third one appears, the first
    one goes, and the client resumes. *)
Definition q_w2 : child := u_next 4 (u_next 4 child_start (CFetch u_nfs)) (CRecv (u_in 1 (u_sw 1 120)) 100 100).
Definition q_w3 : child := u_next 4 q_w2 (CRecv (u_in 1 (u_sw 2 120)) 101 101).
Definition q_events : list cevent :=
  [CReady 7 [WOk; WAgain]; CRecv (u_in 1 (u_sw 3 120)) 150 150; CTick 222; CReady 7 []].
Ltac q_recv k :=
  exists 1, 0, (u_sw k 120), (skipn 14 (u_sw k 120)); split; [is_bytes|];
  split; [split; vm_compute; [discriminate|reflexivity]|]; split; [split; [lia|reflexivity]|];
  split; [repeat split; vm_compute; reflexivity|]; split; [apply q_frame; clear; lia|].
Lemma q_none c : c_sess c = [] -> forall x, ~ held c x.
Proof. intros H x (s & Hs & _). rewrite H in Hs. destruct Hs. Qed.
Lemma q_w3_calm : calm 4 q_w3 0.
Proof.
  assert (E1 : c_sess (u_next 4 child_start (CFetch u_nfs)) = []) by (vm_compute; reflexivity).
  assert (E2 : c_sess q_w2 = []) by (vm_compute; reflexivity).
  apply (u_calm 4 q_w2 0 (CRecv (u_in 1 (u_sw 2 120)) 101 101)); [| |vm_compute; reflexivity].
  - apply (u_calm 4 (u_next 4 child_start (CFetch u_nfs)) 0 (CRecv (u_in 1 (u_sw 1 120)) 100 100)); [| |vm_compute; reflexivity].
    + apply (u_calm 4 child_start 0 (CFetch u_nfs)); [apply calm_start|exact I|vm_compute; reflexivity].
    + q_recv 1. intros x _ Hx. now apply q_none in Hx.
  - q_recv 2. intros x _ Hx. now apply q_none in Hx.
Qed.
(** No entry of [c] has the header of the frame, so none of those waited on has. *)
Lemma q_new c f : forallb (fun x => negb (beq (firstn 12 (q_msg x)) (firstn 12 f))) (c_queue c) = true ->
  forall x, In x (c_queue c) -> held c x -> q_index x = 1 -> firstn 12 (q_msg x) <> firstn 12 f.
Proof.
  intros H x Hx _ _ E. rewrite forallb_forall in H. apply H in Hx. rewrite E in Hx. assert (T : beq (firstn 12 f) (firstn 12 f) = true) by now apply beq_true.
  rewrite T in Hx. discriminate.
Qed.
Example C123_case :
  calm 4 q_w3 0 /\ ~ In 7 (map ss_id (c_sess q_w3)) /\ ~ In (CAccept 7) q_events /\ ~ Exists (breaks 7) q_events
  /\ exists c' eff, calm_run 4 (same_neighbours (q_is 2) q_w3) q_w3 0 (CAccept 7 :: q_events) c' eff
     /\ filter (q_is 2) (map who (c_queue q_w3)) = [q_key 2]
     /\ map source (c_queue q_w3) = [u_src 1; u_src 2] /\ map source (c_queue c') = [u_src 2; u_src 3]
     /\ c_sess c' = [] /\ length (sent_to 7 eff) = 3%nat.
Proof.
  split; [exact q_w3_calm|]. split; [vm_compute; tauto|]. split; [cbn; intuition discriminate|]. split.
  { intros H. unfold q_events in H. repeat (apply Exists_cons in H as [H|H]; [cbn in H; intuition discriminate|]). now apply Exists_nil in H. }
  do 2 eexists. split; [|shelve].
  unfold q_events.
  eapply q_cons; [vm_compute; reflexivity|exact I|vm_compute; reflexivity|].
  eapply q_cons; [vm_compute; reflexivity|exact I|vm_compute; reflexivity|].
  eapply q_cons; [vm_compute; reflexivity|q_recv 3; apply q_new; vm_compute; reflexivity|vm_compute; reflexivity|].
  eapply q_cons; [vm_compute; reflexivity|exact I|vm_compute; reflexivity|].
  eapply q_cons; [vm_compute; reflexivity|exact I|vm_compute; reflexivity|].
  apply calm_run_nil, q_same. vm_compute. reflexivity.
  Unshelve. repeat split; vm_compute; reflexivity.
Qed.
(** A neighbour announces itself anew while a client is waiting to write its entry, and then
    goes: the client's session ends in a read of freed memory although another neighbour
    stays and was not shown. *)
Theorem C123_each_once_refuted : exists c es c1 eff, calm 4 c 0 /\ child_run 4 c (CAccept 7 :: es) = DOk (c1, eff)
  /\ ~ Exists (breaks 7) es
  /\ (forall es1 es2 c2 eff2, es = es1 ++ es2 -> child_run 4 c (CAccept 7 :: es1) = DOk (c2, eff2) -> In (q_key 2) (map who (c_queue c2)))
  /\ sent_to 7 eff = [] /\ child_step 4 c1 (CReady 7 []) = DUB.
Proof.
  exists q_w3, [CReady 7 [WAgain]; CRecv (u_in 1 (u_sw 1 10)) 150 150; CTick 200]. do 2 eexists.
  split; [exact q_w3_calm|]. split; [vm_compute; reflexivity|]. split.
  { intros H. repeat (apply Exists_cons in H as [H|H]; [cbn in H; intuition discriminate|]). now apply Exists_nil in H. }
  split; [|split; vm_compute; reflexivity].
  assert (G : forall es, match child_run 4 q_w3 (CAccept 7 :: es) with DOk (c2, _) => existsb (q_is 2) (map who (c_queue c2)) | _ => true end = true ->
    forall c2 eff2, child_run 4 q_w3 (CAccept 7 :: es) = DOk (c2, eff2) -> In (q_key 2) (map who (c_queue c2))).
  { intros es H c2 eff2 E. rewrite E in H. apply existsb_exists in H as (x & Hx & Ex). apply q_is_iff in Ex. now subst x. }
  intros es1 es2 c2 eff2 E. apply G.
  destruct es1 as [|e1 [|e2 [|e3 [|e4 es1]]]]; cbn [app] in E; [vm_compute; reflexivity| | | |discriminate];
    repeat (apply (f_equal (fun l => (hd (CTick 0) l, tl l))) in E; cbn [hd tl] in E; apply pair_equal_spec in E as [<- E]);
    vm_compute; reflexivity.
Qed.
Print Assumptions C123_each_once_refuted.
