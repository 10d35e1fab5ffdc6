(** Proofs for C125. *)
From Verif Require Import Base Types Tlv Checks Wire Parent Netif Mreq Util Child Send Ipc SpecIpc Lemmas.

Definition owed (s : ipc) : nat :=
  (length (i_req s) + length (i_rep s) + match i_parent s with PReply _ => 1 | _ => 0 end)%nat.
Definition iok (s : ipc) : Prop := i_parent s <> PEnd -> owed s = match i_child s with Await _ => 1%nat | Run _ => 0%nat end.
Lemma step_iok room starts cfg s e s' : istep room starts cfg s e s' -> iok s -> iok s'.
Proof.
  unfold iok, owed. intros H. destruct H; cbn [i_child i_parent i_fds i_req i_rep i_out i_in]; intros I K;
    try (specialize (I K); rewrite ?app_length; cbn [length] in *; lia).
  - cbv zeta in *. cbn [i_child i_parent i_fds i_req i_rep i_out i_in] in *. specialize (I ltac:(discriminate)). cbn [length] in I.
    destruct (parent_reply _ _ _); [lia|now contradiction K].
  - specialize (I ltac:(discriminate)). rewrite app_length. cbn [length]. lia.
  - cbv zeta in *. cbn [i_child i_parent i_fds i_req i_rep i_out i_in] in *. specialize (I ltac:(discriminate)). destruct (r_alive _); [lia|now contradiction K].
  - specialize (I ltac:(discriminate)). exact I.
  - specialize (I ltac:(discriminate)). exact I.
  - specialize (I ltac:(discriminate)). exact I.
Qed.
Lemma steps_iok room starts cfg s es s' : isteps room starts cfg s es s' -> iok s -> iok s'.
Proof. induction 1 as [|s1 e s2 es s3 A _ IH]; [easy|]. intros I. apply IH. now apply (step_iok _ _ _ _ _ _ A). Qed.
Lemma start_iok t : iok (ipc_start t).
Proof. intros _. reflexivity. Qed.

Theorem deadlock_iff room starts cfg t es s : takes_one room -> (exists t, starts t) -> isteps room starts cfg (ipc_start t) es s ->
  (deadlock room starts cfg s <-> both_live s /\ parent_waits room s /\ child_waits room s).
Proof.
  intros T [t0 S] R. pose proof (steps_iok _ _ _ _ _ _ R (start_iok t)) as I. clear R t. split.
  - intros [[Lc Lp] D]. split; [now split|]. specialize (I Lp). unfold owed in I. destruct s as [c p fds rq rp o i].
    cbn [i_child i_parent i_fds i_req i_rep i_out i_in] in *.
    assert (CW : child_waits room (mkIpc c p fds rq rp o i)).
    { unfold child_waits. cbn [i_child i_parent i_fds i_req i_rep i_out i_in]. destruct c as [[| |d k|d k]|k].
      - exfalso. apply (D _ _ (c_event room starts cfg p fds rq rp o i t0 S)).
      - now contradiction Lc.
      - exfalso. destruct rq; [|cbn in I; lia]. apply (D _ _ (c_request room starts cfg p fds [] rp o i d k (T d))).
      - right. exists d, k. split; [reflexivity|]. destruct (room o d) eqn:E; [|reflexivity]. exfalso. exact (D _ _ (c_frame room starts cfg p fds rq rp o i d k E)).
      - left. exists k. split; [reflexivity|]. destruct rp as [|d rp]; [reflexivity|]. exfalso. exact (D _ _ (c_answer room starts cfg p fds rq d rp o i k)). }
    split; [|exact CW]. unfold parent_waits. cbn [i_parent i_in]. destruct p as [|[|m ms]|d|].
    + exfalso. destruct CW as [(k & Ec & Er)|(d & k & Ec & Er)]; cbn [i_child i_rep i_out] in *; subst c.
      * subst rp. destruct rq as [|d rq]; [cbn in I; lia|].
        exact (D _ _ (p_request room starts cfg (Await k) fds d rq [] o i (mkPos None SockFail 0 false false [] 0 None [] None true))).
      * destruct o as [|d' o]; [now rewrite T in Er|].
        exact (D _ _ (p_send room starts cfg (Run (TFrame d k)) fds rq rp d' o i (mkPos None SockFail 0 false false [] 0 None [] None true))).
    + exfalso. exact (D _ _ (p_return room starts cfg c fds rq rp o i)).
    + exists m, ms. split; [reflexivity|]. destruct (room i m) eqn:E; [|reflexivity]. exfalso. exact (D _ _ (p_write room starts cfg c fds rq rp o i m ms E)).
    + exfalso. destruct c as [t|k]; [lia|]. destruct rp; [|cbn in I; lia]. exact (D _ _ (p_answer room starts cfg (Await k) fds rq [] o i d (T d))).
    + now contradiction Lp.
  - intros (L & (m & ms & Ep & Er) & CW). split; [exact L|]. intros e s' H.
    destruct H; cbn [i_child i_parent i_fds i_req i_rep i_out i_in] in *; try discriminate Ep; unfold child_waits in CW;
      cbn [i_child i_parent i_fds i_req i_rep i_out i_in] in CW; destruct CW as [(k' & Ec & Ek)|(d' & k' & Ec & Ek)];
      try discriminate Ec; try discriminate Ek; try (injection Ec as -> ->; congruence); injection Ep as -> ->; congruence.
Qed.
Definition mute (cfg : pcfg) : Prop := has (pc_opts cfg) OPT_RECV = false \/ has (pc_opts cfg) OPT_DEBUG = true.
Lemma mute_step room starts cfg s e s' : mute cfg -> istep room starts cfg s e s' -> (forall ms, i_parent s <> PRecv ms) -> forall ms, i_parent s' <> PRecv ms.
Proof.
  intros M H. destruct H; cbn [i_parent]; intros K ms'; try exact (K ms'); try discriminate; try (exfalso; now apply (K _ eq_refl)).
  - cbv zeta. cbn [i_parent]. destruct (parent_reply _ _ _); discriminate.
  - cbv zeta. cbn [i_parent]. destruct (r_alive _); discriminate.
  - destruct M; congruence.
Qed.
Theorem mute_lives room starts cfg t es s : takes_one room -> (exists t, starts t) -> mute cfg -> isteps room starts cfg (ipc_start t) es s ->
  ~ deadlock room starts cfg s.
Proof.
  intros T S M R D. apply (deadlock_iff room starts cfg t es s T S R) in D as (_ & (m & ms & E & _) & _).
  assert (K : forall ms, i_parent s <> PRecv ms); [|exact (K _ E)]. clear E m ms.
  assert (K0 : forall ms, i_parent (ipc_start t) <> PRecv ms) by discriminate. revert K0.
  induction R as [|s1 e s2 es s3 A _ IH]; [easy|]. intros K. apply IH. exact (mute_step _ _ _ _ _ _ M A K).
Qed.
Theorem few_live room starts cfg t es s n : takes_one room -> (exists t, starts t) -> holds room n -> isteps room starts cfg (ipc_start t) es s ->
  (pending s <= n)%nat -> ~ deadlock room starts cfg s.
Proof.
  intros T S N R P D. apply (deadlock_iff room starts cfg t es s T S R) in D as (_ & (m & ms & E & F) & _).
  unfold pending in P. rewrite E in P. cbn [length] in P. rewrite N in F by lia. discriminate.
Qed.
(** ** The deadlock *)
Lemma steps_app room starts cfg a b c es es' : isteps room starts cfg a es b -> isteps room starts cfg b es' c -> isteps room starts cfg a (es ++ es') c.
Proof. induction 1; [easy|]. intros. cbn [app]. eapply is_step; [eassumption|]. auto. Qed.
Lemma first_full (f : nat -> bool) : forall n, f n = false -> exists j, (j <= n)%nat /\ f j = false /\ forall i, (i < j)%nat -> f i = true.
Proof.
  assert (G : forall n, (exists j, (j < n)%nat /\ f j = false /\ forall i, (i < j)%nat -> f i = true) \/ forall i, (i < n)%nat -> f i = true).
  { induction n as [|n [(j & Hj & A)|H]]; [right; lia|left; exists j; split; [lia|exact A]|]. destruct (f n) eqn:E.
    - right. intros i Hi. destruct (Nat.eq_dec i n) as [->|]; [exact E|]. apply H. lia.
    - left. exists n. split; [lia|]; now split. }
  intros n Hn. destruct (G n) as [(j & Hj & A)|H]; [exists j; split; [lia|exact A]|]. exists n. split; [lia|]; now split.
Qed.
Lemma recv_repeat index c m n : parent_recv_one index c = RForward m -> parent_recv index (repeat c n) = repeat m n.
Proof. intros H. induction n as [|n IH]; [reflexivity|]. cbn [repeat parent_recv]. rewrite H. now rewrite IH. Qed.
Lemma repeat_snoc {A} (x : A) n : repeat x n ++ [x] = repeat x (S n).
Proof. induction n as [|n IH]; [reflexivity|]. cbn [repeat app]. f_equal. exact IH. Qed.
Lemma fill room starts cfg c fds rq rp o m : forall j n, (forall i, (i < j)%nat -> room (repeat m i) m = true) ->
  isteps room starts cfg (mkIpc c (PRecv (repeat m (j + n))) fds rq rp o []) (repeat (IHand m) j)
    (mkIpc c (PRecv (repeat m n)) fds rq rp o (repeat m j)).
Proof.
  induction j as [|j IH]; intros n H; [apply is_none|].
  rewrite <- (repeat_snoc (IHand m)). eapply steps_app. { replace (S j + n)%nat with (j + S n)%nat by lia. apply IH. intros i Hi. apply H. lia. }
  cbn [repeat]. eapply is_step; [apply p_write; apply H; lia|]. rewrite repeat_snoc. apply is_none.
Qed.
Theorem wedge room starts cfg d1 k1 os1 rep1 d2 d3 k3 r c m :
  takes_one room -> finite room -> has (pc_opts cfg) OPT_RECV = true -> has (pc_opts cfg) OPT_DEBUG = false ->
  parent_reply d1 os1 (parent_req cfg [] d1 os1) = Some rep1 -> In r (r_fds (parent_req cfg [] d1 os1)) ->
  k1 rep1 = TFrame d2 (TReq d3 k3) -> parent_recv_one (rf_index r) c = RForward m -> (exists t, starts t) ->
  exists es s, isteps room starts cfg (ipc_start (TReq d1 k1)) es s /\ deadlock room starts cfg s.
Proof.
  intros T [N F] Hr Hd Ha Hin Ek Hf Hst.
  destruct (first_full (fun i => room (repeat m i) m) N) as (j & Hj & A & B). { apply F. now rewrite repeat_length. }
  set (fds := r_fds (parent_req cfg [] d1 os1)).
  set (s := mkIpc (Await k3) (PRecv (repeat m (S (N - j)%nat))) fds [d3] [] [d2] (repeat m j)).
  assert (R : exists es, isteps room starts cfg (ipc_start (TReq d1 k1)) es s).
  { eexists. eapply is_step; [apply c_request; apply T|]. cbn [app].
    eapply is_step; [apply (p_request _ _ _ _ _ _ _ _ _ _ os1)|]. rewrite Ha.
    eapply is_step; [apply p_answer; apply T|]. cbn [app].
    eapply is_step; [apply c_answer|]. rewrite Ek. fold fds.
    eapply is_step; [apply c_frame; apply T|]. cbn [app].
    eapply is_step; [apply c_request; apply T|]. cbn [app].
    eapply is_step; [apply (p_packets _ _ _ _ _ _ _ _ _ r (repeat c (j + S (N - j)))); assumption|].
    rewrite (recv_repeat _ _ _ _ Hf). apply fill. exact B. }
  destruct R as [es R]. exists es, s. split; [exact R|]. apply (deadlock_iff room starts cfg (TReq d1 k1) es s T Hst R). split; [now split|]. split.
  - exists m, (repeat m (N - j)%nat). split; [reflexivity|exact A].
  - left. exists k3. now split.
Qed.
(** For a child that opens a socket, sends a frame and opens another. *)
Theorem wedge_opens room cfg eff i j p f rest os1 r c m :
  takes_one room -> finite room -> has (pc_opts cfg) OPT_RECV = true -> has (pc_opts cfg) OPT_DEBUG = false ->
  eff = SOpen i :: SFrame i p f :: SOpen j :: rest -> a_run (tree_of eff) ->
  (exists rep a, parent_reply (mreq_out (q_open i)) os1 (parent_req cfg [] (mreq_out (q_open i)) os1) = Some rep /\ my_mreq (q_open i) (Some rep) = DOk a) ->
  In r (r_fds (parent_req cfg [] (mreq_out (q_open i)) os1)) -> parent_recv_one (rf_index r) c = RForward m ->
  exists es s, isteps room a_run cfg (ipc_start (tree_of eff)) es s /\ deadlock room a_run cfg s.
Proof.
  intros T F Hr Hd -> Hs (rep & a & E1 & E2) Hin Hf. unfold asks in *. cbn [tree_of] in *.
  eapply wedge; try eassumption; [|now exists (tree_of (SOpen i :: SFrame i p f :: SOpen j :: rest))].
  cbn beta. rewrite E2. reflexivity.
Qed.
Lemma answered cfg i os :
  match parent_reply (mreq_out (q_open i)) os (parent_req cfg [] (mreq_out (q_open i)) os) with
  | Some rep => match my_mreq (q_open i) (Some rep) with DOk _ => true | _ => false end
  | None => false
  end = true ->
  exists rep a, parent_reply (mreq_out (q_open i)) os (parent_req cfg [] (mreq_out (q_open i)) os) = Some rep /\ my_mreq (q_open i) (Some rep) = DOk a.
Proof. destruct (parent_reply _ _ _) as [rep|]; [|discriminate]. destruct (my_mreq _ _) as [a| | | |] eqn:E; try discriminate. intros _. now exists rep, a. Qed.
