(** Proofs for C127. *)
From Verif Require Import Base Types Tlv Checks Wire Parent Netif Mreq Util Child Send Spec SpecNet SpecNetif SpecMreq Ipc SpecIpc SpecSend SpecOnce SpecJoint SpecFifo SpecRest.
From Verif Require Import Lemmas TimerProofs IpcProofs FifoProofs FifoProofs2.
Require Import Arith.Wf_nat.

(** ** The end of the steps *)
Inductive sooner : cproc -> cproc -> Prop :=
| so_ask d k : sooner (Await k) (Run (TReq d k))
| so_got k d : sooner (Run (k d)) (Await k)
| so_put d k : sooner (Run k) (Run (TFrame d k)).
Lemma sooner_run : forall t, Acc sooner (Run t).
Proof.
  induction t as [| |d k IH|d k IH]; constructor; intros y H; inversion H; subst.
  - constructor. intros z K. inversion K; subst. apply IH.
  - exact IH.
Qed.
Lemma sooner_wf : forall c, Acc sooner c.
Proof. intros [t|k]; [apply sooner_run|]. constructor. intros y H. inversion H; subst. apply sooner_run. Qed.
Definition news (s : ipc) : nat := (length (i_in s) + 2 * match i_parent s with PRecv ms => length ms | _ => 0 end)%nat.
Definition chores (s : ipc) : nat :=
  (2 * length (i_req s) + length (i_out s) + match i_parent s with PReply _ | PRecv _ => 1 | _ => 0 end)%nat.
Definition own (room : list (list Z) -> list Z -> bool) (starts : ctree -> Prop) (cfg : pcfg) (s' s : ipc) : Prop :=
  exists e, istep room starts cfg s e s' /\ ~ outside e.
Lemma own_less room starts cfg s s' : own room starts cfg s' s ->
  (news s' < news s)%nat \/ (news s' = news s /\ (sooner (i_child s') (i_child s) \/ (i_child s' = i_child s /\ (chores s' < chores s)%nat))).
Proof.
  intros (e & H & O). unfold news, chores. destruct H; cbn [outside] in O; try (now contradiction O); cbn [i_child i_parent i_req i_rep i_out i_in].
  - left. cbn. lia.
  - right. split; [reflexivity|]. left. constructor.
  - right. split; [reflexivity|]. left. constructor.
  - right. split; [reflexivity|]. left. constructor.
  - subst r. right. split; [destruct (parent_reply _ _ _); cbn; lia|]. right. split; [reflexivity|]. destruct (parent_reply _ _ _); cbn; lia.
  - right. split; [reflexivity|]. right. split; [reflexivity|]. lia.
  - subst r. right. split; [destruct (r_alive _); reflexivity|]. right. split; [reflexivity|]. destruct (r_alive _); cbn; lia.
  - left. rewrite app_length. cbn. lia.
  - right. split; [reflexivity|]. right. split; [reflexivity|]. lia.
Qed.
Lemma own_wf room starts cfg : forall s, Acc (own room starts cfg) s.
Proof.
  assert (G : forall n s, news s = n -> Acc (own room starts cfg) s).
  { induction n as [n IHn] using lt_wf_ind.
    assert (G2 : forall c, Acc sooner c -> forall s, news s = n -> i_child s = c -> Acc (own room starts cfg) s).
    { intros c A. induction A as [c _ IHc].
      assert (G3 : forall m s, chores s = m -> news s = n -> i_child s = c -> Acc (own room starts cfg) s).
      { induction m as [m IHm] using lt_wf_ind. intros s Em En Ec. constructor. intros s' H. destruct (own_less _ _ _ _ _ H) as [L|[E [L|[E2 L]]]].
        - apply (IHn (news s')); [lia|reflexivity].
        - apply (IHc (i_child s')); [now rewrite <- Ec|lia|reflexivity].
        - apply (IHm (chores s')); [lia|reflexivity|lia|congruence]. }
      intros s. apply (G3 (chores s) s eq_refl). }
    intros s E. exact (G2 (i_child s) (sooner_wf _) s E eq_refl). }
  intros s. exact (G (news s) s eq_refl).
Qed.
Lemma outside_dec e : outside e \/ ~ outside e.
Proof. destruct e; cbn; tauto. Qed.
Lemma some_outside room starts cfg : forall s, Acc (own room starts cfg) s ->
  forall (f : nat -> ipc) (es : nat -> ievent) m, f m = s -> (forall n, istep room starts cfg (f n) (es n) (f (S n))) -> exists n, (m <= n)%nat /\ outside (es n).
Proof.
  intros s A. induction A as [s _ IH]. intros f es m E H. destruct (outside_dec (es m)) as [O|O]; [exists m; split; [lia|exact O]|].
  assert (K : own room starts cfg (f (S m)) s) by (exists (es m); split; [rewrite <- E; apply H|exact O]).
  destruct (IH _ K f es (S m) eq_refl H) as (n & L & O'). exists n. split; [lia|exact O'].
Qed.
Theorem again_outside room starts cfg (f : nat -> ipc) (es : nat -> ievent) :
  (forall n, istep room starts cfg (f n) (es n) (f (S n))) -> forall m, exists n, (m <= n)%nat /\ outside (es n).
Proof. intros H m. exact (some_outside room starts cfg (f m) (own_wf _ _ _ _) f es m eq_refl H). Qed.

(** ** Where they end *)
Definition some_pos : pos := mkPos None SockFatal 0 false false [] 0 None [] None false.
Lemma progress room starts cfg s : (exists t, starts t) -> settled room starts cfg s \/ exists s', own room starts cfg s' s.
Proof.
  intros [t0 St]. destruct s as [c p fds rq rp o i].
  assert (P : (exists s', own room starts cfg s' (mkIpc c p fds rq rp o i)) \/ (p = PIdle /\ rq = [] /\ o = []) \/ p = PEnd
              \/ (exists d, p = PReply d /\ room rp d = false) \/ exists m ms, p = PRecv (m :: ms) /\ room i m = false).
  { destruct p as [|[|m ms]|d|].
    - destruct rq as [|d rq].
      + destruct o as [|d o]; [right; left; auto|]. left. eexists. exists (ISend d some_pos). split; [apply p_send|intros []].
      + left. eexists. exists (IServe d some_pos (parent_reply d some_pos (parent_req cfg fds d some_pos))). split; [apply p_request|intros []].
    - left. eexists. exists IReturn. split; [apply p_return|intros []].
    - destruct (room i m) eqn:R; [|right; right; right; right; now exists m, ms]. left. eexists. exists (IHand m). split; [now apply p_write|intros []].
    - destruct (room rp d) eqn:R; [|right; right; right; left; now exists d]. left. eexists. exists (IAnswer d). split; [now apply p_answer|intros []].
    - auto. }
  destruct P as [P|P]; [now right|].
  assert (C : (exists s', own room starts cfg s' (mkIpc c p fds rq rp o i)) \/ (c = Run TLoop /\ i = []) \/ c = Run TEnd
              \/ (exists d k, c = Run (TReq d k) /\ room rq d = false) \/ (exists d k, c = Run (TFrame d k) /\ room o d = false) \/ exists k, c = Await k /\ rp = []).
  { destruct c as [[| |d k|d k]|k].
    - destruct i as [|d i]; [auto|]. left. eexists. exists (ITake d t0). split; [now apply c_message|intros []].
    - auto.
    - destruct (room rq d) eqn:R; [|right; right; right; left; now exists d, k]. left. eexists. exists (IAsk d). split; [now apply c_request|intros []].
    - destruct (room o d) eqn:R; [|right; right; right; right; left; now exists d, k]. left. eexists. exists (IPut d). split; [now apply c_frame|intros []].
    - destruct rp as [|d rp]; [right; right; right; right; right; now exists k|]. left. eexists. exists (IGot d). split; [apply c_answer|intros []]. }
  destruct C as [C|C]; [now right|]. left. intros e s' H.
  inversion H; subst; try exact Logic.I; exfalso; clear H;
    repeat match goal with
    | K : _ \/ _ |- _ => destruct K
    | K : exists _, _ |- _ => destruct K
    | K : _ /\ _ |- _ => destruct K
    end; try congruence.
Qed.
Theorem gets_settled room starts cfg : (exists t, starts t) -> forall s, exists es s', isteps room starts cfg s es s' /\ Forall (fun e => ~ outside e) es /\ settled room starts cfg s'.
Proof.
  intros St s. induction (own_wf room starts cfg s) as [s _ IH]. destruct (progress room starts cfg s St) as [D|[s1 K]].
  - exists [], s. split; [constructor|]. split; [constructor|exact D].
  - destruct (IH s1 K) as (es & s' & A & B & C). destruct K as (e & K & O). exists (e :: es), s'. split; [econstructor; eassumption|]. split; [now constructor|exact C].
Qed.
Lemma pending_step room starts cfg s e s' : istep room starts cfg s e s' -> ~ outside e -> (pending s' <= pending s)%nat.
Proof.
  unfold pending. intros H. destruct H; cbn [outside i_in i_parent]; intros O; try (now contradiction O); try lia.
  - cbn. lia.
  - cbv zeta. destruct (parent_reply _ _ _); lia.
  - cbv zeta. destruct (r_alive _); lia.
  - rewrite app_length. cbn. lia.
Qed.
Lemma pending_steps room starts cfg s es s' : isteps room starts cfg s es s' -> Forall (fun e => ~ outside e) es -> (pending s' <= pending s)%nat.
Proof.
  induction 1 as [|s1 e s2 es s3 A _ IH]; intros F; [lia|]. pose proof (pending_step _ _ _ _ _ _ A (Forall_inv F)). specialize (IH (Forall_inv_tail F)). lia.
Qed.
Lemma settled_rest room starts cfg s n : takes_one room -> (exists t, starts t) -> holds room n -> iok s -> (pending s <= n)%nat ->
  settled room starts cfg s -> both_live s -> at_rest s.
Proof.
  intros T [t0 St] N K P D [L1 L2]. destruct s as [c p fds rq rp o i]. unfold pending, iok, owed, at_rest in *. cbn [i_child i_parent i_req i_rep i_out i_in] in *.
  specialize (K L2).
  assert (Ep : p = PIdle /\ rq = [] /\ o = []).
  { destruct p as [|[|m ms]|d|].
    - destruct rq as [|d rq]; [|exfalso; exact (D _ _ (p_request room starts cfg c fds d rq rp o i some_pos))].
      destruct o as [|d o]; [auto|exfalso; exact (D _ _ (p_send room starts cfg c fds [] rp d o i some_pos))].
    - exfalso. exact (D _ _ (p_return room starts cfg c fds rq rp o i)).
    - exfalso. refine (D _ _ (p_write room starts cfg c fds rq rp o i m ms _)). apply N. cbn in P. lia.
    - exfalso. assert (rp = []) as -> by (destruct rp; [reflexivity|]; destruct c; cbn in K; lia). exact (D _ _ (p_answer room starts cfg c fds rq [] o i d (T d))).
    - now contradiction L2. }
  destruct Ep as (-> & -> & ->). destruct c as [[| |d k|d k]|k].
  - destruct i as [|d i]; [|exfalso; exact (D _ _ (c_message room starts cfg PIdle fds [] rp [] d i t0 St))].
    destruct rp; [|cbn in K; lia]. auto 10.
  - now contradiction L1.
  - exfalso. exact (D _ _ (c_request room starts cfg PIdle fds [] rp [] i d k (T d))).
  - exfalso. exact (D _ _ (c_frame room starts cfg PIdle fds [] rp [] i d k (T d))).
  - destruct rp as [|d rp]; [cbn in K; lia|]. exfalso. exact (D _ _ (c_answer room starts cfg PIdle fds [] d rp [] i k)).
Qed.
Theorem delivered room starts cfg t es s n es' s' :
  takes_one room -> (exists t, starts t) -> holds room n -> isteps room starts cfg (ipc_start t) es s -> (pending s <= n)%nat ->
  isteps room starts cfg s es' s' -> Forall (fun e => ~ outside e) es' -> settled room starts cfg s' -> both_live s' ->
  at_rest s' /\ put (es ++ es') = acted_on (es ++ es') /\ due (es ++ es') = taken (es ++ es')
  /\ length (answers (es ++ es')) = length (requests (es ++ es')) /\ served (es ++ es') = combine (requests (es ++ es')) (map Some (answers (es ++ es'))).
Proof.
  intros T St N R P R' O D L. pose proof (steps_app _ _ _ _ _ _ _ _ R R') as R2. pose proof (pending_steps _ _ _ _ _ _ R' O) as P'.
  assert (A : at_rest s') by (apply (settled_rest room starts cfg s' n T St N (steps_iok _ _ _ _ _ _ R2 (start_iok t))); [lia|exact D|exact L]).
  split; [exact A|]. destruct A as (A1 & A2 & A3 & A4 & A5 & A6). destruct (in_order _ _ _ _ _ _ R2) as [I1 I2]. unfold to_hand_over in I2. rewrite A2, A6 in I2. rewrite A5 in I1.
  rewrite !app_nil_r in *. split; [exact I1|]. split; [exact I2|].
  pose proof (phases _ _ _ _ _ _ R2) as F. inversion F; subst; try discriminate; now split.
Qed.
Theorem wire_all room starts cfg st evs st' effs pcfg t es s n :
  takes_one room -> (exists t, starts t) -> holds room n ->
  running cfg st -> Forall event_ok evs -> send_run cfg st evs = DOk (st', effs) ->
  isteps room starts pcfg (ipc_start t) es s -> t :: begun es = map tree_of effs -> Forall able (parent_saw es) ->
  has (pc_opts pcfg) OPT_DEBUG = false -> (forall d os, In (PSend d os) (parent_saw es) -> workable os) ->
  (pending s <= n)%nat -> settled room starts pcfg s ->
  on_wire (r_eff (parent_run pcfg [] (parent_saw es))) = map target (advertised effs).
Proof.
  intros T St N R O H K E A D W P Se. destruct (wire_at_once _ _ _ _ _ _ _ _ _ _ _ R O H K E A) as (L & _ & X). destruct (X D W) as (rest & -> & Z0).
  pose proof (settled_rest room starts pcfg s n T St N (steps_iok _ _ _ _ _ _ K (start_iok t)) P Se L) as (A1 & _ & _ & _ & A5 & _).
  rewrite (Z0 A1 A5), app_nil_r. reflexivity.
Qed.
