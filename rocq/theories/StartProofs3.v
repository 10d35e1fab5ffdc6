(** The process before the fork and the privileged process. *)
From Verif Require Import Base Types Start SpecStart Lemmas StartProofs1 StartProofs2.

(** main up to the fork. *)
Definition pre_fork (k : kernel) (opts : Z) (user : list Z) : proc (option passwd) :=
  do pw <- (if has opts OPT_DEBUG then ret None
            else do a <- sys k (KGetpw user);;
                 if a_ret a =? -1 then fatal k opts 0 else ret (Some (mkPw (a_x a) (a_y a))));;
  do _ <- sys k KSysinfo;;
  do _ <- (if has opts OPT_DAEMON then pidfile k opts else ret tt);;
  do _ <- my_socketpair k opts;;
  do _ <- my_socketpair k opts;;
  ret pw.
Definition post_fork (k : kernel) (lib : caplib) (opts : Z) (pw : option passwd) : proc unit :=
  do f <- sys k KFork;;
  if a_ret f =? -1 then fatal k opts (-1)
  else if a_ret f =? 0 then child_init k opts pw
  else parent_init k lib opts (a_ret f).
Lemma seq_assoc A B C (m : proc A) (f : A -> proc B) (g : B -> proc C) h :
  seq (seq m f) g h = seq m (fun a => seq (f a) g) h.
Proof. unfold seq. now destruct (m h) as [[a|s|] h']. Qed.
Lemma seq_cong A B (m : proc A) (f g : A -> proc B) h : (forall a h, f a h = g a h) -> seq m f h = seq m g h.
Proof. intros E. unfold seq. destruct (m h) as [[a|s|] h']; [apply E|reflexivity|reflexivity]. Qed.
Lemma main_split k lib opts user h :
  main_start k lib opts user h = seq (pre_fork k opts user) (post_fork k lib opts) h.
Proof.
  unfold main_start, pre_fork. rewrite seq_assoc. apply seq_cong. intros pw h1.
  rewrite seq_assoc. apply seq_cong. intros a1 h2. rewrite seq_assoc. apply seq_cong. intros a2 h3.
  rewrite seq_assoc. apply seq_cong. intros a3 h4. rewrite seq_assoc. apply seq_cong. intros a4 h5. reflexivity.
Qed.

(** Calls that neither fork nor signal. *)
Definition quiet (c : call) : Prop := c <> KFork /\ forall p s, c <> KKill p s.
Section Pre.
Variable k : kernel.
Variable w0 : world.
Definition D (Q : world -> list call -> Prop) (h : list call) : Prop := Forall quiet h /\ Q (after k w0 h) h.
Definition X (s : Z) (h : list call) : Prop := s = 1 /\ Forall quiet h.
Lemma D_snoc c h (Q Q' : world -> list call -> Prop) : D Q h -> quiet c -> (Q (after k w0 h) h -> Q' (after k w0 (h ++ [c])) (h ++ [c])) -> D Q' (h ++ [c]).
Proof. intros [H1 H2] Hc HQ. split; [apply Forall_app; split; [assumption|now constructor]|now apply HQ]. Qed.
Lemma quiet_snoc c h : Forall quiet h -> quiet c -> Forall quiet (h ++ [c]).
Proof. intros H Hc. apply Forall_app. split; [assumption|now constructor]. Qed.
Lemma t_needD opts c (Q Q' : world -> list call -> Prop) : quiet c ->
  (forall h, Q (after k w0 h) h -> a_ret (k (h ++ [c])) <> -1 -> Q' (after k w0 (h ++ [c])) (h ++ [c])) ->
  triple (D Q) (need k opts 0 c) (fun _ => D Q') X.
Proof.
  intros Hc HQ. apply t_need; intros h HD Hr.
  - apply (D_snoc c h Q Q' HD Hc). intros H. now apply HQ.
  - split; [reflexivity|]. now apply quiet_snoc; [apply HD|].
Qed.
Ltac quiet := split; discriminate.

Variable opts : Z.
(** The pid file. *)
Definition Q0 (w : world) (h : list call) : Prop := w_pidfile w = w_pidfile w0.
Definition Q1 (w : world) (h : list call) : Prop :=
  exists old m, w_pidfile w = Some (old, m)
  /\ match w_pidfile w0 with Some pf => pf = (old, m) | None => old = [] end.
Definition Q2 (w : world) (h : list call) : Prop := w_locked w = true /\ Q1 w h.
Definition Q3 (w : world) (h : list call) : Prop :=
  w_locked w = true /\ exists a b old m,
  h = a ++ KGetpid :: b /\ let t := dec (a_ret (k (a ++ [KGetpid]))) ++ [10] in
  w_pidfile w = Some (t ++ skipn (length t) old, m)
  /\ match w_pidfile w0 with Some pf => pf = (old, m) | None => old = [] end.
Lemma same_world c h : (forall w, effect w c = w) -> after k w0 (h ++ [c]) = after k w0 h.
Proof. intros E. rewrite after_snoc. destruct (succeeded _ _); [apply E|reflexivity]. Qed.
Ltac inert := let w := fresh "w" in intros w; now destruct w.

Lemma t_pidfile : triple (D Q0) (pidfile k opts) (fun _ => D Q3) X.
Proof.
  unfold pidfile. apply (t_seq _ _ _ _ _ (fun _ => D Q0)).
  { apply t_needD; [quiet|]. intros h H _. rewrite same_world by inert. exact H. }
  intros _. apply (t_seq _ _ _ _ _ (fun _ => D Q1)).
  { apply t_needD; [quiet|]. intros h H Hr. unfold Q0 in H. rewrite after_snoc. cbn [succeeded].
    replace (a_ret (k (h ++ [KOpenPid])) =? -1) with false by lia. cbn [negb].
    destruct (after k w0 h) as [? ? ? ? ? ? ? ? um ? pf ?]. cbn in H |- *. unfold Q1. cbn. rewrite <- H.
    destruct pf as [[old m]|]; [now exists old, m|]. now eexists [], _. }
  intros _. apply (t_seq _ _ _ _ _ (fun _ => D Q2)).
  { apply t_needD; [quiet|]. intros h H Hr. rewrite after_snoc. cbn [succeeded].
    replace (a_ret (k (h ++ [KLockPid])) =? -1) with false by lia. cbn [negb].
    unfold Q2, Q1 in *. destruct (after k w0 h). cbn in *. now split. }
  intros _. apply (t_seq _ _ _ _ _ (fun p h => exists h0, h = h0 ++ [KGetpid] /\ p = k h /\ D Q2 h)).
  { apply t_sys'. intros h H. exists h. split; [reflexivity|]. split; [reflexivity|].
    apply (D_snoc _ h Q2 Q2 H); [quiet|]. rewrite same_world by inert. auto. }
  intros p. generalize (eq_refl (dec (a_ret p) ++ [10])). generalize (dec (a_ret p) ++ [10]) at 2 3. intros t Et.
  apply (t_seq _ _ _ _ _ (fun r h => Forall quiet h /\ (a_ret r > 0 -> Q3 (after k w0 h) h))).
  { apply t_sys'. intros h (h0 & -> & -> & H1 & H2 & old & m & H3 & H4). split; [apply quiet_snoc; [assumption|quiet]|].
    intros Hr. rewrite after_snoc. cbn [succeeded].
    replace (a_ret (k ((h0 ++ [KGetpid]) ++ [KWritePid t])) =? -1) with false by lia. cbn [negb].
    unfold Q3. destruct (after k w0 (h0 ++ [KGetpid])) as [? ? ? ? ? ? ? ? ? ? pf ?]. cbn [effect]. split; [exact H2|].
    exists h0, [KWritePid t], old, m. split; [now rewrite <- app_assoc|]. cbv zeta. rewrite Et.
    change (pf = Some (old, m)) in H3. rewrite H3. split; [reflexivity|exact H4]. }
  intros r. destruct (a_ret r <=? 0) eqn:Er.
  - apply t_exit'. intros h [H _]. now split.
  - apply t_ret'. intros h [H1 H2]. split; [assumption|]. apply H2. lia.
Qed.
Lemma keep3 c h : (forall w, effect w c = w) -> Q3 (after k w0 h) h -> Q3 (after k w0 (h ++ [c])) (h ++ [c]).
Proof.
  intros E (H1 & a & b & old & m & -> & H). rewrite same_world by assumption. split; [assumption|].
  exists a, (b ++ [c]), old, m. split; [now rewrite <- app_assoc|exact H].
Qed.
(** Before the fork. *)
Definition Qf (w : world) (h : list call) : Prop := has opts OPT_DAEMON = true -> Q3 w h.
Lemma keepf c h : (forall w, effect w c = w) -> Qf (after k w0 h) h -> Qf (after k w0 (h ++ [c])) (h ++ [c]).
Proof. intros E H O. apply keep3; [assumption|now apply H]. Qed.
Lemma t_pair : triple (D Qf) (my_socketpair k opts) (fun _ => D Qf) X.
Proof.
  unfold my_socketpair. do 5 (apply (t_seq _ _ _ _ _ (fun _ => D Qf));
    [apply t_needD; [quiet|intros h H _; apply keepf; [inert|exact H]]|intros _]).
  apply t_ret'. auto.
Qed.
Lemma t_prefork user : triple (D Q0) (pre_fork k opts user)
  (fun pw h => D Qf h /\ (pw = None -> has opts OPT_DEBUG = true)) X.
Proof.
  unfold pre_fork. apply (t_seq _ _ _ _ _ (fun pw h => D Q0 h /\ (pw = None -> has opts OPT_DEBUG = true))).
  { destruct (has opts OPT_DEBUG) eqn:Ed.
    - apply t_ret'. now intros h H.
    - intros h H. unfold seq, sys. cbn.
      assert (G : D Q0 (h ++ [KGetpw user])).
      { apply (D_snoc _ h Q0 Q0 H); [quiet|]. rewrite same_world by inert. auto. }
      destruct (a_ret (k (h ++ [KGetpw user])) =? -1); cbn.
      + split; [reflexivity|]. apply G.
      + split; [exact G|discriminate]. }
  intros pw. apply (t_seq _ _ _ _ _ (fun _ h => D Q0 h /\ (pw = None -> has opts OPT_DEBUG = true))).
  { apply t_sys'. intros h [H Hp]. split; [|assumption]. apply (D_snoc _ h Q0 Q0 H); [quiet|]. rewrite same_world by inert. auto. }
  intros _. apply (t_seq _ _ _ _ _ (fun _ h => D Qf h /\ (pw = None -> has opts OPT_DEBUG = true))).
  { intros h [H Hp]. destruct (has opts OPT_DAEMON) eqn:Eo.
    - pose proof (t_pidfile h H) as T. destruct (pidfile k opts h) as [[a|s|] h']; [|exact T|exact T].
      destruct T as [T1 T2]. split; [|assumption]. split; [assumption|]. now intros _.
    - cbn. split; [|assumption]. split; [apply H|]. intros O. congruence. }
  intros _. apply (t_seq _ _ _ _ _ (fun _ h => D Qf h /\ (pw = None -> has opts OPT_DEBUG = true))).
  { intros h [H Hp]. pose proof (t_pair h H) as T. destruct (my_socketpair k opts h) as [[a|s|] h']; [now split|exact T|exact T]. }
  intros _. apply (t_seq _ _ _ _ _ (fun _ h => D Qf h /\ (pw = None -> has opts OPT_DEBUG = true))).
  { intros h [H Hp]. pose proof (t_pair h H) as T. destruct (my_socketpair k opts h) as [[a|s|] h']; [now split|exact T|exact T]. }
  intros _. apply t_ret'. auto.
Qed.
End Pre.

(** The programs only add to the history. *)
Definition extends {A} (m : proc A) : Prop := forall h, exists t, snd (m h) = h ++ t.
Lemma ext_ret A (a : A) : extends (ret a). Proof. intros h. exists []. now rewrite app_nil_r. Qed.
Lemma ext_exit A s : extends (@exit A s). Proof. intros h. exists []. now rewrite app_nil_r. Qed.
Lemma ext_sys k c : extends (sys k c). Proof. intros h. now exists [c]. Qed.
Lemma ext_ub A : extends (fun h => (@EUB A, h)). Proof. intros h. exists []. now rewrite app_nil_r. Qed.
Lemma ext_seq A B (m : proc A) (f : A -> proc B) : extends m -> (forall a, extends (f a)) -> extends (seq m f).
Proof.
  intros Hm Hf h. unfold seq. destruct (Hm h) as (t & E). destruct (m h) as [[a|s|] h']; cbn in E; subst h'; [|now exists t|now exists t].
  destruct (Hf a (h ++ t)) as (t2 & E2). exists (t ++ t2). now rewrite E2, <- app_assoc.
Qed.

(** The calls a program adds all satisfy [P]. *)
Definition only {A} (P : call -> Prop) (m : proc A) : Prop := forall h, exists t, snd (m h) = h ++ t /\ Forall P t.
Lemma only_ret A P (a : A) : only P (ret a). Proof. intros h. exists []. now rewrite app_nil_r. Qed.
Lemma only_exit A P s : only P (@exit A s). Proof. intros h. exists []. now rewrite app_nil_r. Qed.
Lemma only_ub A P : only P (fun h => (@EUB A, h)). Proof. intros h. exists []. now rewrite app_nil_r. Qed.
Lemma only_sys k (P : call -> Prop) c : P c -> only P (sys k c).
Proof. intros H h. exists [c]. split; [reflexivity|now constructor]. Qed.
Lemma only_seq A B P (m : proc A) (f : A -> proc B) : only P m -> (forall a, only P (f a)) -> only P (seq m f).
Proof.
  intros Hm Hf h. unfold seq. destruct (Hm h) as (t & E & F).
  destruct (m h) as [[a|s|] h']; cbn in E; subst h'; [|now exists t|now exists t].
  destruct (Hf a (h ++ t)) as (t2 & E2 & F2). exists (t ++ t2). split; [now rewrite E2, <- app_assoc|now apply Forall_app].
Qed.
Definition signals (pid : Z) (c : call) : Prop := c <> KFork /\ forall p s, c = KKill p s -> p = pid.
Lemma only_quit A k opts sig pid : only (signals pid) (@parent_quit A k opts sig pid).
Proof.
  unfold parent_quit. repeat (apply only_seq; [|intros ?]); try apply only_exit.
  - apply only_sys. split; [discriminate|discriminate].
  - destruct (_ >? 0); [apply only_ret|]. apply only_sys. split; [discriminate|]. intros p s E. now injection E as <- <-.
  - destruct (has opts OPT_DEBUG); [apply only_sys; now split|apply only_ret].
  - apply only_sys. now split.
  - apply only_sys. now split.
Qed.
Lemma only_fatal A k opts pid : only (signals pid) (@fatal A k opts pid).
Proof. unfold fatal. destruct (pid =? 0); [apply only_exit|apply only_quit]. Qed.
Lemma only_need k opts pid c : signals pid c -> only (signals pid) (need k opts pid c).
Proof.
  intros H. unfold need. apply only_seq; [now apply only_sys|]. intros a. destruct (_ =? -1); [apply only_fatal|apply only_ret].
Qed.
Ltac sig := split; discriminate.
Lemma only_parent k lib opts pid : only (signals pid) (parent_init k lib opts pid).
Proof.
  unfold parent_init. apply only_seq; [apply only_need; sig|]. intros s. apply only_seq.
  - destruct (has opts OPT_DEBUG); [apply only_sys; sig|]. destruct lib; [apply only_ret|apply only_need; sig|].
    apply only_seq; [apply only_need; sig|]. intros _. apply only_need; sig.
  - intros _. apply only_seq; [apply only_sys; sig|]. intros w. destruct (negb _); [apply only_exit|].
    apply only_seq; [apply only_sys; sig|]. intros _. apply only_fatal.
Qed.
Lemma only_fatal0 A k opts : only quiet (@fatal A k opts 0).
Proof. apply only_exit. Qed.
Lemma only_need0 k opts c : quiet c -> only quiet (need k opts 0 c).
Proof.
  intros H. unfold need. apply only_seq; [now apply only_sys|]. intros a. destruct (_ =? -1); [apply only_fatal0|apply only_ret].
Qed.
Lemma only_check k opts l : only quiet (check_components k opts 0 l).
Proof.
  induction l as [|q l IH]; cbn [check_components]; [apply only_ret|]. apply only_seq; [apply only_sys; sig|]. intros a.
  repeat (destruct (_ || _) || destruct (negb _); try apply only_fatal0). exact IH.
Qed.
Lemma only_child k opts pw : only quiet (child_init k opts pw).
Proof.
  unfold child_init. apply only_seq.
  { destruct (_ || _); [apply only_ret|]. unfold child_socket.
    apply only_seq; [apply only_sys; sig|]. intros s. apply only_seq.
    { destruct (_ =? -1); [|apply only_ret]. destruct (_ =? 93); [apply only_need0; sig|apply only_fatal0]. }
    intros _. apply only_seq; [apply only_sys; sig|]. intros old. apply only_seq; [apply only_sys; sig|]. intros u.
    apply only_seq; [destruct (_ && _); [apply only_fatal0|apply only_ret]|]. intros _.
    apply only_seq; [apply only_need0; sig|]. intros b. apply only_seq; [destruct (has _ _); [apply only_need0; sig|apply only_ret]|].
    intros _. apply only_seq; [apply only_need0; sig|]. intros _. destruct pw as [p|]; [|apply only_ub].
    apply only_seq; [apply only_need0; sig|]. intros _. apply only_seq; [apply only_sys; sig|]. intros _. apply only_ret. }
  intros _. apply only_seq; [apply only_need0; sig|]. intros _. apply only_seq.
  { destruct (has opts OPT_DEBUG); [apply only_ret|]. apply only_seq.
    - unfold my_chroot. destruct (negb _); [apply only_fatal0|]. destruct (_ >=? _); [apply only_fatal0|].
      apply only_seq; [apply only_check|]. intros _. repeat (apply only_seq; [apply only_need0; sig|intros _]). apply only_ret.
    - intros _. apply only_seq.
      + unfold my_drop_privs. apply only_seq; [apply only_need0; sig|]. intros _. destruct pw as [p|]; [|apply only_ub].
        repeat (apply only_seq; [apply only_need0; sig|intros _]). apply only_ret.
      + intros _. unfold my_rlimit_child. repeat (apply only_seq; [apply only_need0; sig|intros _]). apply only_ret. }
  intros _. apply only_seq; [apply only_sys; sig|]. intros _. destruct (has opts OPT_ONCE); [apply only_exit|].
  repeat (apply only_seq; [apply only_sys; sig|intros _]). apply only_fatal0.
Qed.
