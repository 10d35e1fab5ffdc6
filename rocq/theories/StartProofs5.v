(** my_chroot for any path. *)
From Verif Require Import Base Types Start SpecStart Lemmas StartProofs1 StartProofs2 CliProofs1 StartProofs4 Spec.

Section Path.
Variable k : kernel.
Variable path : list Z.
Definition not_yet (h : list call) : Prop := forall d, ~ In (KChroot d) h.
Definition Ch (past : list call) (c : call) : Prop :=
  forall d, c = KChroot d -> d = path /\ hd 0 path = 47 /\ forall q, on_the_way q d -> seen k q past.
Definition N (l : list (list Z)) (h : list call) : Prop := always Ch h /\ forall q, In q l -> seen k q h.
Definition X (s : Z) (h : list call) : Prop := s = 1 /\ always Ch h.
Lemma N_snoc l h c : (forall d, c <> KChroot d) -> N l h -> N l (h ++ [c]).
Proof.
  intros Hc [H1 H2]. split; [|intros q Hq; now apply seen_snoc, H2]. apply always_snoc; [assumption|].
  intros d E. now destruct (Hc d).
Qed.
Lemma p_check opts l l0 : triple (N l0) (check_components k opts 0 l) (fun _ => N (l0 ++ l)) X.
Proof.
  revert l0. induction l as [|q l IH]; intros l0; cbn [check_components].
  - apply t_ret'. intros h H. now rewrite app_nil_r.
  - intros h H. unfold seq, sys. pose proof (N_snoc l0 h (KStat q) ltac:(discriminate) H) as [H1 H2].
    assert (Y : trusted (k (h ++ [KStat q])) -> N (l0 ++ [q]) (h ++ [KStat q])).
    { intros T. split; [assumption|]. intros r Hr. apply in_app_iff in Hr as [Hr|[<-|[]]]; [now apply H2|].
      exists h, []. now split. }
    rewrite trusted_code in Y.
    destruct (a_ret (k (h ++ [KStat q])) =? 0) eqn:E1; cbn [negb].
    2:{ unfold fatal. cbn. now split. }
    destruct (a_x (k (h ++ [KStat q])) =? 0) eqn:E2; cbn [negb orb].
    2:{ unfold fatal. cbn. now split. }
    destruct (Z.land (a_y (k (h ++ [KStat q]))) 18 =? 0) eqn:E3; cbn [negb].
    2:{ unfold fatal. cbn. now split. }
    destruct (Z.land (a_y (k (h ++ [KStat q]))) 61440 =? 16384) eqn:E4; cbn [negb].
    2:{ unfold fatal. cbn. now split. }
    specialize (IH (l0 ++ [q]) (h ++ [KStat q])). rewrite <- app_assoc in IH. cbn [app] in IH. apply IH, Y. lia.
Qed.
Lemma p_chroot opts : triple (N []) (my_chroot k opts 0 path) (fun _ => N []) X.
Proof.
  unfold my_chroot. destruct (hd 0 path =? 47) eqn:E0; cbn [negb].
  2:{ apply t_exit'. intros h [H _]. now split. }
  destruct (zlen path >=? 4096).
  { apply t_exit'. intros h [H _]. now split. }
  apply (t_seq _ _ _ _ _ (fun _ => N (components path [] path))).
  { apply (p_check opts _ []). }
  intros _. apply (t_seq _ _ _ _ _ (fun _ => N (components path [] path))).
  { apply t_need; intros h H _; apply N_snoc with (c := KChdir path) in H; try discriminate; [assumption|]. now destruct H. }
  assert (S : forall h, N (components path [] path) h -> N [] (h ++ [KChroot path])).
  { intros h [H1 H2]. split; [|now intros q []]. apply always_snoc; [assumption|]. intros d E. injection E as <-.
    split; [reflexivity|]. split; [lia|]. intros q Hq. now apply H2, components_way. }
  intros _. apply (t_seq _ _ _ _ _ (fun _ => N [])).
  { apply t_need; intros h H _; apply S in H; [assumption|]. now destruct H. }
  intros _. apply (t_seq _ _ _ _ _ (fun _ => N [])).
  { apply t_need; intros h H _; apply N_snoc with (c := KChdir [47]) in H; try discriminate; [assumption|]. now destruct H. }
  intros _. apply t_ret'. auto.
Qed.
End Path.

Theorem chroot_way k opts path e h pre d post : my_chroot k opts 0 path [] = (e, h) -> h = pre ++ KChroot d :: post ->
  d = path /\ hd 0 path = 47
  /\ forall q, on_the_way q path -> exists a b, pre = a ++ KStat q :: b /\ trusted (k (a ++ [KStat q])).
Proof.
  intros R Eh. pose proof (p_chroot k path opts []) as T. rewrite R in T.
  assert (N k path [] []) as H0 by (split; [apply always_nil|now intros q []]). specialize (T H0).
  assert (A : always (Ch k path) h) by (destruct e; [apply T|apply T|destruct T]).
  destruct (A _ _ _ Eh d eq_refl) as (-> & H1 & H2). split; [reflexivity|]. split; [assumption|]. intros q Hq.
  exact (H2 q Hq).
Qed.

(** The pid file in decimal notation. *)
Theorem main_pid_text k lib opts user w e h pre post : main_start k lib opts user [] = (e, h) ->
  has opts OPT_DAEMON = true -> h = pre ++ KFork :: post ->
  (forall past, 0 < a_ret (k (past ++ [KGetpid])) < 2147483648) ->
  w_locked (after k w pre) = true
  /\ exists a b old m, pre = a ++ KGetpid :: b
  /\ (let t := decimal (a_ret (k (a ++ [KGetpid]))) ++ [10] in
      w_pidfile (after k w pre) = Some (t ++ skipn (length t) old, m))
  /\ match w_pidfile w with Some pf => pf = (old, m) | None => old = [] end.
Proof.
  intros R Ho Eh Hp. destruct (main_pidfile k lib opts user w e h pre post R Ho Eh) as (H1 & a & b & old & m & H2 & H3 & H4).
  split; [assumption|]. exists a, b, old, m. split; [assumption|]. split; [|assumption].
  rewrite dec_any in H3; [exact H3|]. specialize (Hp a). lia.
Qed.
