(** The child gives up its privileges before it talks to anybody. *)
From Verif Require Import Base Types Start SpecStart Lemmas StartProofs1.

Section Child.
Variable k : kernel.
Variable w0 : world.
Variable p : passwd.
Let dir := chroot_dir.

(** No guard failed so far. *)
Definition clean (h : list call) : Prop := always (fun past c => guards c -> ~ refused c (k (past ++ [c]))) h.
Definition seen (q : list Z) (past : list call) : Prop :=
  exists a b, past = a ++ KStat q :: b /\ trusted (k (a ++ [KStat q])).
Definition P (past : list call) (c : call) : Prop :=
  clean past /\ (talks c -> confined p dir (after k w0 past))
  /\ (forall d, c = KChroot d -> forall q, on_the_way q d -> seen q past)
  /\ private (pw_gid p) (after k w0 (past ++ [c]))
  /\ in_turn p dir (after k w0 past) c.
Definition E (s : Z) (h : list call) : Prop :=
  always P h /\ (clean h \/ (s = 1 /\ exists h' c, h = h' ++ [c] /\ clean h')).
Definition J (Q : world -> Prop) (h : list call) : Prop :=
  always P h /\ clean h /\ private (pw_gid p) (after k w0 h) /\ Q (after k w0 h).

Definition plain (c : call) : Prop := ~ talks c /\ (forall d, c <> KChroot d).
Definition keeps (Q : world -> Prop) (c : call) (Q' : world -> Prop) : Prop :=
  forall w, private (pw_gid p) w -> Q w -> private (pw_gid p) (effect w c) /\ Q' (effect w c).

Lemma after_step h c (w : world) : after k w0 h = w ->
  after k w0 (h ++ [c]) = (if succeeded c (k (h ++ [c])) then effect w c else w).
Proof. intros <-. apply after_snoc. Qed.
Lemma P_plain h c : plain c -> clean h -> private (pw_gid p) (after k w0 (h ++ [c])) -> in_turn p dir (after k w0 h) c -> P h c.
Proof.
  intros [H1 H2] Hc Hp Ht. split; [assumption|]. split; [now intros T; apply H1 in T|]. split; [|now split].
  intros d D. now apply H2 in D.
Qed.

Lemma t_needG opts c (pre : list call -> Prop) Q Q' : plain c \/ (exists d, c = KChroot d) -> keeps Q c Q' ->
  (forall h, pre h -> J Q h) ->
  (forall h d, pre h -> c = KChroot d -> forall q, on_the_way q d -> seen q h) ->
  (forall q, c <> KStat q) -> (forall m, c <> KUmask m) -> (forall w, Q w -> in_turn p dir w c) ->
  triple pre (need k opts 0 c) (fun _ => J Q') E.
Proof.
  intros Hc Hk HpJ Hch Hs Hu Ht.
  assert (Hsu : forall a, succeeded c a = negb (a_ret a =? -1)) by (destruct c; try reflexivity; now destruct (Hu m)).
  assert (Hrf : forall a, refused c a -> a_ret a = -1) by (destruct c; cbn; try easy; now destruct (Hs p0)).
  assert (HP : forall h, pre h -> private (pw_gid p) (after k w0 (h ++ [c])) -> P h c).
  { intros h HJ Hpr. split; [apply (HpJ h HJ)|]. split; [|split; [|split; [assumption|apply Ht, (HpJ h HJ)]]].
    - intros T. destruct Hc as [[H _]|[d ->]]; [now apply H in T|]. destruct T as [T|[T|T]]; discriminate T.
    - intros d D q Hq. now apply (Hch h d). }
  apply t_need; intros h HJ Hret; destruct (HpJ h HJ) as (H1 & H2 & H3 & H4);
    pose proof (after_step h c _ eq_refl) as Ha; rewrite Hsu in Ha.
  - replace (a_ret (k (h ++ [c])) =? -1) with false in Ha by lia. cbn [negb] in Ha.
    destruct (Hk _ H3 H4) as [K1 K2]. rewrite <- Ha in K1, K2.
    split; [|split; [|split; assumption]].
    + apply always_snoc; [assumption|]. now apply HP.
    + apply always_snoc; [assumption|]. intros _ R. apply Hrf in R. contradiction.
  - rewrite Hret in Ha. cbn in Ha. split.
    + apply always_snoc; [assumption|]. apply HP; [assumption|now rewrite Ha].
    + right. split; [reflexivity|]. now exists h, c.
Qed.
Lemma t_needJ opts c Q Q' : plain c -> keeps Q c Q' ->
  (forall q, c <> KStat q) -> (forall m, c <> KUmask m) -> (forall w, Q w -> in_turn p dir w c) ->
  triple (J Q) (need k opts 0 c) (fun _ => J Q') E.
Proof.
  intros Hc Hk Hs Hu Ht. apply (t_needG opts c (J Q) Q Q'); auto. intros h d _ ->. now destruct Hc as [_ Hc]; destruct (Hc d).
Qed.
Lemma t_sysJ c Q Q' : plain c -> keeps Q c Q' -> (forall w, Q w -> Q' w) -> ~ guards c ->
  triple (J Q) (sys k c) (fun _ => J Q') E.
Proof.
  intros Hc Hk Hqq Hg. apply t_sys'. intros h (H1 & H2 & H3 & H4).
  pose proof (after_step h c _ eq_refl) as Ha. destruct (Hk _ H3 H4) as [K1 K2].
  assert (private (pw_gid p) (after k w0 (h ++ [c])) /\ Q' (after k w0 (h ++ [c]))) as [L1 L2].
  { rewrite Ha. destruct (succeeded c _); [now split|]. split; [assumption|now apply Hqq]. }
  split; [|split; [|split; assumption]].
  - apply always_snoc; [assumption|]. apply P_plain; try assumption. destruct c; try exact I; now destruct Hg.
  - apply always_snoc; [assumption|]. now intros G.
Qed.
Lemma t_fatalJ A opts Q (post : A -> list call -> Prop) : triple (J Q) (fatal k opts 0) post E.
Proof. apply t_exit'. intros h (H1 & H2 & _). split; [assumption|now left]. Qed.
Lemma t_retJ A (a : A) (Q Q' : world -> Prop) : (forall w, Q w -> Q' w) -> triple (J Q) (ret a) (fun _ => J Q') E.
Proof. intros H. apply t_ret'. intros h (H1 & H2 & H3 & H4). split; [assumption|]. split; [assumption|]. split; [assumption|]. now apply H. Qed.

(** The components of a path. *)
Lemma components_all path done rest q : path = done ++ rest -> on_the_way q path ->
  In q (components path done rest) \/ (exists a r, q = a ++ [47] /\ done = q ++ r).
Proof.
  revert done. induction rest as [|b rest IH]; intros done E Hq; cbn [components].
  - rewrite app_nil_r in E. destruct Hq as [->|(a & r & -> & E2)]; [left; now left|].
    right. exists a, r. now rewrite <- E.
  - destruct (IH (done ++ [b])) as [H|(a & r & -> & E2)]; [now rewrite <- app_assoc|assumption| |].
    + left. destruct (b =? 47); [now right|assumption].
    + destruct r as [|x r] using rev_ind.
      * rewrite app_nil_r in E2. apply app_inj_tail in E2 as [-> ->]. left. cbn. now left.
      * rewrite app_assoc in E2. apply app_inj_tail in E2 as [-> ->]. right. exists a, r. now rewrite <- app_assoc.
Qed.
Lemma components_way path q : on_the_way q path -> In q (components path [] path).
Proof.
  intros Hq. destruct (components_all path [] path q eq_refl Hq) as [H|(a & r & -> & E)]; [assumption|].
  destruct a; discriminate E.
Qed.

Definition JS (l : list (list Z)) (Q : world -> Prop) (h : list call) : Prop := J Q h /\ forall q, In q l -> seen q h.
Lemma seen_snoc q h c : seen q h -> seen q (h ++ [c]).
Proof. intros (a & b & -> & T). exists a, (b ++ [c]). split; [now rewrite <- app_assoc|assumption]. Qed.

Lemma bits18 m : Z.land m 18 = 0 <-> Z.testbit m 4 = false /\ Z.testbit m 1 = false.
Proof.
  split.
  - intros H. split.
    + assert (K : Z.testbit (Z.land m 18) 4 = false) by (rewrite H; reflexivity). rewrite Z.land_spec in K. now rewrite andb_true_r in K.
    + assert (K : Z.testbit (Z.land m 18) 1 = false) by (rewrite H; reflexivity). rewrite Z.land_spec in K. now rewrite andb_true_r in K.
  - intros [H1 H2]. apply Z.bits_inj'. intros n Hn. rewrite Z.land_spec, Z.bits_0.
    destruct (Z.eq_dec n 4) as [->|N4]; [now rewrite H1|]. destruct (Z.eq_dec n 1) as [->|N1]; [now rewrite H2|].
    replace (Z.testbit 18 n) with false; [apply andb_false_r|].
    destruct (Z_lt_ge_dec n 5) as [L|L].
    + assert (n = 0 \/ n = 2 \/ n = 3) as [->|[->| ->]] by lia; reflexivity.
    + symmetry. apply Z.bits_above_log2; [lia|]. cbn. lia.
Qed.
Lemma trusted_code a : trusted a <->
  a_ret a = 0 /\ a_x a = 0 /\ Z.land (a_y a) 18 = 0 /\ Z.land (a_y a) 61440 = 16384.
Proof. unfold trusted. rewrite bits18. tauto. Qed.

Lemma t_check opts l l0 (Q : world -> Prop) :
  (forall q w, Q w -> Q (effect w (KStat q))) ->
  triple (JS l0 Q) (check_components k opts 0 l) (fun _ => JS (l0 ++ l) Q) E.
Proof.
  intros HQ. revert l0. induction l as [|q l IH]; intros l0; cbn [check_components].
  - apply t_ret'. intros h H. now rewrite app_nil_r.
  - intros h [(H1 & H2 & H3 & H4) HS]. unfold seq, sys.
    pose proof (after_step h (KStat q) _ eq_refl) as Ha.
    assert (Ha' : after k w0 (h ++ [KStat q]) = after k w0 h).
    { rewrite Ha. destruct (succeeded _ _); [|reflexivity]. now destruct (after k w0 h). }
    assert (A1 : always P (h ++ [KStat q])).
    { apply always_snoc; [assumption|]. apply P_plain; [|assumption|now rewrite Ha'|exact I].
      split; [now intros [T|[T|T]]|discriminate]. }
    assert (X : ~ trusted (k (h ++ [KStat q])) -> E 1 (h ++ [KStat q])).
    { intros _. split; [assumption|]. right. split; [reflexivity|]. now exists h, (KStat q). }
    assert (Y : trusted (k (h ++ [KStat q])) -> JS (l0 ++ [q]) Q (h ++ [KStat q])).
    { intros T. split.
      - split; [assumption|]. split; [|rewrite Ha'; now split].
        apply always_snoc; [assumption|]. intros _ R. now apply R.
      - intros r Hr. apply in_app_iff in Hr as [Hr|[<-|[]]]; [now apply seen_snoc, HS|].
        exists h, []. now split. }
    rewrite trusted_code in X, Y.
    destruct (a_ret (k (h ++ [KStat q])) =? 0) eqn:E1; cbn [negb].
    2:{ unfold fatal. cbn. apply X. lia. }
    destruct (a_x (k (h ++ [KStat q])) =? 0) eqn:E2; cbn [negb orb].
    2:{ unfold fatal. cbn. apply X. lia. }
    destruct (Z.land (a_y (k (h ++ [KStat q]))) 18 =? 0) eqn:E3; cbn [negb].
    2:{ unfold fatal. cbn. apply X. lia. }
    destruct (Z.land (a_y (k (h ++ [KStat q]))) 61440 =? 16384) eqn:E4; cbn [negb].
    2:{ unfold fatal. cbn. apply X. lia. }
    specialize (IH (l0 ++ [q]) (h ++ [KStat q])). rewrite <- app_assoc in IH. cbn [app] in IH. apply IH, Y. lia.
Qed.

(** The conditions between the steps. *)
Definition any (w : world) : Prop := True.
Lemma t_chroot opts :
  triple (J any) (my_chroot k opts 0 dir) (fun _ => J (fun w => w_root w = dir /\ w_cwd w = Some dir)) E.
Proof.
  unfold my_chroot. change (negb (hd 0 dir =? 47)) with false. change (zlen dir >=? 4096) with false. cbv iota.
  apply (t_seq _ _ _ _ _ (fun _ => JS (components dir [] dir) any)).
  { eapply t_pre; [apply (t_check opts _ [] any); now intros|]. intros h H. split; [assumption|]. now intros q []. }
  intros _. apply (t_seq _ _ _ _ _ (fun _ => JS (components dir [] dir) any)).
  { apply t_need; intros h [(H1 & H2 & H3 & H4) HS] Hret; pose proof (after_step h (KChdir dir) _ eq_refl) as Ha;
      cbn [succeeded] in Ha.
    - assert (A1 : private (pw_gid p) (after k w0 (h ++ [KChdir dir]))).
      { rewrite Ha. destruct (negb _); [|assumption]. now destruct (after k w0 h). }
      split; [|intros q Hq; now apply seen_snoc, HS]. split; [|split; [|now split]].
      + apply always_snoc; [assumption|]. apply P_plain; try assumption; try exact I. split; [now intros [T|[T|T]]|discriminate].
      + apply always_snoc; [assumption|]. intros _ R. contradiction.
    - split.
      + apply always_snoc; [assumption|]. apply P_plain; try assumption; try exact I.
        * split; [now intros [T|[T|T]]|discriminate].
        * rewrite Ha, Hret. exact H3.
      + right. split; [reflexivity|]. now exists h, (KChdir dir). }
  intros _. apply (t_seq _ _ _ _ _ (fun _ => J (fun w => w_root w = dir))).
  { apply (t_needG opts (KChroot dir) (JS (components dir [] dir) any) any (fun w => w_root w = dir)); try discriminate.
    - right. now exists dir.
    - intros w Hp _. destruct w. split; [exact Hp|reflexivity].
    - intros h [H _]. exact H.
    - intros h d [_ HS] Ed q Hq. injection Ed as <-. now apply HS, components_way.
    - now intros. }
  intros _. apply (t_seq _ _ _ _ _ (fun _ => J (fun w => w_root w = dir /\ w_cwd w = Some dir))).
  - apply t_needJ; try discriminate.
    + split; [now intros [T|[T|T]]|discriminate].
    + intros w Hp Hr. destruct w. cbn in *. subst. split; [exact Hp|]. now split.
    + now intros.
  - intros _. now apply t_retJ.
Qed.

Ltac plain := split; [now intros [T|[T|T]]|discriminate].
Ltac stay := let w := fresh "w" in let Hp := fresh in let Hq := fresh in
  intros w Hp Hq; destruct w; cbn in *; split; [exact Hp|]; intuition (try congruence).
Ltac turn := let w := fresh "w" in let Hq := fresh in intros w Hq; cbn; tauto.
Lemma t_drop opts :
  triple (J (fun w => w_root w = dir /\ w_cwd w = Some dir)) (my_drop_privs k opts 0 (Some p))
    (fun _ => J (fun w => w_uid w = pw_uid p /\ w_gid w = pw_gid p /\ w_groups w = Some []
                  /\ w_root w = dir /\ w_cwd w = Some dir)) E.
Proof.
  unfold my_drop_privs. apply (t_seq _ _ _ _ _ (fun _ => J (fun w => w_groups w = Some [] /\ w_root w = dir /\ w_cwd w = Some dir))).
  { apply t_needJ; try discriminate; [plain|stay|turn]. }
  intros _. apply (t_seq _ _ _ _ _ (fun _ => J (fun w => w_gid w = pw_gid p /\ w_groups w = Some [] /\ w_root w = dir /\ w_cwd w = Some dir))).
  { apply t_needJ; try discriminate; [plain|stay|turn]. }
  intros _. apply (t_seq _ _ _ _ _ (fun _ => J (fun w => w_uid w = pw_uid p /\ w_gid w = pw_gid p /\ w_groups w = Some [] /\ w_root w = dir /\ w_cwd w = Some dir))).
  { apply t_needJ; try discriminate; [plain|stay|turn]. }
  intros _. now apply t_retJ.
Qed.
Lemma t_rlimit opts :
  triple (J (fun w => w_uid w = pw_uid p /\ w_gid w = pw_gid p /\ w_groups w = Some [] /\ w_root w = dir /\ w_cwd w = Some dir))
    (my_rlimit_child k opts 0) (fun _ => J (confined p dir)) E.
Proof.
  unfold my_rlimit_child.
  apply (t_seq _ _ _ _ _ (fun _ => J (fun w => w_uid w = pw_uid p /\ w_gid w = pw_gid p /\ w_groups w = Some [] /\ w_root w = dir /\ w_cwd w = Some dir /\ w_nproc w = Some 0))).
  { apply t_needJ; try discriminate; [plain|stay|turn]. }
  intros _. apply (t_seq _ _ _ _ _ (fun _ => J (confined p dir))).
  { apply t_needJ; try discriminate; [plain|unfold confined; stay|turn]. }
  intros _. now apply t_retJ.
Qed.

(** The client socket. *)
Lemma t_socket opts : triple (J (fun w => w_gid w = 0)) (child_socket k opts (Some p)) (fun _ => J (fun w => w_gid w = 0)) E.
Proof.
  unfold child_socket.
  apply (t_seq _ _ _ _ _ (fun _ => J (fun w => w_gid w = 0))).
  { apply t_sysJ; [plain|stay|auto|easy]. }
  intros s. apply (t_seq _ _ _ _ _ (fun _ => J (fun w => w_gid w = 0))).
  { destruct (a_ret s =? -1); [destruct (a_errno s =? 93)|].
    - apply t_needJ; try discriminate; [plain|stay|turn].
    - apply t_fatalJ.
    - now apply t_retJ. }
  intros _. apply (t_seq _ _ _ _ _ (fun _ => J (fun w => w_gid w = 0 /\ w_umask w = 127))).
  { apply t_sys'. intros h (H1 & H2 & H3 & H4). pose proof (after_step h (KUmask 127) _ eq_refl) as Ha. cbn [succeeded] in Ha.
    assert (private (pw_gid p) (after k w0 (h ++ [KUmask 127])) /\ w_gid (after k w0 (h ++ [KUmask 127])) = 0
      /\ w_umask (after k w0 (h ++ [KUmask 127])) = 127) as (L1 & L2) by (rewrite Ha; now destruct (after k w0 h)).
    split; [|split; [|now split]].
    - apply always_snoc; [assumption|]. apply P_plain; try assumption; [plain|exact I].
    - apply always_snoc; [assumption|]. now intros []. }
  intros old. apply (t_seq _ _ _ _ _ (fun _ => J (fun w => w_gid w = 0 /\ w_umask w = 127))).
  { apply t_sysJ; [plain| |auto|easy]. intros w _ Hq. destruct w. cbn in *. now split. }
  intros u. apply (t_seq _ _ _ _ _ (fun _ => J (fun w => w_gid w = 0 /\ w_umask w = 127))).
  { destruct (_ && _); [apply t_fatalJ|now apply t_retJ]. }
  intros _. apply (t_seq _ _ _ _ _ (fun _ => J (fun w => w_gid w = 0 /\ match w_sock w with Some (_, g) => g = 0 | None => True end))).
  { apply t_needJ; try discriminate; [plain| |turn]. intros w _ [Hg Hu]. destruct w. cbn in *. subst. split; [|now split].
    unfold private. cbn. now repeat split; left. }
  intros b. apply (t_seq _ _ _ _ _ (fun _ => J (fun w => w_gid w = 0 /\ match w_sock w with Some (_, g) => g = 0 | None => True end))).
  { destruct (has opts OPT_RECV); [|now apply t_retJ]. apply t_needJ; try discriminate; [plain|stay|turn]. }
  intros _. apply (t_seq _ _ _ _ _ (fun _ => J (fun w => w_gid w = 0 /\ match w_sock w with Some (m, g) => g = 0 /\ m = 504 | None => True end))).
  { apply t_needJ; try discriminate; [plain| |turn]. intros w _ [Hg Hs]. destruct w as [? ? ? ? ? ? ? ? ? so ? ?]. cbn in *.
    destruct so as [[m sg]|]; unfold private; cbn; [|now split]. subst. split; [split; [reflexivity|right; now left]|]. now repeat split. }
  intros _. apply (t_seq _ _ _ _ _ (fun _ => J (fun w => w_gid w = 0))).
  { apply t_needJ; try discriminate; [plain| |turn]. intros w _ [Hg Hs]. destruct w as [? ? ? ? ? ? ? ? ? so ? ?]. cbn in *.
    destruct so as [[m sg]|]; unfold private; cbn; [|now split]. destruct Hs as [-> ->]. split; [split; [reflexivity|right; now right]|]. assumption. }
  intros _. apply (t_seq _ _ _ _ _ (fun _ => J (fun w => w_gid w = 0))).
  { apply t_sysJ; [plain|stay|auto|easy]. }
  intros _. now apply t_retJ.
Qed.

Lemma t_talk c : talks c -> triple (J (confined p dir)) (sys k c) (fun _ => J (confined p dir)) E.
Proof.
  intros T. apply t_sys'. intros h (H1 & H2 & H3 & H4). pose proof (after_step h c _ eq_refl) as Ha.
  assert (Ha' : after k w0 (h ++ [c]) = after k w0 h).
  { rewrite Ha. destruct (succeeded _ _); [|reflexivity]. destruct T as [->|[->| ->]]; now destruct (after k w0 h). }
  split; [|split; [|rewrite Ha'; now split]].
  - apply always_snoc; [assumption|]. split; [assumption|]. split; [now intros _|]. split; [|split; [now rewrite Ha'|destruct T as [->|[->| ->]]; exact I]].
    intros d ->. destruct T as [T|[T|T]]; discriminate T.
  - apply always_snoc; [assumption|]. intros G. now destruct T as [->|[->| ->]].
Qed.

Lemma t_child opts : has opts OPT_DEBUG = false ->
  triple (J (fun w => w_gid w = 0)) (child_init k opts (Some p)) (fun _ _ => False) E.
Proof.
  intros Hd. unfold child_init. rewrite Hd. cbn [orb].
  apply (t_seq _ _ _ _ _ (fun _ => J (fun w => w_gid w = 0))).
  { destruct (has opts OPT_ONCE); [now apply t_retJ|apply t_socket]. }
  intros _. apply (t_seq _ _ _ _ _ (fun _ => J any)).
  { apply t_needJ; try discriminate; [plain|stay; exact I|turn]. }
  intros _. apply (t_seq _ _ _ _ _ (fun _ => J (confined p dir))).
  { eapply t_seq; [apply t_chroot|]. intros ?. cbv beta. eapply t_seq; [apply t_drop|]. intros ?. cbv beta. apply t_rlimit. }
  intros _. apply (t_seq _ _ _ _ _ (fun _ => J (confined p dir))); [apply t_talk; now left|].
  intros _. destruct (has opts OPT_ONCE).
  - apply t_exit'. intros h (H1 & H2 & _). split; [assumption|now left].
  - apply (t_seq _ _ _ _ _ (fun _ => J (confined p dir))); [apply t_talk; right; now left|].
    intros _. apply (t_seq _ _ _ _ _ (fun _ => J (confined p dir))); [apply t_talk; right; now right|].
    intros _. apply t_fatalJ.
Qed.
End Child.

Lemma child_run_E k w opts p e h : started w -> has opts OPT_DEBUG = false -> child_init k opts (Some p) [] = (e, h) ->
  exists s, e = EExit s /\ E k w p s h.
Proof.
  intros Hw Hd Hrun. pose proof (t_child k w p opts Hd []) as T. rewrite Hrun in T.
  assert (J k w p (fun w => w_gid w = 0) []) as HJ.
  { destruct Hw as (_ & Hg & _ & Hs & _). split; [apply always_nil|]. split; [apply always_nil|].
    split; [unfold private, after; cbn [after_from]; now rewrite Hs|exact Hg]. }
  specialize (T HJ). destruct e as [a|s|]; [destruct T| |destruct T]. now exists s.
Qed.
Theorem child_confined k w opts p e h pre c post : started w -> has opts OPT_DEBUG = false -> child_init k opts (Some p) [] = (e, h) ->
  h = pre ++ c :: post -> talks c -> confined p chroot_dir (after k w pre).
Proof. intros Hw Hd Hrun Eh T. destruct (child_run_E k w opts p e h Hw Hd Hrun) as (s & _ & A & _). now apply (A pre c post Eh). Qed.
Theorem child_in_turn k w opts p e h pre c post : started w -> has opts OPT_DEBUG = false -> child_init k opts (Some p) [] = (e, h) ->
  h = pre ++ c :: post -> in_turn p chroot_dir (after k w pre) c.
Proof. intros Hw Hd Hrun Eh. destruct (child_run_E k w opts p e h Hw Hd Hrun) as (s & _ & A & _). now apply (A pre c post Eh). Qed.
Theorem child_refused k w opts p e h pre c post : started w -> has opts OPT_DEBUG = false -> child_init k opts (Some p) [] = (e, h) ->
  h = pre ++ c :: post -> guards c -> refused c (k (pre ++ [c])) ->
  post = [] /\ e = EExit 1.
Proof.
  intros Hw Hd Hrun Eh G R. destruct (child_run_E k w opts p e h Hw Hd Hrun) as (s & -> & A & B).
  assert (NC : forall t, ~ clean k (pre ++ c :: t)).
  { intros t C. apply (C pre c t eq_refl); assumption. }
  destruct post as [|d post'].
  - split; [reflexivity|]. destruct B as [B|(-> & _)]; [|reflexivity]. rewrite Eh in B. now apply NC in B.
  - exfalso. destruct (A (pre ++ [c]) d post') as (C & _); [rewrite Eh; now rewrite <- app_assoc|].
    now apply (NC []) .
Qed.
Theorem child_way k w opts p e h pre d post q : started w -> has opts OPT_DEBUG = false -> child_init k opts (Some p) [] = (e, h) ->
  h = pre ++ KChroot d :: post -> on_the_way q d ->
  exists a b, pre = a ++ KStat q :: b /\ trusted (k (a ++ [KStat q])).
Proof. intros Hw Hd Hrun Eh Hq. destruct (child_run_E k w opts p e h Hw Hd Hrun) as (s & _ & A & _). destruct (A _ _ _ Eh) as (_ & _ & C & _ & _). now apply (C d). Qed.
Theorem child_private k w opts p e h pre post : started w -> has opts OPT_DEBUG = false -> child_init k opts (Some p) [] = (e, h) ->
  h = pre ++ post -> private (pw_gid p) (after k w pre).
Proof.
  intros Hw Hd Hrun Eh. destruct (child_run_E k w opts p e h Hw Hd Hrun) as (s & _ & A & _). destruct pre as [|c pre] using rev_ind.
  - destruct Hw as (_ & _ & _ & Hs & _). unfold private, after. cbn [after_from]. now rewrite Hs.
  - destruct (A pre c post) as (_ & _ & _ & D & _); [rewrite Eh; now rewrite <- app_assoc|exact D].
Qed.
Theorem child_no_null k w opts p e h : started w -> has opts OPT_DEBUG = false -> child_init k opts (Some p) [] = (e, h) ->
  e <> EUB.
Proof. intros Hw Hd Hrun. destruct (child_run_E k w opts p e h Hw Hd Hrun) as (s & -> & _). discriminate. Qed.
