(** Proofs about running once. *)
From Verif Require Import Base Types Parent Start Once SpecStart SpecOnce Lemmas StartProofs1 StartProofs2 StartProofs3 StartProofs4.

(** The child. *)
Definition plain (c : call) : Prop := ~ serves c /\ c <> KSend.
Section Child.
Variable k : kernel.
Variable opts : Z.
Definition XO (s : Z) (h : list call) : Prop :=
  (s = 0 /\ exists pre, h = pre ++ [KSend] /\ Forall plain pre)
  \/ (s = 1 /\ Forall plain h /\ exists pre c, h = pre ++ [c] /\ refused c (k h)).
Ltac plain := split; [intros []|discriminate].
Lemma plain_snoc c h : Forall plain h -> plain c -> Forall plain (h ++ [c]).
Proof. intros H Hc. apply Forall_app. split; [assumption|now constructor]. Qed.
Lemma t_needO c : plain c -> (forall p, c <> KStat p) ->
  triple (Forall plain) (need k opts 0 c) (fun _ => Forall plain) XO.
Proof.
  intros Hc Hs. apply t_need; intros h H Hr; [now apply plain_snoc|]. right. split; [reflexivity|]. split; [now apply plain_snoc|].
  exists h, c. split; [reflexivity|]. destruct c; cbn; try assumption. exfalso. now apply (Hs p).
Qed.
Lemma untrusted a : a_ret a <> 0 \/ a_x a <> 0 \/ Z.land (a_y a) 18 <> 0 \/ Z.land (a_y a) 61440 <> 16384 -> ~ trusted a.
Proof.
  intros H (T1 & T2 & T3 & T4 & T5). destruct H as [H|[H|[H|H]]]; try contradiction. apply H.
  apply Z.bits_inj'. intros i Hi. rewrite Z.land_spec, Z.bits_0.
  destruct (Z.eq_dec i 4) as [->|N4]; [now rewrite T3|]. destruct (Z.eq_dec i 1) as [->|N1]; [now rewrite T4|].
  replace (Z.testbit 18 i) with false; [now rewrite andb_false_r|]. symmetry.
  destruct (Z_lt_ge_dec i 5) as [L|G].
  - assert (C : i = 0 \/ i = 2 \/ i = 3) by lia. destruct C as [->|[->| ->]]; reflexivity.
  - apply Z.bits_above_log2; [lia|]. change (Z.log2 18) with 4. lia.
Qed.
Lemma t_checkO l : triple (Forall plain) (check_components k opts 0 l) (fun _ => Forall plain) XO.
Proof.
  induction l as [|q l IH]; cbn [check_components]; [now apply t_ret'|].
  intros h Hh. unfold seq at 1, sys. cbv beta iota. set (a := k (h ++ [KStat q])).
  assert (P : Forall plain (h ++ [KStat q])) by (apply plain_snoc; [assumption|plain]).
  assert (F : ~ trusted a -> XO 1 (h ++ [KStat q])).
  { intros N. right. split; [reflexivity|]. split; [assumption|]. exists h, (KStat q). split; [reflexivity|exact N]. }
  destruct (negb (a_ret a =? 0)) eqn:E1; [apply F, untrusted; lia|].
  destruct (negb (a_x a =? 0) || negb (Z.land (a_y a) 18 =? 0)) eqn:E2; [apply F, untrusted; lia|].
  destruct (negb (Z.land (a_y a) 61440 =? 16384)) eqn:E3; [apply F, untrusted; lia|]. apply IH, P.
Qed.
Lemma t_childO pw : has opts OPT_ONCE = true -> (pw = None -> has opts OPT_DEBUG = true) ->
  triple (Forall plain) (child_init k opts pw) (fun _ _ => False) XO.
Proof.
  intros Ho Hp. unfold child_init. rewrite Ho, orb_true_r.
  apply (t_seq _ _ _ _ _ (fun _ => Forall plain)); [now apply t_ret'|intros _].
  apply (t_seq _ _ _ _ _ (fun _ => Forall plain)); [apply t_needO; [plain|discriminate]|intros _].
  apply (t_seq _ _ _ _ _ (fun _ => Forall plain)).
  { destruct (has opts OPT_DEBUG) eqn:Hd; [now apply t_ret'|].
    apply (t_seq _ _ _ _ _ (fun _ => Forall plain)); [|intros _].
    { unfold my_chroot. change (negb (hd 0 chroot_dir =? 47)) with false. change (zlen chroot_dir >=? 4096) with false. cbv iota.
      apply (t_seq _ _ _ _ _ (fun _ => Forall plain)); [apply t_checkO|intros _].
      do 3 (apply (t_seq _ _ _ _ _ (fun _ => Forall plain)); [apply t_needO; [plain|discriminate]|intros _]). now apply t_ret'. }
    apply (t_seq _ _ _ _ _ (fun _ => Forall plain)); [|intros _].
    { unfold my_drop_privs. apply (t_seq _ _ _ _ _ (fun _ => Forall plain)); [apply t_needO; [plain|discriminate]|intros _].
      destruct pw as [p|]; [|discriminate (Hp eq_refl)].
      do 2 (apply (t_seq _ _ _ _ _ (fun _ => Forall plain)); [apply t_needO; [plain|discriminate]|intros _]). now apply t_ret'. }
    unfold my_rlimit_child.
    do 2 (apply (t_seq _ _ _ _ _ (fun _ => Forall plain)); [apply t_needO; [plain|discriminate]|intros _]). now apply t_ret'. }
  intros _ h Hh. unfold seq, sys, exit. cbv beta iota. left. split; [reflexivity|]. now exists h.
Qed.
End Child.
Theorem child_once k opts pw e h : child_init k opts pw [] = (e, h) -> has opts OPT_ONCE = true ->
  (pw = None -> has opts OPT_DEBUG = true) ->
  (forall c, In c h -> ~ serves c)
  /\ ((e = EExit 0 /\ exists pre, h = pre ++ [KSend] /\ ~ In KSend pre)
      \/ (e = EExit 1 /\ ~ In KSend h /\ exists pre c, h = pre ++ [c] /\ refused c (k h))).
Proof.
  intros R Ho Hp. pose proof (t_childO k opts pw Ho Hp [] (Forall_nil _)) as T. rewrite R in T.
  assert (N : forall l, Forall plain l -> (forall c, In c l -> ~ serves c) /\ ~ In KSend l).
  { intros l F. rewrite Forall_forall in F. split; [intros c Hc; now apply F|]. intros Hc. now apply F in Hc as [_ Hc]. }
  destruct e as [a|s|]; [destruct T| |destruct T].
  destruct T as [(-> & pre & -> & F)|(-> & F & pre & c & -> & Hr)].
  - destruct (N pre F) as [N1 N2]. split.
    + intros c Hc. apply in_app_iff in Hc as [Hc|[<-|[]]]; [now apply N1|intros []].
    + left. split; [reflexivity|]. now exists pre.
  - destruct (N _ F) as [N1 N2]. split; [assumption|]. right. split; [reflexivity|]. split; [assumption|]. now exists pre, c.
Qed.

(** The privileged process looks whether the child is there. *)
Definition okay (k : kernel) (h : list call) : Prop := forall a c b, h = a ++ c :: b -> a_ret (k (a ++ [c])) <> -1.
Lemma fatal_shape k opts pid h (e : ending unit) h' : fatal k opts pid h = (e, h') ->
  exists t, h' = h ++ t /\ ~ In KLoop t /\ (t = [] \/ exists r, t = KWaitpid pid :: r).
Proof.
  unfold fatal. destruct (pid =? 0).
  - unfold exit. intros H. injection H as <- <-. exists []. rewrite app_nil_r. split; [reflexivity|]. split; [intros []|now left].
  - unfold parent_quit, seq, sys, ret, exit. cbv beta iota.
    destruct (a_ret _ >? 0), (has opts OPT_DEBUG); intros H; injection H as <- <-; rewrite <- ?app_assoc; cbn [app];
      eexists; (split; [reflexivity|]); (split; [cbn; intuition discriminate|]); right; eexists; reflexivity.
Qed.
Lemma parent_shape k lib opts pid e h : parent_init k lib opts pid [] = (e, h) ->
  exists p, ~ In KLoop p /\ (forall x, ~ In (KWaitpid x) p)
  /\ ((exists q c t, p = q ++ [c] /\ a_ret (k p) = -1 /\ h = p ++ t /\ ~ In KLoop t)
      \/ (let a := a_ret (k (p ++ [KWaitpid pid])) in
          (a <> 0 /\ h = p ++ [KWaitpid pid] /\ e = EExit 1)
          \/ (a = 0 /\ exists t, h = p ++ KWaitpid pid :: KLoop :: t /\ ~ In KLoop t))).
Proof.
  assert (NW : forall c h1 (f : answer -> proc unit) e1 h2, seq (need k opts pid c) f h1 = (e1, h2) ->
    (a_ret (k (h1 ++ [c])) = -1 /\ exists t, h2 = (h1 ++ [c]) ++ t /\ ~ In KLoop t)
    \/ f (k (h1 ++ [c])) (h1 ++ [c]) = (e1, h2)).
  { intros c h1 f e1 h2. unfold need. rewrite seq_assoc. unfold seq at 1, sys. cbv beta iota.
    destruct (_ =? -1) eqn:E.
    - intros R. left. split; [lia|].
      assert (R' : exists e', @fatal unit k opts pid (h1 ++ [c]) = (e', h2)).
      { unfold fatal, parent_quit, seq, sys, ret, exit in *. destruct (pid =? 0); [injection R as _ <-; now eexists|].
        cbv beta iota in *. destruct (a_ret _ >? 0), (has opts OPT_DEBUG); injection R as _ <-; now eexists. }
      destruct R' as (e' & R'). destruct (fatal_shape _ _ _ _ _ _ R') as (t & -> & Ht & _). now exists t.
    - unfold seq, ret. cbv beta iota. intros R. now right. }
  assert (END : forall p (e1 : ending unit) h2, ~ In KLoop p -> (forall x, ~ In (KWaitpid x) p) ->
    (do w <- sys k (KWaitpid pid);; if negb (a_ret w =? 0) then exit 1 else do _ <- sys k KLoop;; fatal k opts pid) p = (e1, h2) ->
    exists p, ~ In KLoop p /\ (forall x, ~ In (KWaitpid x) p)
    /\ ((exists q c t, p = q ++ [c] /\ a_ret (k p) = -1 /\ h2 = p ++ t /\ ~ In KLoop t)
      \/ (let a := a_ret (k (p ++ [KWaitpid pid])) in
          (a <> 0 /\ h2 = p ++ [KWaitpid pid] /\ e1 = EExit 1)
          \/ (a = 0 /\ exists t, h2 = p ++ KWaitpid pid :: KLoop :: t /\ ~ In KLoop t)))).
  { intros p e1 h2 H1 H2. unfold seq, sys. cbv beta iota zeta. intros R. exists p. split; [assumption|]. split; [assumption|]. right.
    destruct (negb _) eqn:E.
    - unfold exit in R. injection R as <- <-. left. split; [lia|]. now split.
    - cbv beta iota in R. destruct (fatal_shape _ _ _ _ _ _ R) as (t & -> & Ht & _). right. split; [lia|]. exists t.
      split; [now rewrite <- !app_assoc|assumption]. }
  unfold parent_init. intros R. apply NW in R as [(E & t & -> & Ht)|R].
  { exists [KSocket]. split; [cbn; intuition discriminate|]. split; [cbn; intuition discriminate|]. left.
    exists [], KSocket, t. cbn in *. now repeat split. }
  cbn [app] in R.
  destruct (has opts OPT_DEBUG).
  { unfold seq at 1, sys at 1 in R. cbv beta iota in R. cbn [app] in R. apply END in R; [exact R| |]; cbn; intuition discriminate. }
  destruct lib.
  - unfold seq at 1, ret in R. cbv beta iota in R. apply END in R; [exact R| |]; cbn; intuition discriminate.
  - apply NW in R as [(E & t & -> & Ht)|R].
    { exists ([KSocket] ++ [KCaps kept_caps]). split; [cbn; intuition discriminate|]. split; [cbn; intuition discriminate|]. left.
      exists [KSocket], (KCaps kept_caps), t. now repeat split. }
    apply END in R; [exact R| |]; cbn; intuition discriminate.
  - rewrite seq_assoc in R. apply NW in R as [(E & t & -> & Ht)|R].
    { exists ([KSocket] ++ [KCapText]). split; [cbn; intuition discriminate|]. split; [cbn; intuition discriminate|]. left.
      exists [KSocket], KCapText, t. now repeat split. }
    apply NW in R as [(E & t & -> & Ht)|R].
    { exists (([KSocket] ++ [KCapText]) ++ [KCaps kept_caps]). split; [cbn; intuition discriminate|]. split; [cbn; intuition discriminate|]. left.
      exists ([KSocket] ++ [KCapText]), (KCaps kept_caps), t. now repeat split. }
    apply END in R; [exact R| |]; cbn; intuition discriminate.
Qed.
Lemma split_unique A (x : A) p t pre post : ~ In x p -> p ++ x :: t = pre ++ x :: post -> ~ In x pre -> pre = p /\ post = t.
Proof.
  revert pre. induction p as [|c p IH]; intros pre Hp E Hn.
  - destruct pre as [|d pre]; cbn in E; [now injection E as ->|]. injection E as <- _. exfalso. apply Hn. now left.
  - destruct pre as [|d pre]; cbn in E; [injection E as -> _; exfalso; apply Hp; now left|]. injection E as <- E.
    destruct (IH pre) as [-> ->]; [intros K; apply Hp; now right|exact E|intros K; apply Hn; now right|now split].
Qed.
Lemma first_loop (p t pre post : list call) : ~ In KLoop p -> ~ In KLoop t -> p ++ KLoop :: t = pre ++ KLoop :: post -> pre = p /\ post = t.
Proof.
  revert pre. induction p as [|c p IH]; intros pre Hp Ht E.
  - destruct pre as [|d pre]; cbn in E; [now injection E as ->|]. injection E as _ ->. exfalso. apply Ht, in_app_iff. right. now left.
  - destruct pre as [|d pre]; cbn in E; [injection E as -> _; exfalso; apply Hp; now left|]. injection E as <- E.
    destruct (IH pre) as [-> ->]; [intros K; apply Hp; now right|exact Ht|exact E|now split].
Qed.
Theorem parent_waited k lib opts pid e h : parent_init k lib opts pid [] = (e, h) ->
  (forall pre post, h = pre ++ KLoop :: post -> exists q, pre = q ++ [KWaitpid pid] /\ a_ret (k pre) = 0)
  /\ (forall pre post, h = pre ++ KWaitpid pid :: post -> ~ In (KWaitpid pid) pre -> okay k pre ->
      if a_ret (k (pre ++ [KWaitpid pid])) =? 0 then exists r, post = KLoop :: r else post = [] /\ e = EExit 1).
Proof.
  intros R. destruct (parent_shape k lib opts pid e h R) as (p & Np & Nw & [(q & c & t & Ep & Ef & -> & Nt)|D]).
  - split.
    + intros pre post E. exfalso. assert (In KLoop (p ++ t)) as H by (rewrite E; apply in_app_iff; right; now left).
      apply in_app_iff in H as [H|H]; contradiction.
    + intros pre post E Hn Hok. exfalso. 
      assert (C : exists r, pre = p ++ r).
      { clear -E Nw. revert pre E. induction p as [|x p IH]; intros pre E; [now exists pre|].
        destruct pre as [|y pre]; cbn in E.
        - injection E as -> _. exfalso. apply (Nw pid). now left.
        - injection E as <- E. destruct (IH) with (pre := pre) as (r & ->).
          + intros z Hz. apply (Nw z). now right.
          + exact E.
          + now exists r. }
      destruct C as (r & ->). rewrite Ep, <- app_assoc in Hok. cbn [app] in Hok. apply (Hok q c r eq_refl). now rewrite <- Ep.
  - cbv zeta in D. destruct D as [(Ha & -> & ->)|(Ha & t & -> & Nt)].
    + split.
      * intros pre post E. exfalso. assert (In KLoop (p ++ [KWaitpid pid])) as H by (rewrite E; apply in_app_iff; right; now left).
        apply in_app_iff in H as [H|[H|[]]]; [contradiction|discriminate].
      * intros pre post E Hn _. apply split_unique in E as [-> ->]; [|apply Nw|exact Hn].
        destruct (_ =? 0) eqn:E0; [lia|now split].
    + split.
      * intros pre post E. replace (p ++ KWaitpid pid :: KLoop :: t) with ((p ++ [KWaitpid pid]) ++ KLoop :: t) in E by now rewrite <- app_assoc.
        apply first_loop in E as [-> ->]; [now exists p| |exact Nt].
        intros H. apply in_app_iff in H as [H|[H|[]]]; [contradiction|discriminate].
      * intros pre post E Hn _. apply split_unique in E as [-> ->]; [|apply Nw|exact Hn].
        destruct (_ =? 0) eqn:E0; [now exists t|lia].
Qed.

(** The schedule of both processes. *)
Lemma run_snoc cfg es e : forall fds, r_alive (parent_run cfg fds es) = true ->
  let r := parent_run cfg fds es in let r1 := parent_step cfg (r_fds r) e in
  r_eff (parent_run cfg fds (es ++ [e])) = r_eff r ++ r_eff r1
  /\ r_fds (parent_run cfg fds (es ++ [e])) = r_fds r1 /\ r_alive (parent_run cfg fds (es ++ [e])) = r_alive r1.
Proof.
  induction es as [|x es IH]; intros fds H; cbn [app parent_run] in *; cbv zeta in *.
  - cbn [r_fds r_eff app]. destruct (r_alive (parent_step cfg fds e)) eqn:E; cbn [r_fds r_eff r_alive]; [|now rewrite E].
    rewrite app_nil_r. now repeat split.
  - destruct (r_alive (parent_step cfg fds x)) eqn:E; cbn [r_fds r_eff r_alive] in *.
    + destruct (IH _ H) as (H1 & H2 & H3). rewrite H1, H2, H3, app_assoc. now repeat split.
    + rewrite E in H. discriminate H.
Qed.
Section Sched.
Variable cfg : pcfg.
Variable frames : list (list Z).
Definition OI (s : ostate) (es : list pevent) : Prop :=
  frames = frames_of es ++ o_queue s ++ o_left s
  /\ o_eff s = r_eff (parent_run cfg [] es)
  /\ (o_phase s <> OEnded -> r_alive (parent_run cfg [] es) = true /\ o_fds s = r_fds (parent_run cfg [] es))
  /\ (o_dead s = true -> o_left s = []).
Lemma OI_handle s es q e : OI s es -> o_phase s = OLooping -> frames = frames_of (es ++ [e]) ++ q ++ o_left s ->
  OI (once_handle cfg s q e) (es ++ [e]).
Proof.
  intros (H1 & H2 & H3 & H4) Hp Hf. destruct H3 as [H3 H3']; [now rewrite Hp|].
  destruct (run_snoc cfg es e [] H3) as (R1 & R2 & R3). unfold OI, once_handle. cbn [o_left o_queue o_dead o_phase o_fds o_eff].
  rewrite R1, R2, R3, H2, H3'. split; [exact Hf|]. split; [reflexivity|]. split; [|exact H4].
  destruct (r_alive (parent_step cfg (r_fds (parent_run cfg [] es)) e)); [intros _; split; reflexivity|]. intros K. now destruct K.
Qed.
Lemma OI_end s es : OI s es -> OI (once_end s) es.
Proof.
  intros (H1 & H2 & H3 & H4). unfold OI, once_end. cbn [o_left o_queue o_dead o_phase o_fds o_eff].
  split; [exact H1|]. split; [exact H2|]. split; [now intros K|exact H4].
Qed.
Lemma OI_step s es m : OI s es -> exists es', OI (once_step cfg s m) es'.
Proof.
  intros H. pose proof H as (H1 & H2 & H3 & H4). destruct m as [|d os| | |f os]; cbn [once_step].
  - destruct (o_left s) as [|d l] eqn:E; [now exists es|]. exists es. unfold OI. cbn [o_left o_queue o_dead o_phase o_fds o_eff].
    split; [rewrite H1, <- !app_assoc; reflexivity|]. split; [exact H2|]. split; [exact H3|]. intros K. specialize (H4 K). discriminate H4.
  - destruct (o_phase s) eqn:Ep; try (now exists es). destruct (o_dead s) eqn:Ed; [now exists es|].
    exists (es ++ [PReq d os]). apply OI_handle; [exact H|exact Ep|]. unfold frames_of. rewrite flat_map_app. cbn. now rewrite app_nil_r.
  - destruct (o_left s) eqn:E; [|now exists es]. exists es. unfold OI. cbn [o_left o_queue o_dead o_phase o_fds o_eff].
    split; [exact H1|]. split; [exact H2|]. split; [exact H3|reflexivity].
  - destruct (o_phase s) eqn:Ep; try (now exists es). destruct (o_dead s) eqn:Ed; [exists es; now apply OI_end|].
    exists es. unfold OI. cbn [o_left o_queue o_dead o_phase o_fds o_eff].
    split; [exact H1|]. split; [exact H2|]. split; [|discriminate]. intros _. apply H3. discriminate.
  - destruct (o_phase s) eqn:Ep; try (now exists es).
    assert (C : exists es', OI (if o_dead s && f then once_end s
        else match o_queue s with d :: q => once_handle cfg s q (PSend d os) | [] => s end) es').
    { destruct (o_dead s && f); [exists es; now apply OI_end|]. destruct (o_queue s) as [|d q] eqn:Eq; [now exists es|].
      exists (es ++ [PSend d os]). apply OI_handle; [exact H|exact Ep|]. unfold frames_of in *. rewrite flat_map_app. cbn [flat_map app].
      rewrite <- app_assoc. exact H1. }
    destruct C as (es' & C). destruct (o_dead s); [exists es'; now apply OI_end|now exists es'].
Qed.
Lemma OI_run ms : forall s es, OI s es -> exists es', OI (once_run cfg s ms) es'.
Proof.
  induction ms as [|m ms IH]; intros s es H; cbn [once_run]; [now exists es|].
  destruct (OI_step s es m H) as (es' & H'). exact (IH _ _ H').
Qed.
Lemma OI_init : OI (once_init frames) [].
Proof. unfold OI, once_init. cbn. now repeat split. Qed.
End Sched.
Lemma once_run_app cfg a b : forall s, once_run cfg s (a ++ b) = once_run cfg (once_run cfg s a) b.
Proof. induction a as [|m a IH]; intros s; cbn [app once_run]; [reflexivity|apply IH]. Qed.
Theorem once_prefix cfg frames ms :
  exists es, let s := once_run cfg (once_init frames) ms in
    o_eff s = r_eff (parent_run cfg [] es) /\ frames = frames_of es ++ o_queue s ++ o_left s.
Proof.
  destruct (OI_run cfg frames ms _ _ (OI_init cfg frames)) as (es & H1 & H2 & _). now exists es.
Qed.
Lemma drained_step cfg s m : o_left s = [] -> o_queue s = [] ->
  o_left (once_step cfg s m) = [] /\ o_queue (once_step cfg s m) = [].
Proof.
  intros Hl Hq. destruct m as [|d os| | |f os]; cbn [once_step].
  - now rewrite Hl.
  - destruct (o_phase s); try (now split). now destruct (o_dead s).
  - rewrite Hl. now split.
  - destruct (o_phase s); try (now split). now destruct (o_dead s).
  - destruct (o_phase s); try (now split). rewrite Hq. destruct (o_dead s), f; now split.
Qed.
Lemma drained_run cfg ms : forall s, o_left s = [] -> o_queue s = [] ->
  o_left (once_run cfg s ms) = [] /\ o_queue (once_run cfg s ms) = [].
Proof.
  induction ms as [|m ms IH]; intros s Hl Hq; cbn [once_run]; [now split|]. destruct (drained_step cfg s m Hl Hq). now apply IH.
Qed.
Lemma dead_step cfg s m : o_dead s = true -> o_dead (once_step cfg s m) = true.
Proof.
  intros Hd. destruct m as [|d os| | |f os]; cbn [once_step].
  - now destruct (o_left s).
  - destruct (o_phase s); try assumption. now rewrite Hd.
  - now destruct (o_left s).
  - destruct (o_phase s); try assumption. now rewrite Hd.
  - destruct (o_phase s); try assumption. rewrite Hd. destruct (true && f); [exact Hd|]. destruct (o_queue s); exact Hd.
Qed.
Lemma ended_step cfg s m : o_phase s = OEnded -> o_phase (once_step cfg s m) = OEnded.
Proof.
  intros Hd. destruct m as [|d os| | |f os]; cbn [once_step]; rewrite ?Hd; try assumption; now destruct (o_left s).
Qed.
Lemma ended_run cfg ms : forall s, o_phase s = OEnded -> o_phase (once_run cfg s ms) = OEnded.
Proof. induction ms as [|m ms IH]; intros s H; cbn [once_run]; [assumption|]. now apply IH, ended_step. Qed.
Lemma dead_ends cfg ms : forall s, o_dead s = true -> o_phase s = OLooping ->
  (exists f os, In (OTurn f os) ms) -> o_phase (once_run cfg s ms) = OEnded.
Proof.
  induction ms as [|m ms IH]; intros s Hd Hp (f & os & Hin); [destruct Hin|]. cbn [once_run].
  destruct Hin as [->|Hin].
  - apply ended_run. cbn [once_step]. now rewrite Hp, Hd.
  - destruct (o_phase (once_step cfg s m)) eqn:Ep.
    + exfalso. destruct m as [|d os'| | |f' os']; cbn [once_step] in Ep; rewrite ?Hp, ?Hd in Ep; try discriminate; try congruence;
        destruct (o_left s); cbn in Ep; congruence.
    + apply IH; [now apply dead_step|assumption|now exists f, os].
    + now apply ended_run.
Qed.
Theorem once_drained cfg frames a b : let s := once_run cfg (once_init frames) a in
  o_left s = [] -> o_queue s = [] -> o_phase s = OLooping -> (exists f os, In (OTurn f os) b) ->
  exists es, let s' := once_run cfg (once_init frames) (a ++ OExit :: b) in
    o_eff s' = r_eff (parent_run cfg [] es) /\ frames_of es = frames /\ o_phase s' = OEnded.
Proof.
  cbv zeta. intros Hl Hq Hp Ht. destruct (once_prefix cfg frames (a ++ OExit :: b)) as (es & H1 & H2). exists es.
  split; [exact H1|]. rewrite once_run_app in *. cbn [once_run] in *. set (s := once_run cfg (once_init frames) a) in *.
  destruct (drained_step cfg s OExit Hl Hq) as [D1 D2]. destruct (drained_run cfg b _ D1 D2) as [D3 D4].
  split; [rewrite D3, D4, app_nil_r in H2; now symmetry|].
  apply dead_ends; [|now cbn [once_step]; rewrite Hl|assumption]. cbn [once_step]. now rewrite Hl.
Qed.

(** The client socket. *)
Lemma locked_effect w c : w_locked w = true -> w_locked (effect w c) = true.
Proof. destruct w; cbn. intros ->. now destruct c. Qed.
Lemma locked_more k w h t : w_locked (after k w h) = true -> w_locked (after k w (h ++ t)) = true.
Proof.
  revert h. induction t as [|c t IH]; intros h H; [now rewrite app_nil_r|].
  replace (h ++ c :: t) with ((h ++ [c]) ++ t) by now rewrite <- app_assoc. apply IH. rewrite after_snoc.
  destruct (succeeded _ _); [now apply locked_effect|assumption].
Qed.
Lemma only_prefork k opts user : only (fun c => c <> KUnlinkSock) (pre_fork k opts user).
Proof.
  assert (N : forall c, c <> KUnlinkSock -> only (fun c => c <> KUnlinkSock) (need k opts 0 c)).
  { intros c H. unfold need. apply only_seq; [now apply only_sys|]. intros a. destruct (_ =? -1); [apply only_exit|apply only_ret]. }
  assert (S : only (fun c => c <> KUnlinkSock) (my_socketpair k opts)).
  { unfold my_socketpair. repeat (apply only_seq; [apply N; discriminate|intros ?]). apply only_ret. }
  unfold pre_fork. apply only_seq; [|intros pw; apply only_seq; [apply only_sys; discriminate|intros _; apply only_seq]].
  - destruct (has opts OPT_DEBUG); [apply only_ret|]. apply only_seq; [apply only_sys; discriminate|]. intros a.
    destruct (_ =? -1); [apply only_exit|apply only_ret].
  - destruct (has opts OPT_DAEMON); [|apply only_ret]. unfold pidfile. do 3 (apply only_seq; [apply N; discriminate|intros _]).
    apply only_seq; [apply only_sys; discriminate|]. intros p. apply only_seq; [apply only_sys; discriminate|]. intros w.
    destruct (_ <=? 0); [apply only_exit|apply only_ret].
  - intros _. apply only_seq; [exact S|intros _]. apply only_seq; [exact S|intros _]. apply only_ret.
Qed.
Theorem unlink_locked k lib opts user w e h sig pid pre post : main_start k lib opts user [] = (e, h) ->
  has opts OPT_DAEMON = true ->
  (h = pre ++ KUnlinkSock :: post
   \/ exists h0 e', (exists t, h = h0 ++ t) /\ In KFork h0 /\ (exists t, parent_signal k opts sig pid h0 = (e', h0 ++ t) /\ h0 ++ t = pre ++ KUnlinkSock :: post)) ->
  w_locked (after k w pre) = true.
Proof.
  intros R Ho Hc.
  assert (L : forall a b t, h = a ++ KFork :: b -> w_locked (after k w (a ++ t)) = true).
  { intros a b t E. apply locked_more. now destruct (main_pidfile k lib opts user w e h a b R Ho E) as [H _]. }
  assert (P : exists h1 h2, h = h1 ++ h2 /\ Forall (fun c => c <> KUnlinkSock) h1 /\ (h2 = [] \/ exists t, h2 = KFork :: t)).
  { rewrite main_split in R. unfold seq in R. destruct (only_prefork k opts user []) as (t & E & F).
    destruct (pre_fork k opts user []) as [[pw|s|] h1]; cbn [snd app] in E; subst h1.
    - unfold post_fork, seq, sys in R. cbv beta iota in R. exists t.
      destruct (rest_run k lib opts pw t e h R) as (t2 & -> & _). exists (KFork :: t2). split; [reflexivity|]. split; [assumption|]. right. now exists t2.
    - injection R as _ <-. exists t, []. rewrite app_nil_r. split; [reflexivity|]. split; [assumption|now left].
    - injection R as _ <-. exists t, []. rewrite app_nil_r. split; [reflexivity|]. split; [assumption|now left]. }
  destruct P as (h1 & h2 & Eh & F & Hd).
  (* a prefix in which the socket was removed contains the fork *)
  assert (Q : forall l1 l2 x, Forall (fun c => c <> KUnlinkSock) l1 -> l1 ++ KFork :: l2 = x ++ KUnlinkSock :: post -> exists y, x = l1 ++ KFork :: y).
  { induction l1 as [|c l1 IH]; intros l2 x Fl E.
    - destruct x as [|d x]; cbn in E; [discriminate E|]. injection E as <- E. now exists x.
    - apply Forall_cons_iff in Fl as [Fc Fl]. destruct x as [|d x]; cbn in E; [injection E as E _; contradiction|].
      injection E as <- E. destruct (IH l2 x Fl E) as (y & ->). now exists y. }
  destruct Hc as [E|(h0 & e' & (t & Et) & Hf & t' & _ & E)].
  - destruct Hd as [->|(t & ->)].
    + exfalso. rewrite app_nil_r in Eh. subst h1. rewrite E in F. apply Forall_app in F as [_ F]. apply Forall_cons_iff in F as [F _]. now apply F.
    + rewrite E in Eh. symmetry in Eh. destruct (Q h1 t pre F Eh) as (y & ->). apply (L h1 t). now rewrite E, <- Eh.
  - apply in_split in Hf as (a & b & ->).
    (* h = a ++ KFork :: b ++ t: take the first fork *)
    assert (Ea : h = a ++ KFork :: (b ++ t)) by (rewrite Et, <- app_assoc; reflexivity).
    destruct Hd as [->|(t2 & ->)].
    + rewrite app_nil_r in Eh. destruct (main_outcome k lib opts user w e h R) as [h Hq _|h3 pw e h' Hq _ _ _ Hr].
      * exfalso. rewrite Ea in Hq. apply Forall_app in Hq as [_ Hq]. apply Forall_cons_iff in Hq as [[Hq _] _]. now apply Hq.
      * assert (Fa : Forall (fun c => c <> KUnlinkSock) a) by (rewrite <- Eh, Ea in F; now apply Forall_app in F as [F _]).
        rewrite <- app_assoc in E. cbn [app] in E. destruct (Q a _ pre Fa E) as (y & ->). now apply (L a (b ++ t)).
    + destruct (main_outcome k lib opts user w e h R) as [h Hq _|h3 pw e h' Hq _ _ _ Hr].
      * exfalso. rewrite Ea in Hq. apply Forall_app in Hq as [_ Hq]. apply Forall_cons_iff in Hq as [[Hq _] _]. now apply Hq.
      * destruct (rest_run _ _ _ _ _ _ _ Hr) as (t3 & Et3 & S3 & _).
        assert (FK : Forall (fun c => c <> KFork) t3) by (eapply Forall_impl; [|exact S3]; now intros c [K _]).
        assert (a = h3) as -> by (rewrite Et3 in Ea; now apply fork_unique in Ea as [-> _]).
        assert (h1 = h3 \/ exists z, h1 = h3 ++ KFork :: z) as Hh.
        { rewrite Ea in Eh. clear -Eh Hq. revert h1 Eh. induction Hq as [|c h3 [Hc _] _ IH]; intros h1 Eh.
          - destruct h1 as [|d h1]; [now left|]. cbn in Eh. injection Eh as <- _. right. now exists h1.
          - destruct h1 as [|d h1]; cbn in Eh; [injection Eh as -> _; now destruct Hc|]. injection Eh as <- Eh.
            destruct (IH h1 Eh) as [->|(z & ->)]; [now left|right; now exists z]. }
        assert (F3 : Forall (fun c => c <> KUnlinkSock) h3) by (destruct Hh as [->|(z & ->)]; [assumption|now apply Forall_app in F as [F _]]).
        rewrite <- app_assoc in E. cbn [app] in E. destruct (Q h3 _ pre F3 E) as (y & ->). now apply (L h3 (b ++ t)).
Qed.
