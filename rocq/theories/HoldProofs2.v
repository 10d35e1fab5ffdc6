(** Hold times, in a history split at an advertisement. *)
From Verif Require Import Base Types Tlv Msg Protos Wire Util Child Spec SpecAdv SpecRound SpecNet SpecChild SpecHold
  Lemmas ChildProofs ChildProofs2 HoldProofs.
From Coq Require Import Lia.

Lemma reached_prefix opts b : forall a c eff, reached opts (a ++ b) c eff -> exists c1 eff1, reached opts a c1 eff1.
Proof.
  induction b as [|e b IH] using rev_ind; intros a c eff R; [rewrite app_nil_r in R; eauto|].
  rewrite app_assoc in R. apply run_unsnoc in R as (c1 & e1 & e2 & R & _). exact (IH _ _ _ R).
Qed.
Lemma known_split opts es1 e en c1 eff1 : reached opts es1 c1 eff1 -> news c1 e en -> q_ttl en <> 0 ->
  forall es2 c eff, reached opts (es1 ++ e :: es2) c eff -> unheard opts (es1 ++ [e]) es2 (who en) ->
  (forall t, cleaned opts (es1 ++ [e]) es2 t -> t <= q_received en + q_ttl en) -> known opts (es1 ++ e :: es2) en.
Proof.
  intros R1 N T. induction es2 as [|x es2 IH] using rev_ind; intros c eff R U C.
  - now apply (known_new opts es1 c1 eff1).
  - change (es1 ++ e :: es2 ++ [x]) with (es1 ++ (e :: es2) ++ [x]) in *. rewrite app_assoc in *.
    destruct (reached_prefix _ _ _ _ _ R) as (c2 & eff2 & R2).
    assert (R2' : reached opts ((es1 ++ [e]) ++ es2) c2 eff2) by (rewrite <- app_assoc; exact R2).
    apply (known_still opts _ c2 eff2); [|exact R2| |].
    + apply (IH c2 eff2 R2).
      * intros a y b c3 e3 z -> R3 K. apply (U a y (b ++ [x]) c3 e3 z); [|assumption|assumption]. now rewrite <- app_assoc.
      * intros t (a & y & b & c3 & e3 & -> & R3 & K). apply C. exists a, y, (b ++ [x]), c3, e3. split; [now rewrite <- app_assoc|]. now split.
    + intros z K. exact (U es2 x [] c2 eff2 z eq_refl R2' K).
    + intros t K. apply C. exists es2, x, [], c2, eff2. now repeat split.
Qed.
Theorem kept opts es1 e es2 c1 eff1 en c eff :
  reached opts es1 c1 eff1 -> news c1 e en -> q_ttl en <> 0 -> reached opts (es1 ++ e :: es2) c eff ->
  Forall ordinary (es1 ++ e :: es2) -> unheard opts (es1 ++ [e]) es2 (who en) ->
  (forall t, cleaned opts (es1 ++ [e]) es2 t -> t <= q_received en + q_ttl en) ->
  exists x, In x (c_queue c) /\ content x = en.
Proof.
  intros R1 N T R O U C. exact (known_listed _ _ _ (known_split _ _ _ _ _ _ R1 N T _ _ _ R U C) O _ _ R).
Qed.
(** Only one advertisement of a neighbour is known. *)
Lemma known_inv opts es en : known opts es en -> exists es1 e es2 c1 eff1, es = es1 ++ e :: es2 /\ reached opts es1 c1 eff1
  /\ news c1 e en /\ q_ttl en <> 0 /\ unheard opts (es1 ++ [e]) es2 (who en)
  /\ forall t, cleaned opts (es1 ++ [e]) es2 t -> t <= q_received en + q_ttl en.
Proof.
  assert (Nil : forall (a : list cevent) x b, [] = a ++ x :: b -> False) by (intros [|] ? ? ?; discriminate).
  induction 1 as [es c eff e en R N T|es c eff e en K (es1 & e1 & es2 & c1 & eff1 & -> & R1 & N1 & T1 & U & C) R N T].
  - exists es, e, [], c, eff. split; [reflexivity|]. split; [assumption|]. split; [assumption|]. split; [assumption|]. split.
    + intros a x b c3 e3 z E. exfalso. exact (Nil _ _ _ E).
    + intros t (a & x & b & c3 & e3 & E & _). exfalso. exact (Nil _ _ _ E).
  - exists es1, e1, (es2 ++ [e]), c1, eff1. split; [now rewrite <- app_assoc|]. split; [assumption|]. split; [assumption|]. split; [assumption|].
    assert (Sp : forall a x b, es2 ++ [e] = a ++ x :: b -> (a = es2 /\ x = e /\ b = []) \/ exists b', b = b' ++ [e] /\ es2 = a ++ x :: b').
    { intros a x b E. destruct b as [|y b] using rev_ind; [left; now apply app_inj_tail in E as [-> ->]|clear IHb].
      right. change (x :: b ++ [y]) with ((x :: b) ++ [y]) in E. rewrite app_assoc in E. apply app_inj_tail in E as [-> ->]. eauto. }
    assert (R2 : forall a c3 e3, a = es2 -> reached opts ((es1 ++ [e1]) ++ a) c3 e3 -> c3 = c).
    { intros a c3 e3 -> R3. rewrite <- app_assoc in R3. unfold reached in R, R3. cbn [app] in R3. rewrite R in R3. now injection R3. }
    split.
    + intros a x b c3 e3 z E R3 K3. destruct (Sp _ _ _ E) as [(Ea & -> & _)|(b' & -> & E')].
      * rewrite (R2 _ _ _ Ea R3) in K3. exact (N _ K3).
      * exact (U a x b' c3 e3 z E' R3 K3).
    + intros t (a & x & b & c3 & e3 & E & R3 & K3). destruct (Sp _ _ _ E) as [(Ea & -> & _)|(b' & -> & E')].
      * rewrite (R2 _ _ _ Ea R3) in K3. exact (T _ K3).
      * apply C. exists a, x, b', c3, e3. now repeat split.
Qed.
Lemma split_two {A} (a1 a2 b1 b2 : list A) x y : a1 ++ x :: b1 = a2 ++ y :: b2 ->
  (a1 = a2 /\ x = y /\ b1 = b2) \/ (exists m, b1 = m ++ y :: b2 /\ a2 = a1 ++ x :: m) \/ (exists m, b2 = m ++ x :: b1 /\ a1 = a2 ++ y :: m).
Proof.
  revert a2. induction a1 as [|z a1 IH]; intros [|w a2] E; cbn in E; injection E as -> E.
  - now left.
  - right. left. exists a2. now rewrite E.
  - right. right. exists a1. now rewrite E.
  - destruct (IH a2 E) as [(-> & -> & ->)|[(m & -> & ->)|(m & -> & ->)]]; [now left|right; left; now exists m|right; right; now exists m].
Qed.
Theorem dropped opts es1 e es2 c1 eff1 en c eff t :
  reached opts es1 c1 eff1 -> news c1 e en -> reached opts (es1 ++ e :: es2) c eff ->
  Forall ordinary (es1 ++ e :: es2) -> Forall unblocked (es1 ++ e :: es2) -> unheard opts (es1 ++ [e]) es2 (who en) ->
  cleaned opts (es1 ++ [e]) es2 t -> q_received en + q_ttl en < t ->
  forall x, In x (c_queue c) -> who x <> who en.
Proof.
  intros R1 N R O U Un C Lt x Hx W.
  destruct (known_inv _ _ _ (listed_known _ _ O U _ _ _ R Hx)) as (es1' & e' & es2' & c1' & eff1' & E & R1' & N' & T' & Un' & C').
  rewrite content_who in Un'.
  destruct (split_two _ _ _ _ _ _ E) as [(<- & <- & <-)|[(m & -> & ->)|(m & -> & ->)]].
  - unfold reached in R1, R1'. rewrite R1 in R1'. injection R1' as <- _. rewrite (news_fun _ _ _ _ N' N) in C'. specialize (C' t C). lia.
  - (* heard again later *)
    apply (Un m e' es2' c1' eff1' (content x)); [reflexivity| |exact N'|exact W].
    rewrite <- app_assoc. exact R1'.
  - apply (Un' m e es2 c1 eff1 en); [reflexivity| |exact N|now rewrite W].
    rewrite <- app_assoc. exact R1.
Qed.

(** ** With a clock *)
Lemma news_dec opts es c eff y c' eff' : reached opts es c eff -> ordinary y -> child_step opts c y = DOk (c', eff') ->
  (exists w, news c y w) \/ silent c y.
Proof.
  intros R O St. destruct (step_cases _ _ _ _ _ (reached_ok _ _ _ _ R) O St)
    as [(w & Y1 & _)|[(w & d & now & now2 & _ & Y1 & _)|[(t & -> & _)|(Y1 & _)]]]; [left; eauto|left; eauto| |right; exact Y1].
  right. intros w (? & ? & ? & ? & ? & ? & ? & ? & ? & ? & K & _). discriminate.
Qed.
Lemma recent_ind opts es1 e en c1 eff1 : reached opts es1 c1 eff1 -> news c1 e en -> q_ttl en <> 0 -> forall T, T <= q_received en + q_ttl en ->
  forall es2 c eff, reached opts (es1 ++ e :: es2) c eff ->
  (forall a y b c2 eff2 x, es2 = a ++ y :: b -> reached opts ((es1 ++ [e]) ++ a) c2 eff2 -> news c2 y x -> who x = who en -> q_ttl x <> 0 /\ T <= q_received x + q_ttl x) ->
  Forall ordinary es2 -> Forall (until T) es2 -> exists x, known opts (es1 ++ e :: es2) x /\ who x = who en /\ T <= q_received x + q_ttl x.
Proof.
  intros R1 N T0 T HT. induction es2 as [|y es2 IH] using rev_ind; intros c eff R L O F.
  - exists en. split; [now apply (known_new opts es1 c1 eff1)|]. now split.
  - change (es1 ++ e :: es2 ++ [y]) with (es1 ++ (e :: es2) ++ [y]) in *. rewrite app_assoc in *.
    destruct (run_unsnoc _ _ _ _ _ _ R) as (c2 & eff2 & eff3 & R2 & St).
    assert (R2' : reached opts ((es1 ++ [e]) ++ es2) c2 eff2) by (rewrite <- app_assoc; exact R2).
    apply Forall_app in F as [F Fy]. apply Forall_inv in Fy. apply Forall_app in O as [O Oy]. apply Forall_inv in Oy.
    destruct (IH c2 eff2 R2) as (x & X1 & X2 & X3); [|exact O|exact F|].
    { intros a z b c3 e3 w -> R3 K W. apply (L a z (b ++ [y]) c3 e3 w); try assumption. now rewrite <- app_assoc. }
    assert (Still : (forall w, news c2 y w -> who w <> who en) -> known opts ((es1 ++ e :: es2) ++ [y]) x).
    { intros No. apply (known_still opts _ c2 eff2); [exact X1|exact R2|now rewrite X2|].
      intros t K. enough (t <= T) by lia. unfold until in Fy.
      destruct K as [->|(d & now & w & -> & _)]; exact Fy. }
    destruct (news_dec _ _ _ _ _ _ _ R2 Oy St) as [(w & Hw)|No].
    2:{ exists x. split; [|now split]. apply Still. intros w Hw. now apply No in Hw. }
    assert (D : {who w = who en} + {who w <> who en}) by (repeat decide equality). destruct D as [D|D].
    + destruct (L es2 y [] c2 eff2 w eq_refl R2' Hw D) as [W1 W2]. exists w. split; [now apply (known_new opts _ c2 eff2)|]. now split.
    + exists x. split; [|now split]. apply Still. intros w' Hw'. now rewrite (news_fun _ _ _ _ Hw' Hw).
Qed.
Lemma steadily_app t a : forall b, steadily t (a ++ b) -> exists u, t <= u /\ steadily u b /\ steadily t a.
Proof.
  revert t. induction a as [|e a IH]; intros t b H; [exists t; split; [lia|now split]|]. cbn [app steadily] in *.
  destruct (clock e) as [[x y]|]; [|now apply IH]. destruct H as [H1 H2]. destruct (IH _ _ H2) as (u & U1 & U2 & U3).
  exists u. split; [lia|]. now split.
Qed.
Lemma news_received c e en : news c e en -> exists b, clock e = Some (q_received en, b).
Proof. intros (d & now & now2 & i & p & f & s & pr & ttl & at_ & -> & _ & _ & _ & _ & _ & _ & _ & ->). cbn. eauto. Qed.
Theorem recent opts es1 e es2 c1 eff1 en c eff t0 T :
  reached opts es1 c1 eff1 -> news c1 e en -> q_ttl en <> 0 -> reached opts (es1 ++ e :: es2) c eff ->
  Forall ordinary (es1 ++ e :: es2) -> steadily t0 (es1 ++ e :: es2) -> Forall (until T) (es1 ++ e :: es2) ->
  T <= q_received en + q_ttl en ->
  (forall a y b c2 eff2 x, es2 = a ++ y :: b -> reached opts ((es1 ++ [e]) ++ a) c2 eff2 -> news c2 y x -> who x = who en -> q_ttl en <= q_ttl x) ->
  0 < q_ttl en ->
  exists x, In x (c_queue c) /\ who x = who en /\ T <= q_received x + q_ttl x.
Proof.
  intros R1 N T0 R O S F HT L P.
  destruct (steadily_app _ _ _ S) as (u & _ & S2 & _). destruct (news_received _ _ _ N) as (be & Ec). cbn [steadily] in S2. rewrite Ec in S2.
  destruct S2 as [S2 S3].
  destruct (recent_ind opts es1 e en c1 eff1 R1 N T0 T HT es2 c eff R) as (x & X1 & X2 & X3).
  - intros a y b c2 eff2 x E R2 K W. specialize (L _ _ _ _ _ _ E R2 K W). split; [lia|].
    destruct (news_received _ _ _ K) as (by_ & Ey). rewrite E in S3. destruct (steadily_app _ _ _ S3) as (v & V1 & V2 & _).
    cbn [steadily] in V2. rewrite Ey in V2. lia.
  - apply Forall_app in O as [_ O]. exact (Forall_inv_tail O).
  - apply Forall_app in F as [_ F]. exact (Forall_inv_tail F).
  - destruct (known_listed _ _ _ X1 O _ _ R) as (z & Z1 & <-). exists z. split; [assumption|]. now split.
Qed.
