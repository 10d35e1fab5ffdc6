(** The log and the table (C136). *)
From Verif Require Import Base Types Tlv Checks Msg Protos Wire Util Child Log Spec SpecAdv SpecRound SpecNet SpecNetif SpecNetif2 SpecChild SpecHold SpecLog.
From Verif Require Import Lemmas WireProofs DecProofs NetProofs ChildProofs ChildProofs2 ChildProofs4 HoldProofs VisProofs NetifProofs7 LogProofs.
From Coq Require Import Lia Permutation.

(** ** What is in the log of an event *)
Lemma in_intro m e top : In m (intro e top) <-> exists h, nth 0 (q_peer e) None = Some h /\ m = LNew h (q_proto e) (nf_name top).
Proof.
  unfold intro. destruct (nth 0 (q_peer e) None) as [h|]; cbn [In]; split.
  - intros [<-|[]]. eauto.
  - intros (h' & E & ->). injection E as ->. now left.
  - intros [].
  - intros (h' & E & _). discriminate.
Qed.
Lemma in_outro m e : In m (outro e) <-> exists h, nth 0 (q_peer e) None = Some h /\ m = LGone h (q_proto e).
Proof.
  unfold outro. destruct (nth 0 (q_peer e) None) as [h|]; cbn [In]; split.
  - intros [<-|[]]. eauto.
  - intros (h' & E & ->). injection E as ->. now left.
  - intros [].
  - intros (h' & E & _). discriminate.
Qed.
Lemma in_expire m t q : t <> -1 -> In m (expire_log t q) <->
  exists x h, In x q /\ stays t x = false /\ nth 0 (q_peer x) None = Some h /\ m = LGone h (q_proto x).
Proof.
  intros Ht. rewrite expire_log_eq by assumption. rewrite in_flat_map. split.
  - intros (x & Hx & H). destruct (stays t x) eqn:E; [destruct H|]. apply in_outro in H as (h & E1 & ->). eauto 6.
  - intros (x & h & Hx & E & E1 & ->). exists x. split; [assumption|]. rewrite E. apply in_outro. eauto.
Qed.
Lemma in_on m opts n top p : In m (on opts n top p) -> m = LOn p (nf_name top).
Proof. unfold on. destruct (_ || _); [intros []|]. destruct (_ && _); [intros []|]. intros [<-|[]]. reflexivity. Qed.
Lemma on_enables m opts n top p : 0 <= p -> (In m (on opts n top p) <-> m = LOn p (nf_name top) /\ enables opts p n top).
Proof.
  intros Hp. unfold on, enables. replace OPT_AUTO with (2 ^ 3) by reflexivity. replace OPT_ARGV with (2 ^ 5) by reflexivity.
  rewrite !has_bit by lia. rewrite Z.shiftl_1_l, has_bit by lia.
  destruct (Z.testbit opts 3); cbn [negb orb]; [|split; [intros []|intros (_ & K & _); discriminate]].
  destruct (Z.testbit (nf_protos top) p); [split; [intros []|intros (_ & _ & K & _); discriminate]|].
  destruct (Z.testbit opts 5); cbn [andb].
  - destruct (nf_argv n =? 0) eqn:E1; cbn [andb].
    + destruct (nf_argv top =? 0) eqn:E2.
      * split; [intros []|]. intros (_ & _ & _ & K). destruct (K eq_refl); lia.
      * split; [intros [<-|[]]|intros (-> & _); now left]. repeat split; try reflexivity. intros _. right. lia.
    + split; [intros [<-|[]]|intros (-> & _); now left]. repeat split; try reflexivity. intros _. left. lia.
  - split; [intros [<-|[]]|intros (-> & _); now left]. repeat split; try reflexivity. discriminate.
Qed.
Lemma uplink_top nfs n top : uplink nfs n top -> top_of nfs n = top.
Proof. intros [[E ->]|(i & E & K)]; unfold top_of; rewrite E; [reflexivity|]. now rewrite K. Qed.

Lemma new_exact opts es c eff e c' eff' : reached opts es c eff -> ordinary e -> child_step opts c e = DOk (c', eff') ->
  (forall h p i, In (LNew h p i) (log_step opts c e) -> exists en, news c e en)
  /\ (forall en n top h p i, news c e en -> netif_byindex (c_nfs c) (q_index en) = Some n -> uplink (c_nfs c) n top ->
      In (LNew h p i) (log_step opts c e) <->
      (forall x, In x (c_queue c) -> who x <> who en) /\ nth 0 (q_peer en) None = Some h /\ p = q_proto en /\ i = nf_name top).
Proof.
  intros R O St. pose proof (reached_ok _ _ _ _ R) as T.
  destruct (log_cases opts c e c' eff' T O St) as [(en & en' & sub & q' & l1 & l2 & Nw & Hi & W & P1 & P2 & P3 & P4 & P5 & (fr & Put) & Lg & L1 & L2)|[(t & -> & Ht & Lg & Q)|(Si & Lg & Q)]].
  - assert (N2 : forall h p i, ~ In (LNew h p i) l2).
    { intros h p i K. destruct L2 as [(d & now & now2 & _ & _ & -> & Hn & _)|(_ & -> & _)].
      - apply in_expire in K as (x & h' & _ & _ & _ & K); [discriminate|assumption].
      - apply in_on in K. discriminate. }
    split; [eauto|]. intros en0 n top h p i N0 Hn U. pose proof (news_fun _ _ _ _ N0 Nw) as ->.
    rewrite Hi in Hn. injection Hn as ->. rewrite (uplink_top _ _ _ U) in L1. rewrite Lg, in_app_iff.
    destruct L1 as [[(x & X1 & X2) ->]|[X ->]].
    + split; [intros [[]|K]; now apply N2 in K|]. intros (K & _). now apply K in X2.
    + rewrite in_intro. split.
      * intros [(h' & E & K)|K]; [|now apply N2 in K]. injection K as -> -> ->. repeat split; assumption.
      * intros (_ & E & -> & ->). left. eauto.
  - rewrite Lg. split.
    + intros h p i K. apply in_expire in K as (x & h' & _ & _ & _ & K); [discriminate|assumption].
    + intros en n top h p i N0. destruct N0 as (d & now & now2 & i' & p' & f & s & pr & ttl & at_ & E & _). discriminate.
  - rewrite Lg. split; [intros h p i []|]. intros en n top h p i N0. now apply Si in N0.
Qed.
Lemma on_exact opts es c eff e c' eff' : reached opts es c eff -> ordinary e -> child_step opts c e = DOk (c', eff') ->
  (forall p i, In (LOn p i) (log_step opts c e) -> exists en, news c e en)
  /\ (forall en n top p i, news c e en -> netif_byindex (c_nfs c) (q_index en) = Some n -> uplink (c_nfs c) n top ->
      In (LOn p i) (log_step opts c e) <->
      q_ttl en <> 0 /\ p = q_proto en /\ i = nf_name top /\ enables opts p n top).
Proof.
  intros R O St. pose proof (reached_ok _ _ _ _ R) as T.
  destruct (log_cases opts c e c' eff' T O St) as [(en & en' & sub & q' & l1 & l2 & Nw & Hi & W & P1 & P2 & P3 & P4 & P5 & (fr & Put) & Lg & L1 & L2)|[(t & -> & Ht & Lg & Q)|(Si & Lg & Q)]].
  - assert (N1 : forall p i, ~ In (LOn p i) l1).
    { intros p i K. destruct L1 as [[_ ->]|[_ ->]]; [destruct K|]. apply in_intro in K as (h & _ & K). discriminate. }
    split; [eauto|]. intros en0 n top p i N0 Hn U. pose proof (news_fun _ _ _ _ N0 Nw) as ->.
    rewrite Hi in Hn. injection Hn as ->. rewrite (uplink_top _ _ _ U) in L2. rewrite Lg, in_app_iff.
    assert (Rg : 0 <= q_proto en).
    { destruct Nw as (d & now & now2 & i' & p' & f & s & pr & ttl & at_ & _ & B1 & B2 & B3 & _ & B5 & _ & _ & ->).
      pose proof (advert_range _ _ _ _ _ B3 B1 B5) as Z0. cbn [q_proto]. lia. }
    destruct L2 as [(d & now & now2 & _ & Z0 & -> & Hn & _)|(Z0 & -> & _)].
    + split; [|intros (K & _); contradiction]. intros [K|K]; [now apply N1 in K|].
      apply in_expire in K as (x & h' & _ & _ & _ & K); [discriminate|assumption].
    + rewrite on_enables by assumption. split.
      * intros [K|[K K']]; [now apply N1 in K|]. injection K as -> ->. repeat split; try assumption; apply K'.
      * intros (_ & -> & -> & K). right. split; [reflexivity|exact K].
  - rewrite Lg. split.
    + intros p i K. apply in_expire in K as (x & h' & _ & _ & _ & K); [discriminate|assumption].
    + intros en n top p i N0. destruct N0 as (d & now & now2 & i' & p' & f & s & pr & ttl & at_ & E & _). discriminate.
  - rewrite Lg. split; [intros p i []|]. intros en n top p i N0. now apply Si in N0.
Qed.
Lemma gone_exact opts es c eff e c' eff' h p : reached opts es c eff -> ordinary e -> child_step opts c e = DOk (c', eff') ->
  In (LGone h p) (log_step opts c e) <->
    (exists x, In x (c_queue c) /\ (forall y, In y (c_queue c') -> who y <> who x) /\ (forall en, news c e en -> who en <> who x)
       /\ nth 0 (q_peer x) None = Some h /\ p = q_proto x)
    \/ (exists en, news c e en /\ q_ttl en = 0 /\ nth 0 (q_peer en) None = Some h /\ p = q_proto en).
Proof.
  intros R O St. pose proof (reached_ok _ _ _ _ R) as T. pose proof (ChildProofs.step_ok _ _ _ _ _ T St) as T'.
  destruct (log_cases opts c e c' eff' T O St) as [(en & en' & sub & q' & l1 & l2 & Nw & Hi & W & P1 & P2 & P3 & P4 & P5 & (fr & Put) & Lg & L1 & L2)|[(t & -> & Ht & Lg & Q)|(Si & Lg & Q)]].
  - assert (N1 : ~ In (LGone h p) l1).
    { intros K. destruct L1 as [[_ ->]|[_ ->]]; [destruct K|]. apply in_intro in K as (h' & _ & K). discriminate. }
    pose proof (put_ok _ _ _ _ _ T Put) as Tq.
    destruct (put_content _ _ _ _ _ T Put) as ((k & Hk) & Hnew & Hoth). rewrite W in Hnew, Hoth.
    rewrite Lg, in_app_iff. destruct L2 as [(d & now & now2 & -> & Z0 & -> & Hn & Hn2 & Q)|(Z0 & -> & Q)].
    + rewrite in_expire by assumption. split.
      * intros [K|(x & h' & X1 & X2 & X3 & K)]; [contradiction|]. injection K as -> ->.
        assert (D : {who x = who en} + {who x <> who en}) by (repeat decide equality). destruct D as [D|D].
        -- right. exists en. destruct (Hnew x X1 D) as (k' & ->). cbn [with_id q_peer q_proto] in *.
           split; [exact Nw|]. split; [exact Z0|]. split; [rewrite <- P1; exact X3|exact P2].
        -- left. exists x. split; [now apply Hoth|]. split; [|split; [|split; [exact X3|reflexivity]]].
           ++ intros y Hy E. rewrite Q in Hy. apply filter_In in Hy as [Hy Sy].
              assert (y = x) as -> by (apply (who_inj q'); [apply Tq|assumption..]). congruence.
           ++ intros en0 N0 E. pose proof (news_fun _ _ _ _ N0 Nw) as ->. now apply D.
      * intros [(x & X1 & X2 & X3 & X4 & ->)|(en0 & N0 & _ & X4 & ->)]; right.
        -- assert (D : who x <> who en) by (intros E; now apply (X3 en Nw)).
           apply (Hoth x D) in X1. exists x, h. split; [assumption|]. split; [|split; [assumption|reflexivity]].
           destruct (stays now2 x) eqn:E; [|reflexivity]. exfalso. apply (X2 x); [|reflexivity]. rewrite Q. apply filter_In. now split.
        -- pose proof (news_fun _ _ _ _ N0 Nw) as ->. exists (with_id k en'), h. split; [exact Hk|].
           cbn [with_id q_peer q_proto]. rewrite P1, P2. split; [|split; [assumption|reflexivity]].
           unfold stays. cbn [with_id q_received q_ttl q_lock]. rewrite (P5 Z0), P3, Z0, P4.
           apply orb_false_iff. split; [lia|reflexivity].
    + split.
      * intros [K|K]; [contradiction|]. apply in_on in K. discriminate.
      * intros [(x & X1 & X2 & X3 & _)|(en0 & N0 & Z1 & _)].
        -- assert (D : who x <> who en) by (intros E; now apply (X3 en Nw)).
           apply (Hoth x D) in X1. exfalso. apply (X2 x); [now rewrite Q|reflexivity].
        -- pose proof (news_fun _ _ _ _ N0 Nw) as ->. contradiction.
  - rewrite Lg, in_expire by assumption. split.
    + intros (x & h' & X1 & X2 & X3 & K). injection K as -> ->. left. exists x. split; [assumption|]. split; [|split; [|split; [assumption|reflexivity]]].
      * intros y Hy E. rewrite Q in Hy. apply filter_In in Hy as [Hy Sy].
        assert (y = x) as -> by (apply (who_inj (c_queue c)); [apply T|assumption..]). congruence.
      * intros en (d & now & now2 & i' & p' & f & s & pr & ttl & at_ & E & _). discriminate.
    + intros [(x & X1 & X2 & _ & X4 & ->)|(en & (d & now & now2 & i' & p' & f & s & pr & ttl & at_ & E & _) & _)]; [|discriminate].
      exists x, h. split; [assumption|]. split; [|split; [assumption|reflexivity]].
      destruct (stays t x) eqn:E; [|reflexivity]. exfalso. apply (X2 x); [|reflexivity]. rewrite Q. apply filter_In. now split.
  - rewrite Lg. split; [intros []|]. intros [(x & X1 & X2 & _)|(en & K & _)]; [|now apply Si in K].
    apply (in_map content) in X1. rewrite <- Q in X1. apply in_map_iff in X1 as (y & E & Hy). apply (X2 y Hy).
    now rewrite <- (content_who y), E, content_who.
Qed.

(** ** Counting *)
Lemma said_new_app h p a b : said_new h p (a ++ b) = said_new h p a + said_new h p b.
Proof. unfold said_new. now rewrite filter_app, zlen_app. Qed.
Lemma said_gone_app h p a b : said_gone h p (a ++ b) = said_gone h p a + said_gone h p b.
Proof. unfold said_gone. now rewrite filter_app, zlen_app. Qed.
Lemma listed_cons h p e q : listed h p (e :: q) = listed h p [e] + listed h p q.
Proof. unfold listed. cbn [filter]. destruct (_ && _); cbn [app]; unfold zlen; cbn [length]; lia. Qed.
Lemma listed_perm h p a b : Permutation a b -> listed h p a = listed h p b.
Proof.
  induction 1 as [|x a b _ IH|x y a|a b c _ IH1 _ IH2]; [reflexivity| | |congruence].
  - rewrite (listed_cons h p x a), (listed_cons h p x b). lia.
  - rewrite (listed_cons h p y), (listed_cons h p x a), (listed_cons h p x (y :: a)), (listed_cons h p y a). lia.
Qed.
Lemma outro_gone h p e : said_gone h p (outro e) = listed h p [e] /\ said_new h p (outro e) = 0.
Proof.
  unfold said_gone, said_new, outro, listed, called. cbn [filter]. destruct (nth 0 (q_peer e) None) as [x|]; cbn [filter andb]; [|now split].
  destruct (SpecNetif2.same x h && (q_proto e =? p)); now split.
Qed.
Lemma intro_new h p e top : said_new h p (intro e top) = listed h p [e] /\ said_gone h p (intro e top) = 0.
Proof.
  unfold said_gone, said_new, intro, listed, called. cbn [filter]. destruct (nth 0 (q_peer e) None) as [x|]; cbn [filter andb]; [|now split].
  destruct (SpecNetif2.same x h && (q_proto e =? p)); now split.
Qed.
Lemma on_none h p opts n top k : said_new h p (on opts n top k) = 0 /\ said_gone h p (on opts n top k) = 0.
Proof. unfold on. destruct (_ || _); [now split|]. destruct (_ && _); now split. Qed.
Lemma expire_count h p t q : t <> -1 -> said_gone h p (expire_log t q) + listed h p (filter (stays t) q) = listed h p q
  /\ said_new h p (expire_log t q) = 0.
Proof.
  intros Ht. rewrite expire_log_eq by assumption. induction q as [|e q [IH1 IH2]]; [now split|]. cbn [flat_map filter].
  rewrite said_gone_app, said_new_app, (listed_cons h p e q). destruct (outro_gone h p e) as [G1 G2].
  destruct (stays t e).
  - rewrite (listed_cons h p e (filter _ q)). change (said_gone h p []) with 0. change (said_new h p []) with 0. lia.
  - lia.
Qed.
Lemma listed_one h p a b : nth 0 (q_peer a) None = nth 0 (q_peer b) None -> q_proto a = q_proto b -> listed h p [a] = listed h p [b].
Proof. intros E1 E2. unfold listed, called. cbn [filter]. rewrite E1, E2. now destruct (_ && _). Qed.
Lemma content_listed h p q q' : map content q = map content q' -> listed h p q = listed h p q'.
Proof.
  revert q'. induction q as [|a q IH]; intros [|b q'] E; try discriminate; [reflexivity|]. cbn [map] in E.
  assert (E1 : content a = content b) by congruence. assert (E2 : map content q = map content q') by congruence.
  rewrite (listed_cons h p a q), (listed_cons h p b q'), (IH _ E2). f_equal.
  apply listed_one; [change (nth 0 (q_peer (content a)) None = nth 0 (q_peer (content b)) None)|change (q_proto (content a) = q_proto (content b))]; now rewrite E1.
Qed.
Lemma insert_perm i new q : In i (map q_id q) -> Permutation (insert_after i new q) (new :: q).
Proof.
  induction q as [|e q IH]; [intros []|]. cbn [map insert_after]. intros H. destruct (q_id e =? i) eqn:E; [apply perm_swap|].
  destruct H as [H|H]; [lia|]. rewrite (IH H). apply perm_swap.
Qed.

Section named.
Variable (name : Z * Z * list Z -> option (list Z)).
Definition all_named (q : list entry) : Prop := forall x, In x q -> nth 0 (q_peer x) None = name (who x).
Lemma put_listed h p new q fresh q' fresh' : table_ok q fresh -> queue_put new q fresh = (q', fresh') ->
  all_named q -> nth 0 (q_peer new) None = name (who new) ->
  all_named q'
  /\ ((exists x, In x q /\ who x = who new) -> listed h p q' = listed h p q)
  /\ ((forall x, In x q -> who x <> who new) -> listed h p q' = listed h p q + listed h p [new]).
Proof.
  intros T Put Nq Nn. destruct (put_content _ _ _ _ _ T Put) as ((k & Hk) & Hnew & Hoth). split.
  { intros x Hx. assert (D : {who x = who new} + {who x <> who new}) by (repeat decide equality). destruct D as [D|D].
    - destruct (Hnew x Hx D) as (k' & ->). exact Nn.
    - apply Nq. now apply Hoth. }
  unfold queue_put in Put. rewrite slice_0_12 in Put. destruct (queue_find _ _ _ q None) as [[i|] pp] eqn:Ef.
  - injection Put as <- <-. apply find_hit in Ef as (e0 & He & Hi & Hw). fold (who new) in Hw. split.
    + intros _. unfold queue_replace. destruct T as [T1 _ _ _].
      assert (K : forall l, incl l q -> listed h p (map (fun e => if q_id e =? i then with_id i new else e) l) = listed h p l).
      { induction l as [|a l IH]; intros Inc; [reflexivity|]. cbn [map].
        rewrite (listed_cons h p _ (map _ l)), (listed_cons h p a l), IH by (intros y Hy; apply Inc; now right). f_equal.
        destruct (q_id a =? i) eqn:E; [|reflexivity]. assert (Ia : In a q) by (apply Inc; now left).
        assert (a = e0) as -> by (apply (id_inj q); [assumption..|lia]).
        apply listed_one; cbn [with_id q_peer q_proto]; [now rewrite (Nq e0 He), Nn, Hw|].
        pose proof (f_equal (fun k => snd (fst k)) Hw) as X. symmetry. exact X. }
      apply K. apply incl_refl.
    + intros X. now apply X in Hw.
  - apply find_miss in Ef as [Hm Hpp]. fold (who new) in Hm. split; [intros (x & Hx & E); now apply Hm in E|]. intros _.
    assert (Pm : Permutation q' (with_id fresh new :: q)).
    { destruct Hpp as [[-> _]|(a & e & b & Eq & -> & _ & _)]; injection Put as <- <-.
      - symmetry. apply Permutation_cons_append.
      - apply insert_perm. subst q. rewrite map_app, in_app_iff. right. now left. }
    rewrite (listed_perm h p _ _ Pm), (listed_cons h p _ q). rewrite (listed_one h p (with_id fresh new) new) by reflexivity. lia.
Qed.
Lemma step_balance h p opts c e c' eff : table_ok (c_queue c) (c_next c) -> ordinary e -> child_step opts c e = DOk (c', eff) ->
  (forall en, news c e en -> nth 0 (q_peer en) None = name (who en)) -> all_named (c_queue c) ->
  all_named (c_queue c') /\
  listed h p (c_queue c') + said_gone h p (log_step opts c e) = listed h p (c_queue c) + said_new h p (log_step opts c e).
Proof.
  intros T O St One Nq.
  destruct (log_cases opts c e c' eff T O St) as [(en & en' & sub & q' & l1 & l2 & Nw & Hi & W & P1 & P2 & P3 & P4 & P5 & (fr & Put) & Lg & L1 & L2)|[(t & -> & Ht & Lg & Q)|(Si & Lg & Q)]].
  - assert (Nn : nth 0 (q_peer en') None = name (who en')) by (rewrite P1, W; now apply One).
    destruct (put_listed h p en' _ _ _ _ T Put Nq Nn) as (Nq' & K1 & K2). rewrite W in K1, K2.
    assert (E1 : listed h p q' = listed h p (c_queue c) + said_new h p l1 /\ said_gone h p l1 = 0).
    { destruct L1 as [[X ->]|[X ->]].
      - rewrite (K1 X). change (said_new h p []) with 0. change (said_gone h p []) with 0. lia.
      - destruct (intro_new h p en (top_of (c_nfs c) sub)) as [I1 I2]. rewrite I1, I2, (K2 X). split; [|reflexivity]. f_equal.
        apply listed_one; [now rewrite P1|assumption]. }
    rewrite Lg, said_new_app, said_gone_app. destruct L2 as [(d & now & now2 & -> & Z0 & -> & Hn & Hn2 & Q)|(Z0 & -> & Q)]; rewrite Q.
    + destruct (expire_count h p now2 q' Hn) as [X1 X2]. split; [|lia]. intros x Hx. apply filter_In in Hx as [Hx _]. now apply Nq'.
    + destruct (on_none h p opts sub (top_of (c_nfs c) sub) (q_proto en)) as [X1 X2]. split; [exact Nq'|lia].
  - rewrite Lg, Q. destruct (expire_count h p t (c_queue c) Ht) as [X1 X2]. split; [|lia]. intros x Hx. apply filter_In in Hx as [Hx _]. now apply Nq.
  - rewrite Lg. change (said_new h p []) with 0. change (said_gone h p []) with 0. rewrite (content_listed h p _ _ Q). split; [|lia].
    intros x Hx. apply (in_map content) in Hx. rewrite Q in Hx. apply in_map_iff in Hx as (y & E & Hy).
    change (nth 0 (q_peer (content x)) None = name (who (content x))). rewrite <- E. exact (Nq y Hy).
Qed.
Lemma log_snoc opts e : forall es c c1 eff, child_run opts c es = DOk (c1, eff) ->
  forall c2 eff2, child_step opts c1 e = DOk (c2, eff2) -> log_run opts c (es ++ [e]) = log_run opts c es ++ log_step opts c1 e.
Proof.
  induction es as [|a es IH]; intros c c1 eff H c2 eff2 St; cbn [app child_run log_run] in *.
  - injection H as <- _. rewrite St, app_nil_r. reflexivity.
  - apply dbind_ok in H as ([c3 e3] & H1 & H). apply dbind_ok in H as ([c4 e4] & H2 & H). injection H as <- _.
    rewrite H1, (IH _ _ _ H2 _ _ St). now rewrite app_assoc.
Qed.
Lemma run_balance h p opts es : Forall ordinary es -> one_name name es -> forall c eff, reached opts es c eff ->
  all_named (c_queue c)
  /\ said_new h p (log_run opts child_start es) = said_gone h p (log_run opts child_start es) + listed h p (c_queue c).
Proof.
  induction es as [|e es IH] using rev_ind; intros O One c eff R.
  - injection R as <- _. split; [intros x []|reflexivity].
  - apply Forall_app in O as [O Oe]. apply Forall_inv in Oe.
    apply run_unsnoc in R as (c1 & e1 & e2 & R1 & St).
    destruct (IH O (fun c e' en H => One c e' en (in_or_app _ _ _ (or_introl H))) _ _ R1) as [A B].
    destruct (step_balance h p opts c1 e c e2 (reached_ok _ _ _ _ R1) Oe St) as [A' B'].
    + intros en N0. apply (One c1 e en); [|exact N0]. apply in_or_app. right. now left.
    + exact A.
    + split; [exact A'|]. rewrite (log_snoc _ _ _ _ _ _ R1 _ _ St), said_new_app, said_gone_app. lia.
Qed.
End named.

(** ** The text *)
Lemma vfmt_lit fmt args : forall l, Forall (fun b => b <> 37) l -> vfmt (l ++ fmt) args = let? r := vfmt fmt args in Some (l ++ r).
Proof.
  induction l as [|b l IH]; intros F; [cbn [app]; destruct (vfmt fmt args); reflexivity|].
  apply Forall_cons_iff in F as [Hb F]. cbn [app].
  assert (E : vfmt (b :: l ++ fmt) args = let? r := vfmt (l ++ fmt) args in Some (b :: r)).
  { cbn [vfmt]. destruct b as [|b|b]; try reflexivity. do 6 (destruct b; try reflexivity). now contradiction Hb. }
  rewrite E, IH by assumption. destruct (vfmt fmt args); reflexivity.
Qed.
Lemma vfmt_arg fmt a args : vfmt (bs "%s" ++ fmt) (a :: args) = let? r := vfmt fmt args in Some (a ++ r).
Proof. reflexivity. Qed.
Lemma vfmt_end args : vfmt [] args = Some []. Proof. reflexivity. Qed.
Definition proto_of (m : lmsg) : Z := match m with LNew _ p _ => p | LGone _ p => p | LOn p _ => p end.
Definition ranged (m : lmsg) : Prop := 0 <= proto_of m < 6.
Lemma named_eq p : 0 <= p < 6 -> proto_name p = named p.
Proof. intros H. assert (C : p = 0 \/ p = 1 \/ p = 2 \/ p = 3 \/ p = 4 \/ p = 5) by lia. destruct C as [->|[->|[->|[->|[->| ->]]]]]; reflexivity. Qed.
Lemma call_text m : ranged m -> let '(fmt, args) := lmsg_call m in vfmt fmt args = Some (text m).
Proof.
  intros Rg. destruct m as [h p i|h p|p i]; cbn [lmsg_call text]; unfold ranged in Rg; cbn [proto_of] in Rg; rewrite <- (named_eq p Rg).
  - change (bs "new peer %s (%s) on interface %s") with (bs "new peer " ++ bs "%s" ++ bs " (" ++ bs "%s" ++ bs ") on interface " ++ bs "%s" ++ []).
    rewrite vfmt_lit by (repeat constructor; discriminate). rewrite vfmt_arg. rewrite vfmt_lit by (repeat constructor; discriminate).
    rewrite vfmt_arg. rewrite vfmt_lit by (repeat constructor; discriminate). rewrite vfmt_arg, vfmt_end. cbn [obind]. now rewrite !app_nil_r.
  - change (bs "removing peer %s (%s)") with (bs "removing peer " ++ bs "%s" ++ bs " (" ++ bs "%s" ++ bs ")" ++ []).
    rewrite vfmt_lit by (repeat constructor; discriminate). rewrite vfmt_arg. rewrite vfmt_lit by (repeat constructor; discriminate).
    rewrite vfmt_arg. rewrite vfmt_lit by (repeat constructor; discriminate). rewrite vfmt_end. reflexivity.
  - change (bs "enabling %s on interface %s") with (bs "enabling " ++ bs "%s" ++ bs " on interface " ++ bs "%s" ++ []).
    rewrite vfmt_lit by (repeat constructor; discriminate). rewrite vfmt_arg. rewrite vfmt_lit by (repeat constructor; discriminate).
    rewrite vfmt_arg, vfmt_end. cbn [obind]. now rewrite !app_nil_r.
Qed.
Lemma my_log_text level m : ranged m -> 0 <= level -> level <> 3 -> my_log level m = Some (text m ++ [10]).
Proof.
  intros Rg H H3. unfold my_log. replace (level <? 0) with false by lia. replace (level =? 3) with false by lia.
  pose proof (call_text m Rg) as E. destruct (lmsg_call m) as [fmt args]. rewrite E. reflexivity.
Qed.
Lemma lit_plain s : existsb (Z.eqb 10) s = false -> ~ In 10 s.
Proof. intros E H. assert (T : existsb (Z.eqb 10) s = true) by (apply existsb_exists; exists 10; now split). congruence. Qed.
Lemma name_plain p : ~ In 10 (named p).
Proof.
  unfold named. destruct p as [|p|p]; [apply lit_plain; reflexivity| |intros []].
  do 3 (destruct p as [p|p|]; try (apply lit_plain; reflexivity)).
Qed.
Lemma plain_app a b : ~ In 10 a -> ~ In 10 b -> ~ In 10 (a ++ b).
Proof. intros A B H. apply in_app_or in H as [H|H]; contradiction. Qed.
Lemma plain_text m : plain m -> ~ In 10 (text m).
Proof.
  destruct m as [h p i|h p|p i]; cbn [plain text]; intros H.
  - destruct H as [H1 H2]. repeat apply plain_app; try assumption; try apply name_plain; apply lit_plain; reflexivity.
  - repeat apply plain_app; try assumption; try apply name_plain; apply lit_plain; reflexivity.
  - repeat apply plain_app; try assumption; try apply name_plain; apply lit_plain; reflexivity.
Qed.
Lemma log_bytes_text level l : Forall ranged l -> 0 <= level -> level <> 3 -> log_bytes level l = Some (flat_map (fun m => text m ++ [10]) l).
Proof.
  intros Rg H H3. induction Rg as [|m l Rm _ IH]; [reflexivity|]. cbn [log_bytes flat_map]. now rewrite my_log_text, IH by assumption.
Qed.
Lemma log_lines level l : Forall ranged l -> 0 <= level -> level <> 3 -> Forall plain l ->
  exists t, log_bytes level l = Some t /\ lines t (map text l).
Proof.
  intros Rg H H3 F. rewrite log_bytes_text by assumption. eexists. split; [reflexivity|].
  clear Rg. induction F as [|m l Hm _ IH]; [constructor|]. cbn [flat_map map]. rewrite <- app_assoc. cbn [app].
  constructor; [now apply plain_text|exact IH].
Qed.
Lemma log_silent level l : level < 0 -> log_bytes level l = Some [].
Proof.
  intros H. induction l as [|m l IH]; [reflexivity|]. cbn [log_bytes]. unfold my_log. replace (level <? 0) with true by lia.
  now rewrite IH.
Qed.

(** ** Protocol numbers *)
Definition in_range (q : list entry) : Prop := forall x, In x q -> 0 <= q_proto x < 6.
Lemma expire_ranged t q : t <> -1 -> in_range q -> Forall ranged (expire_log t q).
Proof.
  intros Ht R. rewrite Forall_forall. intros m K. apply in_expire in K as (x & h & Hx & _ & _ & ->); [|assumption]. now apply R.
Qed.
Lemma step_ranged opts c e c' eff : table_ok (c_queue c) (c_next c) -> ordinary e -> child_step opts c e = DOk (c', eff) ->
  in_range (c_queue c) -> in_range (c_queue c') /\ Forall ranged (log_step opts c e).
Proof.
  intros T O St R.
  destruct (log_cases opts c e c' eff T O St) as [(en & en' & sub & q' & l1 & l2 & Nw & Hi & W & P1 & P2 & P3 & P4 & P5 & (fr & Put) & Lg & L1 & L2)|[(t & -> & Ht & Lg & Q)|(Si & Lg & Q)]].
  - assert (Rg : 0 <= q_proto en < 6).
    { destruct Nw as (d & now & now2 & i' & p' & f & s & pr & ttl & at_ & _ & B1 & B2 & B3 & _ & B5 & _ & _ & ->).
      exact (advert_range _ _ _ _ _ B3 B1 B5). }
    destruct (put_content _ _ _ _ _ T Put) as ((k & Hk) & Hnew & Hoth). rewrite W in Hnew, Hoth.
    assert (R' : in_range q').
    { intros x Hx. assert (D : {who x = who en} + {who x <> who en}) by (repeat decide equality). destruct D as [D|D].
      - destruct (Hnew x Hx D) as (k' & ->). cbn [with_id q_proto]. now rewrite P2.
      - apply R. now apply Hoth. }
    rewrite Lg. assert (F1 : Forall ranged l1).
    { destruct L1 as [[_ ->]|[_ ->]]; [constructor|]. rewrite Forall_forall. intros m K. apply in_intro in K as (h & _ & ->). exact Rg. }
    destruct L2 as [(d & now & now2 & -> & Z0 & -> & Hn & Hn2 & Q)|(Z0 & -> & Q)]; rewrite Q.
    + split; [intros x Hx; apply filter_In in Hx as [Hx _]; now apply R'|]. apply Forall_app. split; [exact F1|now apply expire_ranged].
    + split; [exact R'|]. apply Forall_app. split; [exact F1|]. rewrite Forall_forall. intros m K. apply in_on in K as ->. exact Rg.
  - rewrite Lg, Q. split; [intros x Hx; apply filter_In in Hx as [Hx _]; now apply R|now apply expire_ranged].
  - rewrite Lg. split; [|constructor]. intros x Hx. apply (in_map content) in Hx. rewrite Q in Hx. apply in_map_iff in Hx as (y & E & Hy).
    change (0 <= q_proto (content x) < 6). rewrite <- E. exact (R y Hy).
Qed.
Lemma run_ranged opts es : Forall ordinary es -> forall c eff, reached opts es c eff ->
  in_range (c_queue c) /\ Forall ranged (log_run opts child_start es).
Proof.
  induction es as [|e es IH] using rev_ind; intros O c eff R.
  - injection R as <- _. split; [intros x []|constructor].
  - apply Forall_app in O as [O Oe]. apply Forall_inv in Oe. apply run_unsnoc in R as (c1 & e1 & e2 & R1 & St).
    destruct (IH O _ _ R1) as [A B]. destruct (step_ranged opts c1 e c e2 (reached_ok _ _ _ _ R1) Oe St A) as [A' B'].
    split; [exact A'|]. rewrite (log_snoc _ _ _ _ _ _ R1 _ _ St). apply Forall_app. now split.
Qed.

(** ** Concrete histories *)
Lemma news_peer c d now now2 en i f proto ttl attrs x : news c (CRecv d now now2) en -> carries d i 0 0 f -> bytes f ->
  60 <= zlen f <= 1518 -> advert 0 f proto ttl attrs -> nth 0 (report attrs) None = x -> nth 0 (q_peer en) None = x.
Proof.
  intros (d' & now' & now2' & i' & p' & f' & s' & pr' & ttl' & at' & E' & B1 & B2 & B3 & B4 & B5 & B6 & B7 & ->) Hc Hb Hl Ad E.
  injection E' as <- <- <-. destruct (carries_inj _ _ _ _ _ _ _ _ _ (proj2 Hl) (proj2 B2) Hc B4) as (<- & <- & <-).
  destruct (advert_fun _ _ _ _ _ _ _ _ B3 B1 B2 Ad B5) as (_ & _ & E3). cbn [q_peer]. now rewrite <- E3.
Qed.
