(** Tail queues are lists (C111). *)
From Verif Require Import Base Types Util Child Queue Spec SpecQueue Lemmas.

Definition load (q : tailq) (s : pslot) : Z := match s with SNull => 0 | SHead => tq_first q | SNext e => tq_next q e end.
Fixpoint seg (q : tailq) (s : pslot) (l : list Z) : Prop :=
  match l with
  | [] => True
  | e :: l' => load q s = e /\ tq_prev q e = s /\ seg q (SNext e) l'
  end.
Fixpoint endslot (s : pslot) (l : list Z) : pslot := match l with [] => s | e :: l' => endslot (SNext e) l' end.
Fixpoint slots (s : pslot) (l : list Z) : list pslot := match l with [] => [] | e :: l' => s :: slots (SNext e) l' end.

Lemma seg_app q : forall l1 s l2, seg q s (l1 ++ l2) <-> seg q s l1 /\ seg q (endslot s l1) l2.
Proof. induction l1 as [|e l1 IH]; intros s l2; cbn [app seg endslot]; [tauto|]. rewrite IH. tauto. Qed.
Lemma end_app : forall l1 s l2, endslot s (l1 ++ l2) = endslot (endslot s l1) l2.
Proof. induction l1 as [|e l1 IH]; intros s l2; cbn [app endslot]; [reflexivity|apply IH]. Qed.
Lemma seg_frame q q' : forall l s, (forall x, In x l -> tq_prev q' x = tq_prev q x) -> (forall t, In t (slots s l) -> load q' t = load q t) ->
  seg q s l -> seg q' s l.
Proof.
  induction l as [|e l IH]; intros s P L H; cbn [seg slots] in *; [exact I|]. destruct H as (H1 & H2 & H3).
  split; [rewrite L; [exact H1|now left]|]. split; [rewrite P; [exact H2|now left]|].
  apply IH; [intros x Hx; apply P; now right|intros t Ht; apply L; now right|exact H3].
Qed.
Lemma slots_in : forall l s t, In t (slots s l) -> t = s \/ exists e, In e l /\ t = SNext e.
Proof.
  induction l as [|e l IH]; intros s t H; cbn in H; [easy|]. destruct H as [<-|H]; [now left|]. apply IH in H. destruct H as [->|(x & Hx & ->)]; right.
  - exists e. split; [now left|reflexivity].
  - exists x. split; [now right|reflexivity].
Qed.
Lemma end_in : forall l s, endslot s l = s \/ exists e, In e l /\ endslot s l = SNext e.
Proof.
  induction l as [|e l IH]; intros s; cbn [endslot]; [now left|]. right. destruct (IH (SNext e)) as [->|(x & Hx & E)].
  - exists e. split; [now left|reflexivity].
  - exists x. split; [now right|exact E].
Qed.
Lemma end_slots : forall l s, NoDup l -> (forall e, s = SNext e -> ~ In e l) -> ~ In (endslot s l) (slots s l).
Proof.
  induction l as [|e l IH]; intros s D H K; cbn in K; [exact K|]. apply NoDup_cons_iff in D as [D1 D2]. destruct K as [K|K].
  - destruct (end_in l (SNext e)) as [E|(x & Hx & E)]; rewrite E in K.
    + apply (H e); [exact K|now left].
    + apply (H x); [exact K|now right].
  - revert K. apply IH; [exact D2|]. intros x Hx. injection Hx as <-. exact D1.
Qed.

Record rep (q : tailq) (l a : list Z) : Prop := mkRep {
  r_seg : seg q SHead l;
  r_end : load q (endslot SHead l) = 0;
  r_last : tq_last q = endslot SHead l;
  r_nodup : NoDup l;
  r_incl : incl l a;
  r_zero : ~ In 0 a;
  r_live : allocated q a }.

Lemma inb_in e l : inb e l = true <-> In e l.
Proof. unfold inb. rewrite existsb_exists. split; [intros (x & H & E); apply Z.eqb_eq in E; now subst x|intros H; exists e; now rewrite Z.eqb_refl]. Qed.
Lemma inb_notin e l : inb e l = false <-> ~ In e l.
Proof. rewrite <- inb_in. destruct (inb e l); intuition congruence. Qed.
Lemma live_in q a e : allocated q a -> In e a -> tq_live q e = true.
Proof. intros A H. rewrite A. now apply inb_in. Qed.
Lemma upd_same {A} (f : Z -> A) e v : upd f e v e = v. Proof. unfold upd. now rewrite Z.eqb_refl. Qed.
Lemma upd_other {A} (f : Z -> A) e v x : x <> e -> upd f e v x = f x.
Proof. intros H. unfold upd. now rewrite (proj2 (Z.eqb_neq x e) H). Qed.
Lemma without_notin e l : ~ In e l -> without e l = l.
Proof.
  induction l as [|x l IH]; intros H; cbn; [reflexivity|]. destruct (x =? e) eqn:E; [apply Z.eqb_eq in E; subst; exfalso; apply H; now left|].
  cbn. f_equal. apply IH. intros K. apply H. now right.
Qed.
Lemma without_mid e l1 l2 : NoDup (l1 ++ e :: l2) -> without e (l1 ++ e :: l2) = l1 ++ l2.
Proof.
  intros D. assert (N : ~ In e l1 /\ ~ In e l2) by (apply NoDup_remove_2 in D; rewrite in_app_iff in D; tauto). destruct N as [N1 N2].
  unfold without. rewrite filter_app. cbn. rewrite Z.eqb_refl. cbn. fold (without e l1). fold (without e l2). now rewrite !without_notin.
Qed.
Lemma behind_mid p e l1 l2 : ~ In p l1 -> behind p e (l1 ++ p :: l2) = l1 ++ p :: e :: l2.
Proof.
  induction l1 as [|x l1 IH]; intros H; cbn; [now rewrite Z.eqb_refl|]. destruct (x =? p) eqn:E; [apply Z.eqb_eq in E; subst; exfalso; apply H; now left|].
  f_equal. apply IH. intros K. apply H. now right.
Qed.
Lemma in_without e x l : In x (without e l) <-> In x l /\ x <> e.
Proof. unfold without. rewrite filter_In. destruct (x =? e) eqn:E; cbn; split; intros [H K]; split; auto; try discriminate; lia. Qed.

Lemma rep_init : rep tq_init [] [].
Proof. constructor; cbn; try easy; try constructor. Qed.

(** ** Walking *)
Lemma seg_live q l a e : rep q l a -> In e l -> tq_live q e = true.
Proof. intros R H. apply (live_in q a); [apply (r_live _ _ _ R)|now apply (r_incl _ _ _ R)]. Qed.
Lemma nonzero q l a e : rep q l a -> In e l -> e <> 0.
Proof. intros R H ->. apply (r_zero _ _ _ R). now apply (r_incl _ _ _ R). Qed.
Lemma walk q : forall l s fuel, seg q s l -> load q (endslot s l) = 0 -> (forall e, In e l -> e <> 0 /\ tq_live q e = true) -> (length l < fuel)%nat ->
  foreach fuel (load q s) q = DOk l.
Proof.
  induction l as [|e l IH]; intros s [|fuel] S E H F; cbn [length] in F; try lia; cbn [foreach].
  - cbn [endslot] in E. now rewrite E.
  - cbn [seg endslot] in *. destruct S as (S1 & S2 & S3). rewrite S1. destruct (H e (or_introl eq_refl)) as [H1 H2].
    rewrite (proj2 (Z.eqb_neq e 0) H1). unfold get_next at 1. rewrite H2. cbn [dbind].
    change (tq_next q e) with (load q (SNext e)). rewrite (IH _ fuel S3 E); [reflexivity|intros x Hx; apply H; now right|lia].
Qed.
Lemma rep_shows q l a : rep q l a -> shows q l.
Proof.
  intros R fuel F. change (tq_first q) with (load q SHead). apply walk; [apply (r_seg _ _ _ R)|apply (r_end _ _ _ R)| |exact F].
  intros e H. split; [now apply (nonzero q l a)|now apply (seg_live q l a)].
Qed.

(** ** The operations *)
Lemma step_new e q l a : rep q l a -> e <> 0 -> ~ In e a -> exists q', tq_new e q = DOk q' /\ rep q' l (e :: a).
Proof.
  intros R Z0 N. unfold tq_new. rewrite (proj2 (Z.eqb_neq e 0) Z0), (r_live _ _ _ R), (proj2 (inb_notin e a) N). cbn [orb]. eexists. split; [reflexivity|].
  assert (NL : ~ In e l) by (intros K; apply N; now apply (r_incl _ _ _ R)).
  assert (LD : forall t, t = SHead \/ (exists x, In x l /\ t = SNext x) ->
    load (mkTq (tq_first q) (tq_last q) (upd (tq_next q) e 0) (upd (tq_prev q) e SNull) (upd (tq_live q) e true)) t = load q t).
  { intros t [->|(x & Hx & ->)]; [reflexivity|]. cbn. apply upd_other. now intros ->. }
  constructor; cbn [tq_first tq_last tq_next tq_prev tq_live].
  - eapply seg_frame; [| |apply (r_seg _ _ _ R)]; [intros x Hx; cbn; apply upd_other; now intros ->|intros t Ht; apply LD; now apply slots_in].
  - rewrite LD; [apply (r_end _ _ _ R)|apply end_in].
  - apply (r_last _ _ _ R).
  - apply (r_nodup _ _ _ R).
  - intros x Hx. right. now apply (r_incl _ _ _ R).
  - intros [K|K]; [now apply Z0|now apply (r_zero _ _ _ R)].
  - intros x. cbn [tq_live]. unfold upd, inb. cbn [existsb]. destruct (x =? e); [reflexivity|]. cbn. apply (r_live _ _ _ R).
Qed.
Lemma step_free e q l a : rep q l a -> In e a -> ~ In e l -> exists q', tq_free e q = DOk q' /\ rep q' l (without e a).
Proof.
  intros R H N. unfold tq_free. rewrite (live_in q a) by (auto; apply (r_live _ _ _ R)). eexists. split; [reflexivity|].
  constructor; cbn [tq_first tq_last tq_next tq_prev tq_live]; try (now apply R).
  - eapply seg_frame; [| |apply (r_seg _ _ _ R)]; [reflexivity|now intros [| |x]].
  - intros x Hx. apply in_without. split; [now apply (r_incl _ _ _ R)|now intros ->].
  - rewrite in_without. intros [K _]. now apply (r_zero _ _ _ R).
  - intros x. cbn [tq_live]. unfold upd. destruct (x =? e) eqn:E.
    + apply Z.eqb_eq in E. subst x. symmetry. apply inb_notin. rewrite in_without. tauto.
    + rewrite (r_live _ _ _ R). apply eq_true_iff_eq. rewrite !inb_in, in_without. apply Z.eqb_neq in E. tauto.
Qed.
Lemma NoDup_snoc (l : list Z) e : NoDup l -> ~ In e l -> NoDup (l ++ [e]).
Proof.
  induction l as [|x l IH]; intros D N; cbn; [constructor; [easy|constructor]|]. apply NoDup_cons_iff in D as [D1 D2]. constructor.
  - rewrite in_app_iff. intros [K|[K|[]]]; [now apply D1|]. apply N. now left.
  - apply IH; [exact D2|]. intros K. apply N. now right.
Qed.
Lemma NoDup_mid (l1 l2 : list Z) e : NoDup (l1 ++ l2) -> ~ In e (l1 ++ l2) -> NoDup (l1 ++ e :: l2).
Proof.
  induction l1 as [|x l1 IH]; intros D N; cbn in *; [now constructor|]. apply NoDup_cons_iff in D as [D1 D2]. constructor.
  - rewrite in_app_iff in *. intros [K|[K|K]]; [tauto| |tauto]. apply N. now left.
  - apply IH; [exact D2|]. intros K. apply N. now right.
Qed.

Lemma step_tail e q l a : rep q l a -> In e a -> ~ In e l -> exists q', insert_tail e q = DOk q' /\ rep q' (l ++ [e]) a.
Proof.
  intros R H N. pose proof (live_in q a e (r_live _ _ _ R) H) as LV. unfold insert_tail, put_next, put_prev.
  rewrite LV. cbn [dbind tq_first tq_last tq_next tq_prev tq_live]. rewrite LV. cbn [dbind tq_first tq_last tq_next tq_prev tq_live].
  rewrite (r_last _ _ _ R). set (t := endslot SHead l).
  assert (T : t = SHead \/ exists x, In x l /\ t = SNext x) by apply end_in.
  set (q1 := mkTq (tq_first q) t (upd (tq_next q) e 0) (upd (tq_prev q) e t) (tq_live q)).
  assert (Q2 : exists q2, store t e q1 = DOk q2 /\ load q2 t = e /\ (forall u, u <> t -> load q2 u = load q1 u) /\ tq_prev q2 = tq_prev q1 /\ tq_live q2 = tq_live q1).
  { destruct T as [T|(x & Hx & T)]; rewrite T; unfold store, put_next.
    - eexists. split; [reflexivity|]. split; [reflexivity|]. split; [now intros [| |y]|now split].
    - subst q1. cbn [tq_live]. rewrite (seg_live q l a x R Hx). eexists. split; [reflexivity|]. cbn [load tq_next tq_first]. split; [apply upd_same|].
      split; [|now split]. intros [| |y] Hu; try reflexivity. cbn. apply upd_other. congruence. }
  destruct Q2 as (q2 & -> & L1 & L2 & PV & LI). cbn [dbind]. eexists. split; [reflexivity|].
  assert (LQ : forall u, load (put_last (SNext e) q2) u = load q2 u) by now intros [| |u].
  assert (TE : SNext e <> t) by (destruct T as [->|(x & Hx & ->)]; [discriminate|]; intros K; injection K as ->; contradiction).
  constructor.
  - apply seg_app. split.
    + apply (seg_frame q); [| |apply (r_seg _ _ _ R)].
      * intros x Hx. change (tq_prev (put_last (SNext e) q2)) with (tq_prev q2). rewrite PV. cbn. apply upd_other. now intros ->.
      * intros u Hu. rewrite LQ, L2.
        { apply slots_in in Hu. destruct Hu as [->|(x & Hx & ->)]; [reflexivity|]. cbn. apply upd_other. now intros ->. }
        { intros ->. revert Hu. apply end_slots; [apply (r_nodup _ _ _ R)|discriminate]. }
    + fold t. cbn [seg]. rewrite LQ, L1. split; [reflexivity|]. split; [|exact I]. change (tq_prev (put_last (SNext e) q2)) with (tq_prev q2). rewrite PV. cbn. apply upd_same.
  - rewrite end_app. cbn [endslot]. rewrite LQ, L2 by exact TE. cbn. apply upd_same.
  - rewrite end_app. reflexivity.
  - now apply NoDup_snoc; [apply (r_nodup _ _ _ R)|].
  - intros x Hx. apply in_app_iff in Hx as [Hx|[<-|[]]]; [now apply (r_incl _ _ _ R)|exact H].
  - apply (r_zero _ _ _ R).
  - intros x. change (tq_live (put_last (SNext e) q2)) with (tq_live q2). rewrite LI. apply (r_live _ _ _ R).
Qed.

(** Writing through a slot that is the head or belongs to an allocated element. *)
Definition valid (q : tailq) (t : pslot) : Prop := t = SHead \/ exists x, tq_live q x = true /\ t = SNext x.
Lemma store_ok q t v : valid q t -> exists q', store t v q = DOk q' /\ load q' t = v /\ (forall u, u <> t -> load q' u = load q u)
  /\ tq_prev q' = tq_prev q /\ tq_live q' = tq_live q /\ tq_last q' = tq_last q.
Proof.
  intros [->|(x & Hx & ->)]; unfold store, put_next.
  - eexists. split; [reflexivity|]. split; [reflexivity|]. split; [now intros [| |y]|now repeat split].
  - rewrite Hx. eexists. split; [reflexivity|]. cbn [load tq_next tq_first]. split; [apply upd_same|].
    split; [|now repeat split]. intros [| |y] Hu; try reflexivity. cbn. apply upd_other. congruence.
Qed.
Lemma end_valid q l a l1 l2 : rep q l a -> l = l1 ++ l2 -> valid q (endslot SHead l1).
Proof.
  intros R ->. destruct (end_in l1 SHead) as [->|(x & Hx & ->)]; [now left|]. right. exists x. split; [|reflexivity].
  apply (seg_live q (l1 ++ l2) a); [exact R|]. apply in_app_iff. now left.
Qed.
Lemma hd_next q s l : seg q s l -> load q (endslot s l) = 0 -> load q s = hd 0 l.
Proof. destruct l as [|e l]; cbn; [now intros _ ->|now intros (-> & _) _]. Qed.
Lemma disjoint (l1 l2 : list Z) x : NoDup (l1 ++ l2) -> In x l1 -> In x l2 -> False.
Proof.
  induction l1 as [|y l1 IH]; intros D H K; [easy|]. cbn in D. apply NoDup_cons_iff in D as [D1 D2]. destruct H as [->|H]; [|now apply IH].
  apply D1, in_app_iff. now right.
Qed.

Lemma step_remove e q l a : rep q l a -> In e l -> exists q', tq_remove e q = DOk q' /\ rep q' (without e l) a.
Proof.
  intros R H. apply in_split in H as (l1 & l2 & ->). pose proof (r_nodup _ _ _ R) as D. rewrite (without_mid e l1 l2 D).
  pose proof (NoDup_remove_1 _ _ _ D) as D'. pose proof (NoDup_remove_2 _ _ _ D) as N. rewrite in_app_iff in N.
  pose proof (r_seg _ _ _ R) as S. apply seg_app in S as [S1 S2]. cbn [seg] in S2. destruct S2 as (S2 & S3 & S4).
  pose proof (r_end _ _ _ R) as E. rewrite end_app in E. cbn [endslot] in E.
  pose proof (r_last _ _ _ R) as L. rewrite end_app in L. cbn [endslot] in L.
  set (m := endslot SHead l1) in *.
  assert (LE : tq_live q e = true) by (apply (seg_live q (l1 ++ e :: l2) a); [exact R|apply in_app_iff; right; now left]).
  assert (V : valid q m) by (exact (end_valid q _ a l1 (e :: l2) R eq_refl)).
  assert (NX : tq_next q e = hd 0 l2) by (change (tq_next q e) with (load q (SNext e)); now apply hd_next).
  assert (M1 : forall x, m = SNext x -> In x l1).
  { intros x Hx. destruct (end_in l1 SHead) as [K|(y & Hy & K)]; fold m in K; rewrite K in Hx; [discriminate|]. now injection Hx as <-. }
  assert (MS : ~ In m (slots SHead l1)) by (apply end_slots; [|discriminate]; clear -D; induction l1; [constructor|]; cbn in D; apply NoDup_cons_iff in D as [D1 D2]; constructor; [rewrite in_app_iff in D1; tauto|auto]).
  unfold tq_remove, get_next, get_prev. rewrite LE. cbn [dbind]. rewrite NX, S3.
  destruct l2 as [|n l2]; cbn [hd].
  - cbn [negb Z.eqb dbind]. change (tq_live (put_last m q) e) with (tq_live q e). rewrite LE. cbn [dbind]. change (tq_prev (put_last m q)) with (tq_prev q).
    change (tq_next (put_last m q)) with (tq_next q). rewrite S3, NX. cbn [hd].
    destruct (store_ok (put_last m q) m 0) as (q' & -> & L1 & L2 & P' & V' & T'); [exact V|].
    eexists. split; [reflexivity|]. rewrite app_nil_r in *.
    assert (LQ : forall u, load (put_last m q) u = load q u) by now intros [| |u].
    constructor.
    + apply (seg_frame q); [intros x _; now rewrite P'| |exact S1]. intros u Hu. rewrite L2; [apply LQ|]. now intros ->.
    + exact L1.
    + rewrite T'. reflexivity.
    + exact D'.
    + intros x Hx. apply (r_incl _ _ _ R), in_app_iff. now left.
    + apply (r_zero _ _ _ R).
    + intros x. rewrite V'. apply (r_live _ _ _ R).
  - assert (NI : In n (l1 ++ e :: n :: l2)) by (apply in_app_iff; right; right; now left).
    rewrite (proj2 (Z.eqb_neq n 0) (nonzero q _ a n R NI)). cbn [negb]. unfold put_prev. rewrite (seg_live q _ a n R NI). cbn [dbind tq_live tq_prev tq_next].
    rewrite LE. cbn [dbind]. rewrite NX. cbn [hd]. cbn [seg] in S4. destruct S4 as (S4 & S5 & S6).
    assert (NE : e <> n) by (intros ->; apply N; right; now left). rewrite (upd_other _ _ _ _ NE), S3.
    set (q1 := mkTq (tq_first q) (tq_last q) (tq_next q) (upd (tq_prev q) n m) (tq_live q)).
    destruct (store_ok q1 m n) as (q' & -> & L1 & L2 & P' & V' & T'); [exact V|]. eexists. split; [reflexivity|].
    assert (LQ : forall u, load q1 u = load q u) by now intros [| |u].
    assert (NM : forall x, In x (e :: n :: l2) -> SNext x <> m).
    { intros x Hx K. symmetry in K. apply M1 in K. exact (disjoint _ _ _ D K Hx). }
    constructor.
    + apply seg_app. split.
      * apply (seg_frame q); [| |exact S1].
        { intros x Hx. rewrite P'. cbn. apply upd_other. intros ->. apply (disjoint _ _ n D Hx). right. now left. }
        { intros u Hu. rewrite L2, LQ; [reflexivity|]. now intros ->. }
      * fold m. cbn [seg]. split; [exact L1|]. split; [rewrite P'; cbn; apply upd_same|].
        apply (seg_frame q); [| |exact S6].
        { intros x Hx. rewrite P'. cbn. apply upd_other. intros ->.
          assert (DD : NoDup (n :: l2)) by (clear -D'; induction l1; [exact D'|]; cbn in D'; apply NoDup_cons_iff in D'; tauto).
          apply NoDup_cons_iff in DD. tauto. }
        { intros u Hu. rewrite L2, LQ; [reflexivity|]. apply slots_in in Hu. destruct Hu as [->|(x & Hx & ->)]; apply NM; [right; now left|right; now right]. }
    + rewrite end_app. fold m. cbn [endslot]. cbn [endslot] in E. rewrite L2, LQ; [exact E|].
      destruct (end_in l2 (SNext n)) as [->|(x & Hx & ->)]; apply NM; [right; now left|right; now right].
    + rewrite T'. cbn. rewrite L, end_app. reflexivity.
    + exact D'.
    + intros x Hx. apply (r_incl _ _ _ R). rewrite in_app_iff in *. cbn in *. tauto.
    + apply (r_zero _ _ _ R).
    + intros x. rewrite V'. apply (r_live _ _ _ R).
Qed.

Lemma step_after p e q l a : rep q l a -> In p l -> In e a -> ~ In e l -> exists q', tq_after p e q = DOk q' /\ rep q' (behind p e l) a.
Proof.
  intros R H HE NE. apply in_split in H as (l1 & l2 & ->). pose proof (r_nodup _ _ _ R) as D.
  assert (NP : ~ In p l1 /\ ~ In p l2) by (apply NoDup_remove_2 in D; rewrite in_app_iff in D; tauto). destruct NP as [NP1 NP2].
  rewrite behind_mid by exact NP1.
  pose proof (r_seg _ _ _ R) as S. apply seg_app in S as [S1 S2]. cbn [seg] in S2. destruct S2 as (S2 & S3 & S4).
  pose proof (r_end _ _ _ R) as E. rewrite end_app in E. cbn [endslot] in E.
  pose proof (r_last _ _ _ R) as L. rewrite end_app in L. cbn [endslot] in L.
  pose proof (seg_live q _ a p R ltac:(apply in_app_iff; right; now left)) as LP.
  pose proof (live_in q a e (r_live _ _ _ R) HE) as LE.
  assert (PE : p <> e) by (intros ->; apply NE, in_app_iff; right; now left).
  assert (EP : e <> p) by congruence.
  assert (NX : tq_next q p = hd 0 l2) by (change (tq_next q p) with (load q (SNext p)); now apply hd_next).
  assert (NE1 : ~ In e l1 /\ ~ In e l2) by (rewrite in_app_iff in NE; cbn in NE; tauto). destruct NE1 as [NE1 NE2].
  set (m := endslot SHead l1) in *.
  assert (M1 : forall x, In x (e :: p :: l2) -> m <> SNext x).
  { intros x Hx K. destruct (end_in l1 SHead) as [K1|(y & Hy & K1)]; fold m in K1; rewrite K1 in K; [discriminate|]. injection K as ->.
    destruct Hx as [<-|Hx]; [contradiction|]. exact (disjoint _ _ _ D Hy Hx). }
  assert (SL : forall u, In u (slots SHead l1) -> u <> SNext p /\ u <> SNext e).
  { intros u Hu. apply slots_in in Hu. destruct Hu as [->|(x & Hx & ->)]; [split; discriminate|]. split; intros K; injection K as ->; contradiction. }
  unfold tq_after, get_next at 1. rewrite LP. cbn [dbind]. unfold put_next at 1. rewrite LE. cbn [dbind]. unfold get_next. cbn [tq_live tq_next].
  rewrite LE. cbn [dbind]. rewrite upd_same, NX. destruct l2 as [|n l2]; cbn [hd].
  - cbn [negb Z.eqb dbind]. unfold put_last, put_next. cbn [tq_live tq_first tq_last tq_next tq_prev]. rewrite LP. cbn [dbind].
    unfold put_prev. cbn [tq_live tq_first tq_last tq_next tq_prev]. rewrite LE. eexists. split; [reflexivity|].
    set (q' := mkTq _ _ _ _ _).
    assert (LO : forall u, u <> SNext p -> u <> SNext e -> load q' u = load q u).
    { intros [| |u] K1 K2; try reflexivity. cbn. rewrite !upd_other by congruence. reflexivity. }
    assert (PO : forall x, x <> e -> tq_prev q' x = tq_prev q x) by (intros x Hx; cbn; now apply upd_other).
    constructor.
    + apply seg_app. split.
      * apply (seg_frame q); [intros x Hx; apply PO; now intros ->| |exact S1]. intros u Hu. now apply LO; apply SL.
      * fold m. cbn [seg]. split; [rewrite LO; [exact S2| |]; apply M1; [right; now left|now left]|]. split; [rewrite PO by exact PE; exact S3|].
        split; [cbn; apply upd_same|]. split; [cbn; apply upd_same|exact I].
    + rewrite end_app. cbn [endslot]. cbn. rewrite upd_other by exact EP. apply upd_same.
    + rewrite end_app. reflexivity.
    + replace (l1 ++ [p; e]) with ((l1 ++ [p]) ++ [e]) by (rewrite <- app_assoc; reflexivity). now apply NoDup_snoc.
    + intros x Hx. rewrite in_app_iff in Hx. destruct Hx as [Hx|[<-|[<-|[]]]]; [|apply (r_incl _ _ _ R), in_app_iff; right; now left|exact HE].
      apply (r_incl _ _ _ R), in_app_iff. now left.
    + apply (r_zero _ _ _ R).
    + exact (r_live _ _ _ R).
  - assert (NI : In n (l1 ++ p :: n :: l2)) by (apply in_app_iff; right; right; now left).
    rewrite (proj2 (Z.eqb_neq n 0) (nonzero q _ a n R NI)). cbn [negb]. unfold put_prev at 1. cbn [tq_live tq_first tq_last tq_next tq_prev].
    rewrite (seg_live q _ a n R NI). cbn [dbind]. unfold put_next. cbn [tq_live tq_first tq_last tq_next tq_prev]. rewrite LP. cbn [dbind].
    unfold put_prev. cbn [tq_live tq_first tq_last tq_next tq_prev]. rewrite LE. eexists. split; [reflexivity|]. set (q' := mkTq _ _ _ _ _).
    assert (LO : forall u, u <> SNext p -> u <> SNext e -> load q' u = load q u).
    { intros [| |u] K1 K2; try reflexivity. cbn. rewrite !upd_other by congruence. reflexivity. }
    assert (PO : forall x, x <> e -> x <> n -> tq_prev q' x = tq_prev q x) by (intros x K1 K2; cbn; now rewrite !upd_other).
    assert (N1 : n <> e) by (intros ->; apply NE2; now left).
    assert (N2 : n <> p) by (intros ->; apply NP2; now left).
    cbn [seg] in S4. destruct S4 as (S4 & S5 & S6).
    assert (DD : NoDup (n :: l2)) by (clear -D; induction l1; cbn in D; apply NoDup_cons_iff in D; [tauto|now apply IHl1]). apply NoDup_cons_iff in DD as [DD _].
    constructor.
    + apply seg_app. split.
      * apply (seg_frame q); [intros x Hx; apply PO; [now intros ->|]| |exact S1].
        { intros ->. apply (disjoint _ _ n D Hx). right. now left. }
        { intros u Hu. now apply LO; apply SL. }
      * fold m. cbn [seg]. split; [rewrite LO; [exact S2| |]; apply M1; [right; now left|now left]|]. split; [rewrite PO; [exact S3|exact PE|congruence]|].
        split; [cbn; apply upd_same|]. split; [cbn; apply upd_same|]. split; [cbn; rewrite upd_other by exact EP; apply upd_same|].
        split; [cbn; rewrite upd_other by exact N1; apply upd_same|]. apply (seg_frame q); [| |exact S6].
        { intros x Hx. apply PO; [intros ->; apply NE2; now right|intros ->; contradiction]. }
        { intros u Hu. apply slots_in in Hu. apply LO; destruct Hu as [->|(x & Hx & ->)]; intros K; injection K as ->; try contradiction; [apply NP2|apply NE2]; now right. }
    + rewrite end_app. cbn [endslot]. cbn [endslot] in E. rewrite LO; [exact E| |];
        destruct (end_in l2 (SNext n)) as [->|(x & Hx & ->)]; intros K; injection K as ->; try contradiction; [apply NP2|apply NE2]; now right.
    + rewrite end_app. cbn [endslot]. exact L.
    + replace (l1 ++ p :: e :: n :: l2) with ((l1 ++ [p]) ++ e :: n :: l2) by (rewrite <- app_assoc; reflexivity).
      apply NoDup_mid; rewrite <- app_assoc; assumption.
    + intros x Hx. rewrite in_app_iff in Hx. cbn in Hx.
      destruct Hx as [Hx|[<-|[<-|Hx]]]; [| |exact HE|]; apply (r_incl _ _ _ R), in_app_iff; cbn; tauto.
    + apply (r_zero _ _ _ R).
    + exact (r_live _ _ _ R).
Qed.

(** ** Runs *)
Lemma step_rep o q l a l' a' : rep q l a -> lstep o (l, a) = Some (l', a') -> exists q', tq_step o q = DOk q' /\ rep q' l' a'.
Proof.
  intros R. destruct o as [e|e|p e|e|e]; cbn [lstep tq_step].
  - destruct (e =? 0) eqn:Z0; [discriminate|]. destruct (inb e a) eqn:I; [discriminate|]. cbn. intros [= <- <-]. apply step_new; [exact R|lia|now apply inb_notin].
  - destruct (inb e a) eqn:I; [|discriminate]. destruct (inb e l) eqn:J; [discriminate|]. cbn. intros [= <- <-].
    apply step_tail; [exact R|now apply inb_in|now apply inb_notin].
  - destruct (inb p l) eqn:P; [|discriminate]. destruct (inb e a) eqn:I; [|discriminate]. destruct (inb e l) eqn:J; [discriminate|]. cbn. intros [= <- <-].
    apply step_after; [exact R|now apply inb_in|now apply inb_in|now apply inb_notin].
  - destruct (inb e l) eqn:I; [|discriminate]. intros [= <- <-]. apply step_remove; [exact R|now apply inb_in].
  - destruct (inb e a) eqn:I; [|discriminate]. destruct (inb e l) eqn:J; [discriminate|]. cbn. intros [= <- <-].
    apply step_free; [exact R|now apply inb_in|now apply inb_notin].
Qed.
Lemma run_rep : forall ops q l a l' a', rep q l a -> lrun ops (l, a) = Some (l', a') -> exists q', tq_run ops q = DOk q' /\ rep q' l' a'.
Proof.
  induction ops as [|o ops IH]; intros q l a l' a' R; cbn [lrun tq_run]; [intros [= <- <-]; now exists q|].
  destruct (lstep o (l, a)) as [[l1 a1]|] eqn:E; [|discriminate]. destruct (step_rep o q l a l1 a1 R E) as (q1 & -> & R1). cbn [dbind]. now apply IH.
Qed.
Lemma holds_rep q l a : holds q l a -> rep q l a.
Proof. intros (ops & L & T). destruct (run_rep ops tq_init [] [] l a rep_init L) as (q' & T' & R). rewrite T in T'. now injection T' as <-. Qed.
Lemma lists ops l a : lrun ops ([], []) = Some (l, a) -> exists q, tq_run ops tq_init = DOk q /\ shows q l /\ allocated q a.
Proof.
  intros L. destruct (run_rep ops tq_init [] [] l a rep_init L) as (q & T & R). exists q. split; [exact T|]. split; [now apply (rep_shows q l a)|apply (r_live _ _ _ R)].
Qed.
Lemma lrun_app : forall o1 o2 s, lrun (o1 ++ o2) s = match lrun o1 s with Some s' => lrun o2 s' | None => None end.
Proof. induction o1 as [|o o1 IH]; intros o2 s; cbn; [reflexivity|]. destruct (lstep o s); [apply IH|reflexivity]. Qed.
Lemma tqrun_app : forall o1 o2 q, tq_run (o1 ++ o2) q = dbind (tq_run o1 q) (tq_run o2).
Proof. induction o1 as [|o o1 IH]; intros o2 q; cbn; [reflexivity|]. destruct (tq_step o q); cbn; [apply IH|reflexivity..]. Qed.
Lemma holds_more q l a ops q' l' a' : holds q l a -> tq_run ops q = DOk q' -> lrun ops (l, a) = Some (l', a') -> holds q' l' a'.
Proof. intros (o & L & T) T' L'. exists (o ++ ops). split; [now rewrite lrun_app, L|rewrite tqrun_app, T; exact T']. Qed.

(** ** Loops that remove *)
Lemma holds_step o q l a l' a' : holds q l a -> lstep o (l, a) = Some (l', a') -> exists q', tq_step o q = DOk q' /\ holds q' l' a'.
Proof.
  intros H E. destruct (step_rep o q l a l' a' (holds_rep _ _ _ H) E) as (q' & T & _). exists q'. split; [exact T|].
  apply (holds_more q l a [o]); [exact H|cbn; now rewrite T|cbn [lrun]; now rewrite E].
Qed.
Lemma removing_ok gone : forall l2 l1 a q fuel, holds q (l1 ++ l2) a -> (length l2 < fuel)%nat ->
  exists q', removing fuel gone (hd 0 l2) q = DOk (l2, q')
  /\ holds q' (l1 ++ filter (fun e => negb (gone e)) l2) (filter (fun e => negb (inb e l2 && gone e)) a).
Proof.
  induction l2 as [|e l2 IH]; intros l1 a q [|fuel] H F; cbn [length] in F; try lia; cbn [removing hd].
  - exists q. split; [reflexivity|]. cbn [filter inb existsb andb negb]. rewrite app_nil_r in *.
    replace (filter (fun _ : Z => true) a) with a; [exact H|]. clear. induction a as [|x a IH]; cbn; [reflexivity|now f_equal].
  - pose proof (holds_rep _ _ _ H) as R. assert (I : In e (l1 ++ e :: l2)) by (apply in_app_iff; right; now left).
    rewrite (proj2 (Z.eqb_neq e 0) (nonzero q _ a e R I)). unfold get_next. rewrite (seg_live q _ a e R I). cbn [dbind].
    pose proof (r_nodup _ _ _ R) as D.
    assert (NX : tq_next q e = hd 0 l2).
    { pose proof (r_seg _ _ _ R) as S. apply seg_app in S as [_ S]. cbn [seg] in S. destruct S as (_ & _ & S).
      pose proof (r_end _ _ _ R) as E. rewrite end_app in E. cbn [endslot] in E. change (tq_next q e) with (load q (SNext e)). now apply hd_next. }
    rewrite NX. assert (N : ~ In e l1 /\ ~ In e l2) by (apply NoDup_remove_2 in D; rewrite in_app_iff in D; tauto). destruct N as [N1 N2].
    destruct (gone e) eqn:G.
    + destruct (holds_step (TRemove e) q (l1 ++ e :: l2) a (l1 ++ l2) a H) as (q1 & T1 & H1).
      { cbn. rewrite (proj2 (inb_in e _) I). now rewrite without_mid. }
      cbn [tq_step] in T1. rewrite T1. cbn [dbind].
      destruct (holds_step (TFree e) q1 (l1 ++ l2) a (l1 ++ l2) (without e a) H1) as (q2 & T2 & H2).
      { cbn. rewrite (proj2 (inb_in e a)) by now apply (r_incl _ _ _ R). rewrite (proj2 (inb_notin e (l1 ++ l2))) by (rewrite in_app_iff; tauto). reflexivity. }
      cbn [tq_step] in T2. rewrite T2. cbn [dbind]. destruct (IH l1 (without e a) q2 fuel H2) as (q' & -> & H'); [lia|]. cbn [dbind].
      exists q'. split; [reflexivity|]. cbn [filter]. rewrite G. cbn [negb].
      replace (filter (fun e0 => negb (inb e0 (e :: l2) && gone e0)) a) with (filter (fun e0 => negb (inb e0 l2 && gone e0)) (without e a)); [exact H'|].
      clear -G. unfold without. induction a as [|x a IH]; cbn; [reflexivity|]. destruct (x =? e) eqn:E; cbn.
      * apply Z.eqb_eq in E. subst x. rewrite G. cbn. exact IH.
      * fold (inb x l2). destruct (inb x l2 && gone x); cbn; now rewrite IH.
    + cbn [dbind]. replace (l1 ++ e :: l2) with ((l1 ++ [e]) ++ l2) in H by (rewrite <- app_assoc; reflexivity).
      destruct (IH (l1 ++ [e]) a q fuel H) as (q' & -> & H'); [lia|]. cbn [dbind]. exists q'. split; [reflexivity|]. cbn [filter]. rewrite G. cbn [negb].
      rewrite <- app_assoc in H'. cbn [app] in H'.
      replace (filter (fun e0 => negb (inb e0 (e :: l2) && gone e0)) a) with (filter (fun e0 => negb (inb e0 l2 && gone e0)) a); [exact H'|].
      apply filter_ext. intros x. cbn. destruct (x =? e) eqn:E; cbn; [apply Z.eqb_eq in E; subst x; now rewrite G, andb_false_r|reflexivity].
Qed.
Lemma removing_all gone q l a fuel : holds q l a -> (length l < fuel)%nat ->
  exists q', removing fuel gone (tq_first q) q = DOk (l, q')
  /\ holds q' (filter (fun e => negb (gone e)) l) (filter (fun e => negb (inb e l && gone e)) a).
Proof.
  intros H F. replace (tq_first q) with (hd 0 l); [now apply (removing_ok gone l [])|]. pose proof (holds_rep _ _ _ H) as R.
  change (tq_first q) with (load q SHead). symmetry. apply hd_next; apply R.
Qed.
