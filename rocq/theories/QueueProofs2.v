(** The message queue in memory (C111). *)
From Verif Require Import Base Types Util Child Queue Spec SpecQueue Lemmas QueueProofs.

Definition named (val : Z -> entry) (l : list Z) : Prop := forall e, In e l -> q_id (val e) = e.
Lemma named_ids val : forall l, named val l -> map q_id (map val l) = l.
Proof. induction l as [|e l IH]; intros N; cbn; [reflexivity|]. rewrite (N e) by now left. f_equal. apply IH. intros x Hx. apply N. now right. Qed.
Lemma next_of q l1 e l2 a : rep q (l1 ++ e :: l2) a -> tq_next q e = hd 0 l2.
Proof.
  intros R. pose proof (r_seg _ _ _ R) as S. apply seg_app in S as [_ S]. cbn [seg] in S. destruct S as (_ & _ & S).
  pose proof (r_end _ _ _ R) as E. rewrite end_app in E. cbn [endslot] in E. change (tq_next q e) with (load q (SNext e)). now apply hd_next.
Qed.
Definition addr (o : option Z) : Z := match o with Some e => e | None => 0 end.
Lemma find_ok val index proto hdr q a : forall l2 l1 fuel pm, rep q (l1 ++ l2) a -> named val (l1 ++ l2) -> (length l2 < fuel)%nat ->
  (forall p, pm = Some p -> In p l1) ->
  mem_find fuel val index proto hdr (hd 0 l2) (addr pm) q
  = DOk (addr (fst (queue_find index proto hdr (map val l2) pm)), addr (snd (queue_find index proto hdr (map val l2) pm)))
  /\ (forall p, fst (queue_find index proto hdr (map val l2) pm) = Some p -> In p (l1 ++ l2))
  /\ (forall p, snd (queue_find index proto hdr (map val l2) pm) = Some p -> In p (l1 ++ l2)).
Proof.
  induction l2 as [|e l2 IH]; intros l1 [|fuel] pm R N F P; cbn [length] in F; try lia; cbn [mem_find hd map queue_find].
  - cbn [fst snd addr]. split; [reflexivity|]. split; [discriminate|]. intros p Hp. rewrite app_nil_r. now apply P.
  - assert (I : In e (l1 ++ e :: l2)) by (apply in_app_iff; right; now left).
    rewrite (proj2 (Z.eqb_neq e 0) (nonzero q _ a e R I)). unfold get_next. rewrite (seg_live q _ a e R I). cbn [dbind]. rewrite (next_of q l1 e l2 a R).
    rewrite (N e I). replace (l1 ++ e :: l2) with ((l1 ++ [e]) ++ l2) in * by (rewrite <- app_assoc; reflexivity).
    assert (P' : forall p, pm = Some p -> In p (l1 ++ [e])) by (intros p Hp; apply in_app_iff; left; now apply P).
    destruct (negb (index =? q_index (val e))); [apply IH; try assumption; lia|].
    set (pm' := if beq (slice hdr 6 6) (q_src (val e)) then Some e else pm).
    replace (if beq (slice hdr 6 6) (q_src (val e)) then e else addr pm) with (addr pm') by (unfold pm'; now destruct (beq _ _)).
    assert (P2 : forall p, pm' = Some p -> In p (l1 ++ [e])).
    { unfold pm'. destruct (beq _ _); [|exact P']. intros p [= <-]. apply in_app_iff. right. now left. }
    destruct (negb (proto =? q_proto (val e))); [apply IH; try assumption; lia|].
    destruct (negb (beq hdr (slice (q_msg (val e)) 0 12))); [apply IH; try assumption; lia|]. cbn [fst snd addr].
    split; [reflexivity|]. split; [intros p [= <-]; exact I|]. intros p Hp. apply P2 in Hp. rewrite in_app_iff. now left.
Qed.

Lemma map_upd_out (val : Z -> entry) e v : forall l, ~ In e l -> map (upd val e v) l = map val l.
Proof.
  induction l as [|x l IH]; intros N; cbn; [reflexivity|]. rewrite upd_other; [|intros ->; apply N; now left]. f_equal. apply IH. intros K. apply N. now right.
Qed.
Lemma map_replace val e new : forall l, named val l -> map (upd val e (with_id e new)) l = queue_replace e new (map val l).
Proof.
  unfold queue_replace. induction l as [|x l IH]; intros N; cbn; [reflexivity|]. f_equal; [|apply IH; intros y Hy; apply N; now right].
  unfold upd. rewrite (N x) by now left. reflexivity.
Qed.
Lemma map_behind val p e v : forall l, named val l -> ~ In e l -> map (upd val e v) (behind p e l) = insert_after p v (map val l).
Proof.
  induction l as [|x l IH]; intros N NE; cbn; [reflexivity|]. rewrite (N x) by now left.
  assert (XE : x <> e) by (intros ->; apply NE; now left). assert (NL : ~ In e l) by (intros K; apply NE; now right). destruct (x =? p); cbn.
  - rewrite (upd_other val e v x XE), upd_same, map_upd_out by exact NL. reflexivity.
  - rewrite (upd_other val e v x XE). f_equal. apply IH; [|exact NL]. intros y Hy. apply N. now right.
Qed.
Lemma in_behind p e x : forall l, In x (behind p e l) -> x = e \/ In x l.
Proof. induction l as [|y l IH]; cbn; [easy|]. destruct (y =? p); cbn; intuition. Qed.
Lemma behind_len p e : forall l, (length (behind p e l) <= S (length l))%nat.
Proof. induction l as [|y l IH]; cbn; [lia|]. destruct (y =? p); cbn; lia. Qed.
Lemma named_upd val l e v : named val l -> q_id v = e -> named (upd val e v) l.
Proof. intros N V x Hx. unfold upd. destruct (x =? e) eqn:E; [apply Z.eqb_eq in E; congruence|now apply N]. Qed.

(** The memory holds the table: every allocated element is in it. *)
Record mem_table (val : Z -> entry) (q : tailq) (t : list entry) : Prop := mkMt {
  mt_list : list Z;
  mt_alloc : list Z;
  mt_holds : holds q mt_list mt_alloc;
  mt_same : incl mt_alloc mt_list;
  mt_named : named val mt_list;
  mt_vals : map val mt_list = t }.

Lemma put_ok fuel new fresh val q t : mem_table val q t -> (length t < fuel)%nat -> fresh <> 0 -> ~ In fresh (map q_id t) ->
  exists val' q', mem_put fuel new fresh val q = DOk (val', q') /\ mem_table val' q' (fst (queue_put new t fresh))
  /\ (length (fst (queue_put new t fresh)) <= S (length t))%nat.
Proof.
  intros [l a H S N V] F Z0 NF. pose proof (holds_rep _ _ _ H) as R. subst t. rewrite (named_ids val l N) in NF. rewrite map_length in F.
  pose proof (find_ok val (q_index new) (q_proto new) (slice (q_msg new) 0 12) q a l [] fuel None R N F) as (E & I1 & I2); [discriminate|].
  assert (FI : hd 0 l = tq_first q).
  { change (tq_first q) with (load q SHead). symmetry. apply hd_next; apply R. }
  rewrite FI in E. cbn [addr] in E. unfold mem_put. rewrite E. clear E. cbn [dbind]. cbn [app] in *. unfold queue_put.
  destruct (queue_find (q_index new) (q_proto new) (slice (q_msg new) 0 12) (map val l) None) as [msg pm] eqn:E. cbn [fst snd] in I1, I2 |- *.
  destruct msg as [m|]; cbn [addr fst].
  - specialize (I1 m eq_refl). rewrite (proj2 (Z.eqb_neq m 0) (nonzero q l a m R I1)). cbn [negb].
    do 2 eexists. split; [reflexivity|]. split; [|unfold queue_replace; rewrite !map_length; lia].
    apply (mkMt _ _ _ l a); [exact H|exact S|now apply named_upd|now apply map_replace].
  - cbn [Z.eqb negb]. assert (NA : ~ In fresh a) by (intros K; now apply NF, S).
    destruct (holds_step (TNew fresh) q l a l (fresh :: a) H) as (q1 & T1 & H1).
    { cbn. rewrite (proj2 (Z.eqb_neq fresh 0) Z0), (proj2 (inb_notin fresh a) NA). reflexivity. }
    cbn [tq_step] in T1. rewrite T1. cbn [dbind]. destruct pm as [p|]; cbn [addr fst].
    + specialize (I2 p eq_refl). rewrite (proj2 (Z.eqb_neq p 0) (nonzero q l a p R I2)). cbn [negb].
      destruct (holds_step (TAfter p fresh) q1 l (fresh :: a) (behind p fresh l) (fresh :: a) H1) as (q2 & T2 & H2).
      { cbn [lstep]. rewrite (proj2 (inb_in p l) I2), (proj2 (inb_in fresh (fresh :: a)) (or_introl eq_refl)), (proj2 (inb_notin fresh l) NF). reflexivity. }
      cbn [tq_step] in T2. rewrite T2. cbn [dbind]. do 2 eexists. split; [reflexivity|].
      assert (X : map (upd val fresh (with_id fresh new)) (behind p fresh l) = insert_after p (with_id fresh new) (map val l)) by now apply map_behind.
      split; [|rewrite <- X, !map_length; apply behind_len].
      apply (mkMt _ _ _ (behind p fresh l) (fresh :: a)); [exact H2| | |exact X].
      * apply in_split in I2 as (l1 & l2 & ->). pose proof (r_nodup _ _ _ R) as D. apply NoDup_remove_2 in D. rewrite in_app_iff in D.
        rewrite behind_mid by tauto. intros x [<-|Hx]; rewrite in_app_iff; [right; right; now left|]. apply S in Hx. rewrite in_app_iff in Hx. cbn in *. tauto.
      * intros x Hx. unfold upd. destruct (x =? fresh) eqn:EX; [apply Z.eqb_eq in EX; subst x; reflexivity|]. apply N.
        apply in_behind in Hx. destruct Hx as [->|Hx]; [lia|exact Hx].
    + cbn [Z.eqb negb].
      destruct (holds_step (TTail fresh) q1 l (fresh :: a) (l ++ [fresh]) (fresh :: a) H1) as (q2 & T2 & H2).
      { cbn [lstep]. rewrite (proj2 (inb_in fresh (fresh :: a)) (or_introl eq_refl)), (proj2 (inb_notin fresh l) NF). reflexivity. }
      cbn [tq_step] in T2. rewrite T2. cbn [dbind]. do 2 eexists. split; [reflexivity|]. split; [|rewrite app_length, map_length; cbn; lia].
      apply (mkMt _ _ _ (l ++ [fresh]) (fresh :: a)); [exact H2| | |].
      * intros x [<-|Hx]; rewrite in_app_iff; [right; now left|left; now apply S].
      * intros x Hx. apply in_app_iff in Hx. unfold upd. destruct (x =? fresh) eqn:EX; [apply Z.eqb_eq in EX; subst x; reflexivity|]. apply N.
        destruct Hx as [Hx|[Hx|[]]]; [exact Hx|lia].
      * rewrite map_app. cbn. rewrite upd_same, map_upd_out by exact NF. reflexivity.
Qed.

Lemma map_filter_val (val : Z -> entry) (f : entry -> bool) : forall l, map val (filter (fun e => f (val e)) l) = filter f (map val l).
Proof. induction l as [|x l IH]; cbn; [reflexivity|]. destruct (f (val x)); cbn; now rewrite IH. Qed.
Lemma filter_len {A} (f : A -> bool) : forall l, (length (filter f l) <= length l)%nat.
Proof. induction l as [|x l IH]; cbn; [lia|]. destruct (f x); cbn; lia. Qed.
Lemma expire_ok fuel now val q t : mem_table val q t -> (length t < fuel)%nat ->
  exists q', mem_expire fuel now val q = DOk q' /\ mem_table val q' (filter (keeps now) t).
Proof.
  intros [l a H S N V] F. subst t. rewrite map_length in F. unfold mem_expire.
  destruct (removing_all (fun e => negb (keeps now (val e))) q l a fuel H F) as (q' & -> & H'). cbn [dbind]. exists q'. split; [reflexivity|].
  assert (X : filter (fun e => negb (negb (keeps now (val e)))) l = filter (fun e => keeps now (val e)) l) by (apply filter_ext; intros x; apply negb_involutive).
  rewrite X in H'. apply (mkMt _ _ _ _ _ H').
  - intros x Hx. apply filter_In in Hx as [Hx K]. apply S in Hx. apply filter_In. split; [exact Hx|]. rewrite (proj2 (inb_in x l) Hx) in K. cbn in K. now rewrite negb_involutive in K.
  - intros x Hx. apply filter_In in Hx as [Hx _]. now apply N.
  - apply map_filter_val.
Qed.
Lemma mem_table_init val : mem_table val tq_init [].
Proof. apply (mkMt _ _ _ [] []); [exists []; now split|easy|easy|reflexivity]. Qed.
Lemma run_ok : forall ops fuel val q t t', mem_table val q t -> (length t + length ops < fuel)%nat -> tables ops t = Some t' ->
  exists val' q', mem_run fuel ops val q = DOk (val', q') /\ mem_table val' q' t' /\ (length t' < fuel)%nat.
Proof.
  induction ops as [|[new fresh|now] ops IH]; intros fuel val q t t' M F; cbn [mem_run tables length] in *.
  - intros [= <-]. exists val, q. split; [reflexivity|]. split; [exact M|lia].
  - destruct (fresh =? 0) eqn:Z0; [discriminate|]. destruct (inb fresh (map q_id t)) eqn:I; [discriminate|]. cbn [orb]. intros E.
    destruct (put_ok fuel new fresh val q t M) as (val1 & q1 & -> & M1 & L1); [lia|lia|now apply inb_notin|]. cbn [dbind].
    eapply IH; [exact M1|lia|exact E].
  - intros E. destruct (expire_ok fuel now val q t M) as (q1 & -> & M1); [lia|]. cbn [dbind]. eapply IH; [exact M1| |exact E].
    pose proof (filter_len (keeps now) t). lia.
Qed.
Lemma table_shows val q t : mem_table val q t -> exists l, shows q l /\ allocated q l /\ map val l = t.
Proof.
  intros [l a H S N V]. pose proof (holds_rep _ _ _ H) as R. exists l. split; [now apply (rep_shows q l a)|]. split; [|exact V].
  intros e. rewrite (r_live _ _ _ R). apply eq_true_iff_eq. rewrite !inb_in. split; [apply S|apply (r_incl _ _ _ R)].
Qed.
Lemma message_queue ops fuel val t : tables ops [] = Some t -> (length ops < fuel)%nat ->
  exists val' q l, mem_run fuel ops val tq_init = DOk (val', q) /\ shows q l /\ allocated q l /\ map val' l = t.
Proof.
  intros E F. destruct (run_ok ops fuel val tq_init [] t (mem_table_init val) F E) as (val' & q & X & M & _).
  destruct (table_shows _ _ _ M) as (l & A & B & C). now exists val', q, l.
Qed.
Lemma free_all ops fuel val t : tables ops [] = Some t -> (length ops < fuel)%nat ->
  exists val' q q', mem_run fuel ops val tq_init = DOk (val', q) /\ mem_free fuel q = DOk q' /\ shows q' [] /\ forall e, tq_live q' e = false.
Proof.
  intros E F. destruct (run_ok ops fuel val tq_init [] t (mem_table_init val) F E) as (val' & q & X & [l a H S N V] & L).
  subst t. rewrite map_length in L. destruct (removing_all (fun _ => true) q l a fuel H L) as (q' & T & H').
  exists val', q, q'. split; [exact X|]. unfold mem_free. rewrite T. split; [reflexivity|]. pose proof (holds_rep _ _ _ H') as R.
  assert (L0 : filter (fun _ : Z => negb true) l = []) by (clear; induction l; cbn; auto). rewrite L0 in R.
  split; [exact (rep_shows _ _ _ R)|]. intros e. rewrite (r_live _ _ _ R). apply inb_notin. rewrite filter_In. intros [K1 K2].
  rewrite (proj2 (inb_in e l) (S e K1)) in K2. discriminate.
Qed.
