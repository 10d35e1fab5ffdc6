(** Invariants of the neighbour table. *)
From Verif Require Import Base Types Tlv Checks Msg Protos Wire Util Child Spec SpecAdv SpecChild
  Lemmas WireProofs.

Lemma slice_0_12 (l : list Z) : slice l 0 12 = firstn 12 l.
Proof. reflexivity. Qed.
Lemma q_src_source e : q_src e = source e.
Proof. reflexivity. Qed.
Lemma src_of_hdr (l : list Z) : slice (firstn 12 l) 6 6 = firstn 6 (skipn 6 l).
Proof.
  unfold slice. change (Z.to_nat 6) with 6%nat. rewrite skipn_firstn_comm, firstn_firstn. reflexivity.
Qed.

(** ** Grouped lists: equal elements are adjacent *)
Section grouped.
Context {K : Type}.
Inductive grouped : list K -> Prop :=
| grouped_nil : grouped []
| grouped_cons x l : grouped l -> (~ In x l \/ exists l', l = x :: l') -> grouped (x :: l).
Context {E : Type} (k : E -> K).
Definition starts (x : K) (q : list E) : Prop :=
  ~ In x (map k q) \/ exists e q', q = e :: q' /\ k e = x.
Lemma grouped_inv e q : grouped (map k (e :: q)) -> grouped (map k q) /\ starts (k e) q.
Proof.
  cbn. intros H. inversion H as [|? ? Hg Hs]; subst. split; [assumption|].
  destruct Hs as [Hs|[l' Hs]]; [now left|]. right. destruct q as [|y q]; [discriminate|].
  cbn in Hs. injection Hs as E1 _. now exists y, q.
Qed.
Lemma grouped_map e q : grouped (map k q) -> starts (k e) q -> grouped (map k (e :: q)).
Proof.
  intros H Hs. cbn. constructor; [assumption|]. destruct Hs as [Hs|(y & q' & -> & <-)]; [now left|].
  right. cbn. now eexists.
Qed.
Lemma filter_starts P x : forall q, grouped (map k q) -> starts x q -> starts x (filter P q).
Proof.
  induction q as [|e q IH]; intros Hg Hs; [exact Hs|]. apply grouped_inv in Hg as [Hg He]. cbn [filter].
  destruct Hs as [Hs|(y & q' & [= <- <-] & <-)].
  - left. intros Hin. apply Hs. apply in_map_iff in Hin as (z & <- & Hz). apply in_map.
    destruct (P e); [destruct Hz as [->|Hz]; [now left|]|]; right; now apply filter_In in Hz.
  - destruct (P e); [right; now exists e, (filter P q)|]. now apply IH.
Qed.
Lemma filter_grouped P : forall q, grouped (map k q) -> grouped (map k (filter P q)).
Proof.
  induction q as [|e q IH]; intros Hg; [exact Hg|]. apply grouped_inv in Hg as [Hg He]. cbn [filter].
  destruct (P e); [|now apply IH]. apply grouped_map; [now apply IH|now apply filter_starts].
Qed.
Lemma grouped_end e q : grouped (map k q) -> ~ In (k e) (map k q) -> grouped (map k (q ++ [e])).
Proof.
  induction q as [|y q IH]; intros Hg Hn.
  - cbn. constructor; [constructor|now left].
  - apply grouped_inv in Hg as [Hg Hy]. cbn [app]. apply grouped_map.
    + apply IH; [assumption|]. intros K1. apply Hn. now right.
    + destruct Hy as [Hy|(z & q' & -> & Ez)].
      * left. rewrite map_app. intros K1. apply in_app_or in K1 as [K1|[K1|[]]]; [contradiction|].
        apply Hn. left. now symmetry.
      * right. now exists z, (q' ++ [e]).
Qed.
End grouped.

(** ** Searching *)
Definition pk (e : entry) : Z * list Z := (q_index e, source e).
Lemma find_hit index proto hdr : forall q peer i pp,
  queue_find index proto hdr q peer = (Some i, pp) ->
  exists e, In e q /\ q_id e = i /\ who e = (index, proto, hdr).
Proof.
  induction q as [|e q IH]; intros peer i pp H; cbn [queue_find] in H; [discriminate|].
  destruct (index =? q_index e) eqn:E1; cbn [negb] in H.
  2:{ destruct (IH _ _ _ H) as (x & Hx & Hw). exists x. split; [now right|exact Hw]. }
  destruct (proto =? q_proto e) eqn:E2; cbn [negb] in H.
  2:{ destruct (IH _ _ _ H) as (x & Hx & Hw). exists x. split; [now right|exact Hw]. }
  destruct (beq hdr (slice (q_msg e) 0 12)) eqn:E3; cbn [negb] in H.
  2:{ destruct (IH _ _ _ H) as (x & Hx & Hw). exists x. split; [now right|exact Hw]. }
  injection H as H _. exists e. split; [now left|]. split; [assumption|]. unfold who.
  apply beq_true in E3. rewrite E3, slice_0_12. f_equal. f_equal; lia.
Qed.
Lemma find_miss index proto hdr : forall q peer pp,
  queue_find index proto hdr q peer = (None, pp) ->
  (forall e, In e q -> who e <> (index, proto, hdr))
  /\ ((pp = peer /\ ~ In (index, slice hdr 6 6) (map pk q))
      \/ exists a e b, q = a ++ e :: b /\ pp = Some (q_id e) /\ pk e = (index, slice hdr 6 6)
           /\ ~ In (index, slice hdr 6 6) (map pk b)).
Proof.
  induction q as [|e q IH]; intros peer pp H; cbn [queue_find] in H.
  { injection H as <-. split; [easy|]. left. now split. }
  assert (Step : forall peer', queue_find index proto hdr q peer' = (None, pp) ->
    who e <> (index, proto, hdr) ->
    (peer' = peer /\ pk e <> (index, slice hdr 6 6) \/ peer' = Some (q_id e) /\ pk e = (index, slice hdr 6 6)) ->
    (forall x, In x (e :: q) -> who x <> (index, proto, hdr))
    /\ ((pp = peer /\ ~ In (index, slice hdr 6 6) (map pk (e :: q)))
      \/ exists a e' b, e :: q = a ++ e' :: b /\ pp = Some (q_id e') /\ pk e' = (index, slice hdr 6 6)
           /\ ~ In (index, slice hdr 6 6) (map pk b))).
  { intros peer' H' Hw Hp. destruct (IH _ _ H') as [I1 I2]. split.
    - intros x [<-|Hx]; [assumption|now apply I1].
    - destruct I2 as [[-> I2]|(a & e' & b & -> & I2)].
      + destruct Hp as [[-> Hp]|[-> Hp]].
        * left. split; [reflexivity|]. cbn. intros [K|K]; contradiction.
        * right. exists [], e, q. repeat split; assumption.
      + right. exists (e :: a), e', b. split; [reflexivity|exact I2]. }
  destruct (index =? q_index e) eqn:E1; cbn [negb] in H.
  2:{ apply (Step _ H).
      - unfold who. intros [= K _ _]. lia.
      - left. split; [reflexivity|]. unfold pk. intros [= K _]. lia. }
  assert (Hpk : (if beq (slice hdr 6 6) (q_src e) then Some (q_id e) else peer) = peer /\ pk e <> (index, slice hdr 6 6)
     \/ (if beq (slice hdr 6 6) (q_src e) then Some (q_id e) else peer) = Some (q_id e) /\ pk e = (index, slice hdr 6 6)).
  { destruct (beq (slice hdr 6 6) (q_src e)) eqn:E.
    - right. split; [reflexivity|]. apply beq_true in E. unfold pk. rewrite E. f_equal. lia.
    - left. split; [reflexivity|]. intros K. apply (f_equal snd) in K. cbn [pk snd] in K.
      rewrite <- K in E. change (q_src e) with (source e) in E. rewrite beq_refl in E. discriminate. }
  destruct (proto =? q_proto e) eqn:E2; cbn [negb] in H.
  2:{ apply (Step _ H); [|exact Hpk]. unfold who. intros [= _ K _]. lia. }
  destruct (beq hdr (slice (q_msg e) 0 12)) eqn:E3; cbn [negb] in H; [discriminate|].
  apply (Step _ H); [|exact Hpk]. intros K. apply (f_equal snd) in K. cbn [who snd] in K.
  rewrite <- K in E3. change (slice (q_msg e) 0 12) with (firstn 12 (q_msg e)) in E3.
  rewrite beq_refl in E3. discriminate.
Qed.

(** ** The table invariant *)
Record table_ok (q : list entry) (fresh : Z) : Prop := {
  t_ids : NoDup (map q_id q);
  t_fresh : Forall (fun e => q_id e < fresh) q;
  t_who : NoDup (map who q);
  t_grouped : grouped (map pk q)
}.

Lemma with_id_who i e : who (with_id i e) = who e. Proof. reflexivity. Qed.
Lemma with_id_pk i e : pk (with_id i e) = pk e. Proof. reflexivity. Qed.
Lemma who_pk e e' : who e = who e' -> pk e = pk e'.
Proof.
  intros H. pose proof (f_equal snd H) as H2. pose proof (f_equal (fun x => fst (fst x)) H) as H1.
  cbn [who fst snd] in H1, H2. unfold pk. rewrite H1. f_equal. unfold source.
  rewrite <- !src_of_hdr. now rewrite H2.
Qed.
Lemma id_inj q e e' : NoDup (map q_id q) -> In e q -> In e' q -> q_id e = q_id e' -> e = e'.
Proof.
  induction q as [|x q IH]; cbn; intros Hn H1 H2 E; [easy|]. inversion Hn as [|? ? Hx Hn']; subst.
  destruct H1 as [->|H1], H2 as [->|H2]; try reflexivity; try (now apply IH).
  - contradiction Hx. rewrite E. now apply in_map.
  - contradiction Hx. rewrite <- E. now apply in_map.
Qed.
Lemma who_inj q e e' : NoDup (map who q) -> In e q -> In e' q -> who e = who e' -> e = e'.
Proof.
  induction q as [|x q IH]; cbn; intros Hn H1 H2 E; [easy|]. inversion Hn as [|? ? Hx Hn']; subst.
  destruct H1 as [->|H1], H2 as [->|H2]; try reflexivity; try (now apply IH).
  - contradiction Hx. rewrite E. now apply in_map.
  - contradiction Hx. rewrite <- E. now apply in_map.
Qed.
Lemma map_same {A B} (f : A -> B) (g : A -> A) l : (forall x, In x l -> f (g x) = f x) -> map f (map g l) = map f l.
Proof. intros H. rewrite map_map. apply map_ext_in. exact H. Qed.
Lemma NoDup_map_filter {A B} (f : A -> B) P l : NoDup (map f l) -> NoDup (map f (filter P l)).
Proof.
  induction l as [|x l IH]; cbn; intros H; [constructor|]. inversion H; subst.
  destruct (P x); [|now apply IH]. cbn. constructor; [|now apply IH].
  intros K. apply in_map_iff in K as (y & E & Hy). apply filter_In in Hy as [Hy _].
  match goal with N : ~ In _ _ |- _ => apply N end. rewrite <- E. now apply in_map.
Qed.
Lemma filter_ok q fresh P : table_ok q fresh -> table_ok (filter P q) fresh.
Proof.
  intros [H1 H2 H3 H4]. split.
  - now apply NoDup_map_filter.
  - rewrite Forall_forall in *. intros e He. apply filter_In in He as [He _]. now apply H2.
  - now apply NoDup_map_filter.
  - now apply filter_grouped.
Qed.
Lemma same_ok q q' fresh : map q_id q' = map q_id q -> map who q' = map who q -> table_ok q fresh -> table_ok q' fresh.
Proof.
  intros Hi Hw [H1 H2 H3 H4]. split; rewrite ?Hi, ?Hw; try assumption.
  - rewrite Forall_forall in *. intros e He. assert (K : In (q_id e) (map q_id q)) by (rewrite <- Hi; now apply in_map).
    apply in_map_iff in K as (e' & E & He'). rewrite <- E. now apply H2.
  - assert (E : map pk q' = map pk q); [|now rewrite E]. clear -Hw. revert q' Hw.
    induction q as [|e q IH]; intros [|e' q'] Hw; try discriminate; [reflexivity|].
    pose proof (f_equal (hd (who e)) Hw) as Hw1. apply (f_equal (@tl _)) in Hw. cbn [map hd tl] in *.
    f_equal; [now apply who_pk|now apply IH].
Qed.

(** ** Putting a message into the table *)
Lemma replace_id i new q : map q_id (queue_replace i new q) = map q_id q.
Proof.
  unfold queue_replace. apply map_same. intros e _. destruct (q_id e =? i) eqn:E; [|reflexivity]. cbn. lia.
Qed.
Lemma replace_who i new q e0 : NoDup (map q_id q) -> In e0 q -> q_id e0 = i -> who e0 = who new ->
  map who (queue_replace i new q) = map who q.
Proof.
  intros Hn H0 Hi Hw. unfold queue_replace. apply map_same. intros e He.
  destruct (q_id e =? i) eqn:E; [|reflexivity]. rewrite with_id_who, <- Hw. f_equal.
  apply (id_inj q); try assumption. lia.
Qed.
Lemma after_in i new q x : In x (insert_after i new q) -> x = new \/ In x q.
Proof.
  induction q as [|e q IH]; cbn; [easy|]. destruct (q_id e =? i); cbn.
  - intros [->|[->|H]]; tauto.
  - intros [->|H]; [tauto|]. destruct (IH H); tauto.
Qed.
Lemma after_in_old i new q x : In x q -> In x (insert_after i new q).
Proof.
  induction q as [|e q IH]; cbn; [easy|]. destruct (q_id e =? i); cbn.
  - intros [->|H]; tauto.
  - intros [->|H]; [tauto|]. right. now apply IH.
Qed.
Lemma after_in_new i new q : In i (map q_id q) -> In new (insert_after i new q).
Proof.
  induction q as [|e q IH]; cbn; [easy|]. destruct (q_id e =? i) eqn:E; cbn; [tauto|].
  intros [H|H]; [lia|]. right. now apply IH.
Qed.
Lemma after_nodup {B} (f : entry -> B) i new q : NoDup (map f q) -> ~ In (f new) (map f q) ->
  NoDup (map f (insert_after i new q)).
Proof.
  induction q as [|e q IH]; cbn; intros Hn Hx; [constructor|]. inversion Hn as [|? ? H1 H2]; subst.
  assert (H3 : ~ In (f new) (map f q)) by tauto.
  destruct (q_id e =? i); cbn.
  - constructor; [|now constructor]. intros [K|K]; [apply Hx; left; now symmetry|contradiction].
  - constructor; [|now apply IH]. intros K. apply in_map_iff in K as (x & E & Hxx).
    apply after_in in Hxx as [->|Hxx]; [apply Hx; left; now symmetry|]. apply H1. rewrite <- E. now apply in_map.
Qed.
Lemma after_grouped a e b new : NoDup (map q_id (a ++ e :: b)) -> grouped (map pk (a ++ e :: b)) ->
  pk e = pk new -> ~ In (pk new) (map pk b) -> grouped (map pk (insert_after (q_id e) new (a ++ e :: b))).
Proof.
  induction a as [|x a IH]; intros Hn Hg He Hb; cbn [app insert_after].
  - rewrite Z.eqb_refl. apply grouped_inv in Hg as [Hg _]. apply grouped_map.
    + apply grouped_map; [assumption|now left].
    + right. now exists new, b.
  - cbn [app map] in Hn. inversion Hn as [|? ? Hx Hn']; subst.
    destruct (q_id x =? q_id e) eqn:E.
    { exfalso. apply Hx. apply in_map_iff. exists e. split; [lia|]. apply in_or_app. right. now left. }
    cbn [app] in Hg. apply grouped_inv in Hg as [Hg Hs].
    apply grouped_map; [now apply IH|].
    destruct Hs as [Hs|(y & q' & Eq & Ey)].
    + left. intros K. apply in_map_iff in K as (z & Ez & Hz). apply after_in in Hz as [->|Hz].
      * apply Hs. apply in_map_iff. exists e. split; [now rewrite He|]. apply in_or_app. right. now left.
      * apply Hs. rewrite <- Ez. now apply in_map.
    + right. rewrite Eq. cbn [insert_after]. destruct (q_id y =? q_id e); now eexists _, _.
Qed.

Lemma put_ok new q fresh q' fresh' : table_ok q fresh -> queue_put new q fresh = (q', fresh') ->
  table_ok q' fresh'.
Proof.
  intros H Hp. unfold queue_put in Hp. rewrite slice_0_12 in Hp.
  destruct (queue_find _ _ _ q None) as [[i|] pp] eqn:Ef.
  - injection Hp as <- <-. apply find_hit in Ef as (e & He & Hi & Hw). apply (same_ok q); [apply replace_id| |assumption].
    eapply replace_who; eauto. apply H.
  - apply find_miss in Ef as [Hm Hpp]. rewrite src_of_hdr in Hpp. fold (source new) in Hpp. fold (pk new) in Hpp.
    fold (who new) in Hm. destruct H as [H1 H2 H3 H4].
    assert (N1 : ~ In (q_id (with_id fresh new)) (map q_id q)).
    { intros K. apply in_map_iff in K as (x & E & Hx). rewrite Forall_forall in H2. apply H2 in Hx. cbn in E. lia. }
    assert (N2 : ~ In (who (with_id fresh new)) (map who q)).
    { intros K. apply in_map_iff in K as (x & E & Hx). apply Hm in Hx. contradiction. }
    destruct Hpp as [[-> Hn]|(a & e & b & -> & -> & He & Hb)]; injection Hp as <- <-.
    + split.
      * rewrite map_app. apply NoDup_Add with (a := q_id (with_id fresh new)) (l := map q_id q); [|now split].
        rewrite <- (app_nil_r (map q_id q)) at 1. apply Add_app.
      * apply Forall_app. split; [eapply Forall_impl; [|exact H2]; cbn; lia|]. constructor; [cbn; lia|constructor].
      * rewrite map_app. apply NoDup_Add with (a := who (with_id fresh new)) (l := map who q); [|now split].
        rewrite <- (app_nil_r (map who q)) at 1. apply Add_app.
      * apply grouped_end; assumption.
    + split.
      * now apply after_nodup.
      * apply Forall_forall. intros x Hx. apply after_in in Hx as [->|Hx]; [cbn; lia|].
        rewrite Forall_forall in H2. apply H2 in Hx. lia.
      * now apply after_nodup.
      * apply after_grouped; try assumption.
Qed.
(** What the table holds afterwards. *)
Lemma put_content new q fresh q' fresh' : table_ok q fresh -> queue_put new q fresh = (q', fresh') ->
  (exists i, In (with_id i new) q') /\ (forall e, In e q' -> who e = who new -> exists i, e = with_id i new)
  /\ (forall e, who e <> who new -> In e q' <-> In e q).
Proof.
  intros H Hp. pose proof (put_ok _ _ _ _ _ H Hp) as H'. unfold queue_put in Hp. rewrite slice_0_12 in Hp.
  assert (Uniq : (exists i, In (with_id i new) q') ->
     forall e, In e q' -> who e = who new -> exists i, e = with_id i new).
  { intros [i Hi] e He Hw. exists i. apply (who_inj q'); try assumption. apply H'. }
  destruct (queue_find _ _ _ q None) as [[i|] pp] eqn:Ef.
  - injection Hp as <- <-. apply find_hit in Ef as (e0 & He & Hi & Hw). destruct H as [H1 H2 H3 H4].
    assert (A : exists i0, In (with_id i0 new) (queue_replace i new q)).
    { exists i. unfold queue_replace. apply in_map_iff. exists e0. split; [|assumption].
      now replace (q_id e0 =? i) with true by lia. }
    split; [exact A|]. split; [now apply Uniq|]. intros e Hne. unfold queue_replace. split.
    + intros K. apply in_map_iff in K as (x & E & Hx). destruct (q_id x =? i) eqn:E1; [|now subst].
      subst e. now contradiction Hne.
    + intros K. apply in_map_iff. exists e. split; [|assumption]. destruct (q_id e =? i) eqn:E1; [|reflexivity].
      contradiction Hne. fold (who new) in Hw. rewrite <- Hw. f_equal. apply (id_inj q); try assumption. lia.
  - apply find_miss in Ef as [Hm Hpp].
    destruct Hpp as [[-> Hn]|(a & e & b & -> & -> & He & Hb)]; injection Hp as <- <-.
    + assert (A : exists i0, In (with_id i0 new) (q ++ [with_id fresh new])).
      { exists fresh. apply in_or_app. right. now left. }
      split; [exact A|]. split; [now apply Uniq|]. intros e Hne. split.
      * intros K. apply in_app_or in K as [K|[<-|[]]]; [assumption|]. now contradiction Hne.
      * intros K. apply in_or_app. now left.
    + assert (A : exists i0, In (with_id i0 new) (insert_after (q_id e) (with_id fresh new) (a ++ e :: b))).
      { exists fresh. apply after_in_new. apply in_map. apply in_or_app. right. now left. }
      split; [exact A|]. split; [now apply Uniq|]. intros x Hne. split.
      * intros K. apply after_in in K as [->|K]; [|assumption]. now contradiction Hne.
      * apply after_in_old.
Qed.

(** ** Expiry *)
Lemma expire_queue now q : forall nfs, fst (expire_loop now q nfs) = filter (stays now) q.
Proof.
  induction q as [|e q IH]; intros nfs; cbn [expire_loop filter]; [reflexivity|].
  change (keeps now e) with (stays now e).
  destruct (stays now e); [|apply IH]. specialize (IH nfs). destruct (expire_loop now q nfs). cbn in *. now rewrite IH.
Qed.
Lemma child_expire_queue opts now c : now <> -1 ->
  c_queue (fst (child_expire opts now c)) = filter (stays now) (c_queue c)
  /\ c_sess (fst (child_expire opts now c)) = c_sess c /\ c_next (fst (child_expire opts now c)) = c_next c.
Proof.
  intros Hn. unfold child_expire. replace (now =? -1) with false by lia.
  pose proof (expire_queue now (c_queue c) (c_nfs c)) as E. destruct (expire_loop _ _ _) as [q nfs]. cbn in E. subst q.
  destruct (update_loop _ _ _) as [nfs' eff]. now cbn.
Qed.
Lemma expire_ok opts now c : table_ok (c_queue c) (c_next c) ->
  table_ok (c_queue (fst (child_expire opts now c))) (c_next (fst (child_expire opts now c))).
Proof.
  intros H. destruct (Z.eq_dec now (-1)) as [->|N]; [exact H|].
  destruct (child_expire_queue opts now c N) as (-> & _ & ->). now apply filter_ok.
Qed.

(** ** Client sessions *)
Lemma add_lock_id i d q : map q_id (add_lock i d q) = map q_id q.
Proof. unfold add_lock. apply map_same. intros e _. now destruct (_ =? _). Qed.
Lemma add_lock_who i d q : map who (add_lock i d q) = map who q.
Proof. unfold add_lock. apply map_same. intros e _. now destruct (_ =? _). Qed.
Lemma add_lock_ok i d q fresh : table_ok q fresh -> table_ok (add_lock i d q) fresh.
Proof. apply same_ok; [apply add_lock_id|apply add_lock_who]. Qed.
Lemma write_ok c sid t ws c' eff : table_ok (c_queue c) (c_next c) ->
  child_cli_write c sid t ws = DOk (c', eff) -> table_ok (c_queue c') (c_next c').
Proof.
  intros H Hw. unfold child_cli_write in Hw. destruct (find _ _) as [s|]; [|now injection Hw as <- <-].
  destruct t; [injection Hw as <- <-; exact H|].
  apply dbind_ok in Hw as ((q1 & l) & Es & Hw).
  assert (H1 : table_ok q1 (c_next c)).
  { destruct (ss_msg s) as [i|].
    - destruct (queue_from _ _); [|discriminate]. injection Es as <- <-. now apply add_lock_ok.
    - injection Es as <- <-. exact H. }
  destruct (write_loop _ _ _) as [eff1 [i|]]; injection Hw as <- <-; cbn [c_queue c_next]; [now apply add_lock_ok|exact H1].
Qed.

(** ** Every event keeps the invariant *)
Lemma queue_ok opts c d now now2 c' eff : table_ok (c_queue c) (c_next c) ->
  child_queue opts c d now now2 = DOk (c', eff) -> table_ok (c_queue c') (c_next c').
Proof.
  intros H. unfold child_queue. cbv zeta.
  destruct (negb _); [intros [= <- <-]; exact H|]. destruct (now =? -1); [intros [= <- <-]; exact H|].
  destruct (negb _); [discriminate|]. destruct (negb _); [discriminate|].
  destruct (netif_byindex _ _) as [sub|]; [|intros [= <- <-]; exact H].
  destruct (netif_byaddr _ _); [intros [= <- <-]; exact H|].
  destruct (proto_decode _ _ _) as [[n s]| | | |]; try discriminate; [|intros [= <- <-]; exact H].
  destruct (n =? 0); [intros [= <- <-]; exact H|].
  destruct (queue_put _ _ _) as [q fresh] eqn:Ep. apply put_ok in Ep; [|exact H].
  destruct (s_ttl s =? 0).
  - intros E. injection E as E. rewrite <- (f_equal fst E : fst _ = c'). now apply expire_ok.
  - destruct (_ || _); [intros [= <- <-]; exact Ep|]. destruct (_ && _); intros [= <- <-]; exact Ep.
Qed.
Lemma step_ok opts c e c' eff : table_ok (c_queue c) (c_next c) ->
  child_step opts c e = DOk (c', eff) -> table_ok (c_queue c') (c_next c').
Proof.
  intros H. destruct e; cbn [child_step].
  - now apply queue_ok.
  - intros E. injection E as E. rewrite <- (f_equal fst E : fst _ = c'). now apply expire_ok.
  - intros [= <- <-]. exact H.
  - destruct (existsb _ _); intros [= <- <-]; exact H.
  - now apply write_ok.
  - now apply write_ok.
Qed.
Lemma run_ok opts es : forall c c' eff, table_ok (c_queue c) (c_next c) ->
  child_run opts c es = DOk (c', eff) -> table_ok (c_queue c') (c_next c').
Proof.
  induction es as [|e es IH]; intros c c' eff H Hr; cbn [child_run] in Hr; [now injection Hr as <- <-|].
  apply dbind_ok in Hr as ((c1 & eff1) & E1 & Hr). apply dbind_ok in Hr as ((c2 & eff2) & E2 & Hr).
  injection Hr as <- <-. eapply IH; [|exact E2]. eapply step_ok; eauto.
Qed.
Lemma start_ok : table_ok [] 0.
Proof. split; constructor. Qed.
Lemma reached_ok opts es c eff : reached opts es c eff -> table_ok (c_queue c) (c_next c).
Proof. intros H. eapply run_ok; [|exact H]. apply start_ok. Qed.
