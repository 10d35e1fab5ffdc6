(** Interfaces in memory: loads, stores and searches. *)
From Verif Require Import Base Types Tlv Util Netif NetMem SpecNetif SpecNetMem.
From Verif Require Import Lemmas NetifProofs1.

(** The invariant of a queue and a memory; [Q] says which pointers are allowed for. *)
Definition ptrs_in (l : list Z) (n : netif) : Prop :=
  (forall p, nf_parent n = Some p -> In p l) /\ (forall p, nf_subif n = Some p -> In p l).
Record inv (l : list Z) (m : mem) : Prop := mkInv {
  i_once : NoDup l;
  i_live : forall a, m a <> None <-> In a l;
  i_index : NoDup (map nf_index (blocks l m));
  i_ptrs : forall a n, m a = Some n -> ptrs_in l n
}.
Definition view_of (l : list Z) (m : mem) : list netif := map (shown m) (blocks l m).
(** Same indices at the same addresses. *)
Definition alike (m m' : mem) : Prop := forall a, option_map nf_index (m' a) = option_map nf_index (m a).

Lemma alike_refl m : alike m m. Proof. intros a. reflexivity. Qed.
Lemma alike_trans m1 m2 m3 : alike m1 m2 -> alike m2 m3 -> alike m1 m3.
Proof. intros H1 H2 a. now rewrite H2. Qed.
Lemma alike_at m m' o : alike m m' -> index_at m' o = index_at m o.
Proof. intros H. destruct o as [a|]; [apply H|reflexivity]. Qed.
Lemma alike_shown m m' n : alike m m' -> shown m' n = shown m n.
Proof. intros H. unfold shown. now rewrite !(alike_at m m'). Qed.
Lemma live_some l m a : inv l m -> In a l -> exists n, m a = Some n.
Proof. intros I H. apply (i_live _ _ I) in H. destruct (m a) as [n|]; [now exists n|contradiction]. Qed.
Lemma some_live l m a n : inv l m -> m a = Some n -> In a l.
Proof. intros I H. apply (i_live _ _ I). now rewrite H. Qed.
Lemma blocks_cons a l m n : m a = Some n -> blocks (a :: l) m = n :: blocks l m.
Proof. intros H. unfold blocks. cbn [flat_map]. now rewrite H. Qed.
Lemma blocks_app l1 l2 m : blocks (l1 ++ l2) m = blocks l1 m ++ blocks l2 m.
Proof. unfold blocks. apply flat_map_app. Qed.
Lemma blocks_in l m a n : In a l -> m a = Some n -> In n (blocks l m).
Proof. intros H E. unfold blocks. apply in_flat_map. exists a. rewrite E. split; [assumption|now left]. Qed.
Lemma blocks_ext l m m' : (forall a, In a l -> m' a = m a) -> blocks l m' = blocks l m.
Proof.
  induction l as [|a l IH]; intros H; [reflexivity|]. unfold blocks in *. cbn [flat_map]. rewrite (H a) by now left.
  rewrite IH; [reflexivity|]. intros b Hb. apply H. now right.
Qed.
Lemma poke_same m a v : poke m a v a = v. Proof. unfold poke. now rewrite Z.eqb_refl. Qed.
Lemma poke_other m a v b : b <> a -> poke m a v b = m b.
Proof. intros H. unfold poke. now replace (b =? a) with false by lia. Qed.

(** Storing into a block of the queue. *)
Lemma blocks_poke (F : netif -> netif) g n n' : forall l m a, NoDup l -> (forall b, In b l -> m b <> None) ->
  NoDup (map nf_index (blocks l m)) -> In a l -> m a = Some n ->
  (forall x, nf_index (F x) = nf_index x) -> F n' = g (F n) ->
  map F (blocks l (poke m a (Some n'))) = nf_assign g (nf_index n) (map F (blocks l m)).
Proof.
  induction l as [|b l IH]; intros m a Hd Hl Hi Ha En HF Eg; [easy|]. inversion Hd as [|? ? Hb Hd']; subst.
  destruct (m b) as [nb|] eqn:Eb; [|exfalso; apply (Hl b); [now left|assumption]].
  rewrite (blocks_cons b l m nb Eb) in *. cbn [map nf_assign] in *. rewrite HF. inversion Hi as [|? ? Hx Hi']; subst.
  destruct (Z.eq_dec b a) as [->|N].
  - rewrite En in Eb. apply (f_equal (fun o => match o with Some x => x | None => n end)) in Eb. subst nb.
    rewrite (blocks_cons a l _ n') by apply poke_same. cbn [map]. rewrite Z.eqb_refl, Eg. f_equal. f_equal.
    apply blocks_ext. intros c Hc. apply poke_other. intros ->. contradiction.
  - rewrite (blocks_cons b l _ nb) by (rewrite poke_other; assumption). cbn [map].
    destruct Ha as [->|Ha]; [contradiction|].
    replace (nf_index nb =? nf_index n) with false.
    + f_equal. apply (IH m a); try assumption. intros c Hc. apply Hl. now right.
    + symmetry. apply Z.eqb_neq. intros E. apply Hx. rewrite E. apply in_map. apply (blocks_in _ _ a); assumption.
Qed.
Lemma poke_alike m a n n' : m a = Some n -> nf_index n' = nf_index n -> alike m (poke m a (Some n')).
Proof.
  intros E Ei b. unfold poke. destruct (b =? a) eqn:F; [|reflexivity]. assert (b = a) by lia. subst b. rewrite E. cbn. now rewrite Ei.
Qed.
Lemma alike_index l m m' : (forall a, In a l -> m a <> None) -> alike m m' -> map nf_index (blocks l m') = map nf_index (blocks l m).
Proof.
  intros Hl Ha. induction l as [|a l IH]; [reflexivity|]. unfold blocks in *. cbn [flat_map]. rewrite !map_app, IH by (intros b Hb; apply Hl; now right).
  f_equal. pose proof (Ha a) as K. destruct (m a) as [n|], (m' a) as [n'|]; cbn in K |- *; try discriminate; try reflexivity.
  apply (f_equal (fun o => match o with Some x => x | None => 0 end)) in K. now rewrite K.
Qed.

Lemma store_ok l m a n (f g : netif -> netif) : inv l m -> m a = Some n -> nf_index (f n) = nf_index n -> ptrs_in l (f n) ->
  shown m (f n) = g (shown m n) ->
  exists m', m_store f a m = Some m' /\ inv l m' /\ alike m m' /\ m' a = Some (f n)
    /\ (forall b, b <> a -> m' b = m b) /\ view_of l m' = nf_assign g (nf_index n) (view_of l m).
Proof.
  intros I E Ei Hp Eg. exists (poke m a (Some (f n))). unfold m_store. rewrite E. split; [reflexivity|].
  assert (Ha : alike m (poke m a (Some (f n)))) by (apply (poke_alike _ _ n); assumption).
  assert (Hin : In a l) by (apply (some_live l m a n); assumption).
  split; [constructor|split; [assumption|split; [apply poke_same|split; [apply poke_other|]]]].
  - apply (i_once _ _ I).
  - intros b. destruct (Z.eq_dec b a) as [->|N].
    + rewrite poke_same. split; [intros _; assumption|discriminate].
    + rewrite poke_other by assumption. apply (i_live _ _ I).
  - rewrite (alike_index l m); [apply (i_index _ _ I)| |assumption]. intros b Hb. now apply (i_live _ _ I).
  - intros b nb Eb. destruct (Z.eq_dec b a) as [->|N].
    + rewrite poke_same in Eb. apply (f_equal (fun o => match o with Some x => x | None => nb end)) in Eb. now subst nb.
    + rewrite poke_other in Eb by assumption. now apply (i_ptrs _ _ I b).
  - unfold view_of. rewrite <- (blocks_poke (shown m) g n (f n) l m a).
    + apply map_ext. intros x. now apply alike_shown.
    + apply (i_once _ _ I).
    + intros b Hb. now apply (i_live _ _ I).
    + apply (i_index _ _ I).
    + assumption.
    + assumption.
    + reflexivity.
    + assumption.
Qed.

(** Searches. *)
Lemma find_ok (p : netif -> bool) m0 l m : (forall x, p (shown m0 x) = p x) -> (forall a, In a l -> m a <> None) ->
  exists r, m_find p l m = Some r /\
    match r with
    | None => find p (map (shown m0) (blocks l m)) = None
    | Some a => exists n, In a l /\ m a = Some n /\ p n = true /\ find p (map (shown m0) (blocks l m)) = Some (shown m0 n)
    end.
Proof.
  intros Hp. induction l as [|a l IH]; intros Hl.
  - exists None. split; reflexivity.
  - destruct (m a) as [n|] eqn:E; [|exfalso; apply (Hl a); [now left|assumption]].
    rewrite (blocks_cons a l m n E). cbn [map find m_find]. rewrite E, Hp. cbn [obind]. destruct (p n) eqn:F.
    + exists (Some a). split; [reflexivity|]. exists n. repeat split; try assumption. now left.
    + destruct IH as (r & Er & Hr); [intros b Hb; apply Hl; now right|]. exists r. split; [exact Er|].
      destruct r as [b|]; [|exact Hr]. destruct Hr as (k & Hb & Eb & Ep & Ef). exists k. repeat split; try assumption. now right.
Qed.
Lemma byindex_ok l m i : inv l m ->
  exists r, m_byindex l m i = Some r /\
    match r with
    | None => netif_byindex (view_of l m) i = None
    | Some a => exists n, In a l /\ m a = Some n /\ nf_index n = i /\ netif_byindex (view_of l m) i = Some (shown m n)
    end.
Proof.
  intros I. destruct (find_ok (fun n => nf_index n =? i) m l m) as (r & Er & Hr).
  - reflexivity.
  - intros a Ha. now apply (i_live _ _ I).
  - exists r. split; [exact Er|]. destruct r as [a|]; [|exact Hr]. destruct Hr as (n & H1 & H2 & H3 & H4). exists n.
    repeat split; try assumption. lia.
Qed.
Lemma byname_ok l m x : inv l m ->
  exists r, m_byname l m x = Some r /\
    match r with
    | None => netif_byname (view_of l m) x = None
    | Some a => exists n, In a l /\ m a = Some n /\ netif_byname (view_of l m) x = Some (shown m n)
    end.
Proof.
  intros I. destruct (find_ok (fun n => beq (nf_name n) x) m l m) as (r & Er & Hr).
  - reflexivity.
  - intros a Ha. now apply (i_live _ _ I).
  - exists r. split; [exact Er|]. destruct r as [a|]; [|exact Hr]. destruct Hr as (n & H1 & H2 & H3 & H4). exists n. now repeat split.
Qed.
(** Two addresses with the same index are one. *)
Lemma index_address l m a b n k : inv l m -> m a = Some n -> m b = Some k -> nf_index n = nf_index k -> a = b.
Proof.
  intros I Ea Eb E. pose proof (some_live _ _ _ _ I Ea) as Ha. pose proof (some_live _ _ _ _ I Eb) as Hb.
  pose proof (i_once _ _ I) as D. pose proof (i_index _ _ I) as X. destruct I as [_ L _ _]. revert Ha Hb D X.
  assert (Hl : forall c, In c l -> m c <> None) by (intros c; apply L). clear L. revert Hl.
  induction l as [|c l IH]; intros Hl Ha Hb D X; [easy|]. inversion D; subst.
  destruct (m c) as [nc|] eqn:Ec; [|exfalso; apply (Hl c); [now left|assumption]]. rewrite (blocks_cons _ _ _ _ Ec) in X. cbn [map] in X. inversion X; subst.
  destruct Ha as [->|Ha], Hb as [->|Hb]; try reflexivity.
  - exfalso. assert (nc = n) by congruence. subst nc. apply H3. rewrite E. apply in_map. now apply (blocks_in _ _ b).
  - exfalso. assert (nc = k) by congruence. subst nc. apply H3. rewrite <- E. apply in_map. now apply (blocks_in _ _ a).
  - apply IH; try assumption. intros d Hd. apply Hl. now right.
Qed.
(** The view of the interface at an address. *)
Lemma view_at l m a n : inv l m -> m a = Some n -> netif_byindex (view_of l m) (nf_index n) = Some (shown m n).
Proof.
  intros I E. destruct (byindex_ok l m (nf_index n) I) as (r & _ & Hr). destruct r as [b|].
  - destruct Hr as (k & Hb & Eb & Ei & Ef). rewrite Ef. assert (b = a) by (apply (index_address l m b a k n); assumption). subst b. congruence.
  - exfalso. apply byindex_none in Hr. apply Hr. unfold indices, view_of. rewrite map_map. apply in_map_iff. exists n. split; [reflexivity|].
    apply (blocks_in _ _ a); [now apply (some_live l m a n)|assumption].
Qed.
