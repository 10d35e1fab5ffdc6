(** The order of the neighbour table (C112). *)
From Verif Require Import Base Types Tlv Checks Msg Protos Wire Util Child Spec SpecAdv SpecChild SpecOrder
  Lemmas WireProofs ChildProofs.

Lemma before_cons {A} (x y a : A) l : before x y (a :: l) <-> (a = x /\ In y l) \/ before x y l.
Proof.
  split.
  - intros ([|b l1] & l2 & l3 & E); cbn in E; injection E as E1 E2; subst.
    + left. split; [reflexivity|]. apply in_app_iff. right. now left.
    + right. now exists l1, l2, l3.
  - intros [[-> H]|(l1 & l2 & l3 & ->)].
    + apply in_split in H as (l2 & l3 & ->). now exists [], l2, l3.
    + now exists (a :: l1), l2, l3.
Qed.
Lemma before_in {A} (x y : A) l : before x y l -> In x l /\ In y l.
Proof. intros (l1 & l2 & l3 & ->). split; apply in_app_iff; right; [now left|]. right. apply in_app_iff. right. now left. Qed.
Lemma before_insert {A} (x y w : A) b : forall a, before x y (a ++ b) -> before x y (a ++ w :: b).
Proof.
  induction a as [|z a IH]; cbn [app]; rewrite !before_cons; [now right|]. intros [[-> H]|H]; [left; split; [reflexivity|]|right; now apply IH].
  rewrite in_app_iff in *. cbn. tauto.
Qed.
Lemma before_last {A} (x w : A) l : In x l -> before x w (l ++ [w]).
Proof. intros H. apply in_split in H as (l1 & l2 & ->). exists l1, l2, []. now rewrite <- app_assoc. Qed.
Lemma before_filter {A B} (f : A -> B) P x y : forall q, NoDup (map f q) -> before x y (map f q) ->
  In x (map f (filter P q)) -> In y (map f (filter P q)) -> before x y (map f (filter P q)).
Proof.
  induction q as [|e q IH]; intros N H; [exact (fun _ _ => H)|]. cbn [map] in N, H. inversion N as [|? ? N1 N2]; subst. apply before_cons in H as [[E H]|H].
  - cbn [filter]. destruct (P e); cbn [map].
    + intros _ [K|K]; [rewrite <- K in H; contradiction|]. apply before_cons. now left.
    + intros K _. apply in_map_iff in K as (z & Ez & K). apply filter_In in K as [K _]. contradiction N1. rewrite E, <- Ez. now apply in_map.
  - pose proof (before_in _ _ _ H) as [Hx Hy]. cbn [filter]. destruct (P e); cbn [map]; [|now apply IH].
    intros [K|Kx]; [rewrite <- K in Hx; contradiction|]. intros [K|Ky]; [rewrite <- K in Hy; contradiction|]. apply before_cons. right. now apply IH.
Qed.

(** What a message does to the order. *)
Lemma put_order new q fresh q' fresh' : table_ok q fresh -> queue_put new q fresh = (q', fresh') ->
  map who q' = map who q
  \/ exists a b, map who q = a ++ b /\ map who q' = a ++ who new :: b /\ (~ In (pk new) (map pk q) -> b = []).
Proof.
  intros H Hp. unfold queue_put in Hp. rewrite slice_0_12 in Hp. destruct (queue_find _ _ _ q None) as [[i|] pp] eqn:Ef.
  - injection Hp as <- <-. apply find_hit in Ef as (e & He & Hi & Hw). left. eapply replace_who; eauto. apply H.
  - apply find_miss in Ef as [Hm Hpp]. rewrite src_of_hdr in Hpp. fold (source new) in Hpp. fold (pk new) in Hpp. right.
    destruct Hpp as [[-> Hn]|(a & e & b & -> & -> & He & Hb)]; injection Hp as <- <-.
    + exists (map who q), []. rewrite app_nil_r, map_app. auto.
    + assert (X : insert_after (q_id e) (with_id fresh new) (a ++ e :: b) = a ++ e :: with_id fresh new :: b).
      { pose proof (t_ids _ _ H) as N. clear -N. induction a as [|x a IH]; cbn [app insert_after]; [now rewrite Z.eqb_refl|].
        cbn [app map] in N. inversion N as [|? ? N1 N2]; subst. destruct (q_id x =? q_id e) eqn:E; [|f_equal; now apply IH].
        contradiction N1. apply Z.eqb_eq in E. rewrite E. apply in_map, in_app_iff. right. now left. }
      rewrite X. exists (map who (a ++ [e])), (map who b). rewrite !map_app. cbn [map]. rewrite <- !app_assoc. split; [reflexivity|]. split; [reflexivity|].
      intros K. contradiction K. apply in_app_iff. right. now left.
Qed.
(** One event. *)
Definition moved (q q' : list entry) (fresh : Z) : Prop :=
  exists q1 P, (q1 = q \/ exists new fresh', queue_put new q fresh = (q1, fresh')) /\ map who q' = map who (filter P q1).
Lemma moved_same q q' fresh : map who q' = map who q -> moved q q' fresh.
Proof.
  intros E. exists q, (fun _ => true). split; [now left|]. rewrite E. f_equal. clear. induction q; cbn; congruence.
Qed.
Lemma moved_put new q fresh q' fresh' : queue_put new q fresh = (q', fresh') -> moved q q' fresh.
Proof.
  intros E. exists q', (fun _ => true). split; [right; now exists new, fresh'|]. f_equal. clear. induction q'; cbn; congruence.
Qed.
Lemma step_moved opts c e c' eff : child_step opts c e = DOk (c', eff) -> moved (c_queue c) (c_queue c') (c_next c).
Proof.
  assert (S : moved (c_queue c) (c_queue c) (c_next c)) by now apply moved_same.
  assert (W : forall sid t ws, child_cli_write c sid t ws = DOk (c', eff) -> moved (c_queue c) (c_queue c') (c_next c)).
  { intros sid t ws Hw. unfold child_cli_write in Hw. destruct (find _ _) as [s|]; [|now injection Hw as <- <-].
    destruct t; [injection Hw as <- <-; exact S|]. apply dbind_ok in Hw as ((q1 & l) & Es & Hw).
    assert (H1 : map who q1 = map who (c_queue c)).
    { destruct (ss_msg s) as [i|].
      - destruct (queue_from _ _); [|discriminate]. injection Es as <- <-. apply add_lock_who.
      - now injection Es as <- <-. }
    apply moved_same. destruct (write_loop _ _ _) as [eff1 [i|]]; injection Hw as <- <-; cbn [c_queue]; [now rewrite add_lock_who|exact H1]. }
  destruct e as [d now now2|now| | | |]; cbn [child_step].
  - unfold child_queue. cbv zeta.
    destruct (negb _); [intros [= <- <-]; exact S|]. destruct (now =? -1); [intros [= <- <-]; exact S|].
    destruct (negb _); [discriminate|]. destruct (negb _); [discriminate|].
    destruct (netif_byindex _ _) as [sub|]; [|intros [= <- <-]; exact S].
    destruct (netif_byaddr _ _); [intros [= <- <-]; exact S|].
    destruct (proto_decode _ _ _) as [[n s]| | | |]; try discriminate; [|intros [= <- <-]; exact S].
    destruct (n =? 0); [intros [= <- <-]; exact S|].
    destruct (queue_put _ _ _) as [q fresh] eqn:Ep. pose proof (moved_put _ _ _ _ _ Ep) as M.
    destruct (s_ttl s =? 0).
    + intros E. injection E as E. rewrite <- (f_equal fst E : fst _ = c'). destruct (Z.eq_dec now2 (-1)) as [->|N]; [exact M|].
      destruct (child_expire_queue opts now2 (mkChild (c_nfs c) q (c_sess c) fresh) N) as (-> & _ & _). cbn [c_queue].
      exists q, (stays now2). split; [right; do 2 eexists; exact Ep|reflexivity].
    + destruct (_ || _); [intros [= <- <-]; exact M|]. destruct (_ && _); intros [= <- <-]; exact M.
  - intros E. injection E as E. rewrite <- (f_equal fst E : fst _ = c'). destruct (Z.eq_dec now (-1)) as [->|N]; [exact S|].
    destruct (child_expire_queue opts now c N) as (-> & _ & _). exists (c_queue c), (stays now). split; [now left|reflexivity].
  - intros [= <- <-]. exact S.
  - destruct (existsb _ _); intros [= <- <-]; exact S.
  - apply W.
  - apply W.
Qed.

Lemma whos_pk q e : In (who e) (map who q) -> In (pk e) (map pk q).
Proof. intros H. apply in_map_iff in H as (x & E & Hx). apply who_pk in E. rewrite <- E. now apply in_map. Qed.
Lemma stable opts es c eff0 ev c' eff x y : reached opts es c eff0 -> child_step opts c ev = DOk (c', eff) ->
  before x y (map who (c_queue c)) -> In x (map who (c_queue c')) -> In y (map who (c_queue c')) -> before x y (map who (c_queue c')).
Proof.
  intros R S B. pose proof (reached_ok _ _ _ _ R) as T. apply step_moved in S as (q1 & P & Hq & ->).
  assert (X : NoDup (map who q1) /\ before x y (map who q1)).
  { destruct Hq as [->|(new & fresh' & Hp)]; [split; [apply T|exact B]|]. split; [apply (t_who _ _ (put_ok _ _ _ _ _ T Hp))|].
    destruct (put_order _ _ _ _ _ T Hp) as [->|(a & b & Ea & -> & _)]; [exact B|]. rewrite Ea in B. now apply before_insert. }
  destruct X. now apply before_filter.
Qed.
Lemma arrival opts es c eff0 ev c' eff e n : reached opts es c eff0 -> child_step opts c ev = DOk (c', eff) ->
  In (who e) (map who (c_queue c)) -> In (who e) (map who (c_queue c')) -> In n (c_queue c') -> ~ In (neighbour n) (map neighbour (c_queue c)) ->
  before (who e) (who n) (map who (c_queue c')).
Proof.
  intros R S I1 I2 I3 NN. pose proof (reached_ok _ _ _ _ R) as T. apply step_moved in S as (q1 & P & Hq & E). change neighbour with pk in NN.
  apply (in_map who) in I3. rewrite E in *. apply before_filter; try assumption.
  - destruct Hq as [->|(new & fresh' & Hp)]; [apply T|]. apply (t_who _ _ (put_ok _ _ _ _ _ T Hp)).
  - assert (J : In (who n) (map who q1)) by (apply in_map_iff in I3 as (z & Ez & Hz); apply filter_In in Hz as [Hz _]; rewrite <- Ez; now apply in_map).
    assert (NW : ~ In (who n) (map who (c_queue c))) by (intros K; apply NN; now apply whos_pk).
    destruct Hq as [->|(new & fresh' & Hp)]; [contradiction|].
    destruct (put_order _ _ _ _ _ T Hp) as [Q|(a & b & Ea & Q & Hb)]; [rewrite Q in J; contradiction|].
    rewrite Q in J |- *. rewrite Ea in *. assert (EW : who n = who new).
    { rewrite in_app_iff in J. destruct J as [J|[J|J]]; [contradiction NW; apply in_app_iff; now left|now symmetry|contradiction NW; apply in_app_iff; now right]. }
    rewrite Hb in * by (rewrite <- (who_pk _ _ EW); exact NN). rewrite EW. rewrite app_nil_r in I1. now apply before_last.
Qed.

Lemma grouped_between {K E} (k : E -> K) x l2 y l3 : forall l1, grouped (map k (l1 ++ x :: l2 ++ y :: l3)) -> k x = k y -> Forall (fun z => k z = k x) l2.
Proof.
  induction l1 as [|a l1 IH]; cbn [app]; [|intros G; apply grouped_inv in G as [G _]; now apply IH].
  revert x. induction l2 as [|z l2 IH]; intros x G E1; [constructor|]. apply grouped_inv in G as [G S]. cbn [app] in *.
  assert (Z : k z = k x).
  { destruct S as [S|(e & q' & [= <- <-] & S)]; [|exact S]. contradiction S. rewrite E1. right. apply in_map, in_app_iff. right. now left. }
  constructor; [exact Z|]. eapply Forall_impl; [|apply (IH z G); congruence]. cbn. congruence.
Qed.
Lemma together opts es c eff l1 a l2 b l3 : reached opts es c eff -> c_queue c = l1 ++ a :: l2 ++ b :: l3 -> neighbour a = neighbour b ->
  Forall (fun e => neighbour e = neighbour a) l2.
Proof. intros R E N. apply (grouped_between neighbour a l2 b l3 l1); [|exact N]. rewrite <- E. exact (t_grouped _ _ (reached_ok _ _ _ _ R)). Qed.
