(** Client sessions. *)
From Coq Require Import Permutation.
From Verif Require Import Base Types Tlv Checks Msg Protos Wire Util Child Spec SpecAdv SpecRound SpecNet SpecChild
  Lemmas ChildProofs ChildProofs2 NetProofs.

Definition waits (l : list session) : list Z :=
  flat_map (fun s => match ss_msg s with Some i => [i] | None => [] end) l.
Definition cnt (i : Z) (l : list Z) : Z := Z.of_nat (count_occ Z.eq_dec l i).
Lemma cnt_app i a b : cnt i (a ++ b) = cnt i a + cnt i b.
Proof. unfold cnt. rewrite count_occ_app. lia. Qed.
Lemma cnt_cons i x l : cnt i (x :: l) = (if x =? i then 1 else 0) + cnt i l.
Proof.
  unfold cnt. cbn. destruct (Z.eq_dec x i) as [->|N]; [rewrite Z.eqb_refl; lia|].
  replace (x =? i) with false by lia. lia.
Qed.
Lemma cnt_bound i l : 0 <= cnt i l <= zlen l.
Proof. unfold cnt, zlen. pose proof (count_occ_bound Z.eq_dec i l). lia. Qed.
Lemma cnt_in i l : In i l <-> 0 < cnt i l.
Proof. unfold cnt. rewrite (count_occ_In Z.eq_dec). lia. Qed.
Lemma cnt_perm i a b : Permutation a b -> cnt i a = cnt i b.
Proof. intros H. unfold cnt. f_equal. now apply (Permutation_count_occ Z.eq_dec). Qed.

Lemma waits_cons s l : waits (s :: l) = match ss_msg s with Some i => i :: waits l | None => waits l end.
Proof. unfold waits. cbn. now destruct (ss_msg s). Qed.
Lemma waits_len l : zlen (waits l) <= zlen l.
Proof. induction l as [|s l IH]; [cbn; zl; lia|]. rewrite waits_cons. destruct (ss_msg s); zl; lia. Qed.
Lemma waits_in i l : In i (waits l) <-> exists s, In s l /\ ss_msg s = Some i.
Proof.
  unfold waits. rewrite in_flat_map. split; intros (s & Hs & H); exists s; split; try assumption.
  - destruct (ss_msg s); [|easy]. destruct H as [->|[]]. reflexivity.
  - rewrite H. now left.
Qed.
Lemma drop_absent sid l : ~ In sid (map ss_id l) -> drop_sess sid l = l.
Proof.
  unfold drop_sess. induction l as [|s l IH]; cbn; intros H; [reflexivity|]. replace (ss_id s =? sid) with false by lia.
  cbn. f_equal. apply IH. tauto.
Qed.
Lemma wait_absent sid i l : ~ In sid (map ss_id l) -> wait_sess sid i l = l.
Proof.
  unfold wait_sess. induction l as [|s l IH]; cbn; intros H; [reflexivity|]. replace (ss_id s =? sid) with false by lia.
  f_equal. apply IH. tauto.
Qed.
(** The session found is one occurrence among the waiting ones. *)
Lemma drop_perm sid l s : NoDup (map ss_id l) -> find (fun s => ss_id s =? sid) l = Some s ->
  Permutation (waits l) (waits [s] ++ waits (drop_sess sid l))
  /\ (forall i, Permutation (waits (wait_sess sid i l)) (i :: waits (drop_sess sid l)))
  /\ zlen (drop_sess sid l) = zlen l - 1 /\ ss_id s = sid /\ In s l.
Proof.
  induction l as [|x l IH]; cbn [find map]; intros Hn Hf; [discriminate|]. inversion Hn as [|? ? Hx Hn']; subst.
  destruct (ss_id x =? sid) eqn:E.
  - injection Hf as <-. apply Z.eqb_eq in E. subst sid.
    assert (D : drop_sess (ss_id x) (x :: l) = l).
    { unfold drop_sess. cbn [filter]. rewrite Z.eqb_refl. cbn [negb]. now apply drop_absent. }
    rewrite D. split; [|split; [|split; [zl; lia|split; [reflexivity|now left]]]].
    + rewrite !waits_cons. now destruct (ss_msg x).
    + intros i. unfold wait_sess. cbn [map]. rewrite Z.eqb_refl. fold (wait_sess (ss_id x) i l).
      rewrite wait_absent by assumption. now rewrite waits_cons.
  - destruct (IH Hn' Hf) as (P1 & P2 & L & Es & Hin).
    assert (D : drop_sess sid (x :: l) = x :: drop_sess sid l).
    { unfold drop_sess. cbn [filter]. now rewrite E. }
    rewrite D. split; [|split; [|split; [zl; lia|split; [assumption|now right]]]].
    + rewrite !waits_cons in *. destruct (ss_msg x), (ss_msg s); cbn [app waits flat_map] in *; rewrite P1; try reflexivity.
      apply perm_swap.
    + intros i. unfold wait_sess. cbn [map]. rewrite E. fold (wait_sess sid i l).
      rewrite !waits_cons. specialize (P2 i). destruct (ss_msg x); [|exact P2]. rewrite P2. apply perm_swap.
Qed.

(** ** The lock counters *)
Record locked_ok (c : child) (gone : list Z) : Prop := {
  k_table : table_ok (c_queue c) (c_next c);
  k_sess : NoDup (map ss_id (c_sess c));
  k_lock : forall e, In e (c_queue c) -> q_lock e = cnt (q_id e) (waits (c_sess c) ++ gone);
  k_held : forall i, In i (waits (c_sess c)) -> In i (map q_id (c_queue c));
  k_gone : Forall (fun i => i < c_next c) gone;
  k_bound : zlen (c_sess c) + zlen gone <= 255
}.
Lemma start_locked : locked_ok child_start [].
Proof.
  split; cbn; try constructor; try easy.
  all: constructor.
Qed.

Lemma locked_stays c gone now e : locked_ok c gone -> In e (c_queue c) -> In (q_id e) (waits (c_sess c)) -> stays now e = true.
Proof.
  intros H He Hw. unfold stays. rewrite (k_lock _ _ H e He), cnt_app. apply cnt_in in Hw.
  pose proof (cnt_bound (q_id e) gone). apply orb_true_iff. right. lia.
Qed.
Lemma filter_locked c gone now nfs : locked_ok c gone ->
  locked_ok (mkChild nfs (filter (stays now) (c_queue c)) (c_sess c) (c_next c)) gone.
Proof.
  intros H. pose proof H as [K1 K2 K3 K4 K5 K6]. split; cbn [c_queue c_sess c_next]; try assumption.
  - now apply filter_ok.
  - intros e He. apply filter_In in He as [He _]. now apply K3.
  - intros i Hi. pose proof (K4 i Hi) as Hin. apply in_map_iff in Hin as (e & Ei & He). apply in_map_iff. exists e.
    split; [assumption|]. apply filter_In. split; [assumption|]. eapply locked_stays; [exact H|assumption|]. now rewrite Ei.
Qed.
Lemma expire_locked opts now c gone : locked_ok c gone -> locked_ok (fst (child_expire opts now c)) gone.
Proof.
  intros H. destruct (Z.eq_dec now (-1)) as [->|N]; [exact H|].
  destruct (child_expire_queue opts now c N) as (E1 & E2 & E3).
  pose proof (filter_locked c gone now (c_nfs (fst (child_expire opts now c))) H) as K.
  rewrite <- E1, <- E2, <- E3 in K. now destruct (fst (child_expire opts now c)).
Qed.
Lemma nfs_locked c gone nfs : locked_ok c gone -> locked_ok (mkChild nfs (c_queue c) (c_sess c) (c_next c)) gone.
Proof. intros []. now split. Qed.

(** Removing an identity from the forgotten ones. *)
Definition without (i : Z) (l : list Z) : list Z := filter (fun x => negb (x =? i)) l.
Lemma cnt_without i j l : cnt j (without i l) = if j =? i then 0 else cnt j l.
Proof.
  induction l as [|x l IH]; cbn [without filter]; [unfold cnt; cbn; now destruct (j =? i)|].
  fold (without i l). destruct (x =? i) eqn:E; cbn [negb]; rewrite ?cnt_cons, IH; destruct (j =? i) eqn:F; try lia.
  - replace (x =? j) with false by lia. lia.
  - replace (x =? j) with false by lia. lia.
Qed.
Lemma without_len i l : zlen (without i l) <= zlen l.
Proof.
  unfold without. induction l as [|x l IH]; cbn [filter]; [lia|]. destruct (negb _); zl; lia.
Qed.

Lemma put_locked c gone new q fresh : locked_ok c gone -> q_lock new = 0 ->
  (forall x, In x (c_queue c) -> In (q_id x) (waits (c_sess c)) -> who x <> who new) ->
  queue_put new (c_queue c) (c_next c) = (q, fresh) ->
  exists gone', locked_ok (mkChild (c_nfs c) q (c_sess c) fresh) gone' /\ zlen gone' <= zlen gone.
Proof.
  intros [K1 K2 K3 K4 K5 K6] Hl Hx Hp. pose proof (put_ok _ _ _ _ _ K1 Hp) as Hok.
  unfold queue_put in Hp. rewrite slice_0_12 in Hp.
  destruct (queue_find _ _ _ (c_queue c) None) as [[i|] pp] eqn:Ef.
  - injection Hp as <- <-. apply find_hit in Ef as (e0 & He0 & Hi & Hw). fold (who new) in Hw.
    assert (Ni : ~ In i (waits (c_sess c))). { intros K. rewrite <- Hi in K. now apply (Hx e0). }
    exists (without i gone). split; [|apply without_len].
    assert (Lk : forall j, cnt j (waits (c_sess c) ++ without i gone) = if j =? i then 0 else cnt j (waits (c_sess c) ++ gone)).
    { intros j. rewrite !cnt_app, cnt_without. destruct (j =? i) eqn:E; [|reflexivity].
      rewrite <- Z.add_0_r. f_equal. assert (j = i) by lia. subst j. pose proof (cnt_bound i (waits (c_sess c))).
      pose proof (cnt_in i (waits (c_sess c))). destruct (Z.eq_dec (cnt i (waits (c_sess c))) 0); [assumption|]. exfalso. apply Ni, H0. lia. }
    split; cbn [c_queue c_sess c_next]; try assumption.
    + intros e He. rewrite Lk. unfold queue_replace in He. apply in_map_iff in He as (x & Ex & Hin).
      destruct (q_id x =? i) eqn:E; subst e; [cbn; now rewrite Z.eqb_refl|]. rewrite E. now apply K3.
    + intros j Hj. rewrite replace_id. now apply K4.
    + rewrite Forall_forall in *. intros j Hj. apply filter_In in Hj as [Hj _]. now apply K5.
    + pose proof (without_len i gone). lia.
  - assert (Lf : cnt (c_next c) (waits (c_sess c) ++ gone) = 0).
    { pose proof (cnt_bound (c_next c) (waits (c_sess c) ++ gone)).
      destruct (Z.eq_dec (cnt (c_next c) (waits (c_sess c) ++ gone)) 0) as [|N]; [assumption|]. exfalso.
      assert (I : In (c_next c) (waits (c_sess c) ++ gone)) by (apply cnt_in; lia).
      apply in_app_or in I as [I|I].
      - apply K4 in I. apply in_map_iff in I as (e & Ee & He). pose proof (t_fresh _ _ K1) as F. rewrite Forall_forall in F.
        apply F in He. lia.
      - rewrite Forall_forall in K5. apply K5 in I. lia. }
    exists gone. split; [|lia].
    assert (Sp : (forall e, In e q -> e = with_id (c_next c) new \/ In e (c_queue c)) /\ (forall e, In e (c_queue c) -> In e q)
                 /\ fresh = c_next c + 1).
    { destruct pp as [j|]; injection Hp as <- <-; (split; [|split; [|reflexivity]]).
      - intros e He. now apply after_in in He.
      - intros e He. now apply after_in_old.
      - intros e He. apply in_app_or in He as [He|[<-|[]]]; tauto.
      - intros e He. apply in_or_app. now left. }
    destruct Sp as (S1 & S2 & ->).
    split; cbn [c_queue c_sess c_next]; try assumption.
    + intros e He. apply S1 in He as [->|He]; [cbn; now rewrite Lf|now apply K3].
    + intros j Hj. apply K4 in Hj. apply in_map_iff in Hj as (e & Ee & He). apply in_map_iff. exists e. split; [assumption|now apply S2].
    + eapply Forall_impl; [|exact K5]. cbn. lia.
Qed.
Lemma rcv_result opts c d index p f now now2 c' eff :
  carries d index p 0 f -> 60 <= zlen f -> 
  child_queue opts c d now now2 = DOk (c', eff) ->
  c' = c \/ exists new q fresh nfs',
    q_index new = index /\ firstn 12 (q_msg new) = firstn 12 f /\ q_lock new = 0
    /\ queue_put new (c_queue c) (c_next c) = (q, fresh)
    /\ (c' = mkChild nfs' q (c_sess c) fresh
        \/ c' = fst (child_expire opts now2 (mkChild (c_nfs c) q (c_sess c) fresh))).
Proof.
  intros (L & Ei & Ep & Er & El & Em) Hl. unfold child_queue. cbv zeta.
  destruct (negb _); [intros [= <- _]; now left|]. destruct (now =? -1); [intros [= <- _]; now left|].
  destruct (negb _); [discriminate|]. destruct (negb _); [discriminate|].
  destruct (netif_byindex _ _) as [sub|]; [|intros [= <- _]; now left].
  destruct (netif_byaddr _ _); [intros [= <- _]; now left|].
  destruct (proto_decode _ _ _) as [[n s]| | | |]; try discriminate; [|intros [= <- _]; now left].
  destruct (n =? 0); [intros [= <- _]; now left|].
  set (new := mkEnt _ _ _ _ _ _ _ _ _ _). destruct (queue_put new (c_queue c) (c_next c)) as [q fresh] eqn:Eq.
  intros H. right. exists new, q, fresh.
  assert (A : q_index new = index /\ firstn 12 (q_msg new) = firstn 12 f /\ q_lock new = 0).
  { split; [exact Ei|]. split; [|reflexivity]. cbn [new q_msg]. rewrite Em, firstn_app.
    replace (12 - length f)%nat with 0%nat by (unfold zlen in Hl; lia). apply app_nil_r. }
  destruct A as (A1 & A2 & A3).
  assert (B : exists nfs', c' = mkChild nfs' q (c_sess c) fresh \/ c' = fst (child_expire opts now2 (mkChild (c_nfs c) q (c_sess c) fresh))).
  { destruct (s_ttl s =? 0).
    - injection H as H. exists []. right. now rewrite H.
    - destruct (_ || _); [injection H as <- _; eexists; now left|].
      destruct (_ && _); injection H as <- _; eexists; left; reflexivity. }
  destruct B as (nfs' & B). exists nfs'. tauto.
Qed.

Lemma waits_held c e : In (q_id e) (waits (c_sess c)) <-> held c e.
Proof. rewrite waits_in. unfold held, holds. firstorder. Qed.
Lemma recv_locked opts c gone d now now2 c' eff : locked_ok c gone -> considerate c (CRecv d now now2) ->
  child_queue opts c d now now2 = DOk (c', eff) -> exists gone', locked_ok c' gone' /\ zlen gone' <= zlen gone.
Proof.
  intros H (index & p & f & payload & Hb & Hl & Hp & Hc & Hf & Hcons) Hq.
  destruct (rcv_result opts c d index p f now now2 c' eff Hc (proj1 Hl) Hq) as [->|(new & q & fresh & nfs' & N1 & N2 & N3 & Hput & Hc')].
  { exists gone. split; [assumption|lia]. }
  destruct (put_locked c gone new q fresh H N3) as (gone' & H' & Hle); [|exact Hput|].
  { intros x Hx Hw K. apply waits_held in Hw. pose proof (f_equal snd K) as K2. pose proof (f_equal (fun k => fst (fst k)) K) as K1.
    cbn [who fst snd] in K1, K2. apply (Hcons x Hx Hw); congruence. }
  exists gone'. split; [|assumption]. destruct Hc' as [->| ->].
  - now apply (nfs_locked _ _ nfs') in H'.
  - now apply expire_locked.
Qed.

(** ** Writing to a client *)
Lemma add_lock_spec i d q e : In e (add_lock i d q) ->
  exists x, In x q /\ q_id e = q_id x /\ q_lock e = if q_id x =? i then (q_lock x + d) mod 256 else q_lock x.
Proof.
  unfold add_lock. intros H. apply in_map_iff in H as (x & Ex & Hx). exists x. split; [assumption|].
  destruct (q_id x =? i); subst e; now split.
Qed.
Lemma from_some i q : In i (map q_id q) -> exists l, queue_from i q = Some l.
Proof.
  induction q as [|e q IH]; cbn; [easy|]. destruct (q_id e =? i) eqn:E; [now eexists|]. intros [K|K]; [lia|]. now apply IH.
Qed.
Lemma from_incl i q l : queue_from i q = Some l -> incl (map q_id l) (map q_id q).
Proof.
  induction q as [|e q IH]; cbn; [discriminate|]. destruct (q_id e =? i).
  - intros [= <-]. apply incl_refl.
  - intros H. apply incl_tl. now apply IH.
Qed.
Lemma loop_wait sid : forall q ws eff i, write_loop sid q ws = (eff, Some i) -> In i (map q_id q).
Proof.
  induction q as [|e q IH]; intros ws eff i; cbn [write_loop]; [discriminate|].
  assert (G : (let '(eff0, r0) := write_loop sid q (tl ws) in (CSent sid (entry_bytes e) :: eff0, r0)) = (eff, Some i) ->
    In i (map q_id (e :: q))).
  { destruct (write_loop sid q (tl ws)) as [eff1 r1] eqn:E. intros [= <- ->]. right. eapply IH. exact E. }
  destruct ws as [|[| |] ws]; [exact G|exact G| |discriminate]. intros [= <- <-]. now left.
Qed.
Lemma drop_nodup sid l : NoDup (map ss_id l) -> NoDup (map ss_id (drop_sess sid l)).
Proof.
  intros H. induction l as [|s l IH]; cbn; [constructor|]. inversion H; subst. destruct (negb _); [|now apply IH].
  constructor; [|now apply IH]. intros K. apply H2. apply in_map_iff in K as (x & Ex & Hx). apply in_map_iff. exists x.
  split; [assumption|]. now apply filter_In in Hx.
Qed.
Lemma wait_ids sid i l : map ss_id (wait_sess sid i l) = map ss_id l.
Proof. unfold wait_sess. rewrite map_map. apply map_ext. intros s. destruct (ss_id s =? sid) eqn:E; cbn; lia. Qed.

Lemma ready_locked c gone sid ws c' eff : locked_ok c gone -> child_cli_write c sid false ws = DOk (c', eff) ->
  locked_ok c' gone.
Proof.
  intros H. pose proof H as [K1 K2 K3 K4 K5 K6]. unfold child_cli_write.
  destruct (find _ _) as [s|] eqn:Ef; [|intros [= <- _]; exact H].
  destruct (drop_perm sid _ s K2 Ef) as (P1 & P2 & L & Es & Hs).
  intros Hw. apply dbind_ok in Hw as ((q1 & l) & Est & Hw).
  set (rest := drop_sess sid (c_sess c)) in *.
  (* the table after the decrement counts the other sessions *)
  assert (A : map q_id q1 = map q_id (c_queue c) /\ map who q1 = map who (c_queue c) /\ incl (map q_id l) (map q_id q1)
    /\ forall e, In e q1 -> q_lock e = cnt (q_id e) (waits rest ++ gone)).
  { destruct (ss_msg s) as [i|] eqn:Em.
    - destruct (queue_from i _) as [l0|] eqn:Eq; [|discriminate]. injection Est as <- <-.
      split; [apply add_lock_id|]. split; [apply add_lock_who|]. split; [eapply from_incl; exact Eq|].
      intros e He. apply add_lock_spec in He as (x & Hx & E1 & E2). rewrite E1, E2, (K3 x Hx).
      rewrite !cnt_app, (cnt_perm _ _ _ P1), cnt_app. assert (W1 : waits [s] = [i]) by (cbn; now rewrite Em).
      rewrite W1, cnt_cons. change (cnt (q_id x) []) with 0. rewrite (Z.eqb_sym i). pose proof (cnt_bound (q_id x) (waits rest)).
      pose proof (cnt_bound (q_id x) gone). pose proof (waits_len rest).
      destruct (q_id x =? i); [rewrite Z.mod_small; lia|lia].
    - injection Est as <- <-. split; [reflexivity|]. split; [reflexivity|]. split; [apply incl_refl|].
      intros e He. rewrite (K3 e He), !cnt_app, (cnt_perm _ _ _ P1), cnt_app. assert (W1 : waits [s] = []) by (cbn; now rewrite Em).
      rewrite W1. reflexivity. }
  destruct A as (A1 & A2 & A3 & A4).
  assert (T1 : table_ok q1 (c_next c)) by (eapply same_ok; [exact A1|exact A2|exact K1]).
  assert (Wr : forall j, In j (waits rest) -> In j (map q_id q1)).
  { intros j Hj. rewrite A1. apply K4. apply waits_in in Hj as (x & Hx & Ex). apply waits_in. exists x. split; [|assumption].
    unfold rest, drop_sess in Hx. now apply filter_In in Hx. }
  destruct (write_loop sid l ws) as [eff1 [i|]] eqn:El; injection Hw as <- _.
  - apply loop_wait in El. apply A3 in El. split; cbn [c_queue c_sess c_next]; try assumption.
    + now apply add_lock_ok.
    + now rewrite wait_ids.
    + intros e He. apply add_lock_spec in He as (x & Hx & E1 & E2). rewrite E1, E2, (A4 x Hx).
      rewrite !cnt_app, (cnt_perm _ _ _ (P2 i)), cnt_cons, (Z.eqb_sym i). pose proof (cnt_bound (q_id x) (waits rest)).
      pose proof (cnt_bound (q_id x) gone). pose proof (waits_len rest). fold rest in L.
      destruct (q_id x =? i); [rewrite Z.mod_small; lia|lia].
    + intros j Hj. rewrite add_lock_id. apply (Permutation_in _ (P2 i)) in Hj. destruct Hj as [<-|Hj]; [assumption|now apply Wr].
    + unfold wait_sess. unfold zlen in *. now rewrite map_length.
  - split; cbn [c_queue c_sess c_next]; try assumption.
    + now apply drop_nodup.
    + fold rest. fold rest in L. lia.
Qed.
Lemma ready_done c gone sid ws : locked_ok c gone -> exists c' eff, child_cli_write c sid false ws = DOk (c', eff).
Proof.
  intros [K1 K2 K3 K4 K5 K6]. unfold child_cli_write. destruct (find _ _) as [s|] eqn:Ef; [|now do 2 eexists].
  destruct (drop_perm sid _ s K2 Ef) as (_ & _ & _ & _ & Hs).
  destruct (ss_msg s) as [i|] eqn:Em; cbn [dbind].
  - destruct (from_some i (add_lock i (-1) (c_queue c))) as [l ->].
    { rewrite add_lock_id. apply K4. apply waits_in. now exists s. }
    cbn [dbind]. destruct (write_loop _ _ _) as [? [?|]]; now do 2 eexists.
  - destruct (write_loop _ _ _) as [? [?|]]; now do 2 eexists.
Qed.
Lemma timeout_locked c gone sid c' eff : locked_ok c gone -> child_cli_write c sid true [] = DOk (c', eff) ->
  exists gone', locked_ok c' gone' /\ zlen gone' <= zlen gone + expelled c (CTimeout sid).
Proof.
  intros H. pose proof H as [K1 K2 K3 K4 K5 K6]. unfold child_cli_write, expelled.
  destruct (find _ _) as [s|] eqn:Ef.
  2:{ intros [= <- _]. exists gone. split; [exact H|]. match goal with |- _ <= _ + ?x => pose proof (zlen_nonneg _ (filter (fun s => (ss_id s =? sid) && match ss_msg s with Some _ => true | None => false end) (c_sess c))) end. lia. }
  destruct (drop_perm sid _ s K2 Ef) as (P1 & _ & L & Es & Hs). intros [= <- _].
  exists (gone ++ waits [s]). split.
  - assert (W : zlen (waits [s]) <= 1) by (pose proof (waits_len [s]) as W; revert W; zl; lia).
    split; cbn [c_queue c_sess c_next]; try assumption.
    + now apply drop_nodup.
    + intros e He. rewrite (K3 e He), !cnt_app, (cnt_perm _ _ _ P1), cnt_app. lia.
    + intros j Hj. apply K4. apply waits_in in Hj as (x & Hx & Ex). apply waits_in. exists x. split; [|assumption].
      unfold drop_sess in Hx. now apply filter_In in Hx.
    + apply Forall_app. split; [assumption|]. apply Forall_forall. intros j Hj.
      assert (Hj' : In j (waits (c_sess c))). { apply waits_in in Hj as (x & [<-|[]] & Ex). apply waits_in. now exists s. }
      apply K4 in Hj'. apply in_map_iff in Hj' as (e & Ee & He). pose proof (t_fresh _ _ K1) as F. rewrite Forall_forall in F.
      apply F in He. lia.
    + zl. lia.
  - rewrite zlen_app. enough (zlen (waits [s]) <= zlen (filter (fun s => (ss_id s =? sid) && match ss_msg s with Some _ => true | None => false end) (c_sess c))) by lia.
    rewrite waits_cons. destruct (ss_msg s) as [i|] eqn:Em; [|apply zlen_nonneg].
    assert (I : In s (filter (fun s => (ss_id s =? sid) && match ss_msg s with Some _ => true | None => false end) (c_sess c))).
    { apply filter_In. split; [assumption|]. rewrite Em, Es, Z.eqb_refl. reflexivity. }
    destruct (filter _ _); [easy|]. change (waits []) with (@nil Z). zl. pose proof (zlen_nonneg _ l). lia.
Qed.
Lemma accept_locked c gone sid : locked_ok c gone -> existsb (fun s => ss_id s =? sid) (c_sess c) = false ->
  zlen (c_sess c) + 1 + zlen gone <= 255 -> locked_ok (child_cli_accept c sid) gone.
Proof.
  intros [K1 K2 K3 K4 K5 K6] He Hb. unfold child_cli_accept.
  assert (W : waits (c_sess c ++ [mkSess sid None]) = waits (c_sess c)).
  { unfold waits. rewrite flat_map_app. cbn. apply app_nil_r. }
  split; cbn [c_queue c_sess c_next]; rewrite ?W; try assumption.
  - rewrite map_app. cbn [map ss_id]. apply NoDup_Add with (a := sid) (l := map ss_id (c_sess c)).
    + rewrite <- (app_nil_r (map ss_id (c_sess c))) at 1. apply Add_app.
    + split; [assumption|]. intros K. apply in_map_iff in K as (s & Es & Hs).
      assert (X : existsb (fun s => ss_id s =? sid) (c_sess c) = true); [|congruence].
      apply existsb_exists. exists s. split; [assumption|lia].
  - zl. lia.
Qed.

(** ** Calm histories *)
Lemma step_locked opts c gone t e c' eff : locked_ok c gone -> zlen gone <= t -> considerate c e ->
  child_step opts c e = DOk (c', eff) -> zlen (c_sess c') + (t + expelled c e) <= 255 ->
  exists gone', locked_ok c' gone' /\ zlen gone' <= t + expelled c e.
Proof.
  intros H Ht Hc Hs Hb. destruct e as [d now now2|now|nfs|sid|sid ws|sid]; cbn [child_step] in Hs.
  - destruct (recv_locked opts c gone d now now2 c' eff H Hc Hs) as (g & Hg & Hle). exists g. split; [assumption|]. cbn [expelled]. lia.
  - injection Hs as Hs. exists gone. split; [|cbn [expelled]; lia]. rewrite <- (f_equal fst Hs : fst _ = c'). now apply expire_locked.
  - injection Hs as <- _. exists gone. split; [|cbn [expelled]; lia]. now apply nfs_locked.
  - destruct (existsb _ _) eqn:E; injection Hs as <- _; (exists gone; split; [|cbn [expelled]; lia]); [assumption|].
    apply accept_locked; [assumption|assumption|]. cbn [child_cli_accept c_sess expelled] in Hb. revert Hb. zl. lia.
  - exists gone. split; [|cbn [expelled]; lia]. eapply ready_locked; [exact H|exact Hs].
  - destruct (timeout_locked c gone sid c' eff H Hs) as (g & Hg & Hle). exists g. split; [assumption|lia].
Qed.
Lemma calm_locked opts c t : calm opts c t -> exists gone, locked_ok c gone /\ zlen gone <= t.
Proof.
  induction 1 as [|c t e c' eff _ (gone & Hl & Hg) Hc Hs Hb].
  - exists []. split; [apply start_locked|zl; lia].
  - eapply step_locked; eauto.
Qed.
Lemma calm_held opts c t s i : calm opts c t -> In s (c_sess c) -> ss_msg s = Some i ->
  exists e, In e (c_queue c) /\ q_id e = i.
Proof.
  intros H Hs Hi. destruct (calm_locked opts c t H) as (gone & Hl & _).
  assert (W : In i (waits (c_sess c))) by (apply waits_in; now exists s).
  apply (k_held _ _ Hl) in W. apply in_map_iff in W as (e & Ee & He). now exists e.
Qed.
Lemma queue_not_fail opts c d now now2 : child_queue opts c d now now2 <> DFail.
Proof.
  unfold child_queue. cbv zeta. destruct (negb _); [discriminate|]. destruct (now =? -1); [discriminate|].
  destruct (negb _); [discriminate|]. destruct (negb _); [discriminate|].
  destruct (netif_byindex _ _) as [sub|]; [|discriminate]. destruct (netif_byaddr _ _); [discriminate|].
  destruct (proto_decode _ _ _) as [[n s]| | | |]; try discriminate.
  destruct (n =? 0); [discriminate|]. destruct (queue_put _ _ _). destruct (s_ttl s =? 0); [discriminate|].
  destruct (_ || _); [discriminate|]. destruct (_ && _); discriminate.
Qed.
Lemma calm_safe opts c t e : calm opts c t -> considerate c e -> exists c' eff, child_step opts c e = DOk (c', eff).
Proof.
  intros H Hc. destruct (calm_locked opts c t H) as (gone & Hl & _).
  destruct e as [d now now2|now|nfs|sid|sid ws|sid]; cbn [child_step]; try (now do 2 eexists).
  - destruct Hc as (index & p & f & payload & Hb & Hlen & Hp & Hc & Hf & _).
    assert (Hle : 60 <= zlen f <= 1518) by lia.
    destruct (queue_no_abort opts c d index p 0 f payload now now2 Hb Hc Hp Hle Hf) as (A1 & A2 & A3).
    pose proof (queue_not_fail opts c d now now2). 
    destruct (child_queue opts c d now now2) as [[c' eff]| | | |]; try easy; [now do 2 eexists|]. exfalso. apply A3; [lia|reflexivity].
  - destruct (child_expire opts now c) as [c' eff]. now exists c', eff.
  - destruct (existsb _ _); now do 2 eexists.
  - eapply ready_done. exact Hl.
  - unfold child_cli_write. destruct (find _ _); now do 2 eexists.
Qed.
(** Without thrown-out sessions the counters say exactly who is waiting. *)
Lemma calm_exact opts c e : calm opts c 0 -> In e (c_queue c) -> (q_lock e <> 0 <-> held c e).
Proof.
  intros H He. destruct (calm_locked opts c 0 H) as (gone & Hl & Hg).
  assert (gone = []) by (apply zlen_0; pose proof (zlen_nonneg _ gone); lia). subst gone.
  rewrite (k_lock _ _ Hl e He), app_nil_r, <- waits_held, cnt_in. pose proof (cnt_bound (q_id e) (waits (c_sess c))). lia.
Qed.
Lemma calm_stays opts c e now : calm opts c 0 -> In e (c_queue c) ->
  (stays now e = true <-> now <= q_received e + q_ttl e \/ held c e).
Proof.
  intros H He. rewrite <- (calm_exact opts c e H He). unfold stays. rewrite orb_true_iff. lia.
Qed.
