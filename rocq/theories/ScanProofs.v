(** Proofs for C123. *)
From Verif Require Import Base Tlv Types Msg Protos Wire Util Child Spec SpecAdv SpecRound SpecNet SpecChild SpecScan
  ChildProofs ChildProofs5 ChildProofs6 Lemmas.

Local Notation key := (Z * Z * list Z)%type.
Lemma key_dec (a b : key) : {a = b} + {a <> b}.
Proof. repeat (apply Z.eq_dec || apply list_eq_dec || decide equality). Qed.
(** Identities and neighbours of the table. *)
Definition ks (q : list entry) : list (Z * key) := map (fun e => (q_id e, who e)) q.
Lemma ks_fst q : map fst (ks q) = map q_id q.
Proof. unfold ks. rewrite map_map. reflexivity. Qed.
Lemma ks_snd q : map snd (ks q) = map who q.
Proof. unfold ks. rewrite map_map. reflexivity. Qed.
Lemma ks_combine q : ks q = combine (map q_id q) (map who q).
Proof. induction q as [|e q IH]; [reflexivity|]. cbn. now rewrite <- IH. Qed.
Lemma ks_same q q' : map q_id q' = map q_id q -> map who q' = map who q -> ks q' = ks q.
Proof. intros A B. rewrite !ks_combine. now rewrite A, B. Qed.
Lemma ks_lock i d q : ks (add_lock i d q) = ks q.
Proof. apply ks_same; [apply add_lock_id|apply add_lock_who]. Qed.

Inductive subseq {A} : list A -> list A -> Prop :=
| sub_nil : subseq [] []
| sub_take x a b : subseq a b -> subseq (x :: a) (x :: b)
| sub_skip x a b : subseq a b -> subseq a (x :: b).
Lemma sub_refl {A} (l : list A) : subseq l l.
Proof. induction l; now constructor. Qed.
Lemma sub_in {A} (a b : list A) x : subseq a b -> In x a -> In x b.
Proof. intros H. induction H; intros I; [easy| |right; now apply IHsubseq]. destruct I as [->|I]; [now left|right; now apply IHsubseq]. Qed.
Lemma sub_filter {A} (f : A -> bool) (a b : list A) : subseq a b -> subseq (filter f a) (filter f b).
Proof.
  intros H. induction H; [constructor| |]; cbn [filter]; destruct (f x); try (constructor; assumption); assumption.
Qed.
Lemma ks_filter f q : subseq (ks (filter f q)) (ks q).
Proof. induction q as [|e q IH]; [constructor|]. cbn [filter]. destruct (f e); cbn [ks map]; now constructor. Qed.
Lemma sub_same {A} (a b : list (A * key)) : subseq a b -> NoDup (map snd b) -> (forall w, In w (map snd b) -> In w (map snd a)) -> a = b.
Proof.
  intros H. induction H as [|x a b H IH|x a b H IH]; intros N I; [reflexivity| |]; cbn [map] in N; inversion N; subst.
  - f_equal. apply IH; [assumption|]. intros w Hw. destruct (I w (or_intror Hw)) as [E|E]; [|exact E]. subst w. contradiction.
  - exfalso. specialize (I (snd x) (or_introl eq_refl)). apply H2. apply in_map_iff in I as (y & E & Hy). rewrite <- E.
    apply in_map. now apply (sub_in a).
Qed.

(** What a step does to the table. *)
Definition grown (m l : list (Z * key)) (fresh : Z) : Prop :=
  m = l \/ exists a b w, l = a ++ b /\ m = a ++ (fresh, w) :: b /\ ~ In w (map snd l).
Lemma after_ks i new : forall q, In i (map q_id q) -> exists a b, ks q = a ++ b /\ ks (insert_after i new q) = a ++ (q_id new, who new) :: b.
Proof.
  induction q as [|e q IH]; intros I; [destruct I|]. cbn [insert_after]. destruct (q_id e =? i) eqn:E.
  - exists [(q_id e, who e)], (ks q). now split.
  - destruct I as [I|I]; [lia|]. destruct (IH I) as (a & b & A & B). exists ((q_id e, who e) :: a), b. split.
    + cbn [ks map]. fold (ks q). now rewrite A.
    + cbn [ks map]. fold (ks (insert_after i new q)). now rewrite B.
Qed.
Lemma put_ks new q fresh q' fresh' : table_ok q fresh -> queue_put new q fresh = (q', fresh') -> grown (ks q') (ks q) fresh.
Proof.
  intros H Hp. unfold queue_put in Hp. rewrite slice_0_12 in Hp.
  destruct (queue_find _ _ _ q None) as [[i|] pp] eqn:Ef.
  - injection Hp as <- <-. left. apply find_hit in Ef as (e & He & Hi & Hw). apply ks_same; [apply replace_id|].
    eapply replace_who; eauto. apply H.
  - apply find_miss in Ef as [Hm Hpp]. fold (who new) in Hm. right.
    assert (N : ~ In (who new) (map snd (ks q))).
    { rewrite ks_snd. intros K. apply in_map_iff in K as (x & E & Hx). now apply Hm in Hx. }
    destruct Hpp as [[-> Hn]|(a & e & b & -> & -> & He & Hb)]; injection Hp as <- <-.
    + exists (ks q), [], (who new). rewrite app_nil_r. split; [reflexivity|]. split; [|exact N].
      unfold ks. now rewrite map_app.
    + destruct (after_ks (q_id e) (with_id fresh new) (a ++ e :: b)) as (x & y & X & Y).
      { rewrite map_app. apply in_or_app. right. now left. }
      exists x, y, (who new). split; [exact X|]. split; [exact Y|exact N].
Qed.
Lemma expire_ks opts now c : subseq (ks (c_queue (fst (child_expire opts now c)))) (ks (c_queue c)).
Proof.
  destruct (Z.eq_dec now (-1)) as [->|N].
  - unfold child_expire. cbn. apply sub_refl.
  - rewrite (proj1 (child_expire_queue opts now c N)). apply ks_filter.
Qed.
Lemma write_ks c sid t ws c' eff : child_cli_write c sid t ws = DOk (c', eff) -> ks (c_queue c') = ks (c_queue c).
Proof.
  unfold child_cli_write. destruct (find _ _) as [s|]; [|now intros [= <- _]]. destruct t; [now intros [= <- _]|].
  intros H. apply dbind_ok in H as ((q1 & l) & Est & H).
  assert (A : ks q1 = ks (c_queue c)).
  { destruct (ss_msg s) as [i|]; [|now injection Est as <- _]. destruct (queue_from i _); [|discriminate].
    injection Est as <- _. apply ks_lock. }
  destruct (write_loop _ _ _) as [e r]. destruct r; injection H as <- _; cbn [c_queue]; now rewrite ?ks_lock.
Qed.
Lemma step_ks opts c e c' eff : table_ok (c_queue c) (c_next c) -> considerate c e -> child_step opts c e = DOk (c', eff) ->
  exists m, grown m (ks (c_queue c)) (c_next c) /\ subseq (ks (c_queue c')) m.
Proof.
  intros T Cs. assert (S : ks (c_queue c') = ks (c_queue c) -> exists m, grown m (ks (c_queue c)) (c_next c) /\ subseq (ks (c_queue c')) m).
  { intros ->. exists (ks (c_queue c)). split; [now left|apply sub_refl]. }
  destruct e as [d now now2|now|nfs|o|o ws|o]; cbn [child_step]; intros H.
  - destruct Cs as (index & p & f & payload & Hb & Hl & Hp & Hc & _).
    apply (rcv_result opts c d index p f now now2 c' eff Hc) in H; [|lia].
    destruct H as [->|(new & q & fresh & nfs' & _ & _ & _ & P & [->| ->])]; [now apply S| |].
    + exists (ks q). split; [now apply (put_ks new (c_queue c) (c_next c) q fresh)|apply sub_refl].
    + exists (ks q). split; [now apply (put_ks new (c_queue c) (c_next c) q fresh)|].
      apply (expire_ks opts now2 (mkChild (c_nfs c) q (c_sess c) fresh)).
  - injection H as H. exists (ks (c_queue c)). split; [now left|]. replace c' with (fst (child_expire opts now c)); [apply expire_ks|].
    rewrite H. reflexivity.
  - injection H as <- _. now apply S.
  - destruct (existsb _ _); injection H as <- _; now apply S.
  - apply write_ks in H. now apply S.
  - apply write_ks in H. now apply S.
Qed.

(** The neighbours of [W] keep their places. *)
Definition ofw (W : key -> bool) (l : list (Z * key)) : list (Z * key) := filter (fun x => W (snd x)) l.
Lemma ofw_snd W l : map snd (ofw W l) = filter W (map snd l).
Proof. unfold ofw. induction l as [|x l IH]; [reflexivity|]. cbn. destruct (W (snd x)); cbn; now rewrite IH. Qed.
Lemma ofw_in W l w : In w (map snd (ofw W l)) <-> In w (map snd l) /\ W w = true.
Proof. rewrite ofw_snd. apply filter_In. Qed.
Lemma nodup_filter {A} (f : A -> bool) l : NoDup l -> NoDup (filter f l).
Proof.
  induction 1 as [|x l N H IH]; [constructor|]. cbn. destruct (f x); [|exact IH]. constructor; [|exact IH].
  intros I. apply N. now apply filter_In in I as [I _].
Qed.
Lemma keep W l m fresh l' : grown m l fresh -> subseq l' m -> NoDup (map snd l) ->
  (forall w, W w = true -> (In w (map snd l') <-> In w (map snd l))) -> ofw W l' = ofw W l.
Proof.
  intros G S N I.
  assert (E : subseq (ofw W l') (ofw W l)).
  { destruct G as [->|(a & b & w & -> & -> & Nw)]; [now apply sub_filter|].
    destruct (W w) eqn:Ew.
    - assert (K : ~ In w (map snd l')) by (intros K; apply Nw; now apply I).
      revert S K. clear. revert l'. induction a as [|x a IH]; intros l' S K; cbn [app] in *.
      + inversion S; subst; [|now apply sub_filter]. exfalso. apply K. now left.
      + inversion S; subst; cbn [ofw filter].
        * destruct (W (snd x)); [apply sub_take|]; apply IH; try assumption; intros K'; apply K; now right.
        * destruct (W (snd x)); [apply sub_skip|]; now apply IH.
    - apply (sub_filter (fun x => W (snd x))) in S. unfold ofw. rewrite filter_app in *. cbn [filter snd] in S. now rewrite Ew in S. }
  apply sub_same; [exact E|rewrite ofw_snd; now apply nodup_filter|].
  intros w. rewrite !ofw_in. intros [H1 H2]. split; [|exact H2]. now apply I.
Qed.

(** The part of the table before an entry. *)
Fixpoint upto (i : Z) (l : list (Z * key)) : list (Z * key) :=
  match l with [] => [] | x :: r => if fst x =? i then [] else x :: upto i r end.
Lemma upto_filter (W W' : key -> bool) i : forall l, (forall w, W w = true -> W' w = true) ->
  (forall x, In x l -> fst x = i -> W' (snd x) = true) -> ofw W (upto i l) = ofw W (upto i (ofw W' l)).
Proof.
  intros l H. induction l as [|x l IH]; intros Hi; [reflexivity|]. cbn [upto].
  assert (IH' : ofw W (upto i l) = ofw W (upto i (ofw W' l))) by (apply IH; intros y Hy; apply Hi; now right).
  cbn [ofw filter]. fold (ofw W' l). destruct (fst x =? i) eqn:E.
  - rewrite (Hi x (or_introl eq_refl)) by lia. cbn [upto]. now rewrite E.
  - cbn [ofw filter]. fold (ofw W (upto i l)). destruct (W (snd x)) eqn:Ew.
    + rewrite (H _ Ew). cbn [upto]. rewrite E. cbn [ofw filter]. rewrite Ew. fold (ofw W (upto i (ofw W' l))). now rewrite IH'.
    + destruct (W' (snd x)); cbn [upto]; [rewrite E; cbn [ofw filter]; rewrite Ew|]; exact IH'.
Qed.
Lemma upto_prefix i l : exists r, l = upto i l ++ r.
Proof.
  induction l as [|x l (r & IH)]; [now exists []|]. cbn [upto]. destruct (fst x =? i); [now exists (x :: l)|].
  exists r. cbn. now rewrite <- IH.
Qed.
Lemma upto_split a x b : ~ In (fst x) (map fst a) -> upto (fst x) (a ++ x :: b) = a.
Proof.
  induction a as [|y a IH]; intros N; cbn [app upto]; [now rewrite Z.eqb_refl|].
  destruct (fst y =? fst x) eqn:E; [exfalso; apply N; left; lia|]. f_equal. apply IH. intros K. apply N. now right.
Qed.
Lemma nth_split_map {A B} (f : A -> B) l k y : nth_error (map f l) k = Some y -> exists x, l = firstn k l ++ x :: skipn (S k) l /\ f x = y.
Proof.
  revert l. induction k as [|k IH]; intros [|x l] H; try discriminate; cbn in H.
  - injection H as <-. now exists x.
  - destruct (IH l H) as (z & E & F). exists z. split; [|exact F]. cbn [firstn app]. f_equal. exact E.
Qed.
Lemma from_split i q l : queue_from i q = Some l -> exists a e b, q = a ++ l /\ l = e :: b /\ q_id e = i /\ ~ In i (map q_id a).
Proof.
  induction q as [|x q IH]; [discriminate|]. cbn [queue_from]. destruct (q_id x =? i) eqn:E.
  - intros [= <-]. exists [], x, q. repeat split; [lia|easy].
  - intros H. destruct (IH H) as (a & e & b & -> & H2 & H3 & H4). exists (x :: a), e, b. repeat split; try assumption.
    intros [K|K]; [lia|contradiction].
Qed.

Section Scan.
Variables (opts sid : Z) (W : key -> bool) (K : list key).
(** What was sent so far. *)
Definition scanned (c : child) (l : list entry) (broken : Prop) : Prop :=
  let got := filter W (map who l) in
  match find (fun s => ss_id s =? sid) (c_sess c) with
  | Some s => match ss_msg s with
              | None => got = []
              | Some i => got = map snd (ofw W (upto i (ks (c_queue c))))
              end
  | None => (exists k, got = firstn k K) /\ (broken \/ got = K)
  end.
Lemma scanned_weaken c l (b b' : Prop) : (b -> b') -> scanned c l b -> scanned c l b'.
Proof. unfold scanned. intros I. destruct (find _ _); [easy|]. tauto. Qed.
Lemma prefix_first {A} (a r : list A) : a = firstn (length a) (a ++ r).
Proof. rewrite firstn_app, Nat.sub_diag, firstn_all. cbn. now rewrite app_nil_r. Qed.
Lemma scanned_prefix c l b : filter W (map who (c_queue c)) = K -> scanned c l b -> exists k, filter W (map who l) = firstn k K.
Proof.
  intros HK. unfold scanned. destruct (find _ _) as [s|]; [|now intros [H _]]. destruct (ss_msg s) as [i|].
  - intros ->. destruct (upto_prefix i (ks (c_queue c))) as (r & E). exists (length (map snd (ofw W (upto i (ks (c_queue c)))))).
    assert (E2 : K = map snd (ofw W (upto i (ks (c_queue c)))) ++ map snd (ofw W r)).
    { rewrite <- HK, <- ks_snd, <- ofw_snd. rewrite E at 1. unfold ofw. now rewrite filter_app, map_app. }
    rewrite E2. apply prefix_first.
  - intros ->. now exists 0%nat.
Qed.
(** The session itself writes. *)
Lemma scan_write c l broken ws c' eff : table_ok (c_queue c) (c_next c) -> filter W (map who (c_queue c)) = K ->
  scanned c l broken -> child_cli_write c sid false ws = DOk (c', eff) ->
  exists l', sent_to sid eff = map entry_bytes l' /\ scanned c' (l ++ l') (broken \/ In WErr ws).
Proof.
  intros T HK Hs H. pose proof (scanned_prefix c l broken HK Hs) as Pre. pose proof (write_ks c sid false ws c' eff H) as KS.
  unfold child_cli_write in H. destruct (find (fun s => ss_id s =? sid) (c_sess c)) as [s|] eqn:Ef.
  2:{ injection H as <- <-. exists []. split; [reflexivity|]. rewrite app_nil_r. now apply (scanned_weaken c l broken); [left|]. }
  apply dbind_ok in H as ((q1 & r1) & Est & H).
  assert (A : exists a, q1 = a ++ r1 /\ ks q1 = ks (c_queue c) /\ filter W (map who l) = filter W (map who a)
    /\ NoDup (map q_id q1)).
  { unfold scanned in Hs. rewrite Ef in Hs. destruct (ss_msg s) as [i|].
    - destruct (queue_from i _) as [l0|] eqn:Q; [|discriminate]. injection Est as <- <-.
      apply from_split in Q as (a & e & b & Eq & -> & Ei & Na). exists a. split; [exact Eq|]. split; [apply ks_lock|]. split.
      + rewrite Hs, <- (ks_lock i (-1)), Eq. unfold ks at 1. rewrite map_app. cbn [map]. rewrite <- Ei.
        rewrite (upto_split _ (q_id e, who e)); [|fold (ks a); rewrite ks_fst, Ei; exact Na].
        fold (ks a). now rewrite ofw_snd, ks_snd.
      + rewrite add_lock_id. apply T.
    - injection Est as <- <-. exists []. split; [reflexivity|]. split; [reflexivity|]. split; [exact Hs|apply T]. }
  destruct A as (a & Eq & Ek & Eg & Nd). destruct (write_loop sid r1 ws) as [eff1 r] eqn:El.
  destruct (loop_sent sid r1 ws eff1 r El) as (_ & k & L2 & L3).
  assert (Ec : c_queue c' = (match r with Some i => add_lock i 1 q1 | None => q1 end)
    /\ c_sess c' = (match r with Some i => wait_sess sid i (c_sess c) | None => drop_sess sid (c_sess c) end) /\ eff = eff1).
  { destruct r; injection H as <- <-; now repeat split. }
  destruct Ec as (Qc & Sc & ->). exists (firstn k r1). split; [rewrite L2; now rewrite firstn_map|].
  assert (Eg' : filter W (map who (l ++ firstn k r1)) = filter W (map who (a ++ firstn k r1))).
  { rewrite !map_app, !filter_app, Eg. reflexivity. }
  unfold scanned. rewrite Sc. destruct r as [i|].
  - rewrite find_wait, Ef, Z.eqb_refl. cbn [ss_msg]. rewrite Eg', KS, <- Ek, Eq.
    apply nth_split_map in L3 as (x & L3 & Ex).
    assert (E : ks (a ++ r1) = ks (a ++ firstn k r1) ++ (q_id x, who x) :: ks (skipn (S k) r1)).
    { rewrite L3 at 1. rewrite app_assoc. unfold ks. now rewrite (map_app _ (a ++ firstn k r1)). }
    rewrite E. replace i with (fst (q_id x, who x)) by exact Ex. rewrite upto_split; [now rewrite ofw_snd, ks_snd|].
    rewrite ks_fst. cbn [fst]. rewrite Eq, L3, app_assoc, map_app in Nd. cbn [map] in Nd.
    apply NoDup_remove_2 in Nd. intros C. apply Nd. apply in_or_app. now left.
  - rewrite find_drop, Z.eqb_refl. rewrite Eg'.
    assert (KK : filter W (map who q1) = K) by (rewrite <- HK, <- !ks_snd; now rewrite Ek).
    split.
    + exists (length (filter W (map who (a ++ firstn k r1)))).
      assert (E : K = filter W (map who (a ++ firstn k r1)) ++ filter W (map who (skipn k r1))).
      { rewrite <- filter_app, <- map_app, <- app_assoc, firstn_skipn, <- Eq. now symmetry. }
      rewrite E. apply prefix_first.
    + destruct L3 as [L3|L3]; [left; now right|]. right. rewrite <- KK, Eq. f_equal. f_equal. f_equal.
      rewrite L2 in L3. apply (f_equal (@length _)) in L3. rewrite firstn_length, map_length in L3. apply firstn_all2. lia.
Qed.
Lemma find_accept o l : o <> sid -> find (fun s => ss_id s =? sid) (l ++ [mkSess o None]) = find (fun s => ss_id s =? sid) l.
Proof.
  intros N. induction l as [|x l IH]; cbn; [|now rewrite IH]. now replace (o =? sid) with false by lia.
Qed.
(** Steps that do not touch the session. *)
Definition others (e : cevent) : Prop := match e with CAccept o | CReady o _ | CTimeout o => o <> sid | _ => True end.
Lemma descr_quiet i u n q : ~ In (CSent i u) (descr_eff opts n q).
Proof. unfold descr_eff. destruct (netif_descr opts n q); [|easy]. intros [E|[]]. discriminate. Qed.
Lemma expire_quiet i u now c : ~ In (CSent i u) (snd (child_expire opts now c)).
Proof.
  unfold child_expire. destruct (now =? -1); [easy|]. destruct (expire_loop _ _ _) as [qq nn].
  destruct (update_loop opts qq nn) as [n2 ee] eqn:U. cbn [snd]. unfold update_loop in U.
  assert (G : forall l st, ~ In (CSent i u) (snd st) -> ~ In (CSent i u) (snd (fold_left (update_one opts qq) l st))).
  { induction l as [|j l IH]; intros [n3 e3] S3; [exact S3|]. cbn [fold_left]. apply IH. unfold update_one.
    destruct (netif_byindex n3 j); [|exact S3]. destruct (nf_update _ =? 0); [exact S3|]. cbn [snd] in *. intros B.
    apply in_app_or in B as [B|B]; [contradiction|]. destruct (has opts OPT_IFDESCR); [now apply descr_quiet in B|destruct B]. }
  specialize (G (map nf_index nn) (nn, []) (fun z => z)). rewrite U in G. exact G.
Qed.
Lemma queue_quiet i u c d now now2 c' eff : child_queue opts c d now now2 = DOk (c', eff) -> ~ In (CSent i u) eff.
Proof.
  intros H. unfold child_queue in H. cbv zeta in H. destruct (negb _) in H; [injection H as _ <-; easy|]. destruct (now =? -1); [injection H as _ <-; easy|].
  destruct (negb _) in H; [discriminate H|]. destruct (negb _) in H; [discriminate H|].
  destruct (netif_byindex _ _) as [sub|]; [|injection H as _ <-; easy]. destruct (netif_byaddr _ _); [injection H as _ <-; easy|].
  destruct (proto_decode _ _ _) as [[n s]| | | |]; try discriminate H; [|injection H as _ <-; easy].
  destruct (n =? 0); [injection H as _ <-; easy|]. destruct (queue_put _ _ _) as [q2 f2]. destruct (s_ttl s =? 0).
  { injection H as H. intros I. apply (expire_quiet i u now2 (mkChild (c_nfs c) q2 (c_sess c) f2)). now rewrite H. }
  assert (Y : ~ In (CSent i u) (if has opts OPT_IFDESCR then descr_eff opts sub q2 else [])).
  { destruct (has opts OPT_IFDESCR); [apply descr_quiet|easy]. }
  destruct (_ || _) in H; [injection H as _ <-; exact Y|]. destruct (_ && _) in H; injection H as _ <-; exact Y.
Qed.
Lemma quiet_sent eff : (forall u, ~ In (CSent sid u) eff) -> sent_to sid eff = [].
Proof.
  induction eff as [|x eff IH]; intros H; [reflexivity|]. unfold sent_to. cbn [flat_map]. fold (sent_to sid eff).
  rewrite IH by (intros u I; apply (H u); now right). destruct x as [i t|i u]; [reflexivity|]. destruct (i =? sid) eqn:E; [|reflexivity].
  exfalso. apply (H u). left. f_equal. lia.
Qed.
Lemma expire_sess now c : c_sess (fst (child_expire opts now c)) = c_sess c.
Proof. unfold child_expire. destruct (now =? -1); [reflexivity|]. destruct (expire_loop _ _ _). now destruct (update_loop _ _ _). Qed.
Lemma rcv_sess c d now now2 c' eff : considerate c (CRecv d now now2) -> child_queue opts c d now now2 = DOk (c', eff) -> c_sess c' = c_sess c.
Proof.
  intros (index & p & f & payload & Hb & Hl & Hp & Hc & _) H.
  apply (rcv_result opts c d index p f now now2 c' eff Hc) in H; [|lia].
  destruct H as [->|(new & q & fresh & nfs' & _ & _ & _ & P & [->| ->])]; try reflexivity.
  now rewrite expire_sess.
Qed.
Lemma write_other c o t ws c' eff : o <> sid -> child_cli_write c o t ws = DOk (c', eff) ->
  find (fun s => ss_id s =? sid) (c_sess c') = find (fun s => ss_id s =? sid) (c_sess c) /\ sent_to sid eff = [].
Proof.
  intros O. unfold child_cli_write. destruct (find (fun s => ss_id s =? o) _) as [s|]; [|now intros [= <- <-]].
  destruct t; [intros [= <- <-]; split; [|reflexivity]; cbn [c_sess]; rewrite find_drop; now replace (sid =? o) with false by lia|].
  intros H. apply dbind_ok in H as ((q1 & l) & Est & H). destruct (write_loop o l ws) as [eff1 r] eqn:El.
  destruct (loop_sent o l ws eff1 r El) as (L1 & _). destruct r; injection H as <- <-; cbn [c_sess].
  - split; [|apply L1; congruence]. rewrite find_wait. replace (sid =? o) with false by lia. now destruct (find _ _).
  - split; [|apply L1; congruence]. rewrite find_drop. now replace (sid =? o) with false by lia.
Qed.
Lemma others_sess c e c' eff : considerate c e -> others e -> child_step opts c e = DOk (c', eff) ->
  find (fun s => ss_id s =? sid) (c_sess c') = find (fun s => ss_id s =? sid) (c_sess c) /\ sent_to sid eff = [].
Proof.
  intros Cs O. destruct e as [d now now2|now|nfs|o|o ws|o]; cbn [child_step others] in *; intros H.
  - split; [now rewrite (rcv_sess c d now now2 c' eff Cs H)|]. apply quiet_sent. intros u. now apply (queue_quiet sid u c d now now2 c').
  - injection H as H. split.
    + replace c' with (fst (child_expire opts now c)) by now rewrite H. now rewrite expire_sess.
    + apply quiet_sent. intros u. replace eff with (snd (child_expire opts now c)) by now rewrite H. apply expire_quiet.
  - injection H as <- <-. now split.
  - destruct (existsb _ _); injection H as <- <-; (split; [|reflexivity]); [reflexivity|]. cbn [child_cli_accept c_sess]. now apply find_accept.
  - now apply (write_other c o false ws).
  - now apply (write_other c o true []).
Qed.
(** Its place does not move. *)
Lemma cursor_stays c gone e c' gone' eff s i : locked_ok c gone -> locked_ok c' gone' -> considerate c e ->
  child_step opts c e = DOk (c', eff) -> In s (c_sess c) -> In s (c_sess c') -> ss_msg s = Some i ->
  (forall w, W w = true -> (In w (map who (c_queue c')) <-> In w (map who (c_queue c)))) ->
  ofw W (upto i (ks (c_queue c'))) = ofw W (upto i (ks (c_queue c))).
Proof.
  intros L L' Cs H Is Is' Hi HW.
  assert (T := k_table _ _ L). assert (T' := k_table _ _ L').
  destruct (step_ks opts c e c' eff T Cs H) as (m & G & S).
  assert (I1 : In i (map fst (ks (c_queue c)))) by (rewrite ks_fst; apply (k_held _ _ L), waits_in; now exists s).
  assert (I2 : In i (map fst (ks (c_queue c')))) by (rewrite ks_fst; apply (k_held _ _ L'), waits_in; now exists s).
  apply in_map_iff in I1 as ((i1 & w) & E1 & I1). apply in_map_iff in I2 as ((i2 & w') & E2 & I2). cbn in E1, E2. subst i1 i2.
  assert (U : forall q fresh, table_ok q fresh -> forall a b, In (i, a) (ks q) -> In (i, b) (ks q) -> a = b).
  { intros q fr Tq a b A B. pose proof (t_ids _ _ Tq) as N. rewrite <- ks_fst in N. revert N A B. clear. induction (ks q) as [|x l IH]; [easy|].
    cbn [map]. intros N. inversion N; subst. intros [->|A] [B|B]; [congruence| | |now apply IH].
    - exfalso. apply H1. cbn. apply (in_map fst) in B. exact B.
    - exfalso. apply H1. rewrite B. cbn. apply (in_map fst) in A. exact A. }
  assert (Ew : w' = w).
  { pose proof (sub_in _ _ _ S I2) as I3. destruct G as [->|(a & b & v & El & -> & _)]; [exact (U _ _ T _ _ I3 I1)|].
    apply in_app_or in I3 as [I3|[I3|I3]].
    - apply (U _ _ T); [|exact I1]. rewrite El. apply in_or_app. now left.
    - exfalso. injection I3 as I3 _. pose proof (t_fresh _ _ T) as F. apply (in_map fst) in I1. rewrite ks_fst in I1. cbn in I1.
      apply in_map_iff in I1 as (x & Ex & Hx). rewrite Forall_forall in F. apply F in Hx. lia.
    - apply (U _ _ T); [|exact I1]. rewrite El. apply in_or_app. now right. }
  subst w'. set (W' := fun x => W x || (if key_dec x w then true else false)).
  assert (K1 : forall x, W x = true -> W' x = true) by (intros x Hx; unfold W'; now rewrite Hx).
  assert (Kw : W' w = true) by (unfold W'; destruct (key_dec w w); [apply orb_true_r|easy]).
  rewrite (upto_filter W W' i (ks (c_queue c'))), (upto_filter W W' i (ks (c_queue c))); try exact K1.
  - f_equal. f_equal. apply (keep W' _ m (c_next c)); [exact G|exact S|rewrite ks_snd; apply T|].
    intros x Hx. unfold W' in Hx. apply orb_true_iff in Hx as [Hx|Hx]; [rewrite !ks_snd; now apply HW|].
    destruct (key_dec x w) as [->|]; [|discriminate]. split; intros _; [apply (in_map snd) in I1; exact I1|apply (in_map snd) in I2; exact I2].
  - intros [j v] Hv Ev. cbn in Ev. subst j. cbn [snd]. now rewrite (U _ _ T _ _ Hv I1).
  - intros [j v] Hv Ev. cbn in Ev. subst j. cbn [snd]. now rewrite (U _ _ T' _ _ Hv I2).
Qed.
Lemma scan_step c gone t l broken e c' eff : locked_ok c gone -> zlen gone <= t -> considerate c e ->
  child_step opts c e = DOk (c', eff) -> zlen (c_sess c') + (t + expelled c e) <= 255 -> e <> CAccept sid ->
  (forall w, W w = true -> (In w (map who (c_queue c')) <-> In w (map who (c_queue c)))) ->
  filter W (map who (c_queue c)) = K -> scanned c l broken ->
  filter W (map who (c_queue c')) = K
  /\ exists l', sent_to sid eff = map entry_bytes l' /\ scanned c' (l ++ l') (broken \/ breaks sid e).
Proof.
  intros L Hg Cs H Hb Na HW HK Hs. destruct (step_locked opts c gone t e c' eff L Hg Cs H Hb) as (gone' & L' & _).
  assert (T := k_table _ _ L). split.
  { destruct (step_ks opts c e c' eff T Cs H) as (m & G & S).
    rewrite <- HK, <- !ks_snd, <- !ofw_snd. f_equal. apply (keep W _ m (c_next c)); [exact G|exact S|rewrite ks_snd; apply T|].
    now rewrite !ks_snd. }
  assert (O : others e \/ (exists ws, e = CReady sid ws) \/ e = CTimeout sid).
  { destruct e as [d now now2|now|nfs|o|o ws|o]; cbn [others]; try now left.
    - left. intros ->. now apply Na.
    - destruct (Z.eq_dec o sid) as [->|]; [right; left; now eexists|now left].
    - destruct (Z.eq_dec o sid) as [->|]; [right; now right|now left]. }
  destruct O as [O|[[ws ->]| ->]].
  - exists []. rewrite app_nil_r. destruct (others_sess c e c' eff Cs O H) as [F ->]. split; [reflexivity|].
    apply (scanned_weaken c' l broken); [now left|]. unfold scanned in *. rewrite F.
    destruct (find (fun s => ss_id s =? sid) (c_sess c)) as [s|] eqn:Ef; [|exact Hs].
    destruct (ss_msg s) as [i|] eqn:Ei; [|exact Hs]. rewrite Hs. f_equal. symmetry.
    apply (cursor_stays c gone e c' gone' eff s i); try assumption; [now apply find_eq in Ef|]. now apply find_eq in F.
  - cbn [child_step] in H. destruct (scan_write c l broken ws c' eff T HK Hs H) as (l' & A & B). exists l'. split; [exact A|].
    apply (scanned_weaken c' (l ++ l') (broken \/ In WErr ws)); [|exact B]. cbn [breaks]. tauto.
  - exists []. rewrite app_nil_r. pose proof (scanned_prefix c l broken HK Hs) as Pre. cbn [child_step] in H. unfold child_cli_write in H.
    destruct (find (fun s => ss_id s =? sid) (c_sess c)) as [s|] eqn:Ef; injection H as <- <-; (split; [reflexivity|]).
    + unfold scanned. cbn [c_sess]. rewrite find_drop, Z.eqb_refl. split; [exact Pre|]. left. right. reflexivity.
    + apply (scanned_weaken c l broken); [now left|exact Hs].
Qed.
Lemma scan_run c0 : forall c t es c' eff, calm_run opts (same_neighbours W c0) c t es c' eff -> forall gone l broken, locked_ok c gone -> zlen gone <= t ->
  ~ In (CAccept sid) es -> filter W (map who (c_queue c)) = K -> scanned c l broken ->
  filter W (map who (c_queue c')) = K
  /\ exists l', sent_to sid eff = map entry_bytes l' /\ scanned c' (l ++ l') (broken \/ Exists (breaks sid) es).
Proof.
  induction 1 as [c t P0|c t e c1 eff1 es c' eff P0 Cs H Hb R IH]; intros gone l broken L Hg Na HK Hs.
  - split; [exact HK|]. exists []. rewrite app_nil_r. split; [reflexivity|]. apply (scanned_weaken c l broken); [now left|exact Hs].
  - assert (P1 : same_neighbours W c0 c1) by now inversion R.
    destruct (scan_step c gone t l broken e c1 eff1 L Hg Cs H Hb) as (K1 & l1 & S1 & Hs1); try assumption.
    { intros ->. apply Na. now left. }
    { intros w Hw. rewrite (P1 w Hw). symmetry. now apply P0. }
    destruct (step_locked opts c gone t e c1 eff1 L Hg Cs H Hb) as (gone1 & L1 & Hg1).
    destruct (IH gone1 (l ++ l1) _ L1 Hg1 (fun x => Na (or_intror x)) K1 Hs1) as (K2 & l2 & S2 & Hs2). split; [exact K2|].
    exists (l1 ++ l2). rewrite sent_app, map_app, S1, S2. split; [reflexivity|]. rewrite app_assoc.
    eapply scanned_weaken; [|exact Hs2]. rewrite Exists_cons. tauto.
Qed.
End Scan.

Theorem scan_seen opts W c t sid es c' eff : calm opts c t -> ~ In sid (map ss_id (c_sess c)) -> ~ In (CAccept sid) es ->
  calm_run opts (same_neighbours W c) c t (CAccept sid :: es) c' eff ->
  exists l, sent_to sid eff = map entry_bytes l
  /\ (exists k, filter W (map who l) = firstn k (filter W (map who (c_queue c))))
  /\ (~ In sid (map ss_id (c_sess c')) -> ~ Exists (breaks sid) es -> filter W (map who l) = filter W (map who (c_queue c))).
Proof.
  intros C Ns Na R. destruct (calm_locked opts c t C) as (gone & L & Hg).
  inversion R as [|? ? ? c1 eff1 ? ? eff2 P0 Cs H Hb R1]; subst. clear R. cbn [child_step] in H.
  replace (existsb (fun s => ss_id s =? sid) (c_sess c)) with false in H.
  2:{ symmetry. apply not_true_is_false. intros X. apply existsb_exists in X as (s & Hin & E). apply Ns. apply in_map_iff.
      exists s. split; [lia|assumption]. }
  injection H as <- <-. cbn [app expelled] in *. rewrite Z.add_0_r in *.
  assert (S0 : scanned sid W (filter W (map who (c_queue c))) (child_cli_accept c sid) [] False).
  { unfold scanned. cbn [child_cli_accept c_sess].
    assert (F : find (fun s => ss_id s =? sid) (c_sess c ++ [mkSess sid None]) = Some (mkSess sid None)).
    { apply find_none in Ns. revert Ns. clear. induction (c_sess c) as [|x l IH]; cbn; [now rewrite Z.eqb_refl|].
      destruct (ss_id x =? sid); [discriminate|exact IH]. }
    now rewrite F. }
  destruct (step_locked opts c gone t (CAccept sid) (child_cli_accept c sid) [] L Hg Logic.I) as (gone1 & L1 & Hg1).
  { cbn [child_step]. replace (existsb (fun s => ss_id s =? sid) (c_sess c)) with false; [reflexivity|].
    symmetry. apply not_true_is_false. intros X. apply existsb_exists in X as (s & Hin & E). apply Ns. apply in_map_iff.
    exists s. split; [lia|assumption]. }
  { cbn [expelled]. now rewrite Z.add_0_r. }
  cbn [expelled] in Hg1. rewrite Z.add_0_r in Hg1.
  destruct (scan_run opts sid W (filter W (map who (c_queue c))) c _ _ _ _ _ R1 gone1 [] False L1 Hg1 Na eq_refl S0) as (K1 & l & Sl & Hs).
  exists l. split; [exact Sl|]. cbn [app] in Hs. split; [eapply scanned_prefix; [exact K1|exact Hs]|].
  intros Hn Hbr. unfold scanned in Hs. apply find_none in Hn. rewrite Hn in Hs. destruct Hs as [_ [[[]|X]|X]]; [now elim Hbr|exact X].
Qed.
(** What a session is sent is in the table. *)
Theorem scan_current opts c e c' eff sid m : considerate c e -> child_step opts c e = DOk (c', eff) -> In m (sent_to sid eff) ->
  exists x, In x (c_queue c) /\ m = entry_bytes x.
Proof.
  intros Cs H I. assert (O : others sid e \/ (exists ws, e = CReady sid ws) \/ e = CTimeout sid \/ e = CAccept sid).
  { destruct e as [d now now2|now|nfs|o|o ws|o]; cbn [others]; try now left.
    - destruct (Z.eq_dec o sid) as [->|]; [right; right; now right|now left].
    - destruct (Z.eq_dec o sid) as [->|]; [right; left; now eexists|now left].
    - destruct (Z.eq_dec o sid) as [->|]; [right; right; now left|now left]. }
  destruct O as [O|[[ws ->]|[->| ->]]].
  - destruct (others_sess opts sid c e c' eff Cs O H) as [_ E]. rewrite E in I. destruct I.
  - cbn [child_step] in H. unfold child_cli_write in H. destruct (find _ _) as [s|]; [|injection H as _ <-; destruct I].
    apply dbind_ok in H as ((q1 & l) & Est & H). destruct (write_loop sid l ws) as [eff1 r] eqn:El.
    destruct (loop_sent sid l ws eff1 r El) as (_ & k & L2 & _).
    assert (Ee : eff = eff1) by (destruct r; now injection H as _ <-). subst eff1. rewrite L2 in I.
    assert (J : In m (map entry_bytes l)) by (rewrite <- (firstn_skipn k (map entry_bytes l)); apply in_or_app; now left).
    assert (Q : In m (map entry_bytes (c_queue c))).
    { destruct (ss_msg s) as [i|]; [|now injection Est as _ <-]. destruct (queue_from i _) as [l0|] eqn:Q; [|discriminate].
      injection Est as <- <-. apply from_split in Q as (a & x & b & Eq & _). rewrite <- (add_lock_bytes i (-1)), Eq, map_app.
      apply in_or_app. now right. }
    apply in_map_iff in Q as (x & <- & Hx). now exists x.
  - cbn [child_step] in H. unfold child_cli_write in H. destruct (find _ _); injection H as _ <-; destruct I.
  - cbn [child_step] in H. destruct (existsb _ _); injection H as _ <-; destruct I.
Qed.
