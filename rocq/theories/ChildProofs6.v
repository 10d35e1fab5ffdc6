(** What a client session is sent while the table does not change. *)
From Verif Require Import Base Types Wire Util Child Lemmas Spec SpecAdv SpecRound SpecNet SpecChild ChildProofs ChildProofs5.

Lemma nth_skip {A} k (l : list A) x : nth_error l k = Some x -> exists r, skipn k l = x :: r.
Proof.
  revert l. induction k as [|k IH]; intros [|y l]; cbn; try discriminate; [intros [= ->]; now exists l|]. apply IH.
Qed.
Lemma nth_skipn {A} a (l : list A) k : nth_error (skipn a l) k = nth_error l (a + k).
Proof. revert l. induction a as [|a IH]; intros [|x l]; cbn; try reflexivity; [now destruct k|apply IH]. Qed.
Lemma first_snoc {A} k (l : list A) x : nth_error l k = Some x -> firstn (S k) l = firstn k l ++ [x].
Proof.
  revert l. induction k as [|k IH]; intros [|y l]; cbn; try discriminate; [now intros [= ->]|]. intros H. f_equal. now apply IH.
Qed.
Lemma from_at i : forall q k, NoDup (map q_id q) -> nth_error (map q_id q) k = Some i -> queue_from i q = Some (skipn k q).
Proof.
  induction q as [|e q IH]; intros [|k] Hn H; cbn in *; try discriminate.
  - injection H as ->. now rewrite Z.eqb_refl.
  - inversion Hn; subst. destruct (q_id e =? i) eqn:E; [|now apply IH].
    exfalso. apply H2. replace (q_id e) with i by lia. eapply nth_error_In. exact H.
Qed.

Lemma sent_app sid a b : sent_to sid (a ++ b) = sent_to sid a ++ sent_to sid b.
Proof. apply flat_map_app. Qed.
(** One run of the write loop: a prefix, ended by a blocked write, a failed one
    or the end of the table. *)
Lemma loop_sent sid : forall q ws eff r, write_loop sid q ws = (eff, r) ->
  (forall o, o <> sid -> sent_to o eff = [])
  /\ exists k, sent_to sid eff = firstn k (map entry_bytes q)
     /\ match r with
        | Some i => nth_error (map q_id q) k = Some i
        | None => In WErr ws \/ sent_to sid eff = map entry_bytes q
        end.
Proof.
  induction q as [|e q IH]; intros ws eff r; cbn [write_loop].
  { intros [= <- <-]. split; [reflexivity|]. exists 0%nat. split; [reflexivity|]. now right. }
  assert (G : ws = [] \/ (exists ws', ws = WOk :: ws') ->
    (let '(eff0, r0) := write_loop sid q (tl ws) in (CSent sid (entry_bytes e) :: eff0, r0)) = (eff, r) ->
    (forall o, o <> sid -> sent_to o eff = [])
    /\ exists k, sent_to sid eff = firstn k (map entry_bytes (e :: q))
     /\ match r with
        | Some i => nth_error (map q_id (e :: q)) k = Some i
        | None => In WErr ws \/ sent_to sid eff = map entry_bytes (e :: q)
        end).
  { intros Hw. destruct (write_loop sid q (tl ws)) as [eff1 r1] eqn:E. intros [= <- <-].
    destruct (IH _ _ _ E) as (I1 & k & I2 & I3). split.
    - intros o Ho. unfold sent_to. cbn [flat_map]. replace (sid =? o) with false by lia. now apply I1.
    - exists (S k). unfold sent_to. cbn [flat_map]. rewrite Z.eqb_refl. fold (sent_to sid eff1). cbn [map firstn app].
      split; [now rewrite I2|]. destruct r1 as [i|]; [exact I3|]. destruct I3 as [I3|I3]; [left|right; now rewrite I3].
      destruct Hw as [->|[ws' ->]]; [easy|now right]. }
  destruct ws as [|[| |] ws]; [apply G; now left|apply G; right; now eexists| |].
  - intros [= <- <-]. split; [reflexivity|]. exists 0%nat. now split.
  - intros [= <- <-]. split; [reflexivity|]. exists 0%nat. split; [reflexivity|]. left. now left.
Qed.
Lemma add_lock_bytes i d q : map entry_bytes (add_lock i d q) = map entry_bytes q.
Proof. unfold add_lock. rewrite map_map. apply map_ext. intros e. now destruct (q_id e =? i). Qed.

Lemma find_eq sid l s : find (fun s : session => ss_id s =? sid) l = Some s -> ss_id s = sid /\ In s l.
Proof. intros H. apply find_some in H as [H1 H2]. split; [lia|assumption]. Qed.
Lemma find_none sid l : find (fun s : session => ss_id s =? sid) l = None <-> ~ In sid (map ss_id l).
Proof.
  split.
  - intros H K. apply in_map_iff in K as (s & E & Hs). apply (find_none _ _ H) in Hs. lia.
  - intros H. destruct (find _ l) as [s|] eqn:E; [|reflexivity]. apply find_eq in E as [E Hs]. exfalso. apply H.
    apply in_map_iff. now exists s.
Qed.
Lemma find_drop sid o l : find (fun s : session => ss_id s =? sid) (drop_sess o l)
  = if sid =? o then None else find (fun s => ss_id s =? sid) l.
Proof.
  unfold drop_sess. induction l as [|s l IH]; cbn [filter find]; [now destruct (sid =? o)|].
  destruct (ss_id s =? o) eqn:E; cbn [negb].
  - rewrite IH. destruct (sid =? o) eqn:F; [reflexivity|]. now replace (ss_id s =? sid) with false by lia.
  - cbn [find]. rewrite IH. destruct (ss_id s =? sid) eqn:G; [|reflexivity]. now replace (sid =? o) with false by lia.
Qed.
Lemma find_wait sid o i l : find (fun s : session => ss_id s =? sid) (wait_sess o i l)
  = match find (fun s => ss_id s =? sid) l with
    | Some s => Some (if sid =? o then mkSess o (Some i) else s)
    | None => None
    end.
Proof.
  unfold wait_sess. induction l as [|s l IH]; cbn [map find]; [reflexivity|].
  destruct (ss_id s =? o) eqn:E; cbn [ss_id].
  - destruct (o =? sid) eqn:F; [replace (ss_id s =? sid) with true by lia; now replace (sid =? o) with true by lia|].
    replace (ss_id s =? sid) with false by lia. exact IH.
  - destruct (ss_id s =? sid) eqn:G; [now replace (sid =? o) with false by lia|exact IH].
Qed.

(** ** The state of one session relative to the table it started with *)
Section Session.
Variables (sid : Z) (ids : list Z) (content : list (list Z)).
Hypothesis Hids : NoDup ids.

Definition at_table (c : child) : Prop := map q_id (c_queue c) = ids /\ map entry_bytes (c_queue c) = content.
(** What was sent so far. *)
Definition progress (c : child) (out : list (list Z)) (broken : Prop) : Prop :=
  match find (fun s => ss_id s =? sid) (c_sess c) with
  | Some s => match ss_msg s with
              | None => out = []
              | Some i => exists k, nth_error ids k = Some i /\ out = firstn k content
              end
  | None => exists k, out = firstn k content /\ (broken \/ out = content)
  end.

Lemma write_progress c out broken o ws c' eff : at_table c -> progress c out broken ->
  child_cli_write c o false ws = DOk (c', eff) ->
  at_table c' /\ progress c' (out ++ sent_to sid eff) (broken \/ (o = sid /\ In WErr ws)).
Proof.
  intros [T1 T2] Hp. unfold child_cli_write. destruct (find (fun s => ss_id s =? o) (c_sess c)) as [s|] eqn:Ef.
  2:{ intros [= <- <-]. split; [now split|]. cbn [sent_to flat_map]. rewrite app_nil_r. revert Hp. unfold progress.
      destruct (find (fun s => ss_id s =? sid) (c_sess c)); [easy|]. intros (k & E & H). exists k. split; [assumption|tauto]. }
  intros Hw. apply dbind_ok in Hw as ((q1 & l) & Est & Hw).
  assert (A : map q_id q1 = ids /\ map entry_bytes q1 = content).
  { destruct (ss_msg s) as [i|].
    - destruct (queue_from i _); [|discriminate]. injection Est as <- <-. now rewrite add_lock_id, add_lock_bytes.
    - injection Est as <- <-. now split. }
  destruct A as [A1 A2]. destruct (write_loop o l ws) as [eff1 r] eqn:El.
  destruct (loop_sent o l ws eff1 r El) as (L1 & k & L2 & L3).
  assert (Ec : c_queue c' = (match r with Some i => add_lock i 1 q1 | None => q1 end)
    /\ c_sess c' = (match r with Some i => wait_sess o i (c_sess c) | None => drop_sess o (c_sess c) end) /\ eff = eff1).
  { destruct r; injection Hw as <- <-; now repeat split. }
  destruct Ec as (Q & S & ->). split.
  { unfold at_table. rewrite Q. destruct r; rewrite ?add_lock_id, ?add_lock_bytes; now split. }
  unfold progress in *. rewrite S. destruct (Z.eq_dec o sid) as [->|No].
  2:{ rewrite (L1 sid) by congruence. rewrite app_nil_r.
      assert (F : find (fun s => ss_id s =? sid) (match r with Some i => wait_sess o i (c_sess c) | None => drop_sess o (c_sess c) end)
                  = find (fun s => ss_id s =? sid) (c_sess c)).
      { destruct r; [rewrite find_wait|rewrite find_drop]; replace (sid =? o) with false by lia; [|reflexivity].
        now destruct (find _ (c_sess c)). }
      rewrite F. destruct (find (fun s => ss_id s =? sid) (c_sess c)); [easy|].
      destruct Hp as (k' & E & H). exists k'. split; [assumption|tauto]. }
  rewrite Ef in Hp.
  (* position in the table before this run *)
  assert (B : exists k0, l = skipn k0 q1 /\ out = firstn k0 content).
  { destruct (ss_msg s) as [i|].
    - destruct Hp as (k0 & N & ->). exists k0. split; [|reflexivity].
      destruct (queue_from i _) as [l0|] eqn:Eq; [|discriminate]. injection Est as <- <-.
      rewrite (from_at i _ k0) in Eq; [now injection Eq|now rewrite A1|now rewrite A1].
    - injection Est as <- <-. exists 0%nat. now split. }
  destruct B as (k0 & -> & ->).
  assert (G : forall n, firstn k0 content ++ firstn n (skipn k0 content) = firstn (k0 + n) content).
  { intros n. clear. revert k0. induction content as [|x u IH]; intros [|k0]; cbn; try reflexivity.
    - now destruct n.
    - f_equal. apply IH. }
  assert (M : map entry_bytes (skipn k0 q1) = skipn k0 content) by (rewrite <- A2; symmetry; apply skipn_map).
  rewrite M in *. rewrite L2, G.
  destruct r as [i|].
  - rewrite find_wait, Ef, Z.eqb_refl. cbn [ss_msg]. exists (k0 + k)%nat. split; [|reflexivity].
    rewrite <- skipn_map, A1 in L3. rewrite <- L3, nth_skipn. reflexivity.
  - rewrite find_drop, Z.eqb_refl. exists (k0 + k)%nat. split; [reflexivity|].
    destruct L3 as [L3|L3]; [left; right; now split|right].
    rewrite <- G, <- L2, L3. apply firstn_skipn.
Qed.
Lemma step_progress opts c out broken e c' eff : at_table c -> progress c out broken -> session_event e -> e <> CAccept sid ->
  child_step opts c e = DOk (c', eff) ->
  at_table c' /\ progress c' (out ++ sent_to sid eff) (broken \/ breaks sid e).
Proof.
  intros Ht Hp Hs Ha. destruct e as [d now now2|now|nfs|o|o ws|o]; try easy; cbn [child_step breaks].
  - assert (W : progress c out (broken \/ False)).
    { revert Hp. unfold progress. destruct (find _ _); [easy|]. intros (k & E & H). exists k. split; [assumption|tauto]. }
    destruct (existsb _ _); intros [= <- <-]; (split; [exact Ht|]); cbn [sent_to flat_map]; rewrite app_nil_r; [exact W|].
    revert W. unfold progress. cbn [child_cli_accept c_sess].
    assert (F : forall l, find (fun s => ss_id s =? sid) (l ++ [mkSess o None]) = find (fun s => ss_id s =? sid) l).
    { intros l. induction l as [|x l IH]; cbn; [|now rewrite IH]. destruct (o =? sid) eqn:E; [|reflexivity].
      exfalso. apply Ha. f_equal. lia. }
    now rewrite F.
  - intros H. eapply write_progress; eauto.
  - unfold child_cli_write. destruct (find (fun s => ss_id s =? o) (c_sess c)) as [s|] eqn:Ef; intros [= <- <-]; (split; [exact Ht|]);
      cbn [sent_to flat_map]; rewrite app_nil_r; revert Hp; unfold progress; cbn [c_sess].
    + rewrite find_drop. destruct (sid =? o) eqn:E.
      * replace (find (fun s => ss_id s =? sid) (c_sess c)) with (Some s).
        2:{ rewrite <- Ef. now replace o with sid by lia. }
        intros H. assert (K : exists k, out = firstn k content).
        { destruct (ss_msg s); [destruct H as (k & _ & ->); now exists k|]. subst out. now exists 0%nat. }
        destruct K as [k ->]. exists k. split; [reflexivity|]. left. right. lia.
      * destruct (find (fun s => ss_id s =? sid) (c_sess c)); [easy|]. intros (k & H1 & H2). exists k. split; [assumption|tauto].
    + destruct (find (fun s => ss_id s =? sid) (c_sess c)); [easy|]. intros (k & H1 & H2). exists k. split; [assumption|tauto].
Qed.
Lemma run_progress opts : forall es c out broken c' eff, at_table c -> progress c out broken ->
  Forall session_event es -> ~ In (CAccept sid) es -> child_run opts c es = DOk (c', eff) ->
  progress c' (out ++ sent_to sid eff) (broken \/ Exists (breaks sid) es).
Proof.
  induction es as [|e es IH]; intros c out broken c' eff Ht Hp Hs Ha Hr; cbn [child_run] in Hr.
  - injection Hr as <- <-. cbn [sent_to flat_map]. rewrite app_nil_r. revert Hp. unfold progress.
    destruct (find _ _); [easy|]. intros (k & E & H). exists k. split; [assumption|tauto].
  - apply dbind_ok in Hr as ((c1 & eff1) & E1 & Hr). apply dbind_ok in Hr as ((c2 & eff2) & E2 & Hr). injection Hr as <- <-.
    inversion Hs; subst. destruct (step_progress opts c out broken e c1 eff1 Ht Hp H1) as [T1 P1]; [intros ->; apply Ha; now left|exact E1|].
    specialize (IH c1 _ _ c2 eff2 T1 P1 H2 (fun K => Ha (or_intror K)) E2).
    rewrite sent_app, app_assoc. revert IH. unfold progress. destruct (find _ _); [easy|].
    intros (k & E & H). exists k. split; [assumption|]. rewrite Exists_cons. tauto.
Qed.
End Session.

Lemma session_sent opts c fresh sid es c' eff : table_ok (c_queue c) fresh -> ~ In sid (map ss_id (c_sess c)) ->
  Forall session_event es -> ~ In (CAccept sid) es -> child_run opts c (CAccept sid :: es) = DOk (c', eff) ->
  (exists k, sent_to sid eff = firstn k (map entry_bytes (c_queue c)))
  /\ (~ In sid (map ss_id (c_sess c')) -> ~ Exists (breaks sid) es -> sent_to sid eff = map entry_bytes (c_queue c)).
Proof.
  intros Ht Hs He Ha Hr. cbn [child_run] in Hr. cbn [child_step] in Hr.
  replace (existsb (fun s => ss_id s =? sid) (c_sess c)) with false in Hr.
  2:{ symmetry. apply not_true_is_false. intros K. apply existsb_exists in K as (s & Hin & E). apply Hs. apply in_map_iff.
      exists s. split; [lia|assumption]. }
  cbn [dbind] in Hr. apply dbind_ok in Hr as ((c2 & eff2) & E2 & Hr). injection Hr as <- <-. cbn [app].
  assert (P0 : progress sid (map q_id (c_queue c)) (map entry_bytes (c_queue c)) (child_cli_accept c sid) [] False).
  { unfold progress. cbn [child_cli_accept c_sess].
    assert (F : find (fun s => ss_id s =? sid) (c_sess c ++ [mkSess sid None]) = Some (mkSess sid None)).
    { apply find_none in Hs. revert Hs. clear. induction (c_sess c) as [|x l IH]; cbn; [now rewrite Z.eqb_refl|].
      destruct (ss_id x =? sid); [discriminate|exact IH]. }
    now rewrite F. }
  pose proof (run_progress sid _ _ (t_ids _ _ Ht) opts es (child_cli_accept c sid) _ _ _ _ (conj eq_refl eq_refl) P0 He Ha E2) as P.
  cbn [app] in P. unfold progress in P. split.
  - destruct (find _ _) as [s|]; [destruct (ss_msg s)|].
    + destruct P as (k & _ & ->). now exists k.
    + rewrite P. now exists 0%nat.
    + destruct P as (k & -> & _). now exists k.
  - intros Hn Hb. apply find_none in Hn. rewrite Hn in P. destruct P as (k & _ & [[[]|K]|K]); [now elim Hb|exact K].
Qed.
