(** Proofs for C122. *)
From Verif Require Import Base Tlv Types Msg Protos Wire Util Child SessTimer SpecTimer SpecSess Lemmas ChildProofs.
From Coq Require Import Lia.

Lemma expire_sess opts now c : c_sess (fst (child_expire opts now c)) = c_sess c.
Proof. destruct (Z.eq_dec now (-1)) as [->|N]; [reflexivity|]. exact (proj1 (proj2 (child_expire_queue opts now c N))). Qed.
Lemma queue_sess opts c d now now2 c' eff : child_queue opts c d now now2 = DOk (c', eff) -> c_sess c' = c_sess c.
Proof.
  unfold child_queue. cbv zeta.
  destruct (negb _); [intros [= <- _]; reflexivity|]. destruct (now =? -1); [intros [= <- _]; reflexivity|].
  destruct (negb _); [discriminate|]. destruct (negb _); [discriminate|].
  destruct (netif_byindex _ _) as [sub|]; [|intros [= <- _]; reflexivity].
  destruct (netif_byaddr _ _); [intros [= <- _]; reflexivity|].
  destruct (proto_decode _ _ _) as [[n s]| | | |]; try discriminate; [|intros [= <- _]; reflexivity].
  destruct (n =? 0); [intros [= <- _]; reflexivity|].
  set (new := mkEnt _ _ _ _ _ _ _ _ _ _). destruct (queue_put new (c_queue c) (c_next c)) as [q fresh].
  destruct (s_ttl s =? 0).
  - intros H. injection H as H. apply (f_equal fst) in H. cbn [fst] in H. rewrite <- H.
    now rewrite expire_sess.
  - destruct (_ || _); [intros [= <- _]; reflexivity|]. destruct (_ && _); intros [= <- _]; reflexivity.
Qed.
Definition ids (c : child) : list Z := map ss_id (c_sess c).
Lemma find_ids sid (l : list session) : (exists s, find (fun s => ss_id s =? sid) l = Some s) <-> In sid (map ss_id l).
Proof.
  induction l as [|s l IH]; cbn [find map]; [split; [intros (s & H); discriminate|intros []]|].
  destruct (ss_id s =? sid) eqn:E; [split; [intros _; left; lia|intros _; now exists s]|]. rewrite IH. split; [now right|]. intros [H|H]; [lia|assumption].
Qed.
Lemma find_none sid (l : list session) : find (fun s => ss_id s =? sid) l = None <-> ~ In sid (map ss_id l).
Proof. rewrite <- find_ids. destruct (find _ l) as [s|]; split; try discriminate; try tauto; [intros H; exfalso; apply H; now exists s|intros _ (s & H); discriminate]. Qed.
Lemma drop_ids sid l : map ss_id (drop_sess sid l) = filter (fun i => negb (i =? sid)) (map ss_id l).
Proof. unfold drop_sess. induction l as [|s l IH]; cbn [filter map]; [reflexivity|]. destruct (negb _); cbn [map]; now rewrite IH. Qed.
Lemma wait_ids sid i l : map ss_id (wait_sess sid i l) = map ss_id l.
Proof. unfold wait_sess. rewrite map_map. apply map_ext. intros s. destruct (ss_id s =? sid) eqn:E; [cbn; lia|reflexivity]. Qed.
(** The timed function does what the other one does. *)
Lemma write_same c sid to ws : match cli_write_timed c sid to ws with
  | DOk (c', eff, after) => child_cli_write c sid to ws = DOk (c', eff)
      /\ (In sid (ids c) -> (after = None /\ ids c' = filter (fun i => negb (i =? sid)) (ids c)) \/ (to = false /\ after = Some 1 /\ ids c' = ids c))
      /\ (~ In sid (ids c) -> after = None /\ ids c' = ids c)
  | DFail => child_cli_write c sid to ws = DFail
  | DAbort => child_cli_write c sid to ws = DAbort
  | DUB => child_cli_write c sid to ws = DUB
  | DLoop => child_cli_write c sid to ws = DLoop
  end.
Proof.
  unfold cli_write_timed, child_cli_write, ids. destruct (find _ (c_sess c)) as [s|] eqn:F.
  2:{ apply find_none in F. split; [reflexivity|]. split; [now intros K|]. now intros _. }
  assert (I : In sid (map ss_id (c_sess c))) by (apply find_ids; now exists s). destruct to.
  { split; [reflexivity|]. split; [intros _; left; split; [reflexivity|apply drop_ids]|now intros K]. }
  destruct (match ss_msg s with None => _ | Some _ => _ end) as [[q1 l]| | | |]; cbn [dbind]; try reflexivity.
  destruct (write_loop sid l ws) as [eff [i|]]; (split; [reflexivity|]); (split; [intros _|now intros K]); cbn [c_sess].
  - right. split; [reflexivity|]. split; [reflexivity|]. apply wait_ids.
  - left. split; [reflexivity|]. apply drop_ids.
Qed.
Lemma step_same opts t s e : match sess_step opts t s e with
  | DOk (s', eff) => child_step opts (cs_child s) e = DOk (cs_child s', eff)
  | DFail => True
  | DAbort => child_step opts (cs_child s) e = DAbort
  | DUB => child_step opts (cs_child s) e = DUB
  | DLoop => child_step opts (cs_child s) e = DLoop
  end.
Proof.
  unfold sess_step. destruct e as [d now now2|now|nfs|sid|sid ws|sid].
  1-3: destruct (child_step _ _ _) as [[c eff]| | | |]; cbn [dbind]; reflexivity || exact I.
  - cbn [child_step]. destruct (existsb _ _); [exact I|reflexivity].
  - destruct (due_of _ _); [|exact I]. pose proof (write_same (cs_child s) sid false ws) as W.
    destruct (cli_write_timed _ _ _ _) as [[[c eff] a]| | | |]; cbn [dbind child_step cs_child]; tauto.
  - destruct (due_of _ _) as [d|]; [|exact I]. destruct (t <? d); [exact I|]. pose proof (write_same (cs_child s) sid true []) as W.
    destruct (cli_write_timed _ _ _ _) as [[[c eff] a]| | | |]; cbn [dbind child_step cs_child]; tauto.
Qed.
Theorem same opts : forall h s, match sess_run opts s h with
  | DOk (s', eff) => child_run opts (cs_child s) (map snd h) = DOk (cs_child s', eff)
  | DFail => True
  | DAbort => child_run opts (cs_child s) (map snd h) = DAbort
  | DUB => child_run opts (cs_child s) (map snd h) = DUB
  | DLoop => child_run opts (cs_child s) (map snd h) = DLoop
  end.
Proof.
  induction h as [|[t e] h IH]; intros s; cbn [sess_run map snd child_run]; [reflexivity|].
  pose proof (step_same opts t s e) as S. destruct (sess_step opts t s e) as [[s1 eff1]| | | |]; cbn [dbind]; try exact I; rewrite ?S; cbn [dbind]; try reflexivity.
  specialize (IH s1). destruct (sess_run opts s1 h) as [[s2 eff2]| | | |]; cbn [dbind]; try exact I; now rewrite IH.
Qed.

(** ** Timers *)
Definition SI (h : list (Z * cevent)) (s : cstate) : Prop :=
  forall sid, (open s sid -> exists a, last_sign sid h = Some a /\ due_of sid (cs_due s) = Some (a + 1))
  /\ (~ open s sid -> due_of sid (cs_due s) = None).
Lemma due_app sid a b : due_of sid (a ++ b) = match due_of sid a with Some d => Some d | None => due_of sid b end.
Proof. unfold due_of. induction a as [|x a IH]; cbn [app find option_map]; [reflexivity|]. destruct (fst x =? sid); [reflexivity|exact IH]. Qed.
Lemma due_undue sid o l : due_of sid (undue o l) = if sid =? o then None else due_of sid l.
Proof.
  unfold due_of, undue. induction l as [|x l IH]; cbn [filter find option_map]; [now destruct (sid =? o)|].
  destruct (fst x =? o) eqn:E; cbn [negb].
  - rewrite IH. destruct (sid =? o) eqn:F; [reflexivity|]. replace (fst x =? sid) with false by lia. reflexivity.
  - cbn [find]. destruct (fst x =? sid) eqn:G; [replace (sid =? o) with false by lia; reflexivity|exact IH].
Qed.
Lemma sign_snoc sid h t e : last_sign sid (h ++ [(t, e)]) = if sign sid e then Some t else last_sign sid h.
Proof. unfold last_sign. rewrite fold_left_app. reflexivity. Qed.
Lemma open_ids s sid : open s sid <-> In sid (ids (cs_child s)).
Proof. reflexivity. Qed.
Lemma step_timers opts h t s e s' eff : SI h s -> sess_step opts t s e = DOk (s', eff) -> SI (h ++ [(t, e)]) s'.
Proof.
  intros H E. unfold sess_step in E.
  assert (W : forall o to ws c' f after, cli_write_timed (cs_child s) o to ws = DOk (c', f, after) -> due_of o (cs_due s) <> None ->
     (to = false -> sign o e = true) -> (forall sid, sid <> o -> sign sid e = false) -> SI (h ++ [(t, e)]) (mkCst c' (add_due o t after (undue o (cs_due s))))).
  { intros o to ws c' f after E1 D S1 S2. pose proof (write_same (cs_child s) o to ws) as K. rewrite E1 in K. destruct K as (_ & K & _).
    assert (Io : In o (ids (cs_child s))).
    { destruct (in_dec Z.eq_dec o (ids (cs_child s))) as [I|N]; [exact I|]. now apply (proj2 (H o)) in N. }
    intros sid. rewrite sign_snoc. destruct (H sid) as [H1 H2]. destruct (Z.eq_dec sid o) as [->|N].
    - destruct (K Io) as [(-> & F)|(-> & -> & F)]; cbn [add_due cs_due]; rewrite ?due_app, due_undue, Z.eqb_refl; unfold open; cbn [cs_child]; fold (ids c'); rewrite F.
      + split; [intros X; apply filter_In in X as [_ X]; rewrite Z.eqb_refl in X; discriminate|reflexivity].
      + split; [|now intros X]. intros _. rewrite S1 by reflexivity. exists t. split; [reflexivity|]. unfold due_of. cbn [find fst]. now rewrite Z.eqb_refl.
    - rewrite S2 by assumption.
      assert (Du : due_of sid (add_due o t after (undue o (cs_due s))) = due_of sid (cs_due s)).
      { destruct after; cbn [add_due]; rewrite ?due_app, due_undue; replace (sid =? o) with false by lia; [|reflexivity].
        destruct (due_of sid (cs_due s)); [reflexivity|]. unfold due_of. cbn [find fst]. replace (o =? sid) with false by lia. reflexivity. }
      cbn [cs_due]. rewrite Du. unfold open. cbn [cs_child]. fold (ids c').
      assert (Ii : In sid (ids c') <-> In sid (ids (cs_child s))).
      { destruct (K Io) as [(-> & F)|(-> & -> & F)]; rewrite F; [|reflexivity]. rewrite filter_In. split; [tauto|]. intros X. split; [assumption|lia]. }
      rewrite Ii. split; assumption. }
  assert (O : forall c', ids c' = ids (cs_child s) -> (forall sid, sign sid e = false) ->
    SI (h ++ [(t, e)]) (mkCst c' (cs_due s))).
  { intros c' Ei Sg sid. rewrite sign_snoc, Sg. unfold open. cbn [cs_child cs_due]. fold (ids c'). rewrite Ei. exact (H sid). }
  destruct e as [d now now2|now|nfs|o|o ws|o].
  - destruct (child_step _ _ _) as [[c' f]| | | |] eqn:E1; cbn [dbind] in E; try discriminate. injection E as <- _. apply (O c'); [|reflexivity].
    unfold ids. cbn [child_step] in E1. now rewrite (queue_sess _ _ _ _ _ _ _ E1).
  - destruct (child_step _ _ _) as [[c' f]| | | |] eqn:E1; cbn [dbind] in E; try discriminate. injection E as <- _. apply (O c'); [|reflexivity].
    unfold ids. cbn [child_step] in E1. injection E1 as E1. apply (f_equal fst) in E1. cbn [fst] in E1. rewrite <- E1.
    now rewrite expire_sess.
  - destruct (child_step _ _ _) as [[c' f]| | | |] eqn:E1; cbn [dbind] in E; try discriminate. injection E as <- _. apply (O c'); [|reflexivity].
    cbn [child_step] in E1. injection E1 as <- _. reflexivity.
  - destruct (existsb _ _) eqn:X; [discriminate|]. injection E as <- _.
    assert (N : ~ open s o).
    { intros I. unfold open in I. apply in_map_iff in I as (z & Z1 & Z2). assert (T : existsb (fun s => ss_id s =? o) (c_sess (cs_child s)) = true); [|congruence].
      apply existsb_exists. exists z. split; [assumption|lia]. }
    intros sid. rewrite sign_snoc. destruct (H sid) as [H1 H2]. unfold open. cbn [cs_child cs_due child_cli_accept c_sess add_due sign]. rewrite map_app, due_app. cbn [map ss_id].
    destruct (Z.eqb_spec o sid) as [->|D].
    + rewrite (H2 N). split.
      * intros _. exists t. split; [reflexivity|]. unfold due_of. cbn [find fst]. now rewrite Z.eqb_refl.
      * intros F. exfalso. apply F. apply in_app_iff. right. now left.
    + assert (Ii : In sid (map ss_id (c_sess (cs_child s)) ++ [o]) <-> open s sid) by (rewrite in_app_iff; cbn [In]; unfold open; intuition lia). rewrite Ii. split.
      * intros F. destruct (H1 F) as (a & A1 & A2). exists a. rewrite A2. now split.
      * intros F. rewrite (H2 F). unfold due_of. cbn [find fst]. replace (o =? sid) with false by lia. reflexivity.
  - destruct (due_of o (cs_due s)) as [d|] eqn:D; [|discriminate].
    destruct (cli_write_timed _ _ _ _) as [[[c' f] a]| | | |] eqn:E1; cbn [dbind] in E; try discriminate. injection E as <- _.
    apply (W o false ws c' f a E1); [congruence|intros _; cbn; lia|]. intros sid N. cbn. lia.
  - destruct (due_of o (cs_due s)) as [d|] eqn:D; [|discriminate]. destruct (t <? d); [discriminate|].
    destruct (cli_write_timed _ _ _ _) as [[[c' f] a]| | | |] eqn:E1; cbn [dbind] in E; try discriminate. injection E as <- _.
    apply (W o true [] c' f a E1); [congruence|discriminate|]. reflexivity.
Qed.
Lemma run_timers opts : forall h2 h1 s s' eff, SI h1 s -> sess_run opts s h2 = DOk (s', eff) -> SI (h1 ++ h2) s'.
Proof.
  induction h2 as [|[t e] h2 IH]; intros h1 s s' eff H E; cbn [sess_run] in E.
  { injection E as <- _. now rewrite app_nil_r. }
  destruct (sess_step opts t s e) as [[s1 eff1]| | | |] eqn:E1; cbn [dbind] in E; try discriminate.
  destruct (sess_run opts s1 h2) as [[s2 eff2]| | | |] eqn:E2; cbn [dbind] in E; try discriminate. injection E as <- _.
  change ((t, e) :: h2) with ([(t, e)] ++ h2). rewrite app_assoc. apply (IH _ s1 s2 eff2); [|exact E2]. exact (step_timers _ _ _ _ _ _ _ H E1).
Qed.
Lemma start_timers : SI [] sess_start.
Proof. intros sid. split; [intros []|reflexivity]. Qed.
(** ** The statements *)
Theorem pending opts h s eff sid : sess_run opts sess_start h = DOk (s, eff) -> 
  (open s sid -> exists a, last_sign sid h = Some a /\ due_of sid (cs_due s) = Some (a + 1)) /\ (~ open s sid -> due_of sid (cs_due s) = None).
Proof. intros E. exact (run_timers opts h [] _ _ _ start_timers E sid). Qed.
Lemma run_last opts t e : forall h s s' eff, sess_run opts s (h ++ [(t, e)]) = DOk (s', eff) ->
  exists s1 eff1 eff2, sess_run opts s h = DOk (s1, eff1) /\ sess_step opts t s1 e = DOk (s', eff2).
Proof.
  induction h as [|[u x] h IH]; intros s s' eff E; cbn [app sess_run] in E.
  - destruct (sess_step opts t s e) as [[s1 f1]| | | |] eqn:E1; cbn [dbind] in E; try discriminate. injection E as <- _. exists s, [], f1. now split.
  - destruct (sess_step opts u s x) as [[s1 f1]| | | |] eqn:E1; cbn [dbind] in E; try discriminate.
    destruct (sess_run opts s1 (h ++ [(t, e)])) as [[s2 f2]| | | |] eqn:E2; cbn [dbind] in E; try discriminate. injection E as <- _.
    destruct (IH _ _ _ E2) as (s3 & f3 & f4 & R & S). exists s3, (f1 ++ f3), f4. split; [|exact S]. cbn [sess_run]. rewrite E1. cbn [dbind]. rewrite R. reflexivity.
Qed.
Lemma served_last opts late t e : forall h s s1 eff1, served opts late s (h ++ [(t, e)]) -> sess_run opts s h = DOk (s1, eff1) ->
  forall sid d, due_of sid (cs_due s1) = Some d -> t <= d + late.
Proof.
  induction h as [|[u x] h IH]; intros s s1 eff1 P E; cbn [app served sess_run] in P, E.
  - injection E as <- _. apply P.
  - destruct P as [_ P]. destruct (sess_step opts u s x) as [[s2 f2]| | | |]; cbn [dbind] in E; try discriminate.
    specialize (P s2 f2 eq_refl). destruct (sess_run opts s2 h) as [[s3 f3]| | | |] eqn:E3; cbn [dbind] in E; try discriminate. injection E as <- _.
    exact (IH s2 s3 f3 P E3).
Qed.
Theorem dropped_in_time opts late h t e s eff sid : 0 <= late -> sess_run opts sess_start (h ++ [(t, e)]) = DOk (s, eff) ->
  served opts late sess_start (h ++ [(t, e)]) -> open s sid ->
  exists a, last_sign sid (h ++ [(t, e)]) = Some a /\ t <= a + 1 + late.
Proof.
  intros L R P O. destruct (proj1 (pending _ _ _ _ sid R) O) as (a & A1 & A2). exists a. split; [exact A1|].
  rewrite sign_snoc in A1. destruct (sign sid e) eqn:S; [injection A1 as <-; lia|].
  destruct (run_last _ _ _ _ _ _ _ R) as (s1 & f1 & f2 & R1 & E1).
  destruct (in_dec Z.eq_dec sid (ids (cs_child s1))) as [I|N].
  - destruct (proj1 (pending _ _ _ _ sid R1) I) as (b & B1 & B2). rewrite A1 in B1. injection B1 as <-.
    pose proof (served_last _ _ _ _ _ _ _ _ P R1 _ _ B2). lia.
  - exfalso. pose proof (proj2 (pending _ _ _ _ sid R1) N) as B.
    assert (X : forall s', cs_due s' = cs_due s1 -> due_of sid (cs_due s') = None) by (intros s' ->; exact B).
    assert (W : forall o to ws c' f after, o <> sid -> cli_write_timed (cs_child s1) o to ws = DOk (c', f, after) ->
       due_of sid (add_due o t after (undue o (cs_due s1))) = None).
    { intros o to ws c' f after D _. destruct after; cbn [add_due]; rewrite ?due_app, due_undue; replace (sid =? o) with false by lia; rewrite B; [|reflexivity].
      unfold due_of. cbn [find fst]. replace (o =? sid) with false by lia. reflexivity. }
    enough (due_of sid (cs_due s) = None) by congruence.
    unfold sess_step in E1. destruct e as [d now now2|now|nfs|o|o ws|o]; cbn [sign] in S.
    1-3: destruct (child_step _ _ _) as [[c' f]| | | |]; cbn [dbind] in E1; try discriminate; injection E1 as <- _; exact B.
    + destruct (existsb _ _); [discriminate|]. injection E1 as <- _. cbn [cs_due add_due]. rewrite due_app, B. unfold due_of. cbn [find fst]. now rewrite S.
    + destruct (due_of o _); [|discriminate]. destruct (cli_write_timed _ _ _ _) as [[[c' f] a']| | | |] eqn:E2; cbn [dbind] in E1; try discriminate.
      injection E1 as <- _. cbn [cs_due]. apply (W o false ws c' f a'); [lia|exact E2].
    + destruct (due_of o _) as [d|] eqn:D; [|discriminate]. destruct (t <? d); [discriminate|].
      destruct (cli_write_timed _ _ _ _) as [[[c' f] a']| | | |] eqn:E2; cbn [dbind] in E1; try discriminate.
      injection E1 as <- _. cbn [cs_due]. apply (W o true [] c' f a'); [|exact E2]. intros ->. congruence.
Qed.
Theorem not_before opts h t sid s eff : sess_run opts sess_start (h ++ [(t, CTimeout sid)]) = DOk (s, eff) ->
  ~ open s sid /\ exists a, last_sign sid h = Some a /\ a + 1 <= t.
Proof.
  intros R. destruct (run_last _ _ _ _ _ _ _ R) as (s1 & f1 & f2 & R1 & E1).
  unfold sess_step in E1. destruct (due_of sid (cs_due s1)) as [d|] eqn:D; [|discriminate]. destruct (t <? d) eqn:T; [discriminate|].
  destruct (in_dec Z.eq_dec sid (ids (cs_child s1))) as [I|N].
  2:{ apply (proj2 (pending _ _ _ _ sid R1)) in N. congruence. }
  destruct (proj1 (pending _ _ _ _ sid R1) I) as (a & A1 & A2). rewrite D in A2. injection A2 as ->. split.
  - pose proof (write_same (cs_child s1) sid true []) as K. destruct (cli_write_timed _ _ _ _) as [[[c' f] a']| | | |]; cbn [dbind] in E1; try discriminate.
    injection E1 as <- _. destruct K as (_ & K & _). destruct (K I) as [(_ & F)|(K1 & _)]; [|discriminate]. unfold open. cbn [cs_child]. fold (ids c'). rewrite F.
    intros X. apply filter_In in X as [_ X]. rewrite Z.eqb_refl in X. discriminate.
  - exists a. split; [exact A1|lia].
Qed.
