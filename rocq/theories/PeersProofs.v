(** Clients and each other. *)
From Verif Require Import Base Types Tlv Checks Msg Protos Wire Util Child Netif Send SpecSend SpecFlow SpecPeers.
From Verif Require Import Lemmas TimerProofs.

Definition wsess (l : list session) (c : child) : child := mkChild (c_nfs c) (c_queue c) l (c_next c).
Definition wst (l : list session) (st : sstate) : sstate := mkSt (wsess l (st_child st)) (st_si st) (st_edp st).
Definition mine (k : Z) (l : list session) : list session := filter (fun s => ss_id s =? k) l.
Definition strip (k : Z) (st : sstate) : sstate := wst (mine k (c_sess (st_child st))) st.

Lemma expire_wsess opts now c l : child_expire opts now (wsess l c) = (wsess l (fst (child_expire opts now c)), snd (child_expire opts now c))
  /\ c_sess (fst (child_expire opts now c)) = c_sess c.
Proof.
  unfold child_expire. destruct (now =? -1); [now split|]. cbn [wsess c_queue c_nfs c_sess c_next].
  destruct (expire_loop _ _ _) as [q nfs]. destruct (update_loop _ _ _) as [nfs' eff]. now split.
Qed.
Lemma send_wst cfg os index t now st l : child_send cfg os index t now (wst l st)
  = (wst l (fst (child_send cfg os index t now st)), snd (child_send cfg os index t now st))
  /\ c_sess (st_child (fst (child_send cfg os index t now st))) = c_sess (st_child st).
Proof.
  unfold child_send. cbn [wst st_child st_si st_edp wsess c_nfs].
  set (f := _ && match netif_byindex (c_nfs (st_child st)) index with Some n => _ | None => _ end).
  assert (K : forall s1 e1, c_sess (st_child s1) = c_sess (st_child st) ->
    (if t && has (sc_opts cfg) OPT_RECV then
       let '(c', eff2) := child_expire (sc_opts cfg) now (st_child (wst l s1)) in (mkSt c' (st_si (wst l s1)) (st_edp (wst l s1)), e1 ++ map SChild eff2)
     else (wst l s1, e1))
    = (wst l (fst (if t && has (sc_opts cfg) OPT_RECV then
       let '(c', eff2) := child_expire (sc_opts cfg) now (st_child s1) in (mkSt c' (st_si s1) (st_edp s1), e1 ++ map SChild eff2)
     else (s1, e1))), snd (if t && has (sc_opts cfg) OPT_RECV then
       let '(c', eff2) := child_expire (sc_opts cfg) now (st_child s1) in (mkSt c' (st_si s1) (st_edp s1), e1 ++ map SChild eff2)
     else (s1, e1)))
    /\ c_sess (st_child (fst (if t && has (sc_opts cfg) OPT_RECV then
       let '(c', eff2) := child_expire (sc_opts cfg) now (st_child s1) in (mkSt c' (st_si s1) (st_edp s1), e1 ++ map SChild eff2)
     else (s1, e1)))) = c_sess (st_child st)).
  { intros s1 e1 HS. destruct (t && _); [|now split].
    cbn [wst st_child]. destruct (expire_wsess (sc_opts cfg) now (st_child s1) l) as [E1 E2]. rewrite E1.
    destruct (child_expire _ _ (st_child s1)) as [c' eff2]. cbn [fst snd] in *. split; [reflexivity|]. cbn [st_child]. now rewrite E2. }
  destruct f; [exact (K st [] eq_refl)|].
  destruct (netif_fetch _ _ _ _) as [[[count nfs] si] gone].
  destruct (count =? 0); [exact (K (mkSt (set_nfs (st_child st) nfs) si (st_edp st)) _ eq_refl)|].
  destruct (negb (index =? NETIF_INDEX_MAX) && match netif_byindex nfs index with Some _ => false | None => true end); [exact (K (mkSt (set_nfs (st_child st) nfs) si (st_edp st)) _ eq_refl)|].
  destruct (send_loop _ _ _ _ _ _) as [[nfs' edp] eff].
  exact (K (mkSt (set_nfs (st_child st) nfs') si edp) _ eq_refl).
Qed.
Lemma link_wst cfg os h fl index now st l : child_link cfg os h fl index now (wst l st)
  = (wst l (fst (child_link cfg os h fl index now st)), snd (child_link cfg os h fl index now st))
  /\ c_sess (st_child (fst (child_link cfg os h fl index now st))) = c_sess (st_child st).
Proof.
  unfold child_link. destruct (negb _); [now split|]. destruct (negb _); [now split|]. apply send_wst.
Qed.
Lemma queue_wsess opts c d now now2 l c' eff : child_queue opts c d now now2 = DOk (c', eff) ->
  child_queue opts (wsess l c) d now now2 = DOk (wsess l c', eff) /\ c_sess c' = c_sess c.
Proof.
  unfold child_queue. cbv zeta. cbn [wsess c_nfs c_queue c_sess c_next].
  destruct (negb _); [intros [= <- <-]; now split|]. destruct (now =? -1); [intros [= <- <-]; now split|].
  destruct (negb _); [discriminate|]. destruct (negb _); [discriminate|].
  destruct (netif_byindex _ _) as [sub|]; [|intros [= <- <-]; now split].
  destruct (netif_byaddr _ _); [intros [= <- <-]; now split|].
  destruct (proto_decode _ _ _) as [[n s]| | | |]; try discriminate; [|intros [= <- <-]; now split].
  destruct (n =? 0); [intros [= <- <-]; now split|].
  destruct (queue_put _ _ _) as [q fresh].
  destruct (s_ttl s =? 0).
  { destruct (expire_wsess opts now2 (mkChild (c_nfs c) q (c_sess c) fresh) l) as [E1 E2].
    change (mkChild (c_nfs c) q l fresh) with (wsess l (mkChild (c_nfs c) q (c_sess c) fresh)). rewrite E1.
    intros E. destruct (child_expire opts now2 (mkChild (c_nfs c) q (c_sess c) fresh)) as [c1 e1]. injection E as <- <-. now split. }
  destruct (negb _ || _); [intros [= <- <-]; now split|]. destruct (_ && _); intros [= <- <-]; now split.
Qed.

Lemma mine_find k l : find (fun s => ss_id s =? k) (mine k l) = find (fun s => ss_id s =? k) l.
Proof. induction l as [|a l IH]; [reflexivity|]. cbn. destruct (ss_id a =? k) eqn:E; [|exact IH]. cbn. now rewrite E. Qed.
Lemma mine_exists k l : existsb (fun s => ss_id s =? k) (mine k l) = existsb (fun s => ss_id s =? k) l.
Proof. induction l as [|a l IH]; [reflexivity|]. cbn. destruct (ss_id a =? k) eqn:E; [|exact IH]. cbn. now rewrite E. Qed.
Lemma mine_drop k l : mine k (drop_sess k l) = drop_sess k (mine k l).
Proof.
  unfold mine, drop_sess. induction l as [|a l IH]; [reflexivity|]. cbn. destruct (ss_id a =? k) eqn:E; cbn; rewrite E; cbn; [exact IH|exact IH].
Qed.
Lemma mine_drop_other k j l : j <> k -> mine k (drop_sess j l) = mine k l.
Proof.
  intros H. unfold mine, drop_sess. induction l as [|a l IH]; [reflexivity|]. cbn. destruct (ss_id a =? j) eqn:E; cbn; [|now rewrite IH].
  replace (ss_id a =? k) with false by lia. exact IH.
Qed.
Lemma mine_wait k i l : mine k (wait_sess k i l) = wait_sess k i (mine k l).
Proof.
  unfold mine, wait_sess. induction l as [|a l IH]; [reflexivity|]. cbn. destruct (ss_id a =? k) eqn:E; cbn; [rewrite E, Z.eqb_refl; cbn; now rewrite IH|].
  rewrite E. exact IH.
Qed.
Lemma write_strip c k t ws c' eff : child_cli_write c k t ws = DOk (c', eff) ->
  child_cli_write (wsess (mine k (c_sess c)) c) k t ws = DOk (wsess (mine k (c_sess c')) c', eff).
Proof.
  unfold child_cli_write. cbn [wsess c_sess c_nfs c_queue c_next]. rewrite mine_find.
  destruct (find _ (c_sess c)) as [s|]; [|intros [= <- <-]; reflexivity].
  destruct t; [intros [= <- <-]; unfold wsess; cbn [c_nfs c_queue c_sess c_next]; now rewrite mine_drop|].
  assert (K : forall q1 l, (let '(eff, r) := write_loop k l ws in
        match r with
        | Some i => DOk (mkChild (c_nfs c) (add_lock i 1 q1) (wait_sess k i (c_sess c)) (c_next c), eff)
        | None => DOk (mkChild (c_nfs c) q1 (drop_sess k (c_sess c)) (c_next c), eff)
        end) = DOk (c', eff) ->
     (let '(eff, r) := write_loop k l ws in
        match r with
        | Some i => DOk (mkChild (c_nfs c) (add_lock i 1 q1) (wait_sess k i (mine k (c_sess c))) (c_next c), eff)
        | None => DOk (mkChild (c_nfs c) q1 (drop_sess k (mine k (c_sess c))) (c_next c), eff)
        end) = DOk (wsess (mine k (c_sess c')) c', eff)).
  { intros q1 l. destruct (write_loop k l ws) as [e [i|]]; intros [= <- <-]; unfold wsess; cbn [c_nfs c_queue c_sess c_next]; [now rewrite mine_wait|now rewrite mine_drop]. }
  destruct (ss_msg s) as [i|]; cbn [dbind]; [|apply K].
  destruct (queue_from _ _) as [l|]; [|discriminate]. cbn [dbind]. apply K.
Qed.
Lemma write_others c k t ws c' eff s : child_cli_write c k t ws = DOk (c', eff) -> In s (c_sess c') -> ss_id s <> k -> In s (c_sess c).
Proof.
  unfold child_cli_write. destruct (find _ _) as [s0|]; [|intros [= <- <-]; easy].
  assert (D : In s (drop_sess k (c_sess c)) -> In s (c_sess c)) by (intros X; now apply filter_In in X as [X _]).
  assert (W : forall i, In s (wait_sess k i (c_sess c)) -> ss_id s <> k -> In s (c_sess c)).
  { intros i X Y. apply in_map_iff in X as (x & X & X2). destruct (ss_id x =? k) eqn:E; [subst s; now contradiction Y|now subst x]. }
  destruct t; [intros [= <- <-]; cbn; intros X _; now apply D|].
  intros H. apply dbind_ok in H as ([q1 l] & _ & H). destruct (write_loop k l ws) as [e [i|]]; injection H as <- <-; cbn [c_sess]; [apply W|intros X _; now apply D].
Qed.

(** Steps that are not those of others. *)
Lemma same_step cfg k st e st' eff : of_another k e = false -> send_step cfg st e = DOk (st', eff) ->
  send_step cfg (strip k st) e = DOk (strip k st', eff)
  /\ forall s, In s (c_sess (st_child st')) -> ss_id s <> k -> In s (c_sess (st_child st)).
Proof.
  intros OA. destruct e as [os now|os h fl i now|e]; cbn [send_step].
  - intros H. destruct (send_wst cfg os NETIF_INDEX_MAX true now st (mine k (c_sess (st_child st)))) as [E1 E2].
    fold (strip k st) in E1. rewrite E1. injection H as H. rewrite H in *. cbn [fst snd] in *. split.
    + unfold strip. now rewrite E2.
    + intros s X _. now rewrite E2 in X.
  - intros H. destruct (link_wst cfg os h fl i now st (mine k (c_sess (st_child st)))) as [E1 E2].
    fold (strip k st) in E1. rewrite E1. injection H as H. rewrite H in *. cbn [fst snd] in *. split.
    + unfold strip. now rewrite E2.
    + intros s X _. now rewrite E2 in X.
  - destruct e as [d now now2|now|nfs|j|j ws|j]; cbn [of_another] in OA; cbn [child_step].
    + intros H. apply dbind_ok in H as ([c1 e1] & H & E). injection E as <- <-.
      destruct (queue_wsess _ _ _ _ _ (mine k (c_sess (st_child st))) _ _ H) as [E1 E2].
      unfold strip at 1, wst at 1. cbn [st_child]. rewrite E1. cbn [dbind]. split; [|cbn [st_child]; rewrite E2; now intros s X _].
      unfold strip, wst. cbn [st_child st_si st_edp]. now rewrite E2.
    + intros [= <- <-]. split; [reflexivity|now intros s X _].
    + intros [= <- <-]. split; [reflexivity|now intros s X _].
    + assert (j = k) as -> by lia. unfold strip at 1, wst at 1. cbn [st_child wsess c_sess]. rewrite mine_exists.
      destruct (existsb _ _); cbn [dbind]; intros [= <- <-].
      * split; [reflexivity|now intros s X _].
      * split.
        -- unfold strip, wst, wsess, child_cli_accept. cbn [st_child st_si st_edp c_nfs c_queue c_sess c_next]. unfold mine. rewrite filter_app. cbn. now rewrite Z.eqb_refl.
        -- cbn [st_child child_cli_accept c_sess]. intros s X Y. apply in_app_or in X as [X|[<-|[]]]; [assumption|]. now contradiction Y.
    + assert (j = k) as -> by lia. intros H. apply dbind_ok in H as ([c1 e1] & H & E). injection E as <- <-.
      pose proof (write_strip _ _ _ _ _ _ H) as W. unfold strip at 1, wst at 1. cbn [st_child]. rewrite W. cbn [dbind]. split; [reflexivity|].
      cbn [st_child]. intros s X Y. eapply write_others; eassumption.
    + assert (j = k) as -> by lia. intros H. apply dbind_ok in H as ([c1 e1] & H & E). injection E as <- <-.
      pose proof (write_strip _ _ _ _ _ _ H) as W. unfold strip at 1, wst at 1. cbn [st_child]. rewrite W. cbn [dbind]. split; [reflexivity|].
      cbn [st_child]. intros s X Y. eapply write_others; eassumption.
Qed.

(** Steps of others. *)
Lemma write_loop_up j : forall q ws, ~ In WAgain ws -> snd (write_loop j q ws) = None
  /\ forall e, In e (fst (write_loop j q ws)) -> exists x, e = CSent j x.
Proof.
  induction q as [|e q IH]; intros ws H; [split; [reflexivity|easy]|]. cbn [write_loop].
  assert (T : ~ In WAgain (tl ws)) by (destruct ws; [easy|intros X; apply H; now right]).
  destruct (IH _ T) as [I1 I2].
  assert (R : snd (let '(eff, r) := write_loop j q (tl ws) in (CSent j (entry_bytes e) :: eff, r)) = None
    /\ forall e0, In e0 (fst (let '(eff, r) := write_loop j q (tl ws) in (CSent j (entry_bytes e) :: eff, r))) -> exists x, e0 = CSent j x).
  { destruct (write_loop j q (tl ws)) as [eff r]. cbn in *. split; [assumption|]. intros e0 [<-|X]; eauto. }
  destruct ws as [|[| |] ws]; [exact R|exact R| |split; [reflexivity|easy]]. destruct H. now left.
Qed.
Lemma other_step cfg k st e st' eff : others_idle k st -> of_another k e = true ->
  (forall j ws, e = EvChild (CReady j ws) -> j <> k -> ~ In WAgain ws) -> send_step cfg st e = DOk (st', eff) ->
  strip k st' = strip k st /\ others_idle k st' /\ forall x, In x eff -> exists j y, x = SChild (CSent j y) /\ j <> k.
Proof.
  intros ID OA KU. destruct e as [os now|os h fl i now|e]; [discriminate|discriminate|].
  destruct e as [d now now2|now|nfs|j|j ws|j]; try discriminate; cbn [of_another] in OA; cbn [send_step child_step].
  - assert (j <> k) by lia. destruct (existsb _ _); cbn [dbind]; intros [= <- <-].
    + destruct st. repeat split; [assumption|easy].
    + split; [|split; [|easy]].
      * unfold strip, wst, wsess, child_cli_accept. cbn [st_child st_si st_edp c_nfs c_queue c_sess c_next]. unfold mine. rewrite filter_app. cbn.
        replace (j =? k) with false by lia. now rewrite app_nil_r.
      * intros s. cbn [st_child child_cli_accept c_sess]. intros X Y. apply in_app_or in X as [X|[<-|[]]]; [now apply ID|reflexivity].
  - assert (J : j <> k) by lia. intros H. apply dbind_ok in H as ([c1 e1] & H & E). injection E as <- <-.
    unfold child_cli_write in H. destruct (find _ _) as [s|] eqn:F; [|injection H as <- <-; destruct st; repeat split; [assumption|easy]].
    apply find_some in F as [F1 F2]. rewrite (ID s F1) in H by lia. cbn [dbind] in H.
    destruct (write_loop_up j (c_queue (st_child st)) ws (KU j ws eq_refl J)) as [W1 W2].
    destruct (write_loop j _ ws) as [e2 r]. cbn [fst snd] in *. subst r. injection H as <- <-. split; [|split].
    + unfold strip, wst, wsess. cbn [st_child st_si st_edp c_nfs c_queue c_sess c_next]. now rewrite mine_drop_other.
    + intros x. cbn [st_child c_sess]. intros X. apply ID. now apply filter_In in X as [X _].
    + intros x X. apply in_map_iff in X as (y & <- & X). destruct (W2 _ X) as [z ->]. eauto.
  - assert (J : j <> k) by lia. intros H. apply dbind_ok in H as ([c1 e1] & H & E). injection E as <- <-.
    unfold child_cli_write in H. destruct (find _ _) as [s|] eqn:F; [|injection H as <- <-; destruct st; repeat split; [assumption|easy]].
    injection H as <- <-. split; [|split; [|easy]].
    + unfold strip, wst, wsess. cbn [st_child st_si st_edp c_nfs c_queue c_sess c_next]. now rewrite mine_drop_other.
    + intros x. cbn [st_child c_sess]. intros X. apply ID. now apply filter_In in X as [X _].
Qed.

Lemma but_app k a b : but_for_others k (a :: b) = but_for_others k [a] ++ but_for_others k b.
Proof. unfold but_for_others. cbn [concat]. rewrite app_nil_r. apply filter_app. Qed.
Lemma others_nil k a : (forall x, In x a -> exists j y, x = SChild (CSent j y) /\ j <> k) -> but_for_others k [a] = [].
Proof.
  intros H. unfold but_for_others. cbn [concat]. rewrite app_nil_r. induction a as [|x a IH]; [reflexivity|]. cbn.
  destruct (H x (or_introl eq_refl)) as (j & y & -> & J). replace (j =? k) with false by lia. apply IH. intros z Z. apply H. now right.
Qed.
Lemma erase cfg k : forall es st z effs, others_idle k st -> others_keep_up k es -> send_run cfg st es = DOk (z, effs) ->
  exists effs', send_run cfg (strip k st) (without_others k es) = DOk (strip k z, effs') /\ but_for_others k effs' = but_for_others k effs.
Proof.
  induction es as [|e es IH]; intros st z effs ID KU H.
  { injection H as <- <-. exists []. now split. }
  cbn [send_run] in H. apply dbind_ok in H as ([st1 eff1] & H1 & H). apply dbind_ok in H as ([st2 effs2] & H2 & E). injection E as <- <-.
  assert (KU' : others_keep_up k es) by (intros j ws X; apply (KU j ws); now right).
  unfold without_others. cbn [filter]. fold (without_others k es). destruct (of_another k e) eqn:OA; cbn [negb].
  - destruct (other_step cfg k st e st1 eff1 ID OA) as (S1 & S2 & S3); [|assumption|].
    { intros j ws ->. apply KU. now left. }
    destruct (IH _ _ _ S2 KU' H2) as (effs' & R & B). rewrite S1 in R. exists effs'. split; [assumption|].
    rewrite but_app, (others_nil k eff1 S3). exact B.
  - destruct (same_step cfg k st e st1 eff1 OA H1) as [S1 S2].
    assert (ID1 : others_idle k st1) by (intros s X Y; apply ID; [now apply S2|assumption]).
    destruct (IH _ _ _ ID1 KU' H2) as (effs' & R & B). exists (eff1 :: effs'). split.
    + cbn [send_run]. rewrite S1. cbn [dbind]. rewrite R. reflexivity.
    + rewrite but_app, B. symmetry. apply but_app.
Qed.
Lemma strip_alike k st st' : alike_for k st st' <-> strip k st = strip k st'.
Proof.
  unfold alike_for, strip, wst, wsess, mine, table. split.
  - intros (-> & -> & -> & -> & -> & ->). reflexivity.
  - intros [= -> -> -> -> -> ->]. now repeat split.
Qed.
Lemma peers cfg k es es' st st' z z' effs effs' : alike_for k st st' -> others_idle k st -> others_idle k st' ->
  others_keep_up k es -> others_keep_up k es' -> without_others k es = without_others k es' ->
  send_run cfg st es = DOk (z, effs) -> send_run cfg st' es' = DOk (z', effs') ->
  but_for_others k effs = but_for_others k effs' /\ alike_for k z z'.
Proof.
  intros A I1 I2 K1 K2 W H1 H2. apply strip_alike in A.
  destruct (erase cfg k es st z effs I1 K1 H1) as (x & X1 & X2). destruct (erase cfg k es' st' z' effs' I2 K2 H2) as (y & Y1 & Y2).
  rewrite A, W, Y1 in X1. apply dok_eq in X1 as [X1 ->]. split; [congruence|]. now apply strip_alike.
Qed.
Lemma sent_but k : forall effs, sent_to k effs = flat_map (fun e => match e with SChild (CSent j x) => if j =? k then [x] else [] | _ => [] end) (but_for_others k effs).
Proof.
  intros effs. unfold sent_to, but_for_others. induction (concat effs) as [|e l IH]; [reflexivity|]. cbn [flat_map filter].
  destruct e as [i|i|i p f|[i t|j x]]; cbn [flat_map app]; try exact IH. destruct (j =? k) eqn:J; [|exact IH]. cbn [flat_map]. now rewrite J, IH.
Qed.
Lemma peers_sent cfg k es es' st st' z z' effs effs' : alike_for k st st' -> others_idle k st -> others_idle k st' ->
  others_keep_up k es -> others_keep_up k es' -> without_others k es = without_others k es' ->
  send_run cfg st es = DOk (z, effs) -> send_run cfg st' es' = DOk (z', effs') ->
  but_for_others k effs = but_for_others k effs' /\ sent_to k effs = sent_to k effs' /\ alike_for k z z'.
Proof.
  intros A I1 I2 K1 K2 W H1 H2. destruct (peers cfg k es es' st st' z z' effs effs' A I1 I2 K1 K2 W H1 H2) as [P Q].
  split; [assumption|]. split; [|assumption]. now rewrite !sent_but, P.
Qed.

(** ** No client at all *)
Lemma fresh (l : list Z) : exists k, ~ In k l.
Proof.
  assert (B : forall l : list Z, exists m, forall x, In x l -> x < m).
  { clear l. induction l as [|a l [m IH]]; [exists 0; easy|]. exists (Z.max (a + 1) m). intros x [<-|X]; [lia|]. specialize (IH x X). lia. }
  destruct (B l) as [m M]. exists m. intros X. specialize (M m X). lia.
Qed.
Definition sids (es : list sevent) : list Z :=
  flat_map (fun e => match e with EvChild (CAccept j) | EvChild (CReady j _) | EvChild (CTimeout j) => [j] | _ => [] end) es.
Lemma sids_others k : forall es, ~ In k (sids es) -> without_others k es = filter (fun e => negb (from_client e)) es.
Proof.
  induction es as [|e es IH]; [reflexivity|]. intros H. unfold without_others in *. cbn [filter].
  assert (E : of_another k e = from_client e).
  { destruct e as [| |[| | |j|j ws|j]]; try reflexivity; cbn in *; destruct (j =? k) eqn:E; try reflexivity; exfalso; apply H; left; lia. }
  rewrite E, IH; [reflexivity|]. intros X. apply H. unfold sids. cbn [flat_map]. apply in_or_app. now right.
Qed.
Lemma but_outgoing k : forall effs, outgoing effs = filter (fun e => match e with SChild _ => false | _ => true end) (but_for_others k effs).
Proof.
  intros effs. unfold outgoing, but_for_others. induction (concat effs) as [|e l IH]; [reflexivity|].
  destruct e as [i|i|i p f|[i t|j x]]; cbn [filter]; try (now rewrite IH); try exact IH. destruct (j =? k); [cbn [filter]|]; exact IH.
Qed.
Lemma no_clients cfg es es' st z z' effs effs' : (forall s, In s (c_sess (st_child st)) -> ss_msg s = None) ->
  (forall j ws, In (EvChild (CReady j ws)) (es ++ es') -> ~ In WAgain ws) ->
  filter (fun e => negb (from_client e)) es = filter (fun e => negb (from_client e)) es' ->
  send_run cfg st es = DOk (z, effs) -> send_run cfg st es' = DOk (z', effs') ->
  outgoing effs = outgoing effs' /\ c_queue (st_child z) = c_queue (st_child z').
Proof.
  intros ID KU W H1 H2. destruct (fresh (sids es ++ sids es')) as [k K].
  assert (K1 : ~ In k (sids es)) by (intros X; apply K; apply in_or_app; now left).
  assert (K2 : ~ In k (sids es')) by (intros X; apply K; apply in_or_app; now right).
  destruct (peers cfg k es es' st st z z' effs effs') as [P Q]; try assumption.
  - now repeat split.
  - intros s X _. now apply ID.
  - intros s X _. now apply ID.
  - intros j ws X _. apply (KU j). apply in_or_app. now left.
  - intros j ws X _. apply (KU j). apply in_or_app. now right.
  - now rewrite (sids_others k es K1), (sids_others k es' K2).
  - split; [|apply Q]. now rewrite (but_outgoing k effs), (but_outgoing k effs'), P.
Qed.
