(** The client as a whole: options, captures, posts. *)
From Verif Require Import Base Tlv Types Msg Protos Wire Util Parent Child Cli Post Spec SpecAdv SpecRound SpecNet SpecChild SpecCli SpecPost
  Lemmas WireProofs VisProofs ChildProofs2 CliProofs1 CliProofs2 CliProofs3 CliProofs4 CliProofs5 CliProofs7 PostProofs1 PostProofs2.

(** ** Options *)
Definition is_some {A} (o : option A) : bool := match o with Some _ => true | None => false end.
Lemma opt_inv c h ch r : cli_opt c h ch = Some r ->
  In ch (bs "LCEFNbdfpov") /\ (ch = 112 -> h = false) /\ snd r = h || (ch =? 112).
Proof.
  unfold cli_opt. intros H.
  repeat match type of H with (if ?x =? ?y then _ else _) = _ => destruct (Z.eqb_spec x y) as [->|?] end;
    try discriminate;
    try (injection H as <-; split; [cbn; tauto|]; split; [lia|]; cbn [snd]; now rewrite ?orb_false_r).
  destruct h; [discriminate|]. injection H as <-. split; [cbn; tauto|]. now split.
Qed.
Lemma opts_inv ls : forall c h, cli_opts c h ls <> None ->
  (forall x, In x ls -> In x (bs "LCEFNbdfpov")) /\ (h = true -> ~ In 112 ls)
  /\ (forall a b, ls <> a ++ 112 :: b \/ ~ In 112 b).
Proof.
  induction ls as [|ch ls IH]; intros c h H; cbn [cli_opts] in H.
  - split; [easy|]. split; [easy|]. intros a b. left. intros E. now destruct a.
  - destruct (cli_opt c h ch) as [[c' h']|] eqn:E; [|easy]. cbn [obind] in H.
    apply opt_inv in E as (H1 & H2 & H3). cbn [snd] in H3. apply IH in H as (I1 & I2 & I3). split; [|split].
    + intros x [<-|Hx]; [exact H1|now apply I1].
    + intros -> [K|K]; [now apply H2 in K|]. now apply I2.
    + intros a b. destruct a as [|y a].
      * destruct (Z.eqb_spec ch 112) as [->|N]; [|left; intros [= K _]; lia].
        destruct (in_dec Z.eq_dec 112 b) as [K|K]; [left|now right]. intros [= ->].
        rewrite orb_true_r in H3. now apply (I2 H3).
      * destruct (I3 a b) as [K|K]; [left; intros [= -> K2]; now apply K|now right].
Qed.
Lemma indexes_inv ifindex names : cli_indexes ifindex names <> None -> forall n, In n names -> ifindex n <> 0.
Proof.
  induction names as [|n names IH]; cbn [cli_indexes]; intros H x Hx; [destruct Hx|].
  destruct (Z.eqb_spec (ifindex n) 0) as [E|E]; [easy|]. destruct (cli_indexes ifindex names) eqn:E2; [|easy].
  destruct Hx as [<-|Hx]; [exact E|]. now apply IH.
Qed.
Lemma args_opts ol : forall c t, cli_opts c (is_some t) (letters ol) = option_map fst (cli_args c t ol).
Proof.
  induction ol as [|[ch arg] ol IH]; intros c t; cbn [letters map fst cli_opts cli_args]; [reflexivity|].
  fold (letters ol). unfold is_some at 1. destruct (cli_opt c _ ch) as [[c' h']|] eqn:E; cbn [obind]; [|reflexivity].
  apply opt_inv in E as (_ & _ & E). cbn [snd] in E. rewrite <- IH. f_equal. rewrite E.
  destruct (ch =? 112); [now rewrite orb_true_r|]. now rewrite orb_false_r.
Qed.
Lemma args_keep ol : forall c t c' t', ~ In 112 (letters ol) -> cli_args c t ol = Some (c', t') -> t' = t.
Proof.
  induction ol as [|[ch arg] ol IH]; intros c t c' t' H E; cbn [cli_args] in E; [now injection E as _ <-|].
  destruct (cli_opt _ _ _) as [[c1 h1]|]; [|discriminate]. cbn [obind] in E. cbn [letters map fst In] in H.
  apply IH in E; [|tauto]. rewrite E. replace (ch =? 112) with false by lia. reflexivity.
Qed.
Lemma args_target ol u : forall c t c' t', In (112, u) ol -> (forall a b, letters ol <> a ++ 112 :: b \/ ~ In 112 b) ->
  cli_args c t ol = Some (c', t') -> t' = Some (http_target u).
Proof.
  induction ol as [|[ch arg] ol IH]; intros c t c' t' H H2 E; cbn [cli_args] in E; [destruct H|].
  destruct (cli_opt _ _ _) as [[c1 h1]|]; [|discriminate]. cbn [obind] in E. destruct H as [H|H].
  - injection H as -> ->. apply args_keep in E; [exact E|]. destruct (H2 [] (letters ol)) as [K|K]; [now destruct K|exact K].
  - apply IH in E; [exact E|exact H|]. intros a b. destruct (H2 (ch :: a) b) as [K|K]; [left|now right].
    intros K2. apply K. change (ch :: letters ol = ch :: a ++ 112 :: b). now f_equal.
Qed.
(** The letter of a mode. *)
Definition mode_of (m : Z) : Z := if m =? 98 then 2 else if m =? 100 then 3 else if m =? 102 then 1 else if m =? 112 then 4 else 0.
Lemma no_mode b : (forall x, In x b -> ~ In x (bs "bdfp")) -> forall m, fold_left (fun m ch => mode_opt ch m) b m = m.
Proof.
  induction b as [|x b IH]; intros H m; cbn [fold_left]; [reflexivity|]. rewrite IH; [|intros; apply H; now right].
  specialize (H x (or_introl eq_refl)). cbn in H. unfold mode_opt.
  replace (x =? 98) with false by lia. replace (x =? 100) with false by lia. replace (x =? 102) with false by lia.
  now replace (x =? 112) with false by lia.
Qed.
Lemma way_mode ls m : way ls m -> cl_mode (conf_of ls) = mode_of m.
Proof.
  unfold conf_of. cbn [cl_mode]. intros [(a & b & -> & Hm & Hb)|[-> H]].
  - rewrite fold_left_app. cbn [fold_left]. rewrite no_mode by assumption. cbn in Hm.
    repeat destruct Hm as [<-|Hm]; try reflexivity. destruct Hm.
  - now rewrite no_mode.
Qed.
Lemma way_letter ls m : way ls m -> m = 0 \/ (In m ls /\ (m = 98 \/ m = 100 \/ m = 102 \/ m = 112)).
Proof.
  intros [(a & b & -> & Hm & _)|[-> _]]; [right|now left]. split; [apply in_app_iff; right; now left|]. cbn in Hm. lia.
Qed.

(** ** The runs *)
Section run.
Variables (ol : list (Z * list Z)) (names : list (list Z)) (env : client_env) (reads : list (list Z)).
Let ls := letters ol.
Theorem run_refused : ~ usable ls names (ce_ifindex env) ->
  cli_run ol names env reads = DOk (mkRun [] [] 1)
  /\ cli_main ls names (ce_ifindex env) (ce_now env) (ce_ws env) reads = None.
Proof.
  intros Hu. unfold cli_run, cli_main. unfold cli_conf. change false with (is_some (@None (list Z * list Z))) at 3.
  assert (K : cli_opts (mkCli 0 MODE_CLI false) (is_some (@None (list Z * list Z))) ls = None
              \/ cli_indexes (ce_ifindex env) names = None).
  { destruct (cli_opts _ _ ls) eqn:E1; [|now left]. destruct (cli_indexes _ _) eqn:E2; [|now right]. destruct Hu.
    assert (N1 : cli_opts (mkCli 0 MODE_CLI false) (is_some (@None (list Z * list Z))) ls <> None) by now rewrite E1.
    assert (N2 : cli_indexes (ce_ifindex env) names <> None) by now rewrite E2.
    apply opts_inv in N1 as (A & _ & B). split; [exact A|]. split; [exact B|]. now apply indexes_inv. }
  destruct K as [K|K].
  - rewrite K. unfold ls in K. rewrite args_opts in K. destruct (cli_args _ _ ol); [discriminate|]. now split.
  - rewrite K. destruct (cli_args _ _ ol) as [[c t]|]; (split; [reflexivity|]); now destruct (cli_opts _ _ ls).
Qed.
Hypothesis (Hu : usable ls names (ce_ifindex env)).
Lemma args_some : exists c0 t, cli_args (mkCli 0 MODE_CLI false) None ol = Some (c0, t)
  /\ (if cl_proto c0 =? 0 then mkCli 255 (cl_mode c0) (cl_once c0) else c0) = conf_of ls.
Proof.
  pose proof (conf_some ls names (ce_ifindex env) Hu) as H. unfold cli_conf in H.
  change false with (is_some (@None (list Z * list Z))) in H at 2. unfold ls in H at 1. rewrite args_opts in H.
  destruct (cli_args _ _ ol) as [[c0 t]|]; [|discriminate]. cbn [option_map obind fst] in H. exists c0, t. split; [reflexivity|].
  now injection H.
Qed.
Lemma run_text m o text : way ls m -> m <> 100 -> m <> 112 ->
  cli_main ls names (ce_ifindex env) (ce_now env) (ce_ws env) reads = Some (DOk (o, text)) ->
  cli_run ol names env reads = DOk (mkRun text [] 0).
Proof.
  intros Hw N1 N2 H. unfold cli_run. destruct args_some as (c0 & t & -> & ->). unfold cli_main in H.
  rewrite (conf_some ls names _ Hu) in H. cbn [obind] in H. pose proof (indexes_some (ce_ifindex env) names (proj2 (proj2 Hu))) as Hi.
  rewrite Hi in H |- *. cbn [obind] in H. pose proof (way_mode _ _ Hw) as Hm. unfold mode_of in Hm.
  replace (m =? 100) with false in Hm by lia. replace (m =? 112) with false in Hm by lia.
  replace (cl_mode (conf_of ls) =? MODE_DEBUG) with false
    by (rewrite Hm; destruct (m =? 98), (m =? 102); reflexivity).
  replace (cl_mode (conf_of ls) =? MODE_HTTP) with false
    by (rewrite Hm; destruct (m =? 98), (m =? 102); reflexivity).
  clear Hm. generalize dependent (conf_of ls). intros c H. injection H as H. apply dbind_ok in H as (o' & -> & H). cbn [dbind].
  injection H as <- <-. reflexivity.
Qed.

(** Posts. *)
Lemma posts_shown enc host port path me ms :
  http_posts enc host port path me (map OShow ms) = map (fun m => mkPost host port path (http_body enc me m)) ms.
Proof. induction ms as [|m ms IH]; cbn [map http_posts]; [reflexivity|]. now rewrite IH. Qed.
Lemma connect_some port me : connected (ce_http env) port me -> (forall f, h_found (ce_http env) = Some f -> zlen f < 255) ->
  http_connect (ce_http env) = Some (port, me).
Proof.
  intros (H1 & H2 & n & H3 & H4 & H5) Hf. unfold http_connect. rewrite H1, H2, H3. cbn [obind negb].
  destruct (h_found (ce_http env)) as [f|]; [|now rewrite H4 by now left].
  destruct (beq f (bs "localhost")) eqn:E.
  - assert (f = bs "localhost") by now apply beq_true. now rewrite H4 by (right; now f_equal).
  - rewrite (H5 f eq_refl); [|intros ->; discriminate E|now apply Hf]. rewrite firstn_all2; [reflexivity|].
    specialize (Hf f eq_refl). unfold zlen in Hf. lia.
Qed.
Lemma run_http u r : way ls 112 -> In (112, u) ol -> cli_run ol names env reads = DOk r ->
  match http_connect (ce_http env) with
  | None => r = mkRun [] [] 1
  | Some (port, me) => exists o text,
      cli_main ls names (ce_ifindex env) (ce_now env) (ce_ws env) reads = Some (DOk (o, text))
      /\ r = mkRun [] (http_posts (ce_enc env) (fst (http_target u)) port (snd (http_target u)) me o) (http_replies 0 (ce_answers env))
  end.
Proof.
  intros Hw Hin. unfold cli_run. destruct args_some as (c0 & t & E & Ec). rewrite E, Ec.
  apply (args_target ol u) in E; [|exact Hin|apply Hu]. subst t.
  pose proof (indexes_some (ce_ifindex env) names (proj2 (proj2 Hu))) as Hi. rewrite Hi.
  rewrite (way_mode _ _ Hw). change (mode_of 112 =? MODE_DEBUG) with false. change (mode_of 112 =? MODE_HTTP) with true. cbv iota.
  destruct (http_connect _) as [[port me]|]; [|now intros [= <-]]. destruct (http_target u) as [host path].
  intros H. apply dbind_ok in H as (o & El & H). injection H as <-. unfold cli_main. rewrite (conf_some ls names _ Hu). cbn [obind].
  rewrite Hi. cbn [obind]. rewrite El. cbn [dbind]. eexists _, _. split; [reflexivity|reflexivity].
Qed.
Lemma target_url host path u : url host path u -> http_target u = (host, path).
Proof.
  intros (Hh & _ & Hu'). unfold http_target.
  assert (Sl : at_slash host = (host, None)).
  { clear -Hh. induction host as [|b h IH]; [reflexivity|]. cbn [at_slash]. destruct (Z.eqb_spec b 47); [destruct Hh; now left|].
    rewrite IH; [reflexivity|]. intros K. apply Hh. now right. }
  assert (Sp : forall r, at_slash (host ++ 47 :: r) = (host, Some (47 :: r))).
  { clear -Hh. induction host as [|b h IH]; intros r; [reflexivity|]. cbn [app at_slash]. destruct (Z.eqb_spec b 47); [destruct Hh; now left|].
    rewrite IH; [reflexivity|]. intros K. apply Hh. now right. }
  destruct Hu' as [[-> ->]|(r & -> & ->)].
  - change (firstn 7 (bs "http://" ++ host)) with (bs "http://"). change (beq (bs "http://") (bs "http://")) with true. cbv iota.
    change (skipn 7 (bs "http://" ++ host)) with host. now rewrite Sl.
  - change (firstn 7 (bs "http://" ++ host ++ 47 :: r)) with (bs "http://"). change (beq (bs "http://") (bs "http://")) with true. cbv iota.
    change (skipn 7 (bs "http://" ++ host ++ 47 :: r)) with (host ++ 47 :: r). now rewrite Sp.
Qed.
Lemma main_shown o text : ~ In 102 ls \/ way ls 112 -> Forall bytes reads -> (forall m, In m reads -> literal (pm_name m)) ->
  cli_main ls names (ce_ifindex env) (ce_now env) (ce_ws env) reads = Some (DOk (o, text)) ->
  exists ms, o = map OShow ms /\ Forall (harmless literal) ms.
Proof.
  intros Hf Hb Hn H. unfold cli_main in H. rewrite (conf_some ls names _ Hu) in H. cbn [obind] in H.
  rewrite indexes_some in H by apply Hu. cbn [obind] in H. injection H as H. apply dbind_ok in H as (o' & E & H). injection H as <- _.
  apply (loop_harmless literal) in E as (ms & -> & _ & Hs); try assumption.
  - exists ms. now split.
  - destruct Hf as [Hf|Hf].
    + unfold conf_of. cbn [cl_mode]. now apply mode_no_print.
    + rewrite (way_mode _ _ Hf). discriminate.
  - apply no_peers_clean.
Qed.
Theorem run_posts u port me r : way ls 112 -> In (112, u) ol -> Forall bytes reads -> (forall m, In m reads -> literal (pm_name m)) ->
  connected (ce_http env) port me -> (forall f, h_found (ce_http env) = Some f -> zlen f < 255) -> literal me ->
  url_encoder (ce_enc env) -> cli_run ol names env reads = DOk r ->
  exists ms text, cli_main ls names (ce_ifindex env) (ce_now env) (ce_ws env) reads = Some (DOk (map OShow ms, text))
  /\ map (fun p => form (po_body p)) (cr_posts r) = map (fun m => form_of me m [13; 10; 13; 10]) ms.
Proof.
  intros Hw Hin Hb Hn Hc Hf Hme He H. apply (run_http u) in H; try assumption. rewrite (connect_some port me Hc Hf) in H.
  destruct H as (o & text & H & ->). destruct (main_shown o text) as (ms & -> & Hs); try assumption; [now right|].
  exists ms, text. split; [exact H|]. cbn [cr_posts]. rewrite posts_shown, map_map. cbn [po_body].
  apply map_ext_in. intros m Hm. rewrite Forall_forall in Hs. apply form_body; [exact He|exact Hme|now apply Hs].
Qed.
Theorem run_target u host path port me r : way ls 112 -> In (112, u) ol -> url host path u ->
  connected (ce_http env) port me -> (forall f, h_found (ce_http env) = Some f -> zlen f < 255) ->
  cli_run ol names env reads = DOk r ->
  forall p, In p (cr_posts r) -> po_host p = host /\ po_port p = port /\ po_path p = path.
Proof.
  intros Hw Hin Hurl Hc Hf H p Hp. apply (run_http u) in H; try assumption. rewrite (connect_some port me Hc Hf) in H.
  destruct H as (o & text & _ & ->). rewrite (target_url host path u Hurl) in Hp. cbn [cr_posts fst snd] in Hp. revert Hp. clear.
  induction o as [|[l|m] o IH]; cbn [http_posts]; [easy|exact IH|]. intros [<-|Hp]; [easy|now apply IH].
Qed.
Lemma replies_ok l : forall s, http_replies s l = 0 <-> s = 0 /\ Forall (fun a => exists c, a = Some c /\ c <> 0 /\ c < 400) l.
Proof.
  induction l as [|[c|] l IH]; intros s; cbn [http_replies].
  - split; [intros ->; now split|tauto].
  - rewrite Forall_cons_iff. destruct (Z.eqb_spec c 0) as [->|N].
    + split; [discriminate|]. intros (_ & (c & [= <-] & K & _) & _). now destruct K.
    + destruct (Z.ltb_spec c 400).
      * rewrite IH. split; [intros [-> K]; repeat split; eauto|tauto].
      * rewrite IH. split; [intros [K _]; discriminate|]. intros (_ & (c' & [= <-] & _ & K) & _). lia.
  - split; [discriminate|]. rewrite Forall_cons_iff. intros (_ & (c & K & _) & _). discriminate.
Qed.
Theorem run_status u r : way ls 112 -> In (112, u) ol -> cli_run ol names env reads = DOk r ->
  (cr_exit r = 0 <-> h_port (ce_http env) <> None /\ h_conn (ce_http env) = true /\ h_name (ce_http env) <> None
     /\ Forall (fun a => exists c, a = Some c /\ c <> 0 /\ c < 400) (ce_answers env)).
Proof.
  intros Hw Hin H. apply (run_http u) in H; try assumption. unfold http_connect in H.
  destruct (h_port (ce_http env)) as [port|]; cbn [obind] in H; [|subst r; split; [discriminate|intros [K _]; now destruct K]].
  destruct (h_conn (ce_http env)); cbn [negb] in H; [|subst r; split; [discriminate|intros (_ & K & _); discriminate]].
  destruct (h_name (ce_http env)) as [n|]; cbn [obind] in H; [|subst r; split; [discriminate|intros (_ & _ & K & _); now destruct K]].
  destruct H as (o & text & _ & ->). cbn [cr_exit]. rewrite replies_ok. split; [intros [_ K]|intros (_ & _ & _ & K)]; repeat split; easy || assumption.
Qed.
End run.
