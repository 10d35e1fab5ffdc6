(** The last output option decides; nothing but text reaches the terminal. *)
From Verif Require Import Base Tlv Types Checks Msg Protos Wire Util Parent Child Cli Post Spec SpecAdv SpecRound SpecNet SpecChild SpecCli SpecPost
  Lemmas WireProofs ChildProofs2 CliProofs1 CliProofs2 CliProofs3 CliProofs4 CliProofs5 CliProofs7 PostProofs1 PostProofs2 PostProofs3.

(** ** The last output option *)
Definition keep (o : Z * list Z) : bool := negb (existsb (Z.eqb (fst o)) (bs "bdfp")).
Lemma inl_app x a b : inl x (a ++ b) = inl x a || inl x b.
Proof. apply existsb_app. Qed.
Lemma inl_keep x a : existsb (Z.eqb x) (bs "bdfp") = false -> inl x (letters (filter keep a)) = inl x (letters a).
Proof.
  intros Hx. induction a as [|[ch arg] a IH]; [reflexivity|]. cbn [filter]. destruct (keep (ch, arg)) eqn:E; cbn [letters map fst inl existsb].
  - fold (letters a) (letters (filter keep a)). fold (inl x (letters a)) (inl x (letters (filter keep a))). now rewrite IH.
  - fold (letters a). fold (inl x (letters a)). unfold keep in E. cbn [fst] in E. apply negb_false_iff in E.
    destruct (Z.eqb_spec x ch) as [->|N]; [congruence|]. exact IH.
Qed.
Lemma in_keep x a : In x (letters (filter keep a)) -> In x (letters a).
Proof. unfold letters. intros H. apply in_map_iff in H as (o & <- & H). apply filter_In in H as [H _]. now apply in_map. Qed.
Lemma no_p a : ~ In 112 (letters (filter keep a)).
Proof. unfold letters. intros H. apply in_map_iff in H as ([c arg] & E & H). cbn in E. subst c. apply filter_In in H as [_ H]. discriminate. Qed.
Section last.
Variables (a b : list (Z * list Z)) (x : Z) (arg : list Z) (names : list (list Z)) (env : client_env) (reads : list (list Z)).
Hypotheses (Hx : In x (bs "bdfp")) (Hb : forall y, In y (letters b) -> ~ In y (bs "bdfp")).
Let ol := a ++ (x, arg) :: b.
Let ol' := filter keep a ++ (x, arg) :: b.
Hypothesis Hu : usable (letters ol) names (ce_ifindex env).
Lemma letters_app u v : letters (u ++ v) = letters u ++ letters v.
Proof. apply map_app. Qed.
Lemma usable' : usable (letters ol') names (ce_ifindex env).
Proof.
  destruct Hu as (H1 & H2 & H3). unfold ol, ol' in *. rewrite letters_app in *. cbn [letters map fst] in *. fold (letters b) in *.
  split; [|split; [|exact H3]].
  - intros y Hy. apply H1. apply in_app_iff in Hy as [Hy|Hy]; apply in_app_iff; [left; now apply in_keep|now right].
  - intros u v. destruct (in_dec Z.eq_dec 112 v) as [K|K]; [|now right]. left. intros E.
    assert (Hv : In 112 (letters b)).
    { pose proof (no_p a) as Np. revert u E. induction (letters (filter keep a)) as [|c l IH]; intros u E; cbn [app] in E.
      - destruct u as [|c u]; cbn [app] in E; injection E as E1 E2; [now rewrite E2|]. rewrite E2. apply in_app_iff. right. now left.
      - destruct u as [|c' u]; cbn [app] in E; injection E as E1 E2; [subst c; destruct Np; now left|].
        apply (IH ltac:(intros Q; apply Np; now right) u E2). }
    apply Hb in Hv. apply Hv. cbn. tauto.
Qed.
Lemma way' l : way (letters (l ++ (x, arg) :: b)) x.
Proof. left. exists (letters l), (letters b). rewrite letters_app. repeat split; assumption. Qed.
Lemma conf' : conf_of (letters ol') = conf_of (letters ol).
Proof.
  assert (I : forall y, existsb (Z.eqb y) (bs "bdfp") = false -> inl y (letters ol') = inl y (letters ol)).
  { intros y Hy. unfold ol, ol'. rewrite !letters_app, !inl_app. now rewrite inl_keep. }
  pose proof (way_mode _ _ (way' a)) as M1. pose proof (way_mode _ _ (way' (filter keep a))) as M2.
  fold ol in M1. fold ol' in M2. unfold conf_of in *. cbn [cl_mode] in *. rewrite M1, M2, !I by reflexivity. reflexivity.
Qed.
Theorem last_wins : cli_run ol names env reads = cli_run ol' names env reads.
Proof.
  destruct (args_some ol names env Hu) as (c0 & t & E & Ec). destruct (args_some ol' names env usable') as (c1 & t1 & E1 & Ec1).
  unfold cli_run. rewrite E, E1, Ec, Ec1, conf'.
  assert (T : x = 112 -> t = t1).
  { intros Ex. apply (args_target ol arg) in E; [|apply in_app_iff; right; left; now rewrite Ex|apply Hu].
    apply (args_target ol' arg) in E1; [|apply in_app_iff; right; left; now rewrite Ex|apply usable']. congruence. }
  pose proof (way_mode _ _ (way' a)) as M. fold ol in M. rewrite M.
  destruct (cli_indexes _ _); [|reflexivity]. destruct (mode_of x =? MODE_DEBUG); [reflexivity|].
  destruct (mode_of x =? MODE_HTTP) eqn:Eh; [|reflexivity]. rewrite T; [reflexivity|].
  cbn in Hx. destruct Hx as [<-|[<-|[<-|[<-|[]]]]]; try discriminate Eh. reflexivity.
Qed.
End last.

(** ** Text only *)
Lemma text_app a b : texty a -> texty b -> texty (a ++ b).
Proof. intros. now apply Forall_app. Qed.
Lemma text_firstn n a : texty a -> texty (firstn n a).
Proof. revert a. induction n as [|n IH]; intros [|x a] H; try constructor; apply Forall_cons_iff in H as [H1 H2]; [exact H1|now apply IH]. Qed.
Lemma text_skipn n a : texty a -> texty (skipn n a).
Proof. revert a. induction n as [|n IH]; intros [|x a] H; try constructor; [exact (proj1 (proj1 (Forall_cons_iff _ _ _) H))|exact (proj2 (proj1 (Forall_cons_iff _ _ _) H))|apply IH; exact (proj2 (proj1 (Forall_cons_iff _ _ _) H))]. Qed.
Lemma text_dot a : texty a -> texty (upto_dot a).
Proof. induction a as [|x a IH]; intros H; cbn [upto_dot]; [constructor|]. apply Forall_cons_iff in H as [H1 H2]. destruct (x =? 46); constructor; auto. now apply IH. Qed.
Lemma text_abbr a : texty a -> texty (portname_abbr a).
Proof. intros H. unfold portname_abbr. repeat destruct (prefix _ _); try assumption; apply text_app; now (apply text_firstn || apply text_skipn). Qed.
Lemma text_padr w a : texty a -> texty (padr w a).
Proof. intros H. apply text_app; [exact H|]. apply Forall_forall. intros y Hy. apply repeat_spec in Hy. subst y. left. lia. Qed.
Lemma text_column w a : texty a -> texty (column w a).
Proof. intros H. now apply text_padr, text_firstn. Qed.
Lemma text_check l : forallb (fun x => ((32 <=? x) && (x <=? 126)) || existsb (Z.eqb x) [7; 8; 9; 10; 13]) l = true -> texty l.
Proof.
  intros H. rewrite forallb_forall in H. apply Forall_forall. intros x Hx. apply H in Hx. apply orb_true_iff in Hx as [Hx|Hx]; [left; lia|right].
  apply existsb_exists in Hx as (y & Hy & E). apply Z.eqb_eq in E. now subst y.
Qed.
Lemma text_dec n : texty (dec n).
Proof.
  apply Forall_forall. intros b Hb. apply dec_name in Hb. left. revert Hb. unfold name_char. lia.
Qed.
Lemma text_attr p i : clean p -> texty (str (nth i p None)).
Proof. intros H. destruct (nth i p None) eqn:E; [exact (proj1 (H i _ E))|constructor]. Qed.
Lemma text_proto p : texty (proto_name p).
Proof.
  unfold proto_name. generalize (Z.to_nat p). intros n.
  do 6 (destruct n as [|n]; [now apply text_check|]). destruct n; constructor.
Qed.
Lemma text_cli ws m : harmless texty m -> texty (cli_write ws m).
Proof.
  intros (Hn & Hc & _). unfold cli_write. destruct (cli_widths ws) as [[tw hw] pw]. cbv zeta.
  assert (A : forall i v, pget (sh_peer m) i = Some v -> texty v) by (intros i v E; exact (proj1 (Hc (Z.to_nat i) v E))).
  assert (P : texty (match pget (sh_peer m) PEER_PORTNAME with Some s => portname_abbr s
    | None => match pget (sh_peer m) PEER_PORTDESCR with Some s => portname_abbr s | None => [] end end)).
  { destruct (pget _ PEER_PORTNAME) eqn:E1; [apply text_abbr; now apply (A _ _ E1)|].
    destruct (pget _ PEER_PORTDESCR) eqn:E2; [apply text_abbr; now apply (A _ _ E2)|constructor]. }
  repeat match goal with |- texty (column _ _) => apply text_column | |- texty (padr _ _) => apply text_padr | |- texty (_ ++ _) => apply text_app end;
    try (now apply text_check); try assumption; try apply text_proto; try apply text_dec.
  - destruct (pget _ PEER_HOSTNAME) eqn:E1; [|constructor]. apply A in E1. destruct (_ <? _); [now apply text_dot|assumption].
  - now apply text_attr.
  - destruct (0 <? tw); [now apply text_column|exact P].
Qed.
Lemma text_line name n v : texty name -> texty v -> texty (batch_line name n v).
Proof. intros. unfold batch_line. repeat apply text_app; try assumption; try apply text_dec; now apply text_check. Qed.
Lemma text_swap v : texty v -> texty (swap v).
Proof. intros H. unfold texty, swap. rewrite Forall_map. revert H. apply Forall_impl. intros y Hy. destruct (y =? 39); [left; lia|exact Hy]. Qed.
Lemma text_batch n m : harmless texty m -> texty (batch_write n m).
Proof.
  intros (Hn & Hc & _). unfold batch_write. cbv zeta.
  repeat match goal with |- texty (_ ++ _) => apply text_app | |- texty (batch_line _ _ _) => apply text_line end; try (now apply text_check);
    try apply text_swap; try assumption; try apply text_proto; try apply text_dec; now apply text_attr.
Qed.
Lemma text_header ws : texty (cli_header ws).
Proof.
  unfold cli_header. destruct (cli_widths ws) as [[tw hw] pw].
  repeat match goal with |- texty (padr _ _) => apply text_padr | |- texty (_ ++ _) => apply text_app end; now apply text_check.
Qed.
Lemma text_render mode ws ms : forall n, Forall (harmless texty) ms -> texty (cli_render mode ws n (map OShow ms)).
Proof.
  induction ms as [|m ms IH]; intros n H; cbn [map cli_render]; [constructor|]. apply Forall_cons_iff in H as [H1 H2].
  apply text_app; [|now apply IH]. destruct (mode =? MODE_CLI); [now apply text_cli|]. destruct (mode =? MODE_BATCH); [now apply text_batch|constructor].
Qed.
Theorem text_only ls names ifindex now ws reads o text : usable ls names ifindex -> (exists m, way ls m /\ m <> 102) ->
  Forall bytes reads -> (forall m, In m reads -> texty (pm_name m)) ->
  cli_main ls names ifindex now ws reads = Some (DOk (o, text)) ->
  texty text.
Proof.
  intros Hu (w & Hw & Nw) Hb Hn H. unfold cli_main in H. rewrite (conf_some ls names _ Hu) in H. cbn [obind] in H.
  rewrite indexes_some in H by apply Hu. cbn [obind] in H. injection H as H. apply dbind_ok in H as (o' & E & H). injection H as <- <-.
  apply (loop_harmless texty) in E as (ms & -> & _ & Hs); try assumption.
  - apply text_app; [destruct (_ =? MODE_CLI); [apply text_header|constructor]|now apply text_render].
  - rewrite (way_mode _ _ Hw). unfold mode_of. apply way_letter in Hw as [->|[_ K]]; [discriminate|].
    destruct K as [->|[->|[->| ->]]]; easy.
  - apply no_peers_clean.
Qed.
Lemma plain_text l : plain l <-> texty l.
Proof. symmetry. apply Forall_forall. Qed.
Lemma plain_only ls names ifindex now ws reads o text : usable ls names ifindex -> (exists m, way ls m /\ m <> 102) ->
  Forall bytes reads -> (forall m, In m reads -> plain (pm_name m)) ->
  cli_main ls names ifindex now ws reads = Some (DOk (o, text)) ->
  plain text.
Proof.
  intros Hu Hw Hb Hn H. apply plain_text. refine (text_only ls names ifindex now ws reads o text Hu Hw Hb _ H).
  intros m Hm. now apply plain_text, Hn.
Qed.
