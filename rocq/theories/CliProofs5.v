(** What the client shows of the daemon's table. *)
From Verif Require Import Base Tlv Types Msg Protos Wire Util Child Cli Spec SpecAdv SpecRound SpecNet SpecChild SpecCli Lemmas.
From Verif Require Import WireProofs ChildProofs2 CliProofs3 CliProofs4.

Definition pick {A} (once : bool) (l : list A) : list A := if once then firstn 1 l else l.
Section loop.
Variables (c : cconf) (idx : list Z) (now : Z).
Hypotheses (Hmode : cl_mode c <> 1) (Hnow : 0 <= now < 9223372036854775808).
Lemma genuine_len e : genuine e -> zlen (entry_bytes e) = 1558.
Proof. intros (f & attrs & Hb & Hl & Hm & Hq & Hi & Hp & Hn & Hr & _). now apply (entry_len e f). Qed.
Lemma loop_stale es : Forall genuine es -> (forall e, In e es -> wants c idx e = true -> fresh now e = false) ->
  forall p, length p = 8%nat -> cli_loop c idx now p (map entry_bytes es) = DOk [].
Proof.
  induction 1 as [|e es Hg Hgs IH]; intros Hs p Hp; cbn [map cli_loop]; [reflexivity|].
  rewrite genuine_len by assumption. change (negb (1558 =? PARENT_MSG_MAX)) with false. cbn [Z.eqb negb].
  assert (IH' := IH (fun e' H => Hs e' (or_intror H))).
  destruct (wants c idx e) eqn:W.
  - destruct (step_stale c idx now Hmode Hnow e p Hg W (Hs e (or_introl eq_refl) W) Hp) as (p' & Hp' & ->).
    cbn [dbind andb app]. now rewrite IH'.
  - rewrite step_unwanted by assumption. cbn [dbind andb app]. now rewrite IH'.
Qed.
Lemma undisturbed_tail w g e es : undisturbed w g (e :: es) -> undisturbed w g es.
Proof. intros H pre a mid b post E. apply (H (e :: pre) a mid b post). now rewrite E. Qed.
Lemma undisturbed_head w g e es : undisturbed w g (e :: es) -> w e = true -> g e = false ->
  forall b, In b es -> w b = true -> g b = false.
Proof. intros H Hw Hg b Hb Hwb. apply in_split in Hb as (mid & post & ->). now apply (H [] e mid b post). Qed.
Lemma loop_all es : Forall genuine es -> (forall e, In e es -> q_received e <= now) ->
  undisturbed (wants c idx) (fresh now) es ->
  cli_loop c idx now no_peers (map entry_bytes es)
  = DOk (map OShow (pick (cl_once c) (map (display now) (filter (fun e => wants c idx e && fresh now e) es)))).
Proof.
  induction 1 as [|e es Hg Hgs IH]; intros Hr Hu; cbn [map cli_loop filter].
  - now destruct (cl_once c).
  - rewrite genuine_len by assumption. change (negb (1558 =? PARENT_MSG_MAX)) with false. cbv iota.
    destruct (wants c idx e) eqn:W; cbn [andb].
    + destruct (fresh now e) eqn:F.
      * rewrite step_fresh by (try assumption; apply Hr; now left). cbn [dbind andb].
        destruct (cl_once c) eqn:O; [reflexivity|]. rewrite IH; [reflexivity| |now apply undisturbed_tail in Hu].
        intros e' He. apply Hr. now right.
      * destruct (step_stale c idx now Hmode Hnow e no_peers Hg W F eq_refl) as (p' & Hp' & ->).
        assert (St : forall b, In b es -> wants c idx b = true -> fresh now b = false)
          by now apply undisturbed_head with (1 := Hu).
        cbn [dbind andb app]. rewrite loop_stale by assumption. cbn [dbind].
        replace (filter _ es) with (@nil entry); [now destruct (cl_once c)|].
        clear - St. induction es as [|b es IH]; [reflexivity|]. cbn [filter].
        destruct (wants c idx b) eqn:Wb; [rewrite (St b (or_introl eq_refl) Wb)|]; cbn [andb];
          apply IH; intros b' Hb'; apply St; now right.
    + rewrite step_unwanted by assumption. cbn [dbind andb app]. rewrite IH; [reflexivity| |now apply undisturbed_tail in Hu].
      intros e' He. apply Hr. now right.
Qed.
End loop.

(** ** The command line *)
Definition mask (b0 b1 b2 b3 b4 : bool) : Z :=
  Z.b2z b0 + 2 * Z.b2z b1 + 4 * Z.b2z b2 + 8 * Z.b2z b3 + 16 * Z.b2z b4.
Definition inl (x : Z) (l : list Z) : bool := existsb (Z.eqb x) l.
Definition mode_opt (ch m : Z) : Z :=
  if ch =? 98 then 2 else if ch =? 100 then 3 else if ch =? 102 then 1 else if ch =? 112 then 4 else m.
Lemma opt_some c h ch : In ch (bs "LCEFNbdfpov") -> (ch = 112 -> h = false) ->
  forall b0 b1 b2 b3 b4, cl_proto c = mask b0 b1 b2 b3 b4 ->
  cli_opt c h ch = Some (mkCli (mask (b0 || (76 =? ch)) (b1 || (67 =? ch)) (b2 || (69 =? ch)) (b3 || (70 =? ch)) (b4 || (78 =? ch)))
                               (mode_opt ch (cl_mode c)) (cl_once c || (111 =? ch)), h || (112 =? ch)).
Proof.
  intros Hin Hh b0 b1 b2 b3 b4 Hm. destruct c as [pr mo on]. cbn [cl_proto cl_mode cl_once] in *. subst pr.
  cbn in Hin. repeat destruct Hin as [<-|Hin]; try contradiction; cbn [Z.eqb Pos.eqb] in *;
    try (rewrite (Hh eq_refl)); rewrite ?orb_false_r, ?orb_true_r;
    unfold cli_opt, mode_opt; cbn [Z.eqb Pos.eqb cl_proto cl_mode cl_once]; try reflexivity;
    destruct b0, b1, b2, b3, b4; reflexivity.
Qed.
Lemma opts_some letters : forall c h, (forall x, In x letters -> In x (bs "LCEFNbdfpov")) ->
  (h = true -> ~ In 112 letters) -> (forall a b, letters <> a ++ 112 :: b \/ ~ In 112 b) ->
  forall b0 b1 b2 b3 b4, cl_proto c = mask b0 b1 b2 b3 b4 ->
  cli_opts c h letters = Some (mkCli (mask (b0 || inl 76 letters) (b1 || inl 67 letters) (b2 || inl 69 letters)
                                           (b3 || inl 70 letters) (b4 || inl 78 letters))
                                     (fold_left (fun m ch => mode_opt ch m) letters (cl_mode c)) (cl_once c || inl 111 letters)).
Proof.
  induction letters as [|ch letters IH]; intros c h Hin Hh H2 b0 b1 b2 b3 b4 Hm; cbn [cli_opts fold_left].
  - unfold inl. cbn [existsb]. rewrite !orb_false_r. destruct c. cbn in *. now subst.
  - assert (Hh' : ch = 112 -> h = false).
    { intros ->. destruct h; [|reflexivity]. exfalso. apply Hh; [reflexivity|now left]. }
    rewrite (opt_some c h ch (Hin ch (or_introl eq_refl)) Hh' _ _ _ _ _ Hm).
    cbn [obind]. erewrite IH; [| | | |cbn [cl_proto]; reflexivity].
    + cbn [cl_mode cl_once]. unfold inl. cbn [existsb]. now rewrite <- !orb_assoc, !(Z.eqb_sym _ ch).
    + intros x Hx. apply Hin. now right.
    + intros K Hx. apply orb_true_iff in K as [K|K]; [apply (Hh K); now right|].
      apply Z.eqb_eq in K. subst ch. destruct (H2 [] letters) as [E|E]; [now apply E|contradiction].
    + intros a b. destruct (H2 (ch :: a) b) as [E|E]; [left|now right]. intros ->. now apply E.
Qed.
Lemma mode_no_print letters : ~ In 102 letters -> forall m, m <> 1 -> fold_left (fun m ch => mode_opt ch m) letters m <> 1.
Proof.
  induction letters as [|ch letters IH]; intros H m Hm; cbn [fold_left]; [assumption|]. apply IH.
  - intros K. apply H. now right.
  - unfold mode_opt. destruct (Z.eqb_spec ch 102); [destruct H; now left|]. repeat destruct (_ =? _); lia.
Qed.
Lemma indexes_some ifindex names : (forall n, In n names -> ifindex n <> 0) -> cli_indexes ifindex names = Some (map ifindex names).
Proof.
  induction names as [|n names IH]; intros H; cbn [cli_indexes map]; [reflexivity|].
  destruct (Z.eqb_spec (ifindex n) 0) as [E|E]; [now destruct (H n (or_introl eq_refl))|].
  rewrite IH; [reflexivity|]. intros x Hx. apply H. now right.
Qed.

(** The options of a usable command line. *)
Definition conf_of (letters : list Z) : cconf :=
  let m := mask (inl 76 letters) (inl 67 letters) (inl 69 letters) (inl 70 letters) (inl 78 letters) in
  mkCli (if m =? 0 then 255 else m) (fold_left (fun m ch => mode_opt ch m) letters 0) (inl 111 letters).
Lemma conf_some letters names ifindex : usable letters names ifindex -> cli_conf letters = Some (conf_of letters).
Proof.
  intros (H1 & H2 & _). unfold cli_conf.
  rewrite (opts_some letters (mkCli 0 MODE_CLI false) false H1 ltac:(discriminate) H2 false false false false false eq_refl).
  cbn [obind cl_proto cl_mode cl_once orb]. unfold conf_of. now destruct (_ =? 0).
Qed.
Lemma conf_asked letters p : 0 <= p < 6 -> ~ (inl 67 letters = true /\ p = 5) ->
  has (cl_proto (conf_of letters)) (Z.shiftl 1 p) = asked letters p.
Proof.
  intros Hp Hc. unfold conf_of, asked. cbn [cl_proto existsb letter].
  change (existsb (Z.eqb 76) letters) with (inl 76 letters). change (existsb (Z.eqb 67) letters) with (inl 67 letters).
  change (existsb (Z.eqb 69) letters) with (inl 69 letters). change (existsb (Z.eqb 70) letters) with (inl 70 letters).
  change (existsb (Z.eqb 78) letters) with (inl 78 letters). change (existsb (Z.eqb (letter p)) letters) with (inl (letter p) letters).
  assert (C : p = 0 \/ p = 1 \/ p = 2 \/ p = 3 \/ p = 4 \/ p = 5) by lia.
  destruct C as [->|[->|[->|[->|[->| ->]]]]]; cbn [letter];
    destruct (inl 76 letters), (inl 67 letters), (inl 69 letters), (inl 70 letters), (inl 78 letters); try reflexivity;
    exfalso; now apply Hc.
Qed.
(** The entries selected: CDP version 1 is not by -C. *)
Definition selects (letters : list Z) (names : list (list Z)) (ifindex : list Z -> Z) (e : entry) : bool :=
  asked letters (q_proto e) && asked_if names ifindex (q_index e) && negb (inl 67 letters && (q_proto e =? 5)).
Lemma conf_five letters : inl 67 letters = true -> has (cl_proto (conf_of letters)) (Z.shiftl 1 5) = false.
Proof.
  intros H. unfold conf_of. cbn [cl_proto]. rewrite H.
  destruct (inl 76 letters), (inl 69 letters), (inl 70 letters), (inl 78 letters); reflexivity.
Qed.
Lemma conf_wants letters names ifindex e : 0 <= q_proto e < 6 ->
  wants (conf_of letters) (map ifindex names) e = selects letters names ifindex e.
Proof.
  intros Hp. unfold wants, selects.
  replace ((zlen (map ifindex names) =? 0) || existsb (fun i => i =? q_index e) (map ifindex names))
    with (asked_if names ifindex (q_index e)).
  2: { destruct names as [|n names]; [reflexivity|]. unfold asked_if.
       replace (zlen _ =? 0) with false by (unfold zlen; cbn [map length]; lia). cbn [orb].
       generalize (n :: names). clear. intros l0. induction l0 as [|x l IH]; [reflexivity|]. cbn [map existsb]. now rewrite IH. }
  destruct (inl 67 letters) eqn:E; [destruct (Z.eqb_spec (q_proto e) 5) as [E5|E5]|]; cbn [andb negb].
  - rewrite E5, conf_five by assumption. cbn [andb]. now rewrite andb_false_r.
  - rewrite conf_asked, andb_true_r; [reflexivity|assumption|]. now intros [_ K].
  - rewrite conf_asked, andb_true_r; [reflexivity|assumption|]. intros [K _]. congruence.
Qed.

(** ** All together *)
Lemma filter_ext_in' A (f g : A -> bool) l : (forall x, In x l -> f x = g x) -> filter f l = filter g l.
Proof.
  induction l as [|x l IH]; intros H; cbn [filter]; [reflexivity|]. rewrite (H x (or_introl eq_refl)), IH; [reflexivity|].
  intros y Hy. apply H. now right.
Qed.
Lemma undisturbed_ext w w' g es : (forall e, In e es -> w e = w' e) -> undisturbed w g es -> undisturbed w' g es.
Proof.
  intros H Hu pre a mid b post E Ha Hg Hb. apply (Hu pre a mid b post E); [rewrite H| |rewrite H]; try assumption;
    subst es; rewrite ?in_app_iff; cbn [In]; rewrite ?in_app_iff; cbn [In]; tauto.
Qed.
Lemma genuine_proto e : genuine e -> 0 <= q_proto e < 6.
Proof. now intros (f & attrs & Hb & Hl & Hm & Hq & Hi & Hp & _). Qed.
Lemma inl_in x l : inl x l = true <-> In x l.
Proof.
  unfold inl. rewrite existsb_exists. split.
  - intros (y & Hy & E). apply Z.eqb_eq in E. now subst.
  - intros H. exists x. split; [assumption|apply Z.eqb_refl].
Qed.
Theorem client_selects letters names ifindex now ws es :
  usable letters names ifindex -> ~ In 102 letters -> 0 <= now < 9223372036854775808 ->
  Forall genuine es -> (forall e, In e es -> q_received e <= now) ->
  undisturbed (selects letters names ifindex) (fresh now) es ->
  let all := map (display now) (filter (fun e => selects letters names ifindex e && fresh now e) es) in
  exists text, cli_main letters names ifindex now ws (map entry_bytes es)
    = Some (DOk (map OShow (if inl 111 letters then firstn 1 all else all), text)).
Proof.
  intros Hu Hf Hnow Hg Hr Hd all. unfold cli_main.
  rewrite (conf_some letters names ifindex Hu). cbn [obind].
  rewrite indexes_some by apply Hu. cbn [obind].
  assert (W : forall e, In e es -> wants (conf_of letters) (map ifindex names) e = selects letters names ifindex e).
  { intros e He. rewrite Forall_forall in Hg. apply conf_wants. now apply genuine_proto, Hg. }
  rewrite loop_all; try assumption.
  - cbn [dbind]. eexists. do 4 f_equal. unfold pick, conf_of. cbn [cl_once]. unfold all.
    rewrite (filter_ext_in' _ _ (fun e => selects letters names ifindex e && fresh now e) es);
      [reflexivity|]. intros e He. now rewrite W.
  - unfold conf_of. cbn [cl_mode]. now apply mode_no_print.
  - eapply undisturbed_ext; [|exact Hd]. intros e He. cbv beta. symmetry. now apply W.
Qed.
Theorem client_shows letters names ifindex now ws es :
  usable letters names ifindex -> ~ In 102 letters -> 0 <= now < 9223372036854775808 ->
  Forall genuine es -> (forall e, In e es -> q_received e <= now) ->
  (forall e, In e es -> q_proto e = 5 -> ~ In 67 letters) ->
  undisturbed (fun e => asked letters (q_proto e) && asked_if names ifindex (q_index e)) (fresh now) es ->
  let all := map (display now)
    (filter (fun e => asked letters (q_proto e) && asked_if names ifindex (q_index e) && fresh now e) es) in
  exists text, cli_main letters names ifindex now ws (map entry_bytes es)
    = Some (DOk (map OShow (if existsb (Z.eqb 111) letters then firstn 1 all else all), text)).
Proof.
  intros Hu Hf Hnow Hg Hr Hc Hd all.
  assert (W : forall e, In e es -> asked letters (q_proto e) && asked_if names ifindex (q_index e) = selects letters names ifindex e).
  { intros e He. unfold selects. replace (negb _) with true; [now rewrite andb_true_r|].
    destruct (inl 67 letters) eqn:E; [|reflexivity]. apply inl_in in E. destruct (Z.eqb_spec (q_proto e) 5) as [K|K]; [|reflexivity].
    now destruct (Hc e He K). }
  destruct (client_selects letters names ifindex now ws es) as (text & E); try assumption.
  - eapply undisturbed_ext; [|exact Hd]. intros e He. cbv beta. now apply W.
  - exists text. rewrite E. unfold all.
    rewrite (filter_ext_in' _ (fun e => selects letters names ifindex e && fresh now e)
      (fun e => asked letters (q_proto e) && asked_if names ifindex (q_index e) && fresh now e) es); [reflexivity|].
    intros e He. now rewrite W.
Qed.
(** Each message on its own. *)
Lemma undisturbed_one w g e : undisturbed w g [e].
Proof.
  intros pre a mid b post E. exfalso. apply (f_equal (@length entry)) in E.
  rewrite app_length in E. cbn in E. rewrite app_length in E. cbn in E. lia.
Qed.
Theorem client_apart letters names ifindex now ws es :
  usable letters names ifindex -> ~ In 102 letters -> ~ In 111 letters -> 0 <= now < 9223372036854775808 ->
  Forall genuine es -> (forall e, In e es -> q_received e <= now) ->
  undisturbed (fun e => asked letters (q_proto e) && asked_if names ifindex (q_index e)
    && negb (existsb (Z.eqb 67) letters && (q_proto e =? 5))) (fresh now) es ->
  exists text each,
  cli_main letters names ifindex now ws (map entry_bytes es) = Some (DOk (concat each, text))
  /\ Forall2 (fun e o => exists t, cli_main letters names ifindex now ws [entry_bytes e] = Some (DOk (o, t))) es each.
Proof.
  intros Hu Hf Ho Hnow Hg Hr Hd.
  destruct (client_selects letters names ifindex now ws es Hu Hf Hnow Hg Hr Hd) as (text & E).
  replace (inl 111 letters) with false in E
    by (destruct (inl 111 letters) eqn:K; [now apply inl_in in K|reflexivity]).
  exists text, (map (fun e => map OShow (map (display now) (filter (fun e => selects letters names ifindex e && fresh now e) [e]))) es).
  split.
  - rewrite E. do 3 f_equal. clear. induction es as [|e es IH]; [reflexivity|].
    cbn [map concat]. rewrite <- IH. cbn [filter]. now destruct (_ && _).
  - clear E Hd. induction es as [|e es IH]; cbn [map]; [constructor|]. inversion Hg as [|? ? G1 G2]; subst. constructor.
    + destruct (client_selects letters names ifindex now ws [e] Hu Hf Hnow) as (t & E); [now repeat constructor| |apply undisturbed_one|].
      * intros x [<-|[]]. apply Hr. now left.
      * replace (inl 111 letters) with false in E
          by (destruct (inl 111 letters) eqn:K; [now apply inl_in in K|reflexivity]).
        exists t. exact E.
    + apply IH; [assumption|]. intros x Hx. apply Hr. now right.
Qed.

Theorem client_cdp ifindex now ws es :
  0 <= now < 9223372036854775808 ->
  Forall genuine es -> (forall e, In e es -> q_received e <= now) ->
  undisturbed (fun e => q_proto e =? 1) (fresh now) es ->
  exists text, cli_main [67] [] ifindex now ws (map entry_bytes es)
    = Some (DOk (map OShow (map (display now) (filter (fun e => (q_proto e =? 1) && fresh now e) es)), text)).
Proof.
  intros Hnow Hg Hr Hd.
  assert (W : forall e, In e es -> selects [67] [] ifindex e = (q_proto e =? 1)).
  { intros e He. rewrite Forall_forall in Hg. apply Hg in He. destruct He as (f & attrs & _ & _ & _ & _ & _ & Hp & _).
    unfold selects. assert (K : q_proto e = 0 \/ q_proto e = 1 \/ q_proto e = 2 \/ q_proto e = 3 \/ q_proto e = 4 \/ q_proto e = 5) by lia.
    destruct K as [K|[K|[K|[K|[K|K]]]]]; rewrite K; reflexivity. }
  destruct (client_selects [67] [] ifindex now ws es) as (text & E); try assumption.
  - split; [|split].
    + intros x [<-|[]]. cbn. tauto.
    + intros a b. left. destruct a as [|? [|? ?]]; discriminate.
    + intros n [].
  - intros [K|[]]. discriminate K.
  - eapply undisturbed_ext; [|exact Hd]. intros e He. cbv beta. now rewrite W.
  - exists text. rewrite E. cbn [existsb inl Z.eqb Pos.eqb orb].
    rewrite (filter_ext_in' _ (fun e => selects [67] [] ifindex e && fresh now e)
      (fun e => (q_proto e =? 1) && fresh now e) es); [reflexivity|].
    intros e He. now rewrite W.
Qed.
