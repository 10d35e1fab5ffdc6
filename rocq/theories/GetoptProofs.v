(** Proofs of C141. *)
From Verif Require Import Base Types Opts Cli Post Getopt SpecGetopt Lemmas.

Section getopt.
Variables (perm : bool) (spec : list Z) (L : letters).
Hypothesis T0 : forall c, takes spec c = Some false <-> In c (alone L).
Hypothesis T1 : forall c, takes spec c = Some true <-> In c (valued L).
Hypothesis T2 : takes spec 45 = None.
Lemma word_app fl l : incl fl (alone L) -> word_opts spec (fl ++ l) = (bare fl ++ fst (word_opts spec l), snd (word_opts spec l)).
Proof.
  induction fl as [|c fl IH]; intros A; cbn [app bare map word_opts]; [now destruct (word_opts spec l)|].
  rewrite (proj2 (T0 c)) by (apply A; now left). rewrite IH by (intros x X; apply A; now right). reflexivity.
Qed.
Lemma not_end fl r : incl fl (alone L) -> (fl <> [] \/ exists c r', r = c :: r' /\ In c (valued L)) -> beq (45 :: fl ++ r) (bs "--") = false.
Proof.
  intros A N. destruct (beq _ _) eqn:B; [|reflexivity]. apply beq_true in B. exfalso. change (bs "--") with [45; 45] in B.
  destruct fl as [|x fl]; cbn [app] in B.
  - destruct N as [N|(c & r' & -> & V)]; [now apply N|]. injection B as -> _. apply T1 in V. congruence.
  - injection B as -> _. assert (K : In 45 (alone L)) by (apply A; now left). apply T0 in K. congruence.
Qed.
Lemma says_getopt ws o names : says perm L ws o names -> getopt perm spec ws = (o, names).
Proof.
  induction 1 as [|names|fl ws o names N A _ IH|fl c a ws o names A V N _ IH|fl c a ws o names A V _ IH|w ws o names P N _ IH|w ws P N]; cbn [getopt].
  - reflexivity.
  - reflexivity.
  - pose proof (not_end fl [] A (or_introl N)) as B. rewrite app_nil_r in B. rewrite B. destruct fl as [|x fl]; [congruence|]. change (45 =? 45) with true. cbn iota.
    rewrite <- (app_nil_r (x :: fl)), word_app by assumption. cbn [word_opts fst snd]. rewrite !app_nil_r, IH. reflexivity.
  - rewrite (not_end fl (c :: a) A) by (right; eauto). 
    assert (E : word_opts spec (fl ++ c :: a) = (bare fl ++ [(c, a)], None)).
    { rewrite word_app by assumption. cbn [word_opts]. rewrite (proj2 (T1 c) V). destruct a; [congruence|]. reflexivity. }
    rewrite E, IH. change (45 =? 45) with true. rewrite <- app_assoc. destruct fl; reflexivity.
  - rewrite (not_end fl [c] A) by (right; eauto).
    assert (E : word_opts spec (fl ++ [c]) = (bare fl, Some c)).
    { rewrite word_app by assumption. cbn [word_opts]. rewrite (proj2 (T1 c) V). cbn [fst snd]. now rewrite app_nil_r. }
    rewrite E, IH. change (45 =? 45) with true. destruct fl; reflexivity.
  - destruct (beq w (bs "--")) eqn:B; [apply beq_true in B; subst w; exfalso; apply N; now exists 45, []|]. rewrite IH, P.
    destruct w as [|d [|x l]]; try reflexivity. destruct (d =? 45) eqn:D; [|reflexivity]. apply Z.eqb_eq in D. subst d. exfalso. apply N. now exists x, l.
  - destruct (beq w (bs "--")) eqn:B; [apply beq_true in B; subst w; exfalso; apply N; now exists 45, []|]. rewrite P.
    destruct w as [|d [|x l]]; try reflexivity. destruct (d =? 45) eqn:D; [|reflexivity]. apply Z.eqb_eq in D. subst d. exfalso. apply N. now exists x, l.
Qed.
(** The shape of a word without letters that are no options. *)
Lemma word_shape : forall l, ~ In 63 (map fst (fst (word_opts spec l))) ->
  exists fl, incl fl (alone L) /\
  ((l = fl /\ word_opts spec l = (bare fl, None))
   \/ (exists c a, l = fl ++ c :: a /\ In c (valued L) /\ a <> [] /\ word_opts spec l = (bare fl ++ [(c, a)], None))
   \/ (exists c, l = fl ++ [c] /\ In c (valued L) /\ word_opts spec l = (bare fl, Some c))).
Proof.
  induction l as [|c l IH]; intros N; [exists []; split; [easy|now left]|]. cbn [word_opts] in *. destruct (takes spec c) as [[|]|] eqn:T.
  - apply T1 in T. exists []. split; [easy|]. right. destruct l as [|x l]; [right; now exists c|left]. exists c, (x :: l). split; [reflexivity|]. split; [assumption|]. split; [discriminate|reflexivity].
  - apply T0 in T. destruct (word_opts spec l) as [o p]. cbn [fst map] in N, IH. destruct IH as (fl & A & K); [intros X; apply N; now right|].
    exists (c :: fl). split; [intros x [<-|X]; [assumption|now apply A]|].
    destruct K as [(-> & K)|[(d & a & -> & V & Na & K)|(d & -> & V & K)]]; injection K as -> ->.
    + now left.
    + right. left. exists d, a. now split.
    + right. right. now exists d.
  - exfalso. apply N. destruct (word_opts spec l) as [o p]. now left.
Qed.
Lemma not_dashed w : (match w with d :: _ :: _ => (d =? 45) = false | _ => True end) -> ~ dashed w.
Proof. intros K (c & r & ->). discriminate. Qed.
Lemma getopt_says : forall n ws, (length ws <= n)%nat -> ~ In 63 (map fst (fst (getopt perm spec ws))) ->
  says perm L ws (fst (getopt perm spec ws)) (snd (getopt perm spec ws)).
Proof.
  induction n as [|n IH]; intros ws Ln N; [destruct ws; [constructor|cbn in Ln; lia]|].
  destruct ws as [|w ws]; [constructor|]. cbn [length] in Ln. cbn [getopt] in *. destruct (beq w (bs "--")) eqn:B; [apply beq_true in B; subst w; apply says_end|].
  assert (Op : ~ dashed w -> ~ In 63 (map fst (fst (if perm then let '(o', r) := getopt perm spec ws in (o', w :: r) else ([], w :: ws)))) ->
    says perm L (w :: ws) (fst (if perm then let '(o', r) := getopt perm spec ws in (o', w :: r) else ([], w :: ws)))
      (snd (if perm then let '(o', r) := getopt perm spec ws in (o', w :: r) else ([], w :: ws)))).
  { intros D M. destruct (bool_dec perm true) as [P|P].
    - rewrite P in M |- *. specialize (IH ws ltac:(lia)). rewrite P in IH. destruct (getopt true spec ws) as [o' r]. cbn [fst snd] in *. rewrite <- P. apply says_name; [assumption|assumption|rewrite P; auto].
    - apply Bool.not_true_is_false in P. rewrite P in M |- *. cbn [fst snd]. rewrite <- P at 1. now apply says_names. }
  destruct w as [|d [|x l]]; [apply Op; [now intros (? & ? & ?)|assumption]|apply Op; [now intros (? & ? & ?)|assumption]|].
  destruct (d =? 45) eqn:D; [|apply Op; [now apply not_dashed|assumption]]. clear Op. apply Z.eqb_eq in D. subst d.
  set (k := x :: l) in *. assert (Nk : k <> []) by discriminate. clearbody k.
  assert (M : ~ In 63 (map fst (fst (word_opts spec k)))).
  { intros K. apply N. destruct (word_opts spec k) as [o p]. cbn [fst] in K. destruct p as [c|].
    - destruct ws as [|a ws]; [|destruct (getopt perm spec ws)]; cbn [fst]; rewrite map_app; apply in_or_app; now left.
    - destruct (getopt perm spec ws). cbn [fst]. rewrite map_app. apply in_or_app. now left. }
  destruct (word_shape k M) as (fl & A & [(Ek & W)|[(c & a & Ek & V & Na & W)|(c & Ek & V & W)]]); rewrite W in N |- *; rewrite Ek in *; clear k Ek.
  - specialize (IH ws ltac:(lia)). destruct (getopt perm spec ws) as [o' r]. cbn [fst snd] in *. apply says_bare; [assumption|assumption|].
    apply IH. intros K. apply N. rewrite map_app. apply in_or_app. now right.
  - specialize (IH ws ltac:(lia)). destruct (getopt perm spec ws) as [o' r]. cbn [fst snd] in *. rewrite <- app_assoc. cbn [app]. apply says_joined; [assumption|assumption|assumption|].
    apply IH. intros K. apply N. rewrite map_app. apply in_or_app. now right.
  - destruct ws as [|a ws]; [exfalso; apply N; cbn [fst]; rewrite map_app; apply in_or_app; right; now left|]. cbn [length] in Ln.
    specialize (IH ws ltac:(lia)). destruct (getopt perm spec ws) as [o' r]. cbn [fst snd] in *. apply says_apart; [assumption|assumption|].
    apply IH. intros K. apply N. rewrite map_app. apply in_or_app. right. now right.
Qed.
Lemma getopt_iff ws o names : ~ In 63 (map fst o) -> getopt perm spec ws = (o, names) <-> says perm L ws o names.
Proof.
  intros N. split; [|apply says_getopt]. intros E. pose proof (getopt_says (length ws) ws ltac:(lia)) as G. rewrite E in G. now apply G.
Qed.
End getopt.

Definition daemon_spec := bs "ade:fhm:noqrstu:vwyzc:l:LCEFN".
Definition client_spec := bs "LCEFNbdfp:ovh".
Lemma takes_in spec c b : takes spec c = Some b -> In c spec.
Proof. induction spec as [|x s IH]; [discriminate|]. cbn. destruct (Z.eqb_spec x c); [now left|]. cbn. auto. Qed.
Definition same_kind (spec : list Z) (L : letters) : bool :=
  forallb (fun c => match takes spec c with
                    | Some false => existsb (Z.eqb c) (alone L)
                    | Some true => existsb (Z.eqb c) (valued L)
                    | None => true
                    end) spec
  && forallb (fun c => match takes spec c with Some false => true | _ => false end) (alone L)
  && forallb (fun c => match takes spec c with Some true => true | _ => false end) (valued L).
Lemma kinds spec L : same_kind spec L = true ->
  (forall c, takes spec c = Some false <-> In c (alone L)) /\ (forall c, takes spec c = Some true <-> In c (valued L)).
Proof.
  unfold same_kind. intros K. apply andb_prop in K as [K K3]. apply andb_prop in K as [K1 K2].
  rewrite forallb_forall in K1, K2, K3.
  split; intros c; (split; [intros E; specialize (K1 c (takes_in _ _ _ E)); rewrite E in K1; apply existsb_exists in K1 as (x & X & Y); apply Z.eqb_eq in Y; now subst x|]).
  - intros H. specialize (K2 c H). destruct (takes spec c) as [[|]|]; congruence.
  - intros H. specialize (K3 c H). destruct (takes spec c) as [[|]|]; congruence.
Qed.
Lemma opt_loop_bad n : forall o s, In 63 (map fst o) -> opt_loop n s o = None.
Proof.
  induction o as [|[x a] o IH]; intros s K; [easy|]. cbn [opt_loop obind map fst] in *. destruct K as [->|K].
  - destruct s. reflexivity.
  - destruct (opt_step n s x a); [|reflexivity]. cbn [obind]. now apply IH.
Qed.
Lemma cli_args_bad : forall o c t, In 63 (map fst o) -> cli_args c t o = None.
Proof.
  induction o as [|[x a] o IH]; intros c t K; [easy|]. cbn [cli_args obind map fst] in *. destruct K as [->|K]; [reflexivity|].
  destruct (cli_opt _ _ x) as [[c' h]|]; [|reflexivity]. cbn [obind]. now apply IH.
Qed.
Lemma daemon_iff n perm words s names :
  main_argv n perm words = Some (s, names) <-> exists o, says perm daemon_letters words o names /\ main_opts n o names = Some s.
Proof.
  destruct (kinds daemon_spec daemon_letters ltac:(vm_compute; reflexivity)) as [T0 T1].
  assert (T2 : takes daemon_spec 45 = None) by (vm_compute; reflexivity). fold daemon_spec.
  unfold main_argv. fold daemon_spec. split.
  - destruct (getopt perm daemon_spec words) as [o r] eqn:G. destruct (main_opts n o r) as [s'|] eqn:M; [|discriminate]. cbn [obind]. intros [= -> ->].
    exists o. split; [|assumption]. apply (getopt_iff perm daemon_spec daemon_letters T0 T1 T2); [|assumption].
    intros K. unfold main_opts in M. now rewrite opt_loop_bad in M.
  - intros (o & Y & M). rewrite (says_getopt perm daemon_spec daemon_letters T0 T1 T2 _ _ _ Y), M. reflexivity.
Qed.
Lemma client_iff ifindex perm words c t idx :
  cli_argv ifindex perm words = Some (c, t, idx) <->
  exists o names c0, says perm client_letters words o names /\ cli_args (mkCli 0 MODE_CLI false) None o = Some (c0, t)
    /\ c = (if cl_proto c0 =? 0 then mkCli 255 (cl_mode c0) (cl_once c0) else c0) /\ cli_indexes ifindex names = Some idx.
Proof.
  destruct (kinds client_spec client_letters ltac:(vm_compute; reflexivity)) as [T0 T1].
  assert (T2 : takes client_spec 45 = None) by (vm_compute; reflexivity).
  unfold cli_argv. fold client_spec. split.
  - destruct (getopt perm client_spec words) as [o r] eqn:G. destruct (cli_args _ None o) as [[c0 t']|] eqn:M; [|discriminate]. cbn [obind].
    destruct (cli_indexes ifindex r) as [i|] eqn:Ei; [|discriminate]. cbn [obind]. intros [= <- -> ->]. exists o, r, c0. split; [|auto].
    apply (getopt_iff perm client_spec client_letters T0 T1 T2); [|assumption]. intros K. now rewrite cli_args_bad in M.
  - intros (o & names & c0 & Y & M & -> & Ei). rewrite (says_getopt perm client_spec client_letters T0 T1 T2 _ _ _ Y), M. cbn [obind]. rewrite Ei. reflexivity.
Qed.
Lemma daemon_same n perm perm' ws ws' o names :
  says perm daemon_letters ws o names -> says perm' daemon_letters ws' o names -> main_argv n perm ws = main_argv n perm' ws'.
Proof.
  destruct (kinds daemon_spec daemon_letters ltac:(vm_compute; reflexivity)) as [T0 T1].
  assert (T2 : takes daemon_spec 45 = None) by (vm_compute; reflexivity). intros A B.
  apply (says_getopt perm daemon_spec daemon_letters T0 T1 T2) in A. apply (says_getopt perm' daemon_spec daemon_letters T0 T1 T2) in B.
  unfold main_argv. fold daemon_spec. rewrite A. symmetry. rewrite B. reflexivity.
Qed.
Lemma client_same ix perm perm' ws ws' o names :
  says perm client_letters ws o names -> says perm' client_letters ws' o names -> cli_argv ix perm ws = cli_argv ix perm' ws'.
Proof.
  destruct (kinds client_spec client_letters ltac:(vm_compute; reflexivity)) as [T0 T1].
  assert (T2 : takes client_spec 45 = None) by (vm_compute; reflexivity). intros A B.
  apply (says_getopt perm client_spec client_letters T0 T1 T2) in A. apply (says_getopt perm' client_spec client_letters T0 T1 T2) in B.
  unfold cli_argv. fold client_spec. rewrite A. symmetry. rewrite B. reflexivity.
Qed.
Lemma says_one perm L spec : (forall c, takes spec c = Some false <-> In c (alone L)) -> (forall c, takes spec c = Some true <-> In c (valued L)) -> takes spec 45 = None ->
  forall ws o names o' names', says perm L ws o names -> says perm L ws o' names' -> o = o' /\ names = names'.
Proof.
  intros T0 T1 T2 ws o names o' names' A B. apply (says_getopt perm spec L T0 T1 T2) in A, B. rewrite A in B. now injection B as -> ->.
Qed.
Lemma says_unique perm L ws o names o' names' : L = daemon_letters \/ L = client_letters ->
  says perm L ws o names -> says perm L ws o' names' -> o = o' /\ names = names'.
Proof.
  intros [->| ->].
  - destruct (kinds daemon_spec daemon_letters ltac:(vm_compute; reflexivity)) as [T0 T1]. apply (says_one perm daemon_letters daemon_spec T0 T1). vm_compute. reflexivity.
  - destruct (kinds client_spec client_letters ltac:(vm_compute; reflexivity)) as [T0 T1]. apply (says_one perm client_letters client_spec T0 T1). vm_compute. reflexivity.
Qed.
(** Options before operands say the same everywhere. *)
Lemma says_before perm perm' L : forall ws o names, says perm L ws o [] -> ~ In (bs "--") ws -> (forall w, In w names -> ~ dashed w) -> says perm' L (ws ++ names) o names.
Proof.
  intros ws o names H. remember [] as e eqn:E. revert E. induction H as [|nm|fl ws o nm N A H IH|fl c a ws o nm A V N H IH|fl c a ws o nm A V H IH|w ws o nm P N H IH|w ws P N]; intros E NE F; try discriminate E; try subst nm; cbn [app].
  - destruct perm'.
    + induction names as [|w names IH2]; [constructor|]. apply says_name; [reflexivity|apply F; now left|]. apply IH2. intros v W. apply F. now right.
    + destruct names as [|w names]; [constructor|]. apply says_names; [reflexivity|apply F; now left].
  - exfalso. apply NE. now left.
  - apply says_bare; [assumption|assumption|]. apply IH; [reflexivity|intros K; apply NE; now right|assumption].
  - apply says_joined; [assumption|assumption|assumption|]. apply IH; [reflexivity|intros K; apply NE; now right|assumption].
  - apply says_apart; [assumption|assumption|]. apply IH; [reflexivity|intros K; apply NE; right; now right|assumption].
Qed.
