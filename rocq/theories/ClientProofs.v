(** Proofs of C149. *)
From Verif Require Import Base Tlv Types Wire Util Child Cli Post Getopt ClientMain Spec SpecAdv SpecRound SpecNet SpecChild SpecCli SpecPost SpecGetopt SpecClient.
From Verif Require Import Lemmas VisProofs EncProofs WireProofs CliProofs2 CliProofs4 CliProofs5 CliProofs6 CliProofs7 CliProofs8 PostProofs3 GetoptProofs.

Lemma client_getopt perm words o names : says perm client_letters words o names -> getopt perm client_spec words = (o, names).
Proof.
  intros Y. destruct (kinds client_spec client_letters ltac:(vm_compute; reflexivity)) as [T0 T1].
  assert (T2 : takes client_spec 45 = None) by (vm_compute; reflexivity). exact (says_getopt perm client_spec client_letters T0 T1 T2 _ _ _ Y).
Qed.
Lemma client_words perm words o names env reads : says perm client_letters words o names ->
  ladvdc perm words env reads = cli_run o names env reads.
Proof.
  intros Y. unfold ladvdc. fold client_spec. rewrite (client_getopt _ _ _ _ Y). reflexivity.
Qed.
Lemma client_refused perm words env reads :
  (forall o names, says perm client_letters words o names -> ~ usable (map fst o) names (ce_ifindex env)) ->
  ladvdc perm words env reads = DOk (mkRun [] [] 1).
Proof.
  intros H. destruct (kinds client_spec client_letters ltac:(vm_compute; reflexivity)) as [T0 T1].
  assert (T2 : takes client_spec 45 = None) by (vm_compute; reflexivity).
  unfold ladvdc. fold client_spec. destruct (getopt perm client_spec words) as [o r] eqn:G.
  destruct (in_dec Z.eq_dec 63 (map fst o)) as [K|K].
  - unfold cli_run. rewrite cli_args_bad by exact K. reflexivity.
  - apply (getopt_iff perm client_spec client_letters T0 T1 T2) in G; [|exact K]. exact (proj1 (run_refused o r env reads (H _ _ G))).
Qed.

Lemma entry_all_bytes e : genuine e -> bytes (entry_bytes e).
Proof.
  intros (f & attrs & Hb & Hl & Hm & Hq & Hi & Hp & Hn & _). unfold entry_bytes. rewrite Hm. destruct Hn as (Hn & _).
  repeat (apply bytes_app; split); try apply le_bytes; try exact Hb; try apply bytes_repeat0.
  - apply WireProofs.bytes_firstn, bytes_app. split; [exact Hn|apply WireProofs.bytes_zeros].
  - repeat constructor; lia.
Qed.
Lemma entry_its_name e : genuine e -> pm_name (entry_bytes e) = q_name e.
Proof. intros (f & attrs & Hb & Hl & Hm & Hq & Hi & Hp & Hn & _). now apply entry_name. Qed.

Lemma letter_in x o : says_letter x o = true <-> In x (map fst o). Proof. apply inl_in. Qed.
Lemma letter_out x o : says_letter x o = false -> ~ In x (map fst o). Proof. intros H K. apply letter_in in K. congruence. Qed.

Lemma filter_fresh (f g : entry -> bool) l : (forall e, In e l -> f e = true -> g e = true) -> filter (fun e => f e && g e) l = filter f l.
Proof.
  induction l as [|e l IH]; intros H; [reflexivity|]. cbn [filter]. rewrite IH by (intros x X; apply H; right; exact X).
  destruct (f e) eqn:E; [|reflexivity]. now rewrite (H e (or_introl eq_refl) E).
Qed.
Lemma client_main o names ifindex now ws es :
  usable (map fst o) names ifindex -> says_letter 102 o = false -> 0 <= now < 9223372036854775808 ->
  Forall genuine es -> (forall e, In e es -> q_received e <= now) ->
  (forall e, In e es -> wanted o names ifindex e = true -> fresh now e = true) ->
  exists text, cli_main (map fst o) names ifindex now ws (map entry_bytes es)
    = Some (DOk (map OShow (map (display now) (to_show o names ifindex es)), text)).
Proof.
  intros U F N G R W.
  destruct (client_selects (map fst o) names ifindex now ws es U (letter_out _ _ F) N G R) as (text & E).
  { intros pre a mid b post Ees Wa Fa _. exfalso. rewrite W in Fa; [discriminate| |exact Wa].
    rewrite Ees. apply in_or_app. right. left. reflexivity. }
  exists text. rewrite E. unfold to_show, says_letter. change (existsb (Z.eqb 111) (map fst o)) with (inl 111 (map fst o)).
  change (fun e => selects (map fst o) names ifindex e && fresh now e) with (fun e => wanted o names ifindex e && fresh now e).
  rewrite (filter_fresh _ _ _ W). destruct (inl 111 (map fst o)); [|reflexivity]. now rewrite firstn_map.
Qed.

Lemma client_table perm words o names env es :
  says perm client_letters words o names -> usable (map fst o) names (ce_ifindex env) -> without (bs "bdfp") o ->
  0 <= ce_now env < 9223372036854775808 -> Forall genuine es -> (forall e, In e es -> q_received e <= ce_now env) ->
  (forall e, In e es -> wanted o names (ce_ifindex env) e = true -> fresh (ce_now env) e = true) ->
  exists hw pw heading rs,
  ladvdc perm words env (map entry_bytes es) = DOk (mkRun (legend ++ heading ++ concat rs) [] 0)
  /\ 20 <= hw <= 30
  /\ match pw with Some w => exists col, ce_ws env = Some col /\ 0 < col /\ hw + 50 + w = Z.max 80 col
                 | None => forall col, ce_ws env = Some col -> col <= 0 end
  /\ row hw None (bs "Device ID") (bs "Local Intf") (bs "Proto") (bs "Hold-time") (bs "Capability") (bs "Port ID") heading
  /\ Forall2 (row_of hw pw) (map (display (ce_now env)) (to_show o names (ce_ifindex env) es)) rs.
Proof.
  intros Y U X N G R W. destruct (client_main o names (ce_ifindex env) (ce_now env) (ce_ws env) es U) as (text & E); try assumption.
  { apply X. cbn. auto. }
  assert (B : Forall bytes (map entry_bytes es)).
  { apply Forall_forall. intros m M. apply in_map_iff in M as (e & <- & M). rewrite Forall_forall in G. now apply entry_all_bytes, G. }
  assert (X' : forall x, In x (bs "bdfp") -> ~ In x (map fst o)) by (intros x K; now apply letter_out, X).
  destruct (table_rows _ _ _ _ _ _ _ _ U ltac:(intros x K; repeat split; intros ->; (eapply X'; [|exact K]); cbn; auto) B E)
    as (hw & pw & ms & heading & rs & H1 & H2 & H3 & H4 & H5 & H6 & _).
  exists hw, pw, heading, rs. rewrite (client_words _ _ _ _ _ _ Y).
  split; [|split; [exact H1|split; [exact H2|split; [exact H5|]]]].
  - rewrite <- H4. apply (run_text o names env (map entry_bytes es) U 0 _ _ ) in E; [exact E| |lia|lia].
    right. split; [reflexivity|]. intros x K1 K2. exact (X' x K2 K1).
  - assert (M : forall a b : list item, map OShow a = map OShow b -> a = b).
    { clear. induction a as [|x a IH]; intros [|y b] H; try discriminate; [reflexivity|]. cbn [map] in H. injection H as -> H. f_equal. now apply IH. }
    apply M in H3. rewrite H3. exact H6.
Qed.
Lemma client_batch perm words o names env es :
  says perm client_letters words o names -> usable (map fst o) names (ce_ifindex env) -> says_letter 98 o = true -> without (bs "dfp") o ->
  0 <= ce_now env < 9223372036854775808 -> Forall genuine es -> zlen es <= 4294967296 ->
  (forall e, In e es -> q_received e <= ce_now env /\ ~ In 39 (q_name e)) ->
  (forall e, In e es -> wanted o names (ce_ifindex env) e = true -> fresh (ce_now env) e = true) ->
  exists text, ladvdc perm words env (map entry_bytes es) = DOk (mkRun text [] 0)
  /\ sh_read (InName []) text = Some (documented_all 0 (map (display (ce_now env)) (to_show o names (ce_ifindex env) es))).
Proof.
  intros Y U Xb X N G L R W. destruct (client_main o names (ce_ifindex env) (ce_now env) (ce_ws env) es U) as (text & E); try assumption.
  { apply X. cbn. auto. } { intros e K. now apply R. }
  assert (B : Forall bytes (map entry_bytes es)).
  { apply Forall_forall. intros m M. apply in_map_iff in M as (e & <- & M). rewrite Forall_forall in G. now apply entry_all_bytes, G. }
  assert (X' : forall x, In x (bs "dfp") -> ~ In x (map fst o)) by (intros x K; now apply letter_out, X).
  apply letter_in in Xb.
  destruct (batch_safe _ _ _ _ _ _ _ _ U Xb ltac:(intros x K; repeat split; intros ->; (eapply X'; [|exact K]); cbn; auto) B
    ltac:(unfold zlen in *; rewrite map_length; exact L)
    ltac:(intros m M; apply in_map_iff in M as (e & <- & M); rewrite Forall_forall in G; rewrite (entry_its_name _ (G _ M)); now apply R) E)
    as (ms & H3 & H4).
  exists text. rewrite (client_words _ _ _ _ _ _ Y). split.
  - apply (run_text o names env (map entry_bytes es) U 98 _ _) in E; [exact E| |lia|lia].
    change (way (map fst o) 98). left. clear - Xb X'. induction (map fst o) as [|y l IH]; [easy|].
    destruct (in_dec Z.eq_dec 98 l) as [K|K].
    + destruct IH as (a & b & E1 & E2 & E3); [exact K|intros x K1 K2; apply (X' x K1); right; exact K2|].
      exists (y :: a), b. split; [now rewrite E1|auto].
    + destruct Xb as [->|Xb]; [|destruct (K Xb)]. exists [], l. split; [reflexivity|]. split; [cbn; auto|].
      intros x K1 K2. cbn in K2. destruct K2 as [<-|K2]; [exact (K K1)|]. apply (X' x); [cbn; tauto|right; exact K1].
  - assert (M : forall a b : list item, map OShow a = map OShow b -> a = b).
    { clear. induction a as [|x a IH]; intros [|y b] H; try discriminate; [reflexivity|]. cbn [map] in H. injection H as -> H. f_equal. now apply IH. }
    apply M in H3. rewrite H3. exact H4.
Qed.
