(** Proofs of C150. *)
From Verif Require Import Base Tlv Types Msg Protos Wire Util Child Cli Post Getopt ClientMain Spec SpecAdv SpecRound SpecNet SpecChild SpecCli SpecAddr SpecPrint SpecPost SpecGetopt SpecClient.
From Verif Require Import Lemmas CliProofs5 PostProofs3 PostProofs4 PostProofs5 PrintProofs3 GetoptProofs ClientProofs.

Lemma shown_inj : forall a b : list item, map OShow a = map OShow b -> a = b.
Proof.
  induction a as [|x a IH]; intros [|y b] H; try discriminate; [reflexivity|]. cbn [map] in H. injection H as -> H. f_equal. now apply IH.
Qed.
Lemma client_posts perm words o names env es u host path port me r :
  says perm client_letters words o names -> usable (map fst o) names (ce_ifindex env) ->
  way (map fst o) 112 -> In (112, u) o -> url host path u -> says_letter 102 o = false ->
  0 <= ce_now env < 9223372036854775808 -> Forall genuine es ->
  (forall e, In e es -> q_received e <= ce_now env /\ literal (q_name e)) ->
  (forall e, In e es -> wanted o names (ce_ifindex env) e = true -> fresh (ce_now env) e = true) ->
  connected (ce_http env) port me -> (forall f, h_found (ce_http env) = Some f -> zlen f < 255) -> literal me -> url_encoder (ce_enc env) ->
  ladvdc perm words env (map entry_bytes es) = DOk r ->
  Forall (fun p => po_host p = host /\ po_port p = port /\ po_path p = path) (cr_posts r)
  /\ map (fun p => form (po_body p)) (cr_posts r)
     = map (fun e => form_of me (display (ce_now env) e) [13; 10; 13; 10]) (to_show o names (ce_ifindex env) es).
Proof.
  intros Y U W I V F N G R X C L M E H. rewrite (client_words _ _ _ _ _ _ Y) in H. split.
  - apply Forall_forall. exact (run_target o names env _ U u host path port me r W I V C L H).
  - destruct (client_main o names (ce_ifindex env) (ce_now env) (ce_ws env) es U F N G (fun e K => proj1 (R e K)) X) as (text & T).
    assert (B : Forall bytes (map entry_bytes es)).
    { apply Forall_forall. intros m K. apply in_map_iff in K as (e & <- & K). rewrite Forall_forall in G. now apply entry_all_bytes, G. }
    destruct (run_posts o names env (map entry_bytes es) U u port me r W I B) as (ms & text' & T' & P); try assumption.
    { intros m K. apply in_map_iff in K as (e & <- & K). rewrite Forall_forall in G. rewrite (entry_its_name _ (G _ K)). now apply R. }
    change (SpecPost.letters o) with (map fst o) in T'. rewrite T in T'. injection T' as T' _. apply shown_inj in T'. rewrite P, <- T'. apply map_map.
Qed.
Lemma client_file perm words o names env es :
  says perm client_letters words o names -> usable (map fst o) names (ce_ifindex env) -> way (map fst o) 100 -> ce_tty env = false ->
  0 <= ce_now env < 9223372036854775808 -> clock_ok (ce_clock env) -> Forall genuine es -> (forall e, In e es -> q_received e <= ce_now env) ->
  (forall e, In e es -> q_proto e = 5 -> says_letter 67 o = false) ->
  (forall e, In e es -> wanted o names (ce_ifindex env) e = true -> fresh (ce_now env) e = true) ->
  exists out ks, ladvdc perm words env (map entry_bytes es) = DOk (mkRun out [] 0) /\ capture_read out = Some ks
  /\ capture_of (ce_clock env) (map (fun e => firstn (Z.to_nat (q_len e)) (q_msg e)) (to_show o names (ce_ifindex env) es)) ks.
Proof.
  intros Y U W T N C G R V X. rewrite (client_words _ _ _ _ _ _ Y).
  assert (A : forall e, In e es -> asked (map fst o) (q_proto e) && asked_if names (ce_ifindex env) (q_index e) = wanted o names (ce_ifindex env) e).
  { intros e K. unfold wanted. destruct (Z.eqb_spec (q_proto e) 5) as [Q|Q]; [rewrite (V e K Q)|rewrite andb_false_r]; now rewrite andb_true_r. }
  destruct (client_capture o names env es U W T N C G R) as (out & ks & H1 & H2 & H3).
  - intros e K Q. now apply letter_out, (V e).
  - intros pre a mid b post Ees Wa Fa _. exfalso. assert (K : In a es) by (rewrite Ees; apply in_or_app; right; left; reflexivity).
    rewrite (X a K) in Fa; [discriminate|]. rewrite <- (A a K). exact Wa.
  - exists out, ks. split; [exact H1|]. split; [exact H2|]. revert H3. unfold to_show. change (existsb (Z.eqb 111) (SpecPost.letters o)) with (says_letter 111 o).
    rewrite (filter_ext_in' _ _ (fun e => wanted o names (ce_ifindex env) e && fresh (ce_now env) e) es).
    + rewrite (filter_fresh _ _ _ X). intros H3; exact H3.
    + intros e K. cbv beta. change (SpecPost.letters o) with (map fst o). now rewrite A.
Qed.
Lemma client_print perm words o names env es texts :
  says perm client_letters words o names -> usable (map fst o) names (ce_ifindex env) -> says_letter 102 o = true -> without (bs "bdpo") o ->
  0 <= ce_now env < 9223372036854775808 -> Forall genuine es -> (forall e, In e es -> q_received e <= ce_now env) ->
  (forall e, In e es -> q_proto e = 5 -> says_letter 67 o = false) ->
  (forall e, In e es -> wanted o names (ce_ifindex env) e = true -> fresh (ce_now env) e = true) ->
  Forall2 (entry_says (ce_now env)) (to_show o names (ce_ifindex env) es) texts ->
  ladvdc perm words env (map entry_bytes es) = DOk (mkRun (flat_map (fun t => t ++ [10]) texts) [] 0).
Proof.
  intros Y U F X N G R V W T. rewrite (client_words _ _ _ _ _ _ Y). apply letter_in in F.
  assert (X' : forall x, In x (bs "bdpo") -> ~ In x (map fst o)) by (intros x K; now apply letter_out, X).
  assert (A : filter (fun e => asked (map fst o) (q_proto e) && asked_if names (ce_ifindex env) (q_index e)) es = to_show o names (ce_ifindex env) es).
  { unfold to_show. rewrite (X 111) by (cbn; auto). apply filter_ext_in'. intros e K. unfold wanted.
    destruct (Z.eqb_spec (q_proto e) 5) as [Q|Q]; [rewrite (V e K Q)|rewrite andb_false_r]; now rewrite andb_true_r. }
  destruct (client_full (map fst o) names (ce_ifindex env) (ce_now env) (ce_ws env) es texts U F) as (out & E); try assumption.
  - intros x K. pose proof (proj1 U x K) as Q. cbn in Q |- *. pose proof (X' x) as Q'. cbn in Q'. intuition.
  - intros e K Q. now apply letter_out, (V e).
  - rewrite A. intros e K. apply W.
    + unfold to_show in K. rewrite (X 111) in K by (cbn; auto). apply filter_In in K. tauto.
    + unfold to_show in K. rewrite (X 111) in K by (cbn; auto). apply filter_In in K. tauto.
  - rewrite A. exact T.
  - apply (run_text o names env (map entry_bytes es) U 102) in E; [exact E| |lia|lia].
    change (way (map fst o) 102). left. clear - F X'. induction (map fst o) as [|y l IH]; [easy|].
    destruct (in_dec Z.eq_dec 102 l) as [K|K].
    + destruct IH as (a & b & E1 & E2 & E3); [exact K|intros x K1 K2; apply (X' x K1); right; exact K2|].
      exists (y :: a), b. split; [now rewrite E1|auto].
    + destruct F as [->|F]; [|destruct (K F)]. exists [], l. split; [reflexivity|]. split; [cbn; auto|].
      intros x K1 K2. cbn in K2. destruct K2 as [<-|[<-|[<-|[<-|[]]]]]; [| |exact (K K1)|]; (eapply X'; [|right; exact K1]); cbn; auto.
Qed.
