(** Batch output, read by a shell. *)
From Verif Require Import Base Vis Tlv Types Checks Msg Cdp Edp Fdp Ndp Lldp Protos Wire Util Child Cli Spec SpecAdv SpecRound SpecNet SpecChild SpecCli Lemmas.
From Verif Require Import WireProofs CliProofs1 CliProofs2 CliProofs3 CliProofs4 CliProofs5.

(** ** Ranges of what is decoded *)
Lemma nth_byte l i : bytes l -> 0 <= nth i l 0 < 256.
Proof.
  intros H. destruct (Nat.ltb_spec i (length l)).
  - unfold bytes in H. rewrite Forall_forall in H. apply H. now apply nth_In.
  - rewrite nth_overflow by assumption. lia.
Qed.
Lemma grab16_range buf k v k' : bytes buf -> GRAB_UINT16 buf k = DOk (v, k') -> 0 <= v < 65536.
Proof.
  intros Hb H. unfold GRAB_UINT16, GRAB in H. destruct (_ <=? _); [|discriminate].
  destruct (rdn _ _ _) as [b| | | |] eqn:E; try discriminate. injection H as <- <-. apply rdn_bytes in E; [|exact Hb].
  clear -E. destruct b as [|x [|y [|z r]]]; cbn [de16]; try lia.
  inversion E as [|? ? E1 E2]; subst. inversion E2; subst. unfold byte in *. lia.
Qed.
Lemma decode_range p c s n s' : bytes (d_buf c) -> 0 <= s_proto s < 6 -> proto_decode p c s = DOk (n, s') ->
  0 <= s_ttl s' < 65536 /\ 0 <= s_proto s' < 6.
Proof.
  intros Hb Hp. unfold proto_decode.
  assert (Cdp : cdp_decode c s = DOk (n, s') -> 0 <= s_ttl s' < 65536 /\ 0 <= s_proto s' < 6).
  { unfold cdp_decode, cdp_header_check. intros H. inv H. inv E0. subst.
    apply cdp_loop_keeps in H; [|exact Hb]. destruct H as [[-> ->] _].
    match goal with E : rdn _ _ _ = DOk ?h |- _ => apply rdn_bytes in E; [|exact Hb]; pose proof (nth_byte h 1 E) end.
    split; destruct (d_mode c =? _); cbn; try lia; match goal with |- context [if ?b then _ else _] => destruct b end; unfold PROTO_CDP1, PROTO_CDP; lia. }
  destruct (p =? PROTO_LLDP).
  { unfold lldp_decode. intros H. inv H. apply lldp_loop_keeps in H; [|exact Hb]. destruct H as [[-> ->] _].
    apply chassis_keeps in E1; [|exact Hb]. apply port_keeps in E4; [|exact Hb]. destruct E1 as [[_ E1] _], E4 as [[_ E4] _].
    match goal with E : GRAB_UINT16 _ _ = DOk _ |- _ => apply grab16_range in E; [|exact Hb] end.
    split; destruct (d_mode c =? _); cbn [s_ttl s_proto set_ttl print]; lia. }
  destruct (p =? PROTO_CDP); [exact Cdp|].
  destruct (p =? PROTO_EDP).
  { unfold edp_decode. intros H. inv H. apply edp_loop_keeps in H; [|exact Hb]. destruct H as [[-> ->] _]. cbn. unfold LADVD_TTL. lia. }
  destruct (p =? PROTO_FDP).
  { unfold fdp_decode. intros H. inv H. apply fdp_loop_keeps in H; [|exact Hb]. destruct H as [[-> ->] _]. cbn [s_ttl s_proto set_ttl].
    match goal with E : rdn _ _ _ = DOk ?h |- _ => apply rdn_bytes in E; [|exact Hb]; pose proof (nth_byte h 1 E) end. lia. }
  destruct (p =? PROTO_NDP).
  { unfold ndp_decode. intros H. apply dbind_ok in H as (x & _ & H). destruct x; [|discriminate].
    destruct (_ <? _); [discriminate|]. injection H as <- <-. cbn. unfold LADVD_TTL. lia. }
  destruct (p =? PROTO_CDP1); [exact Cdp|discriminate].
Qed.

(** ** Reading one assignment *)
Definition named (n : list Z) : Prop := (forall b, In b n -> name_char b = true) /\ exists c r, n = c :: r /\ (48 <=? c) && (c <=? 57) = false.
Lemma name_eq b : name_char b = true -> (b =? 61) = false.
Proof. unfold name_char. lia. Qed.
Lemma read_name n : forall m t, (forall b, In b n -> name_char b = true) -> sh_read (InName m) (n ++ t) = sh_read (InName (m ++ n)) t.
Proof.
  induction n as [|b n IH]; intros m t H; cbn [app sh_read]; [now rewrite app_nil_r|].
  pose proof (H b (or_introl eq_refl)) as Hb. rewrite (name_eq b Hb), Hb, IH, <- app_assoc; [reflexivity|].
  intros x Hx. apply H. now right.
Qed.
Lemma read_value n v : forall w t, ~ In 39 v -> sh_read (InQuotes n w) (v ++ 39 :: t) = sh_read (AfterQuotes n (w ++ v)) t.
Proof.
  induction v as [|b v IH]; intros w t H; cbn [app sh_read].
  - now rewrite app_nil_r.
  - destruct (Z.eqb_spec b 39); [destruct H; now left|]. rewrite IH, <- app_assoc; [reflexivity|]. intros K. apply H. now right.
Qed.
Lemma read_line n v t l : named n -> ~ In 39 v -> sh_read (InName []) t = Some l ->
  sh_read (InName []) (n ++ [61; 39] ++ v ++ [39; 10] ++ t) = Some ((n, v) :: l).
Proof.
  intros [Hn (c & r & E & Hc)] Hv Ht. rewrite read_name by assumption. cbn [app sh_read]. rewrite Z.eqb_refl, E, Hc, <- E.
  cbn [sh_read]. rewrite Z.eqb_refl. rewrite read_value by assumption. cbn [app sh_read]. rewrite Z.eqb_refl, Ht. reflexivity.
Qed.
Lemma digits_name fuel : forall n acc, (forall b, In b acc -> name_char b = true) ->
  forall b, In b (digits 10 fuel n acc) -> name_char b = true.
Proof.
  induction fuel as [|f IH]; intros n acc Ha; [exact Ha|]. cbn [digits].
  pose proof (Z.mod_pos_bound n 10 ltac:(lia)). replace (n mod 10 <? 10) with true by lia.
  assert (K : forall b, In b (48 + n mod 10 :: acc) -> name_char b = true).
  { intros b [<-|Hb]; [unfold name_char; lia|now apply Ha]. }
  destruct (_ =? 0); [exact K|]. now apply IH.
Qed.
Lemma dec_name n b : In b (dec n) -> name_char b = true.
Proof. apply digits_name. now intros ? []. Qed.
Definition upper (n : list Z) : Prop := forallb name_char n = true /\ exists c r, n = c :: r /\ (48 <=? c) && (c <=? 57) = false.
Lemma numbered n i : upper n -> named (n ++ [95] ++ dec i).
Proof.
  intros [H (c & r & E & Hc)]. split.
  - intros b Hb. rewrite !in_app_iff in Hb. destruct Hb as [Hb|[[<-|[]]|Hb]]; [|reflexivity|now apply dec_name in Hb].
    rewrite forallb_forall in H. now apply H.
  - subst n. now exists c, (r ++ [95] ++ dec i).
Qed.
Lemma read_batch n i v t l : upper n -> ~ In 39 v -> sh_read (InName []) t = Some l ->
  sh_read (InName []) (batch_line n i v ++ t) = Some ((n ++ [95] ++ dec i, v) :: l).
Proof.
  intros Hn Hv Ht. unfold batch_line.
  replace ((n ++ [95] ++ dec i ++ [61; 39] ++ v ++ [39; 10]) ++ t)
    with ((n ++ [95] ++ dec i) ++ [61; 39] ++ v ++ [39; 10] ++ t) by now rewrite <- !app_assoc.
  apply read_line; [now apply numbered|assumption|assumption].
Qed.

(** ** One neighbour *)
Definition harmless (Q : list Z -> Prop) (m : item) : Prop :=
  Q (sh_name m) /\ clean (sh_peer m) /\ 0 <= sh_ttl m < 65536 /\ 0 <= sh_hold m < 65536 /\ 0 <= sh_proto m < 6.
Lemma swap_safe l : ~ In 39 (swap l).
Proof. unfold swap. intros H. apply in_map_iff in H as (x & E & _). destruct (Z.eqb_spec x 39); lia. Qed.
Lemma attr_safe m i : clean (sh_peer m) -> (3 <= i)%nat -> ~ In 39 (attr_of m i).
Proof. intros H Hi. unfold attr_of. destruct (nth _ _ _) eqn:E; [|easy]. apply high_quote. now apply (H i). Qed.
Lemma proto_name_text p : 0 <= p < 6 -> proto_name p = proto_text p /\ ~ In 39 (proto_text p).
Proof.
  intros H. assert (C : p = 0 \/ p = 1 \/ p = 2 \/ p = 3 \/ p = 4 \/ p = 5) by lia.
  destruct C as [->|[->|[->|[->|[->| ->]]]]]; (split; [reflexivity|]); cbn; lia.
Qed.
Lemma batch_reads i m t l : 0 <= i < 4294967296 -> harmless (fun n => ~ In 39 n) m -> sh_read (InName []) t = Some l ->
  sh_read (InName []) (batch_write i m ++ t) = Some (documented i m ++ l).
Proof.
  intros Hi (Hn & Hc & Ht & Hh & Hp) H. destruct (proto_name_text (sh_proto m) Hp) as [Ep Sp].
  unfold batch_write, documented. cbn [map app]. rewrite <- !app_assoc.
  rewrite <- !dec_any by lia. rewrite Ep.
  repeat (apply read_batch; [split; [reflexivity|eexists _, _; split; reflexivity]| |]); try assumption;
    try apply swap_safe; try (apply attr_safe; [exact Hc|lia]); apply high_quote, dec_high.
Qed.

(** ** The whole output *)
Lemma render_reads ms : forall i ws, 0 <= i -> i + zlen ms <= 4294967296 -> Forall (harmless (fun n => ~ In 39 n)) ms ->
  sh_read (InName []) (cli_render MODE_BATCH ws i (map OShow ms)) = Some (documented_all i ms).
Proof.
  induction ms as [|m ms IH]; intros i ws Hi Hl H; cbn [map cli_render documented_all]; [reflexivity|].
  change (MODE_BATCH =? MODE_CLI) with false. change (MODE_BATCH =? MODE_BATCH) with true. cbv iota.
  rewrite zlen_cons in Hl. pose proof (zlen_nonneg _ ms). inversion H as [|? ? H1 H2]; subst.
  apply batch_reads; [lia|assumption|].
  destruct ms as [|m' ms]; [reflexivity|]. rewrite zlen_cons in Hl. rewrite Z.mod_small by (pose proof (zlen_nonneg _ ms); lia).
  apply IH; [lia| |assumption]. rewrite zlen_cons. lia.
Qed.
Lemma no_peers_clean : clean no_peers.
Proof. intros i v H. unfold no_peers in H. rewrite nth_repeat in H. discriminate. Qed.
Lemma free_clean p : clean (peer_free p).
Proof.
  intros i v H. unfold peer_free in H. assert (K : In (Some v) (map (fun _ => @None (list Z)) p)).
  { rewrite <- H. apply nth_In. destruct (Nat.ltb_spec i (length (map (fun _ : option (list Z) => @None (list Z)) p))); [assumption|].
    rewrite nth_overflow in H by assumption. discriminate. }
  apply in_map_iff in K as (x & K & _). discriminate.
Qed.
Lemma pm_proto_byte m : bytes m -> 0 <= pm_proto m.
Proof. intros H. unfold pm_proto. apply nth_byte with (i := 20%nat) in H. lia. Qed.
Lemma step_harmless (Q : list Z -> Prop) c idx now p m p' did o : cl_mode c <> MODE_PRINT -> bytes m -> Q (pm_name m) -> clean p ->
  cli_step c idx now p m = DOk (p', did, o) ->
  clean p' /\ exists ms, o = map OShow ms /\ zlen ms <= 1 /\ Forall (harmless Q) ms.
Proof.
  intros Hmode Hb Hn Hc. unfold cli_step.
  replace (cl_mode c =? MODE_PRINT) with false by lia. cbn [andb].
  assert (Same : forall x y z, DOk (p, false, @nil cout) = DOk (x, y, z) ->
    clean x /\ exists ms, z = map OShow ms /\ zlen ms <= 1 /\ Forall (harmless Q) ms).
  { intros x y z [= <- <- <-]. split; [exact Hc|]. exists []. repeat split; [unfold zlen in *; cbn; lia|constructor]. }
  destruct (6 <=? pm_proto m) eqn:E6; [apply Same|]. destruct (_ || _); [apply Same|]. destruct (_ && _); [apply Same|].
  destruct (negb _); [apply Same|].
  assert (Free : forall q x y z, DOk (peer_free q, false, @nil cout) = DOk (x, y, z) ->
    clean x /\ exists ms, z = map OShow ms /\ zlen ms <= 1 /\ Forall (harmless Q) ms).
  { intros q x y z [= <- <- <-]. split; [apply free_clean|]. exists []. repeat split; [unfold zlen in *; cbn; lia|constructor]. }
  destruct (proto_decode _ _ _) as [[n s]| | | |] eqn:E; try discriminate; [|apply Free].
  assert (Hbuf : bytes (pm_msg m)) by now apply bytes_slice.
  assert (Hout : s_out s = []) by (apply decode_silent in E; [exact E|reflexivity]).
  assert (Hcl : clean (s_peer s)) by (apply decode_clean in E; [exact E|exact Hbuf|exact Hc]).
  apply decode_range in E as [Ht Hp]; [|exact Hbuf|cbn [s_proto]; apply pm_proto_byte in Hb; lia].
  rewrite Hout. cbn [map app]. destruct (n =? 0); [apply Free|]. cbv zeta. destruct (_ || _); [discriminate|].
  destruct (s_ttl s <? _).
  - intros [= <- <- <-]. split; [exact Hcl|]. exists []. repeat split; [unfold zlen in *; cbn; lia|constructor].
  - intros [= <- <- <-]. split; [apply free_clean|].
    exists [mkItem (pm_index m) (pm_name m) (s_proto s) (s_ttl s) (s_peer s) ((s_ttl s - (now - pm_received m)) mod 65536)].
    split; [reflexivity|]. split; [unfold zlen; cbn; lia|]. constructor; [|constructor].
    split; [exact Hn|]. split; [exact Hcl|]. cbn. split; [exact Ht|]. split; [|exact Hp]. apply Z.mod_pos_bound. lia.
Qed.
Lemma loop_harmless (Q : list Z -> Prop) c idx now reads : cl_mode c <> MODE_PRINT -> Forall bytes reads ->
  (forall m, In m reads -> Q (pm_name m)) -> forall p o, clean p ->
  cli_loop c idx now p reads = DOk o -> exists ms, o = map OShow ms /\ zlen ms <= zlen reads /\ Forall (harmless Q) ms.
Proof.
  intros Hmode Hb Hn. induction Hb as [|m reads Hm Hb IH]; intros p o Hc H; cbn [cli_loop] in H.
  - injection H as <-. exists []. now repeat split.
  - rewrite zlen_cons. pose proof (zlen_nonneg _ reads).
    destruct (negb _). { injection H as <-. exists []. repeat split; [rewrite zlen_nil; lia|constructor]. }
    apply dbind_ok in H as ([[p' did] o1] & E & H).
    apply (step_harmless Q) in E as (Hc' & ms & -> & Hl & Hs); try assumption; [|apply Hn; now left].
    destruct (did && _). { injection H as <-. exists ms. repeat split; [lia|assumption]. }
    apply dbind_ok in H as (o2 & E2 & H). injection H as <-.
    apply IH in E2 as (ms2 & -> & Hl2 & Hs2); [|intros; apply Hn; now right|assumption].
    exists (ms ++ ms2). rewrite map_app, zlen_app. split; [reflexivity|]. split; [lia|]. now apply Forall_app.
Qed.
Lemma mode_batch letters : In 98 letters -> (forall x, In x letters -> x <> 100 /\ x <> 102 /\ x <> 112) ->
  fold_left (fun m ch => mode_opt ch m) letters 0 = 2.
Proof.
  intros H Hx. assert (K : forall l m, (forall x, In x l -> x <> 100 /\ x <> 102 /\ x <> 112) -> m = 2 \/ In 98 l ->
    fold_left (fun m ch => mode_opt ch m) l m = 2).
  { clear. induction l as [|ch l IH]; intros m Hx [->|H]; cbn [fold_left]; try reflexivity; try contradiction.
    - apply IH; [intros; apply Hx; now right|]. left. unfold mode_opt. destruct (Hx ch (or_introl eq_refl)) as (A & B & C).
      destruct (ch =? 98); [reflexivity|]. replace (ch =? 100) with false by lia. replace (ch =? 102) with false by lia.
      now replace (ch =? 112) with false by lia.
    - apply IH; [intros; apply Hx; now right|]. destruct H as [->|H]; [now left|now right]. }
  apply K; [exact Hx|now right].
Qed.
Theorem batch_safe letters names ifindex now ws reads o text :
  usable letters names ifindex -> In 98 letters -> (forall x, In x letters -> x <> 100 /\ x <> 102 /\ x <> 112) ->
  Forall bytes reads -> zlen reads <= 4294967296 -> (forall m, In m reads -> ~ In 39 (pm_name m)) ->
  cli_main letters names ifindex now ws reads = Some (DOk (o, text)) ->
  exists ms, o = map OShow ms /\ sh_read (InName []) text = Some (documented_all 0 ms).
Proof.
  intros Hu Hb Hx Hr Hl Hn H. unfold cli_main in H. rewrite (conf_some letters names ifindex Hu) in H. cbn [obind] in H.
  rewrite indexes_some in H by apply Hu. cbn [obind] in H.
  assert (Hmode : cl_mode (conf_of letters) = MODE_BATCH) by (now apply mode_batch).
  generalize dependent (conf_of letters). intros c H Hmode. injection H as H.
  apply dbind_ok in H as (o' & E & H). rewrite Hmode in H. injection H as <- <-.
  apply (loop_harmless (fun n => ~ In 39 n)) in E as (ms & -> & Hz & Hs); try assumption; [|now rewrite Hmode|apply no_peers_clean].
  exists ms. split; [reflexivity|]. change (MODE_BATCH =? MODE_CLI) with false. cbn [app].
  apply render_reads; [lia|lia|assumption].
Qed.
