(** The table printed by default. *)
From Verif Require Import Base Tlv Types Msg Wire Util Child Cli Spec SpecAdv SpecRound SpecNet SpecChild SpecCli Lemmas.
From Verif Require Import WireProofs ChildProofs3 CliProofs1 CliProofs2 CliProofs5 CliProofs7.

Lemma padr_cell w s : zlen s <= w -> cell w s (padr w s).
Proof.
  intros H. unfold padr. split; [|split].
  - zl. lia.
  - intros K. exists []. replace (w - zlen s) with 0 by lia. cbn. now rewrite !app_nil_r.
  - intros _. now eexists.
Qed.
Lemma column_cell w s : 0 <= w -> cell w s (column w s).
Proof.
  intros Hw. unfold column. destruct (Z.leb_spec (zlen s) w) as [H|H].
  - rewrite firstn_all2 by (unfold zlen in H; lia). now apply padr_cell.
  - assert (E : zlen (firstn (Z.to_nat w) s) = w) by (rewrite zlen_firstn; lia).
    unfold padr. rewrite E. replace (Z.to_nat (w - w)) with 0%nat by lia. cbn [repeat]. rewrite app_nil_r.
    split; [exact E|]. split; [|lia]. intros _. exists (skipn (Z.to_nat w) s). symmetry. apply firstn_skipn.
Qed.
Lemma dec_short n : 0 <= n < 65536 -> zlen (dec n) <= 12.
Proof.
  intros H. unfold dec. assert (D : forall fuel n acc, 0 <= n < 10 ^ Z.of_nat fuel -> zlen (digits 10 fuel n acc) <= Z.of_nat fuel + zlen acc).
  { clear. induction fuel as [|f IH]; intros n acc Hn; cbn [digits]; [lia|].
    pose proof (zlen_nonneg _ acc). destruct (_ =? 0); [rewrite zlen_cons; lia|].
    eapply Z.le_trans; [apply IH|rewrite zlen_cons; lia].
    rewrite Nat2Z.inj_succ, Z.pow_succ_r in Hn by lia. split; [apply Z.div_pos; lia|apply Z.div_lt_upper_bound; lia]. }
  assert (G : forall fuel n acc, (5 <= fuel)%nat -> 0 <= n < 10 ^ 5 -> digits 10 fuel n acc = digits 10 5 n acc).
  { clear. intros fuel. assert (S : forall k n acc, 0 <= n < 10 ^ Z.of_nat (S k) -> forall f, (S k <= f)%nat -> digits 10 f n acc = digits 10 (S k) n acc).
    { induction k as [|k IH]; intros n acc Hn f Hf; (destruct f as [|f]; [lia|]); cbn [digits].
      - change (10 ^ Z.of_nat 1) with 10 in Hn. rewrite Z.div_small by lia. reflexivity.
      - destruct (n / 10 =? 0); [reflexivity|]. apply IH; [|lia].
        rewrite Nat2Z.inj_succ, Z.pow_succ_r in Hn by lia. split; [apply Z.div_pos; lia|apply Z.div_lt_upper_bound; lia]. }
    intros n acc Hf Hn. apply (S 4%nat); [exact Hn|exact Hf]. }
  rewrite G; [|lia|change (10 ^ 5) with 100000; lia].
  eapply Z.le_trans; [apply D; change (10 ^ Z.of_nat 5) with 100000; lia|]. rewrite zlen_nil. lia.
Qed.

(** Column widths. *)
Definition hw_of (ws : option Z) : Z := snd (fst (cli_widths ws)).
Definition pw_of (ws : option Z) : option Z :=
  let '(tw, _, pw) := cli_widths ws in if 0 <? tw then Some pw else None.
Lemma widths ws : 20 <= hw_of ws <= 30
  /\ match pw_of ws with
     | Some pw => exists col, ws = Some col /\ 0 < col /\ hw_of ws + 50 + pw = Z.max 80 col
     | None => forall col, ws = Some col -> col <= 0
     end.
Proof.
  unfold hw_of, pw_of, cli_widths. destruct ws as [col|]; [|split; [cbn; lia|cbn; discriminate]].
  destruct (Z.ltb_spec 0 (col - 80)) as [H|H]; [destruct (Z.ltb_spec 20 (col - 80)) as [K|K]|]; cbn [fst snd].
  - replace (0 <? col) with true by lia. split; [lia|]. exists col. repeat split; lia.
  - replace (0 <? col) with true by lia. split; [lia|]. exists col. repeat split; lia.
  - split; [lia|]. destruct (Z.ltb_spec 0 col).
    + exists col. repeat split; lia.
    + intros c [= <-]. lia.
Qed.
Lemma write_row Q ws m : harmless Q m -> row_of (hw_of ws) (pw_of ws) m (cli_write ws m).
Proof.
  intros (_ & _ & _ & Hh & Hp). pose proof (widths ws) as [W1 W2]. unfold hw_of, pw_of in *. unfold cli_write.
  destruct (cli_widths ws) as [[tw hw] pw]. cbn [fst snd] in *.
  destruct (proto_name_text (sh_proto m) Hp) as [-> _].
  eexists _, _. split; [|split]; [| |eexists _, _, _, _, _, _; split; [reflexivity|]].
  3: { split; [apply column_cell; lia|]. split; [apply column_cell; lia|]. split; [apply column_cell; lia|].
       split; [rewrite <- dec_any by lia; apply padr_cell; now apply dec_short|]. split; [apply column_cell; lia|].
       destruct (0 <? tw) eqn:E; [|reflexivity]. apply column_cell. destruct W2 as (col & _ & _ & W2). lia. }
  - unfold host_text, attr_of. change (pget (sh_peer m) PEER_HOSTNAME) with (nth 0 (sh_peer m) None).
    destruct (nth 0 (sh_peer m) None) as [h|]; [|split; [reflexivity|rewrite zlen_nil; lia]].
    destruct (Z.ltb_spec hw (zlen h)); (split; [lia || (intros; reflexivity)|]); [intros _; apply dot_short|lia].
  - unfold port_text. change (pget (sh_peer m) PEER_PORTNAME) with (nth 1 (sh_peer m) None).
    change (pget (sh_peer m) PEER_PORTDESCR) with (nth 2 (sh_peer m) None).
    destruct (nth 1 (sh_peer m) None); [apply abbr_short|]. destruct (nth 2 (sh_peer m) None); [apply abbr_short|reflexivity].
Qed.
Lemma lines_app a b : lines (a ++ b) = lines a + lines b.
Proof. unfold lines. now rewrite filter_app, zlen_app. Qed.
Lemma lines_none l : ~ In 10 l -> lines l = 0.
Proof.
  intros H. unfold lines. replace (filter _ l) with (@nil Z); [reflexivity|].
  induction l as [|b l IH]; cbn [filter]; [reflexivity|]. destruct (Z.eqb_spec b 10); [destruct H; now left|].
  apply IH. intros K. apply H. now right.
Qed.
Lemma cell_lines w s c : cell w s c -> ~ In 10 s -> lines c = 0.
Proof.
  intros (E & H1 & H2) Hs. apply lines_none. intros K. destruct (Z.leb_spec w (zlen s)) as [L|L].
  - destruct (H1 L) as [r ->]. apply Hs, in_app_iff. now left.
  - destruct H2 as [k ->]; [lia|]. apply in_app_iff in K as [K|K]; [contradiction|]. apply repeat_spec in K. lia.
Qed.
Lemma sub_host h r : short_host h r -> ~ In 10 h -> ~ In 10 r.
Proof. intros [_ [->|[d ->]]] H; [exact H|]. intros K. apply H, in_app_iff. now left. Qed.
Lemma sub_port s r : short_port s r -> ~ In 10 s -> ~ In 10 r.
Proof.
  intros H Hs. destruct H; rewrite ?in_app_iff in *; try tauto; try (intros [K|K]; [cbn in K; lia|tauto]).
Qed.
Lemma row_lines hw pw m r : row_of hw pw m r -> unbroken m -> 0 <= sh_hold m < 65536 -> 0 <= sh_proto m < 6 -> lines r = 1.
Proof.
  intros (host & port & Hh & Hpt & c1 & c2 & c3 & c4 & c5 & c6 & -> & H1 & H2 & H3 & H4 & H5 & H6) [Un Up] Rh Rp.
  assert (Ha : forall i, ~ In 10 (attr_of m i)).
  { intros i. unfold attr_of. destruct (nth i (sh_peer m) None) eqn:E; [now apply (Up i)|easy]. }
  assert (Ho : ~ In 10 host).
  { destruct Hh as [K1 K2]. destruct (Z.leb_spec (zlen (attr_of m 0)) hw) as [L|L].
    - rewrite K1 by assumption. apply Ha.
    - apply (sub_host _ _ (K2 L)), Ha. }
  assert (Po : ~ In 10 port).
  { unfold port_text in Hpt. destruct (nth 1 (sh_peer m) None) eqn:E1; [now apply (sub_port _ _ Hpt), (Up 1%nat)|].
    destruct (nth 2 (sh_peer m) None) eqn:E2; [now apply (sub_port _ _ Hpt), (Up 2%nat)|]. now subst port. }
  assert (Pr : ~ In 10 (proto_text (sh_proto m))).
  { assert (C : sh_proto m = 0 \/ sh_proto m = 1 \/ sh_proto m = 2 \/ sh_proto m = 3 \/ sh_proto m = 4 \/ sh_proto m = 5) by lia.
    destruct C as [->|[->|[->|[->|[->| ->]]]]]; cbn; lia. }
  assert (De : ~ In 10 (decimal (sh_hold m))).
  { rewrite <- dec_any by lia. intros K. apply dec_name in K. discriminate. }
  apply cell_lines in H1, H2, H3, H4, H5; try assumption; try apply Ha.
  assert (lines c6 = 0) by (destruct pw; [now apply cell_lines in H6|subst; now apply lines_none]).
  rewrite !lines_app. change (lines [32]) with 0. change (lines [10]) with 1. lia.
Qed.
Lemma header_row ws : exists r, cli_header ws = legend ++ r
  /\ row (hw_of ws) None (bs "Device ID") (bs "Local Intf") (bs "Proto") (bs "Hold-time") (bs "Capability") (bs "Port ID") r.
Proof.
  pose proof (widths ws) as [W _]. unfold hw_of in *. unfold cli_header. destruct (cli_widths ws) as [[tw hw] pw]. cbn [fst snd] in *.
  exists (padr hw (bs "Device ID") ++ bs " Local Intf    Proto   Hold-time    Capability    Port ID" ++ [10]). split.
  - unfold legend. now rewrite <- !app_assoc.
  - exists (padr hw (bs "Device ID")), (padr 13 (bs "Local Intf")), (padr 7 (bs "Proto")), (padr 12 (bs "Hold-time")), (padr 13 (bs "Capability")), (bs "Port ID").
    split; [reflexivity|]. repeat (split; [apply padr_cell; unfold zlen; cbn; lia|]). reflexivity.
Qed.
Lemma render_rows Q ws ms : forall n, Forall (harmless Q) ms ->
  exists rs, Forall2 (row_of (hw_of ws) (pw_of ws)) ms rs /\ cli_render MODE_CLI ws n (map OShow ms) = concat rs.
Proof.
  induction ms as [|m ms IH]; intros n H; cbn [map cli_render]; [now exists []|].
  inversion H as [|? ? H1 H2]; subst. destruct (IH ((n + 1) mod 4294967296) H2) as (rs & F & ->).
  exists (cli_write ws m :: rs). split; [|reflexivity]. constructor; [now apply (write_row Q)|exact F].
Qed.
Lemma mode_cli letters : (forall x, In x letters -> x <> 98 /\ x <> 100 /\ x <> 102 /\ x <> 112) ->
  fold_left (fun m ch => mode_opt ch m) letters 0 = 0.
Proof.
  induction letters as [|ch letters IH]; intros H; cbn [fold_left]; [reflexivity|].
  replace (mode_opt ch 0) with 0; [apply IH; intros; apply H; now right|].
  destruct (H ch (or_introl eq_refl)) as (A & B & C & D). unfold mode_opt.
  replace (ch =? 98) with false by lia. replace (ch =? 100) with false by lia. replace (ch =? 102) with false by lia.
  now replace (ch =? 112) with false by lia.
Qed.
Theorem table_rows letters names ifindex now ws reads o text :
  usable letters names ifindex -> (forall x, In x letters -> x <> 98 /\ x <> 100 /\ x <> 102 /\ x <> 112) ->
  Forall bytes reads ->
  cli_main letters names ifindex now ws reads = Some (DOk (o, text)) ->
  exists hw pw ms heading rs,
  20 <= hw <= 30
  /\ match pw with
     | Some w => exists col, ws = Some col /\ 0 < col /\ hw + 50 + w = Z.max 80 col
     | None => forall col, ws = Some col -> col <= 0
     end
  /\ o = map OShow ms /\ text = legend ++ heading ++ concat rs
  /\ row hw None (bs "Device ID") (bs "Local Intf") (bs "Proto") (bs "Hold-time") (bs "Capability") (bs "Port ID") heading
  /\ Forall2 (row_of hw pw) ms rs
  /\ (forall m r, In (m, r) (combine ms rs) -> unbroken m -> lines r = 1).
Proof.
  intros Hu Hx Hr H. unfold cli_main in H. rewrite (conf_some letters names ifindex Hu) in H. cbn [obind] in H.
  rewrite indexes_some in H by apply Hu. cbn [obind] in H.
  assert (Hmode : cl_mode (conf_of letters) = MODE_CLI) by (now apply mode_cli).
  generalize dependent (conf_of letters). intros c H Hmode. injection H as H.
  apply dbind_ok in H as (o' & E & H). rewrite Hmode in H. injection H as <- <-.
  apply (loop_harmless (fun _ => True)) in E as (ms & -> & Hz & Hs); try assumption;
    [|now rewrite Hmode|easy|apply no_peers_clean].
  pose proof (widths ws) as [W1 W2]. destruct (header_row ws) as (heading & Eh & Rh).
  destruct (render_rows (fun _ => True) ws ms 0 Hs) as (rs & F & Er).
  exists (hw_of ws), (pw_of ws), ms, heading, rs.
  split; [exact W1|]. split; [exact W2|]. split; [reflexivity|]. split; [now rewrite Er, Eh, <- app_assoc|].
  split; [exact Rh|]. split; [exact F|].
  intros m r Hin Um. assert (K : row_of (hw_of ws) (pw_of ws) m r /\ harmless (fun _ => True) m).
  { clear -F Hs Hin. induction F as [|x y ms rs Hxy F IH]; [contradiction|]. inversion Hs; subst.
    destruct Hin as [[= <- <-]|Hin]; [now split|]. now apply IH. }
  destruct K as [K1 (_ & _ & _ & K2 & K3)]. now apply (row_lines _ _ m r K1).
Qed.
