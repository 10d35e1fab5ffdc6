(** Proofs about the full output of the client. *)
From Verif Require Import Base Vis Tlv Types Checks Msg Cdp Edp Fdp Ndp Lldp Protos Wire Util Child Cli Spec SpecAdv SpecRound SpecNet SpecChild SpecCli SpecAddr SpecPrint Lemmas.
From Verif Require Import WireProofs DecProofs ChildProofs2 DecCdp2 DecEdp DecLldp2 CliProofs3 CliProofs4 CliProofs5 PrintProofs PrintProofs2.

(** ** The silent decoders *)
Lemma edp_loop_out fuel : forall c k s n s', edp_loop fuel c k s = DOk (n, s') -> s_out s' = s_out s.
Proof.
  induction fuel as [|f IH]; intros c k s n s' H; cbn [edp_loop] in H; [discriminate|].
  CliProofs2.inv H; subst; try reflexivity; apply IH in H; rewrite H; reflexivity.
Qed.
Lemma fdp_loop_out fuel : forall c cap k s n s', fdp_loop fuel c cap k s = DOk (n, s') -> s_out s' = s_out s.
Proof.
  induction fuel as [|f IH]; intros c cap k s n s' H; cbn [fdp_loop] in H; [discriminate|].
  CliProofs2.inv H; subst; try reflexivity; apply IH in H; rewrite H; reflexivity.
Qed.
Lemma others_silent p c s n s' : In p [2; 3; 4] -> proto_decode p c s = DOk (n, s') -> s_out s' = s_out s.
Proof.
  intros [<-|[<-|[<-|[]]]]; unfold proto_decode; cbn [Z.eqb Pos.eqb PROTO_LLDP PROTO_CDP PROTO_EDP PROTO_FDP PROTO_NDP].
  - unfold edp_decode. intros H. CliProofs2.inv H. now apply edp_loop_out in H.
  - unfold fdp_decode. intros H. CliProofs2.inv H. now apply fdp_loop_out in H.
  - unfold ndp_decode. intros H. CliProofs2.inv H. now subst.
Qed.

(** ** One message *)
Section step.
Variables (c : cconf) (idx : list Z) (now : Z).
Hypotheses (Hmode : cl_mode c = 1) (Honce : cl_once c = false) (Hnow : 0 <= now < 9223372036854775808).
Lemma zlen_pad f : zlen f <= 1518 -> zlen (f ++ repeat 0 (Z.to_nat (1518 - zlen f))) = 1518.
Proof. intros H. rewrite zlen_app. unfold zlen at 2. rewrite repeat_length. lia. Qed.
Lemma same_frame (f g : list Z) : f ++ repeat 0 (Z.to_nat (1518 - zlen f)) = g ++ repeat 0 (Z.to_nat (1518 - zlen g)) -> zlen f = zlen g -> f = g.
Proof.
  intros H L. apply (f_equal (firstn (length f))) in H. rewrite firstn_app, Nat.sub_diag, firstn_all in H.
  assert (E : length f = length g) by (unfold zlen in L; lia). rewrite E in H.
  rewrite firstn_app, Nat.sub_diag, firstn_all in H. cbn [firstn] in H. now rewrite !app_nil_r in H.
Qed.
Lemma says_decode e text : genuine e -> entry_says now e text ->
  exists n s, proto_decode (q_proto e) (mkCtx (q_msg e) (q_len e) 2 (q_name e) (q_received e) now) (mkDst no_peers 0 (q_proto e) []) = DOk (n, s)
   /\ 0 < n /\ concat (s_out s) = text /\ s_ttl s = q_ttl e /\ peer_free (s_peer s) = no_peers.
Proof.
  intros Hg Hs. destruct (genuine_decode now e Hg) as (m & Hm & E).
  destruct Hg as (f & attrs & Hb & Hl & Hq & Hlen & _).
  assert (Hin : forall mode, in_buffer (mkCtx (q_msg e) (q_len e) mode (q_name e) (q_received e) now) f).
  { intros mode. exists (repeat 0 (Z.to_nat (1518 - zlen f))). cbn [d_buf d_len]. rewrite Hq, Hlen.
    split; [reflexivity|]. split; [now apply zlen_pad|]. split; [reflexivity|]. split; assumption. }
  destruct Hs as [g payload Hp Hq' Hl' Hf Hs|g payload used Hp Hq' Hl' Hf Hnet Hs];
    (assert (g = f) by (apply same_frame; congruence)); subst g.
  - assert (D : forall c s, proto_decode (q_proto e) c s = cdp_decode c s) by (intros; now destruct Hp as [<-|[<-|[]]]).
    rewrite D in *.
    apply (cdp_decode_iff _ f payload) in E; [|apply Hin|exact Hf|cbn; lia|reflexivity].
    destruct E as (_ & version & ttl & a & Ha & Ee). apply (f_equal s_ttl) in Ee. cbn [s_ttl] in Ee. subst ttl.
    destruct (cdp_prints (mkCtx (q_msg e) (q_len e) 2 (q_name e) (q_received e) now) f payload (mkDst no_peers 0 (q_proto e) []) text)
      as (s' & Es & Ho & Hpe & Ht); [apply Hin|exact Hf|reflexivity|exact Hs|].
    exists (zlen f), s'. split; [exact Es|]. split; [lia|]. split; [exact Ho|]. split.
    + rewrite Ht. inversion Ha; subst. reflexivity.
    + rewrite Hpe. reflexivity.
  - rewrite Hp in *. unfold proto_decode in *. cbn [Z.eqb PROTO_LLDP] in *.
    apply (lldp_decode_iff _ f payload) in E; [|apply Hin|exact Hf|reflexivity|reflexivity].
    destruct E as (u & ttl & a & Ha & _ & Ee). apply (f_equal s_ttl) in Ee. cbn [s_ttl] in Ee. subst ttl.
    destruct (lldp_prints (mkCtx (q_msg e) (q_len e) 2 (q_name e) (q_received e) now) f payload (mkDst no_peers 0 0 []) used text)
      as (s' & Es & Ho & Hpe & Ht); [apply Hin|exact Hf|reflexivity|reflexivity|exact Hnet|exact Hs|].
    exists (zlen f - zlen payload + used), s'. split; [exact Es|].
    assert (0 < used /\ zlen payload <= zlen f).
    { split.
      - inversion Hs; subst. subst used0. cbn [flat_map app]. rewrite zlen_app.
        match goal with |- context [zlen (lldp_bytes ?x)] => pose proof (lldp_bytes_len x) end.
        match goal with |- context [_ + zlen ?x] => pose proof (zlen_nonneg _ x) end.
        pose proof (zlen_nonneg _ chassis). cbn [snd] in *. lia.
      - destruct Hf; zlia. }
    split; [lia|]. split; [exact Ho|]. split.
    + inversion Ha as [chassis port t tlvs at' trailer L1 L2 L3 HF HB E1]. subst.
      apply (Ht chassis port (q_ttl e) (flat_map lldp_bytes (tlvs ++ [(0, [])]) ++ trailer)); try lia.
      unfold E1. cbn [flat_map app]. now rewrite <- !app_assoc.
    + apply peer_free_8. unfold zlen in Hpe. lia.
Qed.
Lemma step_says e text : genuine e -> wants c idx e = true -> fresh now e = true -> q_received e <= now -> entry_says now e text ->
  exists o, cli_step c idx now no_peers (entry_bytes e) = DOk (no_peers, true, o)
    /\ forall ws n rest, exists m, cli_render 1 ws n (o ++ rest) = text ++ [10] ++ cli_render 1 ws m rest.
Proof.
  intros Hg Hw Hf Hr Hs. destruct (says_decode e text Hg Hs) as (n & s & E & Hn & Ho & Ht & Hp).
  destruct Hg as (f & attrs & Hb & Hl & Hm & Hq & Hi & Hpr & Hna & Hre & _). unfold cli_step.
  rewrite (entry_proto e f), (entry_dlen e f), (entry_index e f), (entry_msg e f), (entry_received e f), (entry_name e) by assumption.
  unfold ETHER_MAX_LEN. replace (6 <=? _) with false by lia. replace ((_ <? 60) || _) with false by lia.
  unfold wants in Hw. apply andb_true_iff in Hw as [-> Hw]. cbn [negb].
  replace (negb (zlen idx =? 0) && _) with false by (destruct (zlen idx =? 0); [easy|cbn in Hw; now rewrite Hw]).
  rewrite Hmode, Honce. change (1 =? MODE_PRINT) with true. cbn [andb negb]. cbv zeta.
  change DECODE_PRINT with 2. rewrite <- Hm, <- Hq, E. replace (n =? 0) with false by lia.
  unfold fresh in Hf. replace ((_ <? -9223372036854775808) || _) with false by lia.
  rewrite Ht. replace (_ <? _) with false by lia. rewrite Hp. eexists. split; [reflexivity|].
  intros ws k rest. exists ((k + 1) mod 4294967296). rewrite <- app_assoc. cbn [app].
  assert (R : forall l k r, cli_render 1 ws k (map OText l ++ r) = concat l ++ cli_render 1 ws k r).
  { induction l as [|x l IH]; intros k' r; [reflexivity|]. cbn [map app cli_render concat]. now rewrite IH, app_assoc. }
  rewrite R, Ho. cbn [cli_render]. change (1 =? MODE_CLI) with false. change (1 =? MODE_BATCH) with false. reflexivity.
Qed.
Lemma loop_says es : Forall genuine es -> (forall e, In e es -> q_received e <= now) ->
  (forall e, In e es -> wants c idx e = true -> fresh now e = true) ->
  forall texts, Forall2 (entry_says now) (filter (wants c idx) es) texts ->
  exists o, cli_loop c idx now no_peers (map entry_bytes es) = DOk o
    /\ forall ws n, cli_render 1 ws n o = flat_map (fun t => t ++ [10]) texts.
Proof.
  induction 1 as [|e es Hg Hgs IH]; intros Hr Hf texts Ht; cbn [map cli_loop filter] in *.
  - inversion Ht. now exists [].
  - rewrite genuine_len by assumption. change (negb (1558 =? PARENT_MSG_MAX)) with false. cbv iota.
    destruct (wants c idx e) eqn:W.
    + inversion Ht as [|? text ? texts' T1 T2]; subst.
      destruct (step_says e text Hg W (Hf e (or_introl eq_refl) W) (Hr e (or_introl eq_refl)) T1) as (o & -> & Ho).
      destruct (IH (fun e' H => Hr e' (or_intror H)) (fun e' H => Hf e' (or_intror H)) texts' T2) as (o' & Eo & Ho').
      cbn [dbind andb]. rewrite Honce, Eo. cbn [dbind]. exists (o ++ o'). split; [reflexivity|].
      intros ws n. destruct (Ho ws n o') as (m & ->). cbn [flat_map]. now rewrite Ho', <- app_assoc.
    + rewrite (step_unwanted c idx now) by assumption. cbn [dbind andb app].
      destruct (IH (fun e' H => Hr e' (or_intror H)) (fun e' H => Hf e' (or_intror H)) texts Ht) as (o' & -> & Ho').
      cbn [dbind]. now exists o'.
Qed.
End step.

(** ** The command line *)
Lemma mode_print letters : (forall x, In x letters -> In x (bs "LCEFNfv")) -> forall m,
  fold_left (fun m ch => mode_opt ch m) letters m = if inl 102 letters then 1 else m.
Proof.
  induction letters as [|ch letters IH]; intros H m; [reflexivity|]. cbn [fold_left].
  rewrite IH by (intros x Hx; apply H; now right). unfold inl. cbn [existsb].
  destruct (H ch (or_introl eq_refl)) as [<-|[<-|[<-|[<-|[<-|[<-|[<-|[]]]]]]]];
    change (existsb (Z.eqb 102) letters) with (inl 102 letters); now destruct (inl 102 letters).
Qed.
Theorem client_full letters names ifindex now ws es texts :
  usable letters names ifindex -> In 102 letters -> (forall x, In x letters -> In x (bs "LCEFNfv")) ->
  0 <= now < 9223372036854775808 -> Forall genuine es -> (forall e, In e es -> q_received e <= now) ->
  (forall e, In e es -> q_proto e = 5 -> ~ In 67 letters) ->
  let wanted := filter (fun e => asked letters (q_proto e) && asked_if names ifindex (q_index e)) es in
  (forall e, In e wanted -> fresh now e = true) -> Forall2 (entry_says now) wanted texts ->
  exists o, cli_main letters names ifindex now ws (map entry_bytes es)
    = Some (DOk (o, flat_map (fun t => t ++ [10]) texts)).
Proof.
  intros Hu Hf Hl Hnow Hg Hr Hc wanted Hfr Ht.
  assert (W : forall e, In e es -> wants (conf_of letters) (map ifindex names) e = asked letters (q_proto e) && asked_if names ifindex (q_index e)).
  { intros e He. rewrite Forall_forall in Hg. rewrite conf_wants by (now apply genuine_proto, Hg).
    unfold selects. replace (negb _) with true; [now rewrite andb_true_r|].
    destruct (inl 67 letters) eqn:E; [|reflexivity]. apply inl_in in E. destruct (Z.eqb_spec (q_proto e) 5) as [K|K]; [|reflexivity].
    now destruct (Hc e He K). }
  assert (Hm : cl_mode (conf_of letters) = 1).
  { unfold conf_of. cbn [cl_mode]. rewrite mode_print by exact Hl. now apply inl_in in Hf as ->. }
  assert (Ho : cl_once (conf_of letters) = false).
  { unfold conf_of. cbn [cl_once]. destruct (inl 111 letters) eqn:E; [|reflexivity]. apply inl_in in E. apply Hl in E.
    exfalso. revert E. vm_compute. intuition discriminate. }
  unfold cli_main. rewrite (conf_some letters names ifindex Hu). cbn [obind].
  rewrite indexes_some by apply Hu. cbn [obind].
  destruct (loop_says (conf_of letters) (map ifindex names) now Hm Ho Hnow es Hg Hr) with (texts := texts) as (o & -> & Hren).
  - intros e He We. apply Hfr. apply filter_In. split; [exact He|]. rewrite <- W; assumption.
  - rewrite (filter_ext_in' _ _ _ es W). exact Ht.
  - exists o. cbn [dbind]. rewrite Hm. change (1 =? MODE_CLI) with false. cbv iota. cbn [app]. now rewrite Hren.
Qed.
