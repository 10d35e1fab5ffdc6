(** Forms. *)
From Verif Require Import Base Tlv Types Msg Protos Wire Util Parent Child Cli Post Spec SpecNet SpecChild SpecCli SpecPost Lemmas
  VisProofs CliProofs1 CliProofs2 CliProofs7.

Lemma split_none sep l : ~ In sep l -> cut_at sep l = (l, None).
Proof.
  induction l as [|b l IH]; intros H; [reflexivity|]. cbn [cut_at]. destruct (Z.eqb_spec b sep); [destruct H; now left|].
  rewrite IH; [reflexivity|]. intros K. apply H. now right.
Qed.
Lemma split_some sep a b : ~ In sep a -> cut_at sep (a ++ sep :: b) = (a, Some b).
Proof.
  induction a as [|x a IH]; intros H; cbn [app cut_at]; [now rewrite Z.eqb_refl|].
  destruct (Z.eqb_spec x sep); [destruct H; now left|]. rewrite IH; [reflexivity|]. intros K. apply H. now right.
Qed.
Fixpoint joined (f : list Z) (fs : list (list Z)) : list Z :=
  match fs with [] => f | g :: fs' => f ++ 38 :: joined g fs' end.
Lemma joined_len fs : forall f, (length fs <= length (joined f fs))%nat.
Proof.
  induction fs as [|g fs IH]; intros f; cbn [joined length]; [lia|]. rewrite app_length. cbn [length]. specialize (IH g). lia.
Qed.
Lemma form_joined fs : forall f n, ~ In 38 f -> Forall (fun g => ~ In 38 g) fs -> (length fs <= n)%nat ->
  form_read n (joined f fs) = map form_field (f :: fs).
Proof.
  induction fs as [|g fs IH]; intros f n Hf Hfs Hn; cbn [joined map].
  - destruct n; cbn [form_read]; now rewrite split_none by assumption.
  - cbn [length] in Hn. destruct n as [|n]; [lia|]. cbn [form_read]. rewrite split_some by assumption.
    apply Forall_cons_iff in Hfs as [Hg Hfs]. f_equal. rewrite IH; [reflexivity|assumption|assumption|lia].
Qed.
Lemma decode_literal l : ~ In 37 l -> ~ In 43 l -> urldecode l = l.
Proof.
  induction l as [|b l IH]; intros H1 H2; [reflexivity|]. cbn [urldecode].
  destruct (Z.eqb_spec b 43); [destruct H2; now left|]. destruct (Z.eqb_spec b 37); [destruct H1; now left|].
  f_equal. apply IH; intros K; [apply H1|apply H2]; now right.
Qed.
Lemma literal_decode l : literal l -> urldecode l = l.
Proof. intros (A & _ & B). now apply decode_literal. Qed.
Lemma field_named n v : ~ In 61 n -> literal n -> form_field (n ++ 61 :: v) = (n, urldecode v).
Proof. intros H L. unfold form_field. rewrite split_some by assumption. now rewrite (literal_decode n L). Qed.
Lemma literal_check l : forallb (fun b => negb (b =? 37) && negb (b =? 38) && negb (b =? 43)) l = true -> literal l.
Proof.
  intros H. rewrite forallb_forall in H. repeat split; intros K; apply H in K; discriminate.
Qed.
Lemma high_literal l : high l -> literal l.
Proof. unfold high. rewrite Forall_forall. intros H. repeat split; intros K; apply H in K; lia. Qed.
Lemma literal_app a b : literal a -> literal b -> literal (a ++ b).
Proof. intros (A & B & C) (D & E & F). repeat split; rewrite in_app_iff; tauto. Qed.
Lemma texty_range l : texty l -> forall b, In b l -> 0 < b < 256.
Proof. unfold texty. rewrite Forall_forall. intros H b Hb. apply H in Hb. cbn in Hb. lia. Qed.
Lemma attr_texty m i : clean (sh_peer m) -> texty (attr_of m i).
Proof. intros H. unfold attr_of. destruct (nth _ _ _) eqn:E; [|constructor]. now apply (H i). Qed.
Lemma attr_high m : clean (sh_peer m) -> high (attr_of m 3).
Proof. intros H. unfold attr_of. destruct (nth 3 _ _) eqn:E; [|constructor]. now apply (H 3%nat). Qed.
Lemma proto_literal p : literal (proto_text p).
Proof.
  unfold proto_text. destruct p as [|p|p]; try (now apply literal_check).
  repeat match goal with |- context [match ?x with _ => _ end] => destruct x end; now apply literal_check.
Qed.
Lemma str_attr m i : 0 <= i -> str (pget (sh_peer m) i) = attr_of m (Z.to_nat i).
Proof. intros H. unfold str, pget, attr_of. reflexivity. Qed.
Lemma not_and b v : ~ In 38 b -> ~ In 38 v -> ~ In 38 (b ++ 61 :: v).
Proof. intros A B. rewrite in_app_iff. cbn. lia || (intros [K|[K|K]]; [tauto|discriminate|tauto]). Qed.
Lemma form_body enc me m : url_encoder enc -> literal me -> harmless literal m ->
  form (http_body enc me m) = form_of me m [13; 10; 13; 10].
Proof.
  intros He Hme (Hn & Hc & Ht & Hh & Hp). destruct (proto_name_text (sh_proto m) Hp) as [Ep _].
  destruct (He (attr_of m 0) (texty_range _ (attr_texty m 0 Hc))) as [D0 N0].
  destruct (He (attr_of m 1) (texty_range _ (attr_texty m 1 Hc))) as [D1 N1].
  pose proof (high_literal _ (attr_high m Hc)) as L3. pose proof (high_literal _ (dec_high (sh_ttl m))) as Lt.
  pose proof (high_literal _ (dec_high (sh_hold m))) as Lh.
  assert (Lr : literal [13; 10; 13; 10]) by now apply literal_check.
  pose proof (literal_app _ _ Lh Lr) as Ll. pose proof (proto_literal (sh_proto m)) as Lp.
  set (fields := [(bs "interface", sh_name m); (bs "peer_hostname", enc (attr_of m 0)); (bs "peer_portname", enc (attr_of m 1));
    (bs "protocol", proto_text (sh_proto m)); (bs "capabilities", attr_of m 3); (bs "ttl", dec (sh_ttl m));
    (bs "holdtime", dec (sh_hold m) ++ [13; 10; 13; 10])]).
  assert (E : http_body enc me m = joined (bs "hostname" ++ 61 :: me) (map (fun '(n, v) => n ++ 61 :: v) fields)).
  { unfold http_body, fields. rewrite Ep. rewrite !str_attr by (unfold PEER_HOSTNAME, PEER_PORTNAME, PEER_CAP; lia).
    change (Z.to_nat PEER_HOSTNAME) with 0%nat. change (Z.to_nat PEER_PORTNAME) with 1%nat. change (Z.to_nat PEER_CAP) with 3%nat.
    cbn [map joined]. rewrite <- !app_assoc. reflexivity. }
  unfold form. rewrite E. rewrite form_joined.
  - cbn [map]. unfold form_of, fields. cbn [map].
    repeat (rewrite field_named by (try (apply literal_check; reflexivity); cbn; lia)).
    rewrite D0, D1. rewrite <- !dec_any by lia.
    rewrite !literal_decode by assumption. reflexivity.
  - apply not_and; [cbn; lia|apply Hme].
  - unfold fields. cbn [map].
    repeat (apply Forall_cons; [apply not_and; [cbn; lia|first [assumption|apply Hn|apply Lp|apply L3|apply Lt|apply Ll]]|]).
    constructor.
  - apply joined_len.
Qed.
Lemma percent_encoder : url_encoder percent.
Proof.
  assert (Hx : forall n, 0 <= n < 16 -> hexval (hexdigit n) = Some n).
  { intros n Hn. unfold hexdigit, hexval. destruct (Z.ltb_spec n 10).
    - replace ((48 <=? 48 + n) && (48 + n <=? 57)) with true by lia. f_equal. lia.
    - replace ((48 <=? 55 + n) && (55 + n <=? 57)) with false by lia.
      replace ((65 <=? 55 + n) && (55 + n <=? 70)) with true by lia. f_equal. lia. }
  intros s H. unfold percent. induction s as [|b s IH]; [now split|]. destruct IH as [IH1 IH2]; [intros; apply H; now right|].
  specialize (H b (or_introl eq_refl)). cbn [flat_map]. destruct (unreserved b) eqn:U.
  - assert (b <> 37 /\ b <> 43 /\ b <> 38) by (unfold unreserved in U; lia). split.
    + cbn [app urldecode]. replace (b =? 43) with false by lia. replace (b =? 37) with false by lia. now rewrite IH1.
    + cbn [app In]. intros [K|K]; [lia|tauto].
  - pose proof (Z.div_mod b 16 ltac:(lia)). pose proof (Z.mod_pos_bound b 16 ltac:(lia)).
    assert (0 <= b / 16 < 16) by (split; [apply Z.div_pos; lia|apply Z.div_lt_upper_bound; lia]). split.
    + cbn [app urldecode]. change (37 =? 43) with false. change (37 =? 37) with true. cbv iota.
      rewrite !Hx by lia. rewrite IH1. f_equal. lia.
    + cbn [app In]. unfold hexdigit. intros [K|[K|[K|K]]]; [discriminate| | |tauto]; destruct (_ <? 10); lia.
Qed.
