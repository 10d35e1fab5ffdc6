(** The EDP, FDP and NDP decoders: functions of the frame bytes alone, and what
    they accept. *)
From Verif Require Import Base Vis Tlv Types Checks Msg Cdp Edp Fdp Ndp Spec Lemmas VisProofs EncProofs
  DecProofs DecCheck DecCdp DecCdp2.

Lemma decode_string_view s acc sl buf p v :
  slot_no sl = PEER_HOSTNAME \/ slot_no sl = PEER_PORTNAME ->
  s_peer s = report acc -> view buf p v -> bytes v ->
  tlv_value_str (s_peer s) (slot_no sl) (zlen v) buf p =
  DOk (report (acc ++ [(sl, shown show_strict v)])).
Proof.
  intros Hsl Hs Hv Hb. unfold tlv_value_str. rewrite Hs, <- peer_str_report.
  unfold PEER_STR. destruct (pget (report acc) (slot_no sl)); [easy|].
  now rewrite (tlv_value_vis_view _ _ _ Hv Hb).
Qed.

(** ** EDP *)
Definition edp_attrs (t : Z) (v : list Z) : list (slot * list Z) :=
  if t =? 1 then [(Host, shown show_strict v)] else [].
Fixpoint p_edp_loop (fuel : nat) (r : list Z) : option (list (slot * list Z)) :=
  match fuel with
  | O => None
  | S f =>
      match r with
      | [] => Some []
      | m :: t :: l1 :: l2 :: r' =>
          let l := (l1 * 256 + l2 - 4) mod 65536 in
          if zlen r' <? l then None
          else let? a := p_edp_loop f (after l r') in Some (edp_attrs t (sized l r') ++ a)
      | _ => None
      end
  end.
Lemma edp_loop_pure fuel : forall c p r s acc,
  view (d_buf c) p r -> bytes r -> (length r < fuel)%nat -> s_peer s = report acc ->
  edp_loop fuel c (mkCur p (zlen r)) s =
  lift (let? a := p_edp_loop fuel r in Some (p + zlen r, set_peer s (report (acc ++ a)))).
Proof.
  induction fuel as [|fuel IH]; intros c p r s acc Hv Hb Hf Hs; [lia|].
  cbn [edp_loop p_edp_loop len pos]. rewrite (grab_edp _ _ _ Hv).
  destruct r as [|m r].
  { cbn [obind lift]. rewrite zlen_nil, Z.add_0_r, set_peer_id by easy. reflexivity. }
  replace (zlen (m :: r) =? 0) with false by zlia.
  destruct r as [|t [|l1 [|l2 r]]]; try reflexivity. cbn [dbind len pos].
  apply view_4 in Hv. do 4 (let H := fresh in apply bytes_cons_inv in Hb as [H Hb]).
  set (l := (l1 * 256 + l2 - 4) mod 65536). assert (Hl : 0 <= l) by lia.
  unfold EDP_TYPE_DISPLAY, DECODE_STRING. cbn [len pos].
  destruct (zlen r <? l) eqn:E1.
  { replace (l <=? zlen r) with false by lia. unfold SKIP. cbn [len pos].
    replace (l <=? zlen r) with false by lia. now destruct (t =? 1). }
  replace (l <=? zlen r) with true by lia.
  assert (Ls : zlen (sized l r) = l) by (apply zlen_sized; lia).
  assert (La : zlen (after l r) = zlen r - l) by (apply zlen_after; lia).
  assert (Hva : view (d_buf c) (p + 4 + l) (after l r)) by (apply (view_skipn _ _ _ l Hv); lia).
  assert (Hba : bytes (after l r)) by now apply bytes_skipn.
  assert (Hfa : (length (after l r) < fuel)%nat).
  { unfold after. rewrite skipn_length. cbn [length] in *. lia. }
  unfold edp_attrs. destruct (t =? 1) eqn:Et.
  - assert (Hd : tlv_value_str (s_peer s) PEER_HOSTNAME l (d_buf c) (p + 4)
      = DOk (report (acc ++ [(Host, shown show_strict (sized l r))]))).
    { rewrite <- Ls at 1. apply (decode_string_view s acc Host); try easy; [now left| |].
      - now apply view_firstn.
      - now apply bytes_firstn. }
    rewrite Hd. cbn [dbind]. rewrite <- La.
    rewrite (IH c _ _ _ (acc ++ [(Host, shown show_strict (sized l r))])); try easy.
    destruct (p_edp_loop fuel (after l r)); [|easy]. cbn [obind lift].
    rewrite set_peer_twice, <- app_assoc, La. do 2 f_equal. zlia.
  - unfold SKIP. cbn [len pos]. replace (l <=? zlen r) with true by lia. cbn [dbind]. rewrite <- La.
    rewrite (IH c _ _ _ acc); try easy.
    destruct (p_edp_loop fuel (after l r)); [|easy]. cbn [obind lift app].
    rewrite La. do 2 f_equal. zlia.
Qed.
Lemma p_edp_loop_fuel : forall f1 f2 r, (length r < f1)%nat -> (length r < f2)%nat ->
  p_edp_loop f1 r = p_edp_loop f2 r.
Proof.
  induction f1 as [|f1 IH]; intros [|f2] r H1 H2; try lia. cbn [p_edp_loop].
  destruct r as [|t1 [|t2 [|l1 [|l2 r]]]]; try reflexivity.
  destruct (zlen r <? _); [easy|].
  rewrite (IH f2); [easy| |]; unfold after; rewrite skipn_length; cbn [length] in *; lia.
Qed.
Definition p_edp (payload : list Z) : option (list (slot * list Z)) :=
  if zlen payload <? 16 then None
  else if negb (nth 0 payload 0 =? 1) then None
  else p_edp_loop (S (length payload)) (after 16 payload).

Theorem edp_decode_pure c f payload s :
  in_buffer c f -> edp_frame f payload -> s_peer s = no_peers ->
  edp_decode c s =
  lift (let? a := p_edp payload in Some (zlen f, set_peer (set_ttl s 180) (report a))).
Proof.
  intros Hin Hf Hs. unfold edp_decode, edp_check.
  destruct (llc_check_some [0; 224; 43; 0; 0; 0] [0; 224; 43] 187 _ _ _ Hin eq_refl eq_refl Hf)
    as (p & Hc & Hv & Hp & Hl).
  change (llc_check EDP_MULTICAST_ADDR LLC_ORG_EXTREME LLC_PID_EDP) with
    (llc_check [0; 224; 43; 0; 0; 0] [0; 224; 43] 187).
  rewrite Hc. cbn [dbind].
  assert (Hbp : bytes payload).
  { destruct Hin as (tail & _ & _ & _ & _ & Hb).
    destruct Hf; rewrite !bytes_app in Hb; apply Hb. }
  destruct Hin as (tail & Eb & Lb & Ed & Lf & _). rewrite Ed.
  rewrite szsub_le by zlia. replace (zlen f - p) with (zlen payload) by lia.
  unfold p_edp. destruct (zlen payload <? 16) eqn:E1; [easy|].
  rewrite (rdn_view _ _ _ 16 Hv) by zlia. cbn [dbind].
  replace (nth 0 (firstn (Z.to_nat 16) payload) 0) with (nth 0 payload 0) by now destruct payload.
  destruct (negb _); [easy|].
  rewrite szsub_le by zlia.
  assert (La : zlen (after 16 payload) = zlen payload - 16) by (apply zlen_after; lia).
  rewrite <- La. rewrite (edp_loop_pure _ _ _ _ _ []).
  - rewrite (p_edp_loop_fuel _ (S (length payload))).
    + destruct (p_edp_loop _ _); [|easy]. cbn [obind lift app]. unfold LADVD_TTL. do 2 f_equal. lia.
    + unfold zlen in *. lia.
    + unfold after. rewrite skipn_length. lia.
  - apply (view_skipn _ _ _ 16 Hv). lia.
  - now apply bytes_skipn.
  - unfold zlen in *. lia.
  - exact Hs.
Qed.

Lemma edp_means_attrs m t v a : edp_means (m, (t, v)) a <-> a = edp_attrs t v.
Proof.
  unfold edp_attrs. split.
  - intros H. inversion H; subst; [easy|]. now replace (t =? 1) with false by lia.
  - intros ->. destruct (t =? 1) eqn:E; [apply Z.eqb_eq in E; subst; constructor|constructor; lia].
Qed.
Lemma edp_bytes_len x : 4 <= zlen (edp_bytes x).
Proof. destruct x as [m [t v]]. unfold edp_bytes. zlia. Qed.
Lemma edp_loop_tlv fuel m t v r : edp_fits (m, (t, v)) ->
  p_edp_loop (S fuel) (edp_bytes (m, (t, v)) ++ r) =
  (let? a := p_edp_loop fuel r in Some (edp_attrs t v ++ a)).
Proof.
  intros (Hm & Ht & Hv). cbn [fst snd] in *. unfold edp_bytes.
  rewrite <- !app_assoc. cbn [U16 app p_edp_loop].
  pose proof (zlen_nonneg _ v).
  replace (((4 + zlen v) / 256 * 256 + (4 + zlen v) mod 256 - 4) mod 65536) with (zlen v) by lia.
  replace (zlen (v ++ r) <? zlen v) with false by zlia.
  now rewrite (sized_app _ _ v), (after_app _ _ v) by easy.
Qed.
Lemma edp_loop_sound : forall fuel r a, bytes r -> zlen r < 65532 ->
  p_edp_loop fuel r = Some a ->
  exists tlvs attrs, r = flat_map edp_bytes tlvs /\ Forall edp_fits tlvs
    /\ Forall2 edp_means tlvs attrs /\ a = concat attrs.
Proof.
  induction fuel as [|fuel IH]; intros r a Hb Hl H; [easy|]. cbn [p_edp_loop] in H.
  destruct r as [|m [|t [|l1 [|l2 r]]]]; try easy.
  { injection H as <-. exists [], []. repeat split; constructor. }
  do 4 (let H := fresh in apply bytes_cons_inv in Hb as [H Hb]).
  destruct (zlen r <? _) eqn:E1; [easy|].
  assert (Hl4 : (l1 * 256 + l2 - 4) mod 65536 = l1 * 256 + l2 - 4) by zlia.
  rewrite Hl4 in *. set (l := l1 * 256 + l2 - 4) in *.
  assert (Ls : zlen (sized l r) = l) by (apply zlen_sized; zlia).
  assert (La : zlen (after l r) = zlen r - l) by (apply zlen_after; zlia).
  apply obind_some in H as (a' & H & [= <-]).
  apply IH in H; [|now apply bytes_skipn|zlia].
  destruct H as (tlvs & attrs & Er & HF & HF2 & ->).
  exists ((m, (t, sized l r)) :: tlvs), (edp_attrs t (sized l r) :: attrs). repeat split.
  - cbn [flat_map]. unfold edp_bytes at 1. rewrite Ls, <- Er, <- !app_assoc, sized_after.
    unfold U16, l. cbn [app].
    replace ((4 + (l1 * 256 + l2 - 4)) / 256) with l1 by lia.
    replace ((4 + (l1 * 256 + l2 - 4)) mod 256) with l2 by lia. reflexivity.
  - constructor; [|easy]. unfold edp_fits, byte. cbn [fst snd]. rewrite Ls. lia.
  - constructor; [|easy]. now apply edp_means_attrs.
Qed.
Lemma edp_loop_complete : forall tlvs fuel attrs,
  Forall edp_fits tlvs -> Forall2 edp_means tlvs attrs -> (length tlvs < fuel)%nat ->
  p_edp_loop fuel (flat_map edp_bytes tlvs) = Some (concat attrs).
Proof.
  induction tlvs as [|[m [t v]] tlvs IH]; intros fuel attrs HF HF2 Hf;
    (destruct fuel as [|fuel]; [cbn in Hf; lia|]).
  - inversion HF2; subst. reflexivity.
  - inversion HF as [|? ? Hfit HF']; subst. inversion HF2 as [|? at1 ? attrs' Hm1 HF2']; subst.
    cbn [flat_map]. rewrite edp_loop_tlv by easy. rewrite (IH fuel attrs') by (try easy; cbn in Hf; lia).
    cbn [obind concat]. apply edp_means_attrs in Hm1. now subst.
Qed.
Lemma edp_tlvs_count tlvs : 4 * zlen tlvs <= zlen (flat_map edp_bytes tlvs).
Proof.
  induction tlvs as [|r recs IH]; [easy|]. cbn [flat_map]. pose proof (edp_bytes_len r). zlia.
Qed.
Lemma p_edp_iff payload a : bytes payload -> zlen payload < 65532 ->
  p_edp payload = Some a <-> edp_packet_means payload a.
Proof.
  intros Hb Hl. unfold p_edp. split.
  - destruct (zlen payload <? 16) eqn:E1; [easy|].
    destruct (negb (nth 0 payload 0 =? 1)) eqn:E2; [easy|]. intros H.
    assert (La : zlen (after 16 payload) = zlen payload - 16) by (apply zlen_after; lia).
    apply edp_loop_sound in H; [|now apply bytes_skipn|lia].
    destruct H as (tlvs & attrs & Er & HF & HF2 & ->).
    assert (Ls : zlen (sized 16 payload) = 16) by (apply zlen_sized; lia).
    rewrite <- (sized_after _ 16 payload), Er.
    assert (Hd : exists h, sized 16 payload = 1 :: h).
    { unfold sized. destruct payload as [|b payload]; [discriminate E2|]. cbn [nth] in E2.
      replace b with 1 by lia. exists (firstn 15 payload). reflexivity. }
    destruct Hd as [h Eh]. rewrite Eh in *. cbn [app].
    apply (edp_packet_intro h tlvs attrs); try easy. zlia.
  - intros H. inversion H as [hdr tlvs attrs Hh HF HF2]; subst. clear H.
    replace (zlen ([1] ++ hdr ++ flat_map edp_bytes tlvs) <? 16) with false by zlia.
    cbn [app nth Z.eqb Pos.eqb negb].
    change (1 :: hdr ++ flat_map edp_bytes tlvs) with ((1 :: hdr) ++ flat_map edp_bytes tlvs).
    rewrite after_app by zlia. apply edp_loop_complete; try easy.
    pose proof (edp_tlvs_count tlvs). rewrite app_length. unfold zlen in *. lia.
Qed.
Theorem edp_decode_iff c f payload s n s' :
  in_buffer c f -> edp_frame f payload -> s_peer s = no_peers ->
  edp_decode c s = DOk (n, s') <->
  n = zlen f /\
  exists attrs, edp_packet_means payload attrs
    /\ s' = mkDst (report attrs) 180 (s_proto s) (s_out s).
Proof.
  intros Hin Hf Hs. rewrite (edp_decode_pure c f payload s Hin Hf Hs).
  assert (Hb : bytes payload /\ zlen payload < 65532).
  { destruct Hin as (tail & _ & _ & _ & Hl & Hb).
    destruct Hf; (split; [rewrite !bytes_app in Hb; apply Hb|zlia]). }
  destruct Hb as [Hb Hl]. pose proof (fun a => p_edp_iff payload a Hb Hl) as Hiff.
  destruct (p_edp payload) as [a|]; cbn [obind lift]; split.
  - intros [= <- <-]. split; [easy|]. exists a. split; [now apply Hiff|reflexivity].
  - intros [-> (a' & Ha & ->)]. apply Hiff in Ha. now injection Ha as <-.
  - easy.
  - intros [_ (a' & Ha & _)]. now apply Hiff in Ha.
Qed.

(** ** FDP *)
Lemma fdp_cap_role b : fdp_cap_decode (cstr b) = fdp_role b.
Proof.
  unfold fdp_cap_decode, fdp_role. rewrite cstr_before_nul. cbv zeta.
  assert (H : forall x y, beq x y = if list_eq_dec Z.eq_dec x y then true else false).
  { intros x y. destruct (list_eq_dec Z.eq_dec x y) as [->|N]; [apply beq_refl|now apply beq_false]. }
  rewrite !H. repeat destruct (list_eq_dec _ _ _); reflexivity.
Qed.
Definition fdp_attrs (t : Z) (v : list Z) : list (slot * list Z) :=
  if t =? 1 then [(Host, shown show_strict v)]
  else if t =? 3 then [(Port, shown show_strict v)]
  else if t =? 4 then [(Caps, letters (fdp_role v))]
  else [].
Fixpoint p_fdp_loop (fuel : nat) (r : list Z) : option (list (slot * list Z)) :=
  match fuel with
  | O => None
  | S f =>
      match r with
      | [] => Some []
      | t1 :: t2 :: l1 :: l2 :: r' =>
          let l := (l1 * 256 + l2 - 4) mod 65536 in
          if zlen r' <? l then None
          else let? a := p_fdp_loop f (after l r') in
               Some (fdp_attrs (t1 * 256 + t2) (sized l r') ++ a)
      | _ => None
      end
  end.
(** The accumulated capability word: what counts is that nothing is
    accumulated before the first capability TLV. *)
Definition cap_inv (cap : Z) (acc : list (slot * list Z)) : Prop :=
  first_of Caps acc = None -> cap = 0.
Lemma cap_store s acc cap v : s_peer s = report acc -> cap_inv cap acc ->
  tlv_value_cap (s_peer s) (Z.lor cap (fdp_role v)) =
  report (acc ++ [(Caps, letters (fdp_role v))]).
Proof.
  intros Hs Hc. unfold tlv_value_cap. rewrite Hs, <- peer_str_report.
  unfold PEER_STR. change PEER_CAP with (slot_no Caps). rewrite pget_report.
  unfold cap_inv in Hc. destruct (first_of Caps acc); [easy|].
  rewrite (Hc eq_refl), Z.lor_0_l, cap_str_letters. reflexivity.
Qed.
Lemma cap_inv_more cap acc a : cap_inv cap acc -> cap_inv cap (acc ++ a).
Proof. unfold cap_inv. rewrite first_of_app. destruct (first_of Caps acc); [easy|auto]. Qed.
Lemma cap_inv_set cap acc v : cap_inv cap (acc ++ [(Caps, v)]).
Proof. unfold cap_inv. rewrite first_of_app. now destruct (first_of Caps acc). Qed.

Lemma fdp_loop_pure fuel : forall c cap p r s acc,
  view (d_buf c) p r -> bytes r -> (length r < fuel)%nat -> s_peer s = report acc ->
  cap_inv cap acc ->
  fdp_loop fuel c cap (mkCur p (zlen r)) s =
  lift (let? a := p_fdp_loop fuel r in Some (p + zlen r, set_peer s (report (acc ++ a)))).
Proof.
  induction fuel as [|fuel IH]; intros c cap p r s acc Hv Hb Hf Hs Hcap; [lia|].
  cbn [fdp_loop p_fdp_loop len pos]. rewrite (grab_cdp _ _ _ Hv).
  destruct r as [|t1 r].
  { cbn [obind lift]. rewrite zlen_nil, Z.add_0_r, set_peer_id by easy. reflexivity. }
  replace (zlen (t1 :: r) =? 0) with false by zlia.
  destruct r as [|t2 [|l1 [|l2 r]]]; try reflexivity. cbn [dbind len pos].
  apply view_4 in Hv. do 4 (let H := fresh in apply bytes_cons_inv in Hb as [H Hb]).
  set (l := (l1 * 256 + l2 - 4) mod 65536). assert (Hl : 0 <= l) by lia.
  set (t := t1 * 256 + t2).
  unfold FDP_TYPE_DEVICE_ID, FDP_TYPE_PORT_ID, FDP_TYPE_CAPABILITIES, DECODE_STRING, GRAB_BYTES, GRAB, SKIP.
  cbn [len pos].
  destruct (zlen r <? l) eqn:E1.
  { replace (l <=? zlen r) with false by lia.
    now destruct (t =? 1), (t =? 3), (t =? 4). }
  replace (l <=? zlen r) with true by lia.
  assert (Ls : zlen (sized l r) = l) by (apply zlen_sized; lia).
  assert (La : zlen (after l r) = zlen r - l) by (apply zlen_after; lia).
  assert (Hva : view (d_buf c) (p + 4 + l) (after l r)) by (apply (view_skipn _ _ _ l Hv); lia).
  assert (Hba : bytes (after l r)) by now apply bytes_skipn.
  assert (Hfa : (length (after l r) < fuel)%nat).
  { unfold after. rewrite skipn_length. cbn [length] in *. lia. }
  assert (Hvs : view (d_buf c) (p + 4) (sized l r)) by now apply view_firstn.
  assert (Hbs : bytes (sized l r)) by now apply bytes_firstn.
  unfold fdp_attrs. destruct (t =? 1) eqn:Et1; [|destruct (t =? 3) eqn:Et3; [|destruct (t =? 4) eqn:Et4]].
  - assert (Hd : tlv_value_str (s_peer s) PEER_HOSTNAME l (d_buf c) (p + 4)
      = DOk (report (acc ++ [(Host, shown show_strict (sized l r))]))).
    { rewrite <- Ls at 1. apply (decode_string_view s acc Host); try easy; now left. }
    rewrite Hd. cbn [dbind]. rewrite <- La.
    rewrite (IH c _ _ _ _ (acc ++ [(Host, shown show_strict (sized l r))])); try easy.
    2: now apply cap_inv_more.
    destruct (p_fdp_loop fuel (after l r)); [|easy]. cbn [obind lift].
    rewrite set_peer_twice, <- app_assoc, La. do 2 f_equal. zlia.
  - assert (Hd : tlv_value_str (s_peer s) PEER_PORTNAME l (d_buf c) (p + 4)
      = DOk (report (acc ++ [(Port, shown show_strict (sized l r))]))).
    { rewrite <- Ls at 1. apply (decode_string_view s acc Port); try easy; now right. }
    rewrite Hd. cbn [dbind]. rewrite <- La.
    rewrite (IH c _ _ _ _ (acc ++ [(Port, shown show_strict (sized l r))])); try easy.
    2: now apply cap_inv_more.
    destruct (p_fdp_loop fuel (after l r)); [|easy]. cbn [obind lift].
    rewrite set_peer_twice, <- app_assoc, La. do 2 f_equal. zlia.
  - rewrite (rdn_view _ _ _ l Hv) by lia. cbn [dbind]. fold (sized l r). rewrite fdp_cap_role.
    rewrite (cap_store s acc cap (sized l r) Hs Hcap). rewrite <- La.
    rewrite (IH c _ _ _ _ (acc ++ [(Caps, letters (fdp_role (sized l r)))])); try easy.
    2: now apply cap_inv_set.
    destruct (p_fdp_loop fuel (after l r)); [|easy]. cbn [obind lift].
    rewrite set_peer_twice, <- app_assoc, La. do 2 f_equal. zlia.
  - cbn [dbind]. rewrite <- La. rewrite (IH c _ _ _ _ acc); try easy.
    destruct (p_fdp_loop fuel (after l r)); [|easy]. cbn [obind lift app].
    rewrite La. do 2 f_equal. zlia.
Qed.
Lemma p_fdp_loop_fuel : forall f1 f2 r, (length r < f1)%nat -> (length r < f2)%nat ->
  p_fdp_loop f1 r = p_fdp_loop f2 r.
Proof.
  induction f1 as [|f1 IH]; intros [|f2] r H1 H2; try lia. cbn [p_fdp_loop].
  destruct r as [|t1 [|t2 [|l1 [|l2 r]]]]; try reflexivity.
  destruct (zlen r <? _); [easy|].
  rewrite (IH f2); [easy| |]; unfold after; rewrite skipn_length; cbn [length] in *; lia.
Qed.
Definition p_fdp (payload : list Z) : option (Z * list (slot * list Z)) :=
  match payload with
  | v :: ttl :: _ :: _ :: r =>
      if negb (v =? 1) then None
      else let? a := p_fdp_loop (S (length r)) r in Some (ttl, a)
  | _ => None
  end.
Theorem fdp_decode_pure c f payload s :
  in_buffer c f -> fdp_frame f payload -> s_peer s = no_peers ->
  fdp_decode c s =
  lift (let? (ttl, a) := p_fdp payload in Some (zlen f, set_peer (set_ttl s ttl) (report a))).
Proof.
  intros Hin Hf Hs. unfold fdp_decode, fdp_check.
  destruct (llc_check_some [1; 224; 82; 204; 204; 204] [0; 224; 82] 8192 _ _ _ Hin eq_refl eq_refl Hf)
    as (p & Hc & Hv & Hp & Hl).
  change (llc_check FDP_MULTICAST_ADDR LLC_ORG_FOUNDRY LLC_PID_FDP) with
    (llc_check [1; 224; 82; 204; 204; 204] [0; 224; 82] 8192).
  rewrite Hc. cbn [dbind].
  assert (Hbp : bytes payload).
  { destruct Hin as (tail & _ & _ & _ & _ & Hb).
    destruct Hf; rewrite !bytes_app in Hb; apply Hb. }
  destruct Hin as (tail & Eb & Lb & Ed & Lf & _). rewrite Ed.
  rewrite szsub_le by zlia. replace (zlen f - p) with (zlen payload) by lia.
  unfold p_fdp. destruct payload as [|v [|ttl [|x [|y r]]]]; try reflexivity.
  replace (zlen (v :: ttl :: x :: y :: r) <? 4) with false by zlia.
  rewrite (rdn_view _ _ _ 4 Hv) by zlia.
  change (firstn (Z.to_nat 4) (v :: ttl :: x :: y :: r)) with [v; ttl; x; y]. cbn [dbind nth].
  destruct (negb _); [easy|]. apply view_4 in Hv.
  rewrite szsub_le by zlia. replace (zlen (v :: ttl :: x :: y :: r) - 4) with (zlen r) by zlia.
  do 4 (let H := fresh in apply bytes_cons_inv in Hbp as [H Hbp]).
  rewrite (fdp_loop_pure _ _ _ _ _ _ []); try easy.
  2:{ zl. unfold zlen in *. lia. }
  rewrite (p_fdp_loop_fuel (S (Z.to_nat (zlen f))) (S (length r))).
  2:{ zl. unfold zlen in *. lia. }
  2: lia.
  destruct (p_fdp_loop _ _); [|easy]. cbn [obind lift app]. do 2 f_equal. zlia.
Qed.

Lemma fdp_means_attrs t v a : fdp_means (t, v) a <-> a = fdp_attrs t v.
Proof.
  unfold fdp_attrs. split.
  - intros H. inversion H as [| | |? ? Hn]; subst; try easy. cbn in Hn.
    replace (t =? 1) with false by lia. replace (t =? 3) with false by lia.
    now replace (t =? 4) with false by lia.
  - intros ->. destruct (t =? 1) eqn:E1; [apply Z.eqb_eq in E1; subst; constructor|].
    destruct (t =? 3) eqn:E3; [apply Z.eqb_eq in E3; subst; constructor|].
    destruct (t =? 4) eqn:E4; [apply Z.eqb_eq in E4; subst; constructor|].
    constructor. cbn. lia.
Qed.
Lemma fdp_loop_tlv fuel t v r : cdp_fits (t, v) ->
  p_fdp_loop (S fuel) (cdp_bytes (t, v) ++ r) =
  (let? a := p_fdp_loop fuel r in Some (fdp_attrs t v ++ a)).
Proof.
  intros [Ht Hv]. cbn [fst snd] in *. unfold cdp_bytes. cbn [fst snd].
  rewrite <- !app_assoc. cbn [U16 app p_fdp_loop].
  pose proof (zlen_nonneg _ v).
  replace (((4 + zlen v) / 256 * 256 + (4 + zlen v) mod 256 - 4) mod 65536) with (zlen v) by lia.
  replace (zlen (v ++ r) <? zlen v) with false by zlia.
  rewrite (sized_app _ _ v), (after_app _ _ v) by easy.
  now replace (t / 256 * 256 + t mod 256) with t by lia.
Qed.
Lemma fdp_loop_sound : forall fuel r a, bytes r -> zlen r < 65532 ->
  p_fdp_loop fuel r = Some a ->
  exists tlvs attrs, r = flat_map cdp_bytes tlvs /\ Forall cdp_fits tlvs
    /\ Forall2 fdp_means tlvs attrs /\ a = concat attrs.
Proof.
  induction fuel as [|fuel IH]; intros r a Hb Hl H; [easy|]. cbn [p_fdp_loop] in H.
  destruct r as [|t1 [|t2 [|l1 [|l2 r]]]]; try easy.
  { injection H as <-. exists [], []. repeat split; constructor. }
  do 4 (let H := fresh in apply bytes_cons_inv in Hb as [H Hb]).
  destruct (zlen r <? _) eqn:E1; [easy|].
  assert (Hl4 : (l1 * 256 + l2 - 4) mod 65536 = l1 * 256 + l2 - 4) by zlia.
  rewrite Hl4 in *. set (l := l1 * 256 + l2 - 4) in *.
  assert (Ls : zlen (sized l r) = l) by (apply zlen_sized; zlia).
  assert (La : zlen (after l r) = zlen r - l) by (apply zlen_after; zlia).
  apply obind_some in H as (a' & H & [= <-]).
  apply IH in H; [|now apply bytes_skipn|zlia].
  destruct H as (tlvs & attrs & Er & HF & HF2 & ->).
  exists ((t1 * 256 + t2, sized l r) :: tlvs), (fdp_attrs (t1 * 256 + t2) (sized l r) :: attrs).
  repeat split.
  - cbn [flat_map]. unfold cdp_bytes at 1. cbn [fst snd]. rewrite Ls, <- Er, <- !app_assoc, sized_after.
    unfold U16, l. cbn [app].
    replace ((t1 * 256 + t2) / 256) with t1 by lia. replace ((t1 * 256 + t2) mod 256) with t2 by lia.
    replace ((4 + (l1 * 256 + l2 - 4)) / 256) with l1 by lia.
    replace ((4 + (l1 * 256 + l2 - 4)) mod 256) with l2 by lia. reflexivity.
  - constructor; [|easy]. unfold cdp_fits, byte. cbn [fst snd]. rewrite Ls. lia.
  - constructor; [|easy]. now apply fdp_means_attrs.
Qed.
Lemma fdp_loop_complete : forall tlvs fuel attrs,
  Forall cdp_fits tlvs -> Forall2 fdp_means tlvs attrs -> (length tlvs < fuel)%nat ->
  p_fdp_loop fuel (flat_map cdp_bytes tlvs) = Some (concat attrs).
Proof.
  induction tlvs as [|[t v] tlvs IH]; intros fuel attrs HF HF2 Hf;
    (destruct fuel as [|fuel]; [cbn in Hf; lia|]).
  - inversion HF2; subst. reflexivity.
  - inversion HF as [|? ? Hfit HF']; subst. inversion HF2 as [|? at1 ? attrs' Hm1 HF2']; subst.
    cbn [flat_map]. rewrite fdp_loop_tlv by easy. rewrite (IH fuel attrs') by (try easy; cbn in Hf; lia).
    cbn [obind concat]. apply fdp_means_attrs in Hm1. now subst.
Qed.
Lemma p_fdp_iff payload ttl a : bytes payload -> zlen payload < 65532 ->
  p_fdp payload = Some (ttl, a) <-> fdp_packet_means payload ttl a.
Proof.
  intros Hb Hl. unfold p_fdp. split.
  - destruct payload as [|v [|t [|x [|y r]]]]; try easy.
    destruct (negb (v =? 1)) eqn:E; [easy|]. intros H. apply obind_some in H as (a' & H & [= -> ->]).
    do 4 (let H := fresh in apply bytes_cons_inv in Hb as [H Hb]).
    apply fdp_loop_sound in H; [|easy|zlia].
    destruct H as (tlvs & attrs & -> & HF & HF2 & ->).
    replace v with 1 by lia.
    now apply (fdp_packet_intro ttl [x; y] tlvs attrs).
  - intros H. inversion H as [? chk tlvs attrs Hc HF HF2]; subst. clear H.
    destruct chk as [|x [|y [|? ?]]]; try (exfalso; zlia). cbn [app Z.eqb Pos.eqb negb].
    rewrite (fdp_loop_complete tlvs _ attrs); try easy.
    pose proof (cdp_tlvs_count tlvs). unfold zlen in *. lia.
Qed.
Theorem fdp_decode_iff c f payload s n s' :
  in_buffer c f -> fdp_frame f payload -> s_peer s = no_peers ->
  fdp_decode c s = DOk (n, s') <->
  n = zlen f /\
  exists ttl attrs, fdp_packet_means payload ttl attrs
    /\ s' = mkDst (report attrs) ttl (s_proto s) (s_out s).
Proof.
  intros Hin Hf Hs. rewrite (fdp_decode_pure c f payload s Hin Hf Hs).
  assert (Hb : bytes payload /\ zlen payload < 65532).
  { destruct Hin as (tail & _ & _ & _ & Hl & Hb).
    destruct Hf; (split; [rewrite !bytes_app in Hb; apply Hb|zlia]). }
  destruct Hb as [Hb Hl]. pose proof (fun t a => p_fdp_iff payload t a Hb Hl) as Hiff.
  destruct (p_fdp payload) as [[ttl a]|]; cbn [obind lift]; split.
  - intros [= <- <-]. split; [easy|]. exists ttl, a. split; [now apply Hiff|reflexivity].
  - intros [-> (t' & a' & Ha & ->)]. apply Hiff in Ha. now injection Ha as <- <-.
  - easy.
  - intros [_ (t' & a' & Ha & _)]. now apply Hiff in Ha.
Qed.

(** ** NDP *)
Theorem ndp_decode_pure c f payload s :
  in_buffer c f -> ndp_frame f payload ->
  ndp_decode c s =
  if zlen payload <? 11 then DFail else DOk (zlen f - zlen payload + 11, set_ttl s 180).
Proof.
  intros Hin Hf. unfold ndp_decode, ndp_check.
  destruct (llc_check_some [1; 0; 129; 0; 1; 0] [0; 0; 129] 418 _ _ _ Hin eq_refl eq_refl Hf)
    as (p & Hc & Hv & Hp & Hl).
  change (llc_check NDP_MULTICAST_ADDR LLC_ORG_NORTEL LLC_PID_NDP_HELLO) with
    (llc_check [1; 0; 129; 0; 1; 0] [0; 0; 129] 418).
  rewrite Hc. cbn [dbind]. destruct Hin as (tail & Eb & Lb & Ed & Lf & _). rewrite Ed.
  rewrite szsub_le by zlia. replace (zlen f - p) with (zlen payload) by lia.
  replace (zlen f - zlen payload + 11) with (p + 11) by lia. reflexivity.
Qed.
