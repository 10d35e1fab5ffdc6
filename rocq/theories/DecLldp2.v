(** Acceptance and reports of the LLDP decoder in table mode. *)
From Verif Require Import Base Vis Tlv Types Checks Msg Cdp Lldp Spec Lemmas VisProofs EncProofs DecProofs
  DecCheck DecCdp DecCdp2 DecLldp.

Lemma shiftr9 w : Z.shiftr w 9 = w / 512.
Proof. now rewrite Z.shiftr_div_pow2 by lia. Qed.
Lemma land511 w : Z.land w 511 = w mod 512.
Proof. change 511 with (Z.ones 9). now rewrite Z.land_ones by lia. Qed.

Lemma store_peer s acc sl v : s_peer s = report acc ->
  peer_str s (slot_no sl) v = set_peer s (report (acc ++ [(sl, v)])).
Proof. intros Hs. unfold peer_str. now rewrite Hs, peer_str_report. Qed.

(** ** Capabilities *)
Lemma caps_subset avail enabled :
  avail = Z.lor enabled avail <->
  (forall i, Z.testbit enabled i = true -> Z.testbit avail i = true).
Proof.
  split.
  - intros H i Hi. rewrite H, Z.lor_spec, Hi. reflexivity.
  - intros H. apply Z.bits_inj'. intros i _. rewrite Z.lor_spec.
    destruct (Z.testbit enabled i) eqn:E; [now apply H|easy].
Qed.
Lemma caps_station avail : 0 <= avail < 65536 ->
  (has avail 128 && has avail 65407 = false) <-> (Z.testbit avail 7 = true -> avail = 128).
Proof.
  intros Hr. change 128 with (2 ^ 7) at 1. rewrite has_bit by lia.
  destruct (Z.testbit avail 7) eqn:E7; cbn [andb]; [|now split].
  unfold has.
  assert (Hdec : avail = Z.lor 128 (Z.land avail 65407)).
  { apply Z.bits_inj'. intros i Hi. rewrite Z.lor_spec, Z.land_spec.
    destruct (Z.eq_dec i 7) as [->|N7]; [now rewrite E7|].
    destruct (Z.lt_ge_cases i 16) as [H16|H16].
    - assert (Hb : Z.testbit 65407 i = true /\ Z.testbit 128 i = false).
      { assert (Hc : i = 0 \/ i = 1 \/ i = 2 \/ i = 3 \/ i = 4 \/ i = 5 \/ i = 6 \/ i = 8 \/ i = 9
          \/ i = 10 \/ i = 11 \/ i = 12 \/ i = 13 \/ i = 14 \/ i = 15) by lia.
        repeat destruct Hc as [->|Hc]; subst; now split. }
      destruct Hb as [-> ->]. now rewrite andb_true_r.
    - assert (Ha : Z.testbit avail i = false).
      { destruct (Z.eq_dec avail 0) as [->|]; [apply Z.bits_0|].
        apply Z.bits_above_log2; [lia|]. apply Z.log2_lt_pow2; [lia|].
        apply Z.lt_le_trans with (2 ^ 16); [lia|]. apply Z.pow_le_mono_r; lia. }
      rewrite Ha. cbn [andb]. rewrite orb_false_r. symmetry.
      apply Z.bits_above_log2; [lia|]. change (Z.log2 128) with 7. lia. }
  split.
  - intros H _. destruct (Z.land avail 65407 =? 0) eqn:E; [|discriminate].
    apply Z.eqb_eq in E. rewrite E in Hdec. rewrite Hdec. reflexivity.
  - intros H. rewrite (H eq_refl). reflexivity.
Qed.
Lemma lldp_caps_decode w : letters (lldp_cap_decode w) = lldp_caps w.
Proof.
  unfold lldp_cap_decode, lldp_caps, LLDP_CAP_STATION_ONLY, LLDP_CAP_OTHER, LLDP_CAP_REPEATER,
    LLDP_CAP_BRIDGE, LLDP_CAP_WLAN_AP, LLDP_CAP_ROUTER, LLDP_CAP_PHONE, LLDP_CAP_DOCSIS.
  change (has w 1) with (has w (2 ^ 0)). change (has w 2) with (has w (2 ^ 1)).
  change (has w 4) with (has w (2 ^ 2)). change (has w 8) with (has w (2 ^ 3)).
  change (has w 16) with (has w (2 ^ 4)). change (has w 32) with (has w (2 ^ 5)).
  change (has w 64) with (has w (2 ^ 6)). rewrite !has_bit by lia. reflexivity.
Qed.

Lemma cap_iff c v s acc s' : d_mode c = 1 -> s_peer s = report acc -> bytes v ->
  p_lldp_cap c v s = DOk s' <->
  exists attrs, lldp_means acc (7, v) attrs /\ s' = set_peer s (report (acc ++ attrs)).
Proof.
  intros Hm Hs Hb. unfold p_lldp_cap, DECODE_PRINT. rewrite Hm. change (1 =? 2) with false.
  split.
  - destruct v as [|a [|b [|d [|e [|? ?]]]]]; try easy.
    do 4 (let H := fresh in apply bytes_cons_inv in Hb as [H Hb]).
    set (avail := a * 256 + b). set (cap := d * 256 + e).
    destruct (negb (avail =? Z.lor cap avail)) eqn:E1; [easy|].
    destruct (has avail 128 && has avail 65407) eqn:E2; [easy|]. cbv zeta. intros [= <-].
    rewrite (store_report c s acc _ Caps) by (try easy; lia). rewrite lldp_caps_decode.
    exists [(Caps, lldp_caps cap)]. split; [|easy].
    replace [a; b; d; e] with (U16 avail ++ U16 cap).
    + apply lldp_caps4; unfold avail, cap; try lia. split.
      * apply caps_subset. unfold avail, cap in *. lia.
      * apply caps_station; [lia|easy].
    + unfold U16, avail, cap. cbn [app]. f_equal; [lia|f_equal; [lia|f_equal; [lia|f_equal; lia]]].
  - intros (attrs & Ha & ->). inversion Ha; subst.
    + unfold U16. cbv iota zeta. replace (avail / 256 * 256 + avail mod 256) with avail by lia.
      replace (enabled / 256 * 256 + enabled mod 256) with enabled by lia.
      match goal with H : lldp_caps_ok _ _ |- _ => destruct H as [Hsub Hst] end.
      apply caps_subset in Hsub.  rewrite <- Hsub, Z.eqb_refl. cbn [negb].
      apply caps_station in Hst; [|easy]. rewrite Hst. cbv zeta.
      now rewrite (store_report c s acc _ Caps), lldp_caps_decode by (try easy; lia).
    + exfalso. cbn in *. lia.
Qed.

(** ** Management addresses *)
Lemma mgmt_iff c v s acc s' : d_mode c = 1 -> s_peer s = report acc -> bytes v ->
  p_mgmt c v s = DOk s' <->
  exists attrs, lldp_means acc (8, v) attrs /\ s' = set_peer s (report (acc ++ attrs)).
Proof.
  intros Hm Hs Hb. unfold p_mgmt, DECODE_STR. rewrite Hm. change (1 =? 1) with true. cbn [andb].
  assert (Hseen : forall sl x, first_of sl acc <> None ->
    set_peer s (report (acc ++ [(sl, x)])) = s).
  { intros sl x Hx. rewrite <- store_peer by easy. unfold peer_str, PEER_STR. rewrite Hs, pget_report.
    destruct (first_of sl acc); [|easy]. rewrite <- Hs. now destruct s. }
  split.
  - destruct v as [|l [|n v]]; try easy.
    do 2 (let H := fresh in apply bytes_cons_inv in Hb as [H Hb]).
    set (af := if n =? 1 then 4 else _). destruct (af =? 0) eqn:Eaf; [easy|].
    cbv zeta. set (al := (l - 1) mod 256).
    destruct (negb (al <? zlen v)) eqn:El; [easy|].
    assert (Hfam : exists sl size text, mgmt_family n sl size text /\ af = slot_no sl
      /\ forall x, addr_text af x = if zlen x =? size then Some (text x) else None).
    { unfold af in *. destruct (n =? 1) eqn:E1.
      { apply Z.eqb_eq in E1. subst. exists IPv4, 4, inet_ntop4. repeat split; constructor. }
      destruct (n =? 2) eqn:E2.
      { apply Z.eqb_eq in E2. subst. exists IPv6, 16, inet_ntop6. repeat split; constructor. }
      destruct (n =? 6) eqn:E6; [|easy].
      apply Z.eqb_eq in E6. subst. exists Mac, 6, mac_str. repeat split; constructor. }
    destruct Hfam as (sl & size & text & Hfam & Eaf' & Htext). rewrite Eaf', Hs, pget_report.
    rewrite <- Eaf', Htext.
    assert (Ls : zlen (sized al v) = al) by (apply zlen_sized; lia).
    destruct (first_of sl acc) eqn:Ef.
    + intros [= <-]. exists []. rewrite set_peer_id by easy. split; [|easy].
      change (l :: n :: v) with ([l; n] ++ v).
      apply (lldp_mgmt_again acc n sl size text); try easy; [congruence|].
      unfold al in *. destruct (l =? 0) eqn:E0; lia.
    + rewrite Ls. destruct (al =? size) eqn:Esz; [|easy]. intros [= <-].
      rewrite Eaf', (store_report c s acc _ sl) by (try easy; lia).
      exists [(sl, text (sized al v))]. split; [|easy].
      apply Z.eqb_eq in Esz.
      replace (l :: n :: v) with ([1 + size; n] ++ sized al v ++ after al v).
      * apply (lldp_mgmt acc n sl size text); try easy; [congruence|].
        assert (La : zlen (after al v) = zlen v - al) by (apply zlen_after; lia).
        intros E. rewrite E, zlen_nil in La. lia.
      * rewrite sized_after. cbn [app]. f_equal. rewrite <- Esz. unfold al.
        inversion Hfam; subst; lia.
  - intros (attrs & Ha & ->). inversion Ha; subst.
    + assert (Hr : 0 < zlen rest).
      { destruct rest; [easy|]. zlia. }
      assert (Hc : (af = 1 /\ sl = IPv4 /\ text = inet_ntop4 /\ zlen addr = 4)
        \/ (af = 2 /\ sl = IPv6 /\ text = inet_ntop6 /\ zlen addr = 16)
        \/ (af = 6 /\ sl = Mac /\ text = mac_str /\ zlen addr = 6)).
      { match goal with H : mgmt_family _ _ _ _ |- _ => inversion H; subst end;
          first [left; now repeat split | right; left; now repeat split | right; right; now repeat split]. }
      cbn [app]. destruct Hc as [(-> & -> & -> & La)|[(-> & -> & -> & La)|(-> & -> & -> & La)]];
        rewrite La; cbv zeta; cbn [Z.eqb Pos.eqb];
        match goal with |- context [(?e - 1) mod 256] =>
          let x := eval vm_compute in ((e - 1) mod 256) in change ((e - 1) mod 256) with x end;
        rewrite sized_app by easy;
        (match goal with |- context [negb (?x <? zlen (addr ++ rest))] =>
          replace (negb (x <? zlen (addr ++ rest))) with false by zlia end).
      * unfold addr_text. rewrite La. cbn [Z.eqb Pos.eqb].
        change 4 with (slot_no IPv4). rewrite Hs, pget_report.
        destruct (first_of IPv4 acc) eqn:Ef.
        { rewrite Hseen by congruence. reflexivity. }
        rewrite (store_report c s acc _ IPv4) by (try easy; lia). reflexivity.
      * unfold addr_text. rewrite La. cbn [Z.eqb Pos.eqb].
        change 5 with (slot_no IPv6). rewrite Hs, pget_report.
        destruct (first_of IPv6 acc) eqn:Ef.
        { rewrite Hseen by congruence. reflexivity. }
        rewrite (store_report c s acc _ IPv6) by (try easy; lia). reflexivity.
      * unfold addr_text. rewrite La. cbn [Z.eqb Pos.eqb].
        change 6 with (slot_no Mac). rewrite Hs, pget_report.
        destruct (first_of Mac acc) eqn:Ef.
        { rewrite Hseen by congruence. reflexivity. }
        rewrite (store_report c s acc _ Mac) by (try easy; lia). reflexivity.
    + rewrite set_peer_id by easy.
      assert (Hl : (l - 1) mod 256 < zlen rest).
      { match goal with H : byte l |- _ => unfold byte in H end. destruct (l =? 0) eqn:E0; lia. }
      cbn [app]. cbv zeta. replace (negb ((l - 1) mod 256 <? zlen rest)) with false by lia.
      rewrite Hs.
      match goal with H : mgmt_family _ _ _ _ |- _ => inversion H; subst end; cbn [Z.eqb Pos.eqb];
        [change 4 with (slot_no IPv4)|change 5 with (slot_no IPv6)|change 6 with (slot_no Mac)];
        rewrite pget_report; destruct (first_of _ acc); easy.
    + exfalso. cbn in *. lia.
Qed.

(** ** Organisational TLVs *)
Lemma private_iff c v s acc s' : d_mode c = 1 -> s_peer s = report acc -> bytes v ->
  p_private c v s = DOk s' <->
  exists attrs, lldp_means acc (127, v) attrs /\ s' = set_peer s (report (acc ++ attrs)).
Proof.
  intros Hm Hs Hb. unfold p_private. split.
  - destruct v as [|o1 [|o2 [|o3 v]]]; try easy.
    destruct (beq [o1; o2; o3] [0; 128; 194]) eqn:Eo.
    + apply beq_true in Eo. injection Eo as -> -> ->. destruct v as [|sub v]; [easy|].
      destruct (sub =? 1) eqn:Es.
      * destruct v as [|a [|b [|? ?]]]; try easy. apply Z.eqb_eq in Es. subst sub.
        do 6 (let H := fresh in apply bytes_cons_inv in Hb as [H Hb]).
        intros [= <-]. rewrite dec_decimal by lia.
        rewrite (store_report c s acc _ Vlan) by (try easy; lia).
        exists [(Vlan, decimal (a * 256 + b))]. split; [|easy].
        replace [0; 128; 194; 1; a; b] with ([0; 128; 194; 1] ++ U16 (a * 256 + b)).
        { apply lldp_pvid. lia. }
        unfold U16. cbn [app]. do 4 f_equal. f_equal; [lia|f_equal; lia].
      * intros [= <-]. exists []. rewrite set_peer_id by easy. split; [|easy].
        apply (lldp_8021 acc sub v). lia.
    + intros [= <-]. exists []. rewrite set_peer_id by easy. split; [|easy].
      apply (lldp_org acc [o1; o2; o3] v); [easy|]. intros E. now rewrite E, beq_refl in Eo.
  - intros (attrs & Ha & ->). inversion Ha; subst.
    + change (beq [0; 128; 194] [0; 128; 194]) with true. unfold U16. change (1 =? 1) with true. cbv iota.
      replace (w / 256 * 256 + w mod 256) with w by lia. rewrite dec_decimal by easy.
      now rewrite (store_report c s acc _ Vlan) by (try easy; lia).
    + change (beq [0; 128; 194] [0; 128; 194]) with true. cbv iota.
      replace (sub =? 1) with false by lia. now rewrite set_peer_id.
    + destruct oui as [|o1 [|o2 [|o3 [|? ?]]]]; try (exfalso; zlia). cbn [app].
      replace (beq [o1; o2; o3] [0; 128; 194]) with false by (symmetry; now apply beq_false).
      now rewrite set_peer_id.
    + exfalso. cbn in *. lia.
Qed.

Lemma lldp_tlv_iff c t v s acc s' : d_mode c = 1 -> s_peer s = report acc -> bytes v ->
  0 < t < 128 ->
  p_lldp_tlv c t v s = DOk s' <->
  exists attrs, lldp_means acc (t, v) attrs /\ s' = set_peer s (report (acc ++ attrs)).
Proof.
  intros Hm Hs Hb Ht. unfold p_lldp_tlv.
  destruct (t =? 5) eqn:E5.
  { apply Z.eqb_eq in E5. subst. rewrite Hs. change 0 with (slot_no Host). rewrite pget_report.
    rewrite Hm. change (1 =? DECODE_PRINT) with false. cbv iota zeta.
    rewrite (store_peer s acc) by easy. split.
    - destruct (255 <? zlen v) eqn:El; [easy|]. destruct (first_of Host acc) eqn:Ef; [easy|].
      intros [= <-]. exists [(Host, shown show_safe v)]. split; [|easy]. apply lldp_name; [lia|easy].
    - intros (attrs & Ha & ->). inversion Ha; subst.
      + replace (255 <? zlen v) with false by lia.
        match goal with H : first_of Host acc = None |- _ => now rewrite H end.
      + exfalso. cbn in *. lia. }
  destruct (t =? 4) eqn:E4.
  { apply Z.eqb_eq in E4. subst. rewrite Hm. change (1 =? DECODE_STR) with true.
    change (1 =? DECODE_PRINT) with false. cbv iota zeta. change 2 with (slot_no PortDescr).
    rewrite (store_peer s acc) by easy. split.
    - intros [= <-]. eexists. split; [apply lldp_pdescr|easy].
    - intros (attrs & Ha & ->). inversion Ha; subst; [easy|]. exfalso. cbn in *. lia. }
  destruct (t =? 6) eqn:E6.
  { apply Z.eqb_eq in E6. subst. rewrite Hm. change (1 =? DECODE_PRINT) with false. cbv iota. split.
    - intros [= <-]. exists []. rewrite set_peer_id by easy. split; [|easy]. apply lldp_other. cbn. lia.
    - intros (attrs & Ha & ->). inversion Ha; subst. now rewrite set_peer_id. }
  destruct (t =? 7) eqn:E7.
  { apply Z.eqb_eq in E7. subst. now apply cap_iff. }
  destruct (t =? 8) eqn:E8.
  { apply Z.eqb_eq in E8. subst. now apply mgmt_iff. }
  destruct (t =? 127) eqn:E127.
  { apply Z.eqb_eq in E127. subst. now apply private_iff. }
  destruct ((8 <? t) && (t <? 127)) eqn:Er.
  { split; [easy|]. intros (attrs & Ha & ->). inversion Ha; subst; try (exfalso; lia).
    exfalso. cbn in *. lia. }
  split.
  - intros [= <-]. exists []. rewrite set_peer_id by easy. split; [|easy]. apply lldp_other. cbn. lia.
  - intros (attrs & Ha & ->). inversion Ha; subst; try (exfalso; lia). now rewrite set_peer_id.
Qed.

(** In table mode a TLV is stored or refused. *)
Lemma lldp_tlv_quiet c t v s : d_mode c = 1 -> quiet (p_lldp_tlv c t v s).
Proof.
  intros Hm. unfold p_lldp_tlv, p_lldp_cap, p_mgmt, p_private.
  repeat first
    [ exact I
    | match goal with |- quiet (match ?x with _ => _ end) => destruct x end
    | progress cbv zeta ].
Qed.

(** ** The TLV list *)
Lemma lldp_hdr_split t l : 0 <= t -> 0 <= l < 512 ->
  (t * 512 + l) / 256 * 256 + (t * 512 + l) mod 256 = t * 512 + l
  /\ (t * 512 + l) / 512 = t /\ (t * 512 + l) mod 512 = l.
Proof. lia. Qed.
Lemma lldp_loop_tlv fuel n c t v r s : lldp_fits (t, v) -> t <> 0 ->
  p_lldp_loop (S fuel) n c (lldp_bytes (t, v) ++ r) s =
  (let* s' := p_lldp_tlv c t v s in p_lldp_loop fuel n c r s').
Proof.
  intros [Ht Hv] Hnz. cbn [fst snd] in *. unfold lldp_bytes. cbn [fst snd].
  rewrite <- !app_assoc. cbn [U16 app p_lldp_loop].
  pose proof (zlen_nonneg _ v).
  destruct (lldp_hdr_split t (zlen v)) as (E1 & E2 & E3); [lia|lia|].
  rewrite E1, shiftr9, land511, E2, E3.
  replace (zlen (v ++ r) <? zlen v) with false by zlia. replace (t =? 0) with false by lia.
  now rewrite (sized_app _ _ v), (after_app _ _ v) by easy.
Qed.
Lemma lldp_loop_end fuel n c r s :
  p_lldp_loop (S fuel) n c (lldp_bytes (0, []) ++ r) s = DOk (n - zlen r, s).
Proof.
  change (lldp_bytes (0, []) ++ r) with (0 :: 0 :: r). cbn [p_lldp_loop].
  change (Z.shiftr (0 * 256 + 0) 9) with 0. change (Z.land (0 * 256 + 0) 511) with 0.
  replace (zlen r <? 0) with false by zlia. reflexivity.
Qed.
Lemma lldp_word a b : 0 <= a < 256 -> 0 <= b < 256 ->
  0 <= (a * 256 + b) / 512 < 128 /\ 0 <= (a * 256 + b) mod 512 < 512
  /\ U16 ((a * 256 + b) / 512 * 512 + (a * 256 + b) mod 512) = [a; b].
Proof.
  intros Ha Hb. split; [lia|]. split; [lia|].
  replace ((a * 256 + b) / 512 * 512 + (a * 256 + b) mod 512) with (a * 256 + b) by lia.
  unfold U16. f_equal; [lia|f_equal; lia].
Qed.
(** A rest of at least two bytes that announces no more than it holds. *)
Lemma lldp_shape a b r : bytes (a :: b :: r) ->
  (zlen r <? Z.land (a * 256 + b) 511) = false ->
  let t := Z.shiftr (a * 256 + b) 9 in
  let l := Z.land (a * 256 + b) 511 in
  a :: b :: r = lldp_bytes (t, sized l r) ++ after l r
  /\ lldp_fits (t, sized l r) /\ 0 <= t < 128 /\ 0 <= l
  /\ zlen (sized l r) = l /\ zlen (after l r) = zlen r - l
  /\ bytes (sized l r) /\ bytes (after l r).
Proof.
  intros Hb E t l.
  do 2 (let H := fresh in apply bytes_cons_inv in Hb as [H Hb]).
  unfold t, l in *. rewrite shiftr9, land511 in *.
  destruct (lldp_word a b) as (W1 & W2 & W3); [lia|lia|].
  assert (Ls : zlen (sized ((a * 256 + b) mod 512) r) = (a * 256 + b) mod 512) by (apply zlen_sized; lia).
  split; [|split; [|split; [easy|split; [lia|split; [easy|split; [apply zlen_after; lia|split]]]]]].
  - unfold lldp_bytes. cbn [fst snd]. rewrite Ls, <- app_assoc, sized_after, W3. reflexivity.
  - unfold lldp_fits. cbn [fst snd]. rewrite Ls. lia.
  - now apply bytes_firstn.
  - now apply bytes_skipn.
Qed.

Lemma lldp_loop_sound c : d_mode c = 1 -> forall fuel n r s acc m s',
  bytes r -> s_peer s = report acc ->
  p_lldp_loop fuel n c r s = DOk (m, s') ->
  exists tlvs attrs trailer, r = flat_map lldp_bytes (tlvs ++ [(0, [])]) ++ trailer
    /\ Forall lldp_fits tlvs /\ lldp_body acc tlvs attrs
    /\ m = n - zlen trailer /\ s' = set_peer s (report attrs).
Proof.
  intros Hm. induction fuel as [|fuel IH]; intros n r s acc m s' Hb Hs H; [easy|].
  cbn [p_lldp_loop] in H. destruct r as [|a [|b r]]; [easy| |].
  { unfold p_short in H. destruct (_ <=? _) in H; discriminate. }
  destruct (zlen r <? Z.land (a * 256 + b) 511) eqn:E1; [easy|].
  destruct (lldp_shape a b r Hb E1) as (Er & Hfit & Ht & Hl & Ls & La & Hbs & Hba).
  rewrite Er. revert H Er Hfit Ht Hl Ls La Hbs Hba E1.
  generalize (Z.shiftr (a * 256 + b) 9). intros t.
  generalize (Z.land (a * 256 + b) 511). intros l H Er Hfit Ht Hl Ls La Hbs Hba E1.
  destruct (t =? 0) eqn:Et.
  - destruct (l =? 0) eqn:E0; [|easy]. apply Z.eqb_eq in Et, E0. subst t l. injection H as <- <-.
    exists [], acc, r. cbn [app flat_map]. rewrite app_nil_r.
    split; [reflexivity|]. split; [constructor|]. split; [constructor|]. split; [easy|].
    rewrite <- Hs. now destruct s.
  - apply dbind_ok in H as (s1 & H1 & H).
    apply (lldp_tlv_iff c t _ s acc s1) in H1; [|easy|easy|easy|lia].
    destruct H1 as (at1 & Hm1 & ->).
    apply (IH n _ _ (acc ++ at1)) in H; try easy.
    destruct H as (tlvs & attrs & trailer & Etr & HF & HB & -> & ->).
    exists ((t, sized l r) :: tlvs), attrs, trailer.
    split; [cbn [app flat_map]; now rewrite Etr, app_assoc|].
    split; [now constructor|]. split; [now apply (lldp_body_cons acc (t, sized l r) tlvs at1)|].
    now split.
Qed.
Lemma lldp_means_nz acc t v attrs : lldp_means acc (t, v) attrs -> t <> 0.
Proof. intros H ->. inversion H; subst. cbn in *. lia. Qed.
Lemma lldp_loop_complete c : d_mode c = 1 -> forall tlvs fuel n s acc attrs trailer,
  bytes (flat_map lldp_bytes tlvs) -> s_peer s = report acc ->
  Forall lldp_fits tlvs -> lldp_body acc tlvs attrs -> (length tlvs < fuel)%nat ->
  p_lldp_loop fuel n c (flat_map lldp_bytes (tlvs ++ [(0, [])]) ++ trailer) s
  = DOk (n - zlen trailer, set_peer s (report attrs)).
Proof.
  intros Hm. induction tlvs as [|[t v] tlvs IH]; intros fuel n s acc attrs trailer Hb Hs HF HB Hf;
    (destruct fuel as [|fuel]; [cbn in Hf; lia|]).
  - inversion HB; subst. cbn [app flat_map]. rewrite app_nil_r, lldp_loop_end.
    rewrite <- Hs. now destruct s.
  - inversion HF as [|? ? Hfit HF']; subst. inversion HB as [|? ? ? at1 ? Hm1 HB']; subst.
    cbn [app flat_map] in *. rewrite <- app_assoc.
    rewrite lldp_loop_tlv by (try easy; eapply lldp_means_nz, Hm1).
    apply bytes_app in Hb as [Hbv Hbr]. unfold lldp_bytes in Hbv. apply bytes_app_r in Hbv.
    cbn [snd] in Hbv.
    assert (H1 : p_lldp_tlv c t v s = DOk (set_peer s (report (acc ++ at1)))).
    { apply (lldp_tlv_iff c t v s acc); try easy.
      - pose proof (lldp_means_nz _ _ _ _ Hm1). destruct Hfit as [Hf1 _]. cbn [fst] in Hf1. lia.
      - now exists at1. }
    rewrite H1. cbn [dbind]. rewrite (IH fuel n _ (acc ++ at1) attrs); try easy.
    cbn [length] in Hf. lia.
Qed.
(** A run never gets stuck, except for the stray read. *)
Lemma lldp_loop_stuck c : d_mode c = 1 -> forall fuel n r s, bytes r -> (length r < fuel)%nat ->
  match p_lldp_loop fuel n c r s with
  | DOk _ | DFail => True | DUB => 1518 <= n | _ => False
  end.
Proof.
  intros Hm. induction fuel as [|fuel IH]; intros n r s Hb Hf; [lia|].
  cbn [p_lldp_loop]. destruct r as [|a [|b r]]; [easy| |].
  { unfold p_short. change (zlen [a]) with 1. destruct (_ <=? _) eqn:E; [easy|]. lia. }
  destruct (zlen r <? Z.land (a * 256 + b) 511) eqn:E1; [easy|].
  destruct (lldp_shape a b r Hb E1) as (_ & _ & _ & _ & _ & _ & _ & Hba).
  destruct (Z.shiftr _ _ =? 0); [destruct (Z.land _ _ =? 0); easy|].
  pose proof (lldp_tlv_quiet c (Z.shiftr (a * 256 + b) 9) (sized (Z.land (a * 256 + b) 511) r) s Hm) as Hq.
  destruct (p_lldp_tlv _ _ _ _) as [s1| | | |]; try easy. cbn [dbind].
  apply IH; [easy|]. unfold after. rewrite skipn_length. cbn [length] in Hf. lia.
Qed.

(** ** The whole payload *)
Lemma head_tlv A n ty t v r (k : list Z -> list Z -> dres A) : lldp_fits (t, v) -> 0 <= t ->
  p_head n ty (lldp_bytes (t, v) ++ r) k = if t =? ty then k v r else DFail.
Proof.
  intros [Ht Hv] Hnz. cbn [fst snd] in *. unfold lldp_bytes. cbn [fst snd].
  rewrite <- !app_assoc. cbn [U16 app p_head].
  pose proof (zlen_nonneg _ v).
  destruct (lldp_hdr_split t (zlen v)) as (E1 & E2 & E3); [lia|lia|].
  rewrite E1, shiftr9, land511, E2, E3.
  replace (zlen (v ++ r) <? zlen v) with false by zlia.
  rewrite (sized_app _ _ v), (after_app _ _ v) by easy. now destruct (t =? ty).
Qed.
Lemma head_ok A n ty r (k : list Z -> list Z -> dres A) x : bytes r ->
  p_head n ty r k = DOk x ->
  exists v r', r = lldp_bytes (ty, v) ++ r' /\ lldp_fits (ty, v) /\ k v r' = DOk x
    /\ bytes v /\ bytes r'.
Proof.
  intros Hb H. unfold p_head in H. destruct r as [|a [|b r]];
    [unfold p_short in H; destruct (_ <=? _) in H; discriminate..|].
  destruct (negb (Z.shiftr (a * 256 + b) 9 =? ty)) eqn:Et; [easy|].
  destruct (zlen r <? Z.land (a * 256 + b) 511) eqn:E1; [easy|].
  destruct (lldp_shape a b r Hb E1) as (Er & Hfit & Ht & Hl & Ls & La & Hbs & Hba).
  replace (Z.shiftr (a * 256 + b) 9) with ty in * by lia.
  exists (sized (Z.land (a * 256 + b) 511) r), (after (Z.land (a * 256 + b) 511) r). now split.
Qed.

Lemma chassis_str c v s : d_mode c = 1 ->
  p_chassis c v s = if (2 <=? zlen v) && (zlen v <=? 256) then DOk s else DFail.
Proof.
  intros Hm. unfold p_chassis. rewrite Hm. change (negb (1 =? DECODE_PRINT)) with true.
  destruct ((zlen v <=? 1) || (256 <? zlen v)) eqn:E;
    destruct ((2 <=? zlen v) && (zlen v <=? 256)) eqn:E2; try easy; lia.
Qed.
Lemma port_str c v s acc : d_mode c = 1 -> s_peer s = report acc ->
  p_port c v s = if (2 <=? zlen v) && (zlen v <=? 256)
                 then DOk (set_peer s (report (acc ++ port_attrs v))) else DFail.
Proof.
  intros Hm Hs. unfold p_port. rewrite Hm. change (1 =? DECODE_PRINT) with false.
  destruct ((zlen v <=? 1) || (256 <? zlen v)) eqn:E;
    destruct ((2 <=? zlen v) && (zlen v <=? 256)) eqn:E2; try easy; try lia.
  destruct v as [|sub v]; [discriminate E|].
  unfold port_attrs. cbn [existsb]. rewrite orb_false_r, andb_false_r.
  replace ((sub =? 1) || ((sub =? 2) || ((sub =? 5) || ((sub =? 6) || (sub =? 7)))))
    with ((sub =? 1) || (sub =? 2) || (sub =? 5) || (sub =? 6) || (sub =? 7)) by now rewrite !orb_assoc.
  destruct (_ || _ || _ || _ || _).
  - rewrite (store_report c s acc _ Port) by (try easy; lia). reflexivity.
  - now rewrite set_peer_id.
Qed.

Lemma lldp_bytes_len x : 2 <= zlen (lldp_bytes x).
Proof. unfold lldp_bytes. zlia. Qed.
Lemma lldp_tlvs_count tlvs : 2 * zlen tlvs <= zlen (flat_map lldp_bytes tlvs).
Proof.
  induction tlvs as [|r recs IH]; [easy|]. cbn [flat_map]. pose proof (lldp_bytes_len r). zlia.
Qed.

Lemma p_lldp_iff n c payload s m s' :
  d_mode c = 1 -> bytes payload -> s_peer s = no_peers -> zlen payload <= n ->
  p_lldp n c payload s = DOk (m, s') <->
  exists used ttl attrs, lldp_packet_means payload used ttl attrs
    /\ m = n - zlen payload + used /\ s' = mkDst (report attrs) ttl (s_proto s) (s_out s).
Proof.
  intros Hm Hb Hs Hn. unfold p_lldp. split.
  - intros H.
    apply head_ok in H as (chassis & r1 & -> & F1 & H & B1 & Hb1); [|easy].
    rewrite chassis_str in H by easy.
    destruct ((2 <=? zlen chassis) && (zlen chassis <=? 256)) eqn:L1; [|easy]. cbn [dbind] in H.
    apply head_ok in H as (port & r2 & -> & F2 & H & B2 & Hb2); [|easy].
    rewrite (port_str c port s []) in H by easy. cbn [app] in H.
    destruct ((2 <=? zlen port) && (zlen port <=? 256)) eqn:L2; [|easy]. cbn [dbind] in H.
    apply head_ok in H as (tv & r3 & -> & F3 & H & B3 & Hb3); [|easy].
    destruct tv as [|x [|y [|? ?]]]; try discriminate H. rewrite Hm in H. change (1 =? DECODE_PRINT) with false in H.
    cbv iota zeta in H.
    do 2 (let H := fresh in apply bytes_cons_inv in B3 as [H B3]).
    apply (lldp_loop_sound c Hm _ _ _ _ (port_attrs port)) in H; try easy.
    destruct H as (tlvs & attrs & trailer & -> & HF & HB & -> & ->).
    set (used := flat_map lldp_bytes ([(1, chassis); (2, port); (3, U16 (x * 256 + y))] ++ tlvs ++ [(0, [])])).
    exists (zlen used), (x * 256 + y), attrs.
    assert (Eu : lldp_bytes (1, chassis) ++ lldp_bytes (2, port) ++ lldp_bytes (3, [x; y])
       ++ flat_map lldp_bytes (tlvs ++ [(0, [])]) ++ trailer = used ++ trailer).
    { unfold used. cbn [app flat_map]. rewrite <- !app_assoc.
      replace (U16 (x * 256 + y)) with [x; y] by (unfold U16; f_equal; [lia|f_equal; lia]). reflexivity. }
    rewrite Eu. split; [|split; [|reflexivity]].
    + apply lldp_packet_intro; solve [assumption|lia].
    + rewrite zlen_app. lia.
  - intros (used & ttl & attrs & Hp & -> & ->).
    inversion Hp as [chassis port ? tlvs ? trailer L1 L2 Ht HF HB]; subst. subst used0.
    cbn [app flat_map] in *. rewrite <- !app_assoc in *.
    rewrite head_tlv by (try lia; split; cbn [fst snd]; lia).
    change (1 =? 1) with true. cbv iota. rewrite chassis_str by easy.
    replace ((2 <=? zlen chassis) && (zlen chassis <=? 256)) with true by lia. cbn [dbind].
    rewrite head_tlv by (try lia; split; cbn [fst snd]; lia).
    change (2 =? 2) with true. cbv iota. rewrite (port_str c port s []) by easy.
    replace ((2 <=? zlen port) && (zlen port <=? 256)) with true by lia. cbn [dbind app].
    rewrite head_tlv by (try lia; split; cbn [fst snd U16]; zlia).
    change (3 =? 3) with true. cbv iota. cbn [U16].
    replace (ttl / 256 * 256 + ttl mod 256) with ttl by lia. rewrite Hm.
    change (1 =? DECODE_PRINT) with false. cbv iota zeta.
    rewrite !bytes_app in Hb. rewrite flat_map_app, bytes_app in Hb.
    rewrite (lldp_loop_complete c Hm tlvs _ _ _ (port_attrs port) attrs trailer); [| |reflexivity|assumption|assumption|].
    + do 2 f_equal. rewrite !zlen_app. lia.
    + apply Hb.
    + pose proof (lldp_tlvs_count tlvs). rewrite !zlen_app, flat_map_app, zlen_app in Hn.
      assert (0 <= zlen (lldp_bytes (1, chassis)) /\ 0 <= zlen (lldp_bytes (2, port))
       /\ 0 <= zlen (lldp_bytes (3, U16 ttl)) /\ 0 <= zlen (flat_map lldp_bytes [(0, [])])
       /\ 0 <= zlen trailer) by (repeat split; apply zlen_nonneg).
      change (zlen (flat_map lldp_bytes [(0, [])])) with 2 in *. unfold zlen in *. lia.
Qed.

(** The whole payload: what happens otherwise. *)
Lemma head_stuck A n ty r (k : list Z -> list Z -> dres A) : bytes r ->
  (1517 <= n -> 2 <= zlen r) ->
  (forall v r', bytes v -> bytes r' -> zlen v < 512 -> zlen r' = zlen r - 2 - zlen v ->
     match k v r' with DOk _ | DFail => True | DUB => 1518 <= n | _ => False end) ->
  match p_head n ty r k with DOk _ | DFail => True | DUB => 1518 <= n | _ => False end.
Proof.
  intros Hb Hr Hk. unfold p_head. destruct r as [|a [|b r]].
  - unfold p_short. destruct (_ <=? _) eqn:E; [easy|]. rewrite zlen_nil in *. lia.
  - unfold p_short. destruct (_ <=? _) eqn:E; [easy|]. change (zlen [a]) with 1 in *. lia.
  - destruct (negb _); [easy|].
    destruct (zlen r <? Z.land (a * 256 + b) 511) eqn:E1; [easy|].
    destruct (lldp_shape a b r Hb E1) as (_ & Hfit & _ & _ & Ls & La & Hbs & Hba).
    apply Hk; try easy.
    + destruct Hfit. easy.
    + zlia.
Qed.
Lemma p_lldp_stuck n c payload s : d_mode c = 1 -> bytes payload -> n - 18 <= zlen payload <= n ->
  s_peer s = no_peers ->
  match p_lldp n c payload s with DOk _ | DFail => True | DUB => 1518 <= n | _ => False end.
Proof.
  intros Hm Hb Hn Hs. unfold p_lldp. apply head_stuck; [easy|lia|]. intros ch r1 B1 Hb1 Lc L1.
  rewrite chassis_str by easy. destruct ((2 <=? zlen ch) && (zlen ch <=? 256)) eqn:E1; [|easy]. cbn [dbind].
  apply head_stuck; [easy|lia|]. intros po r2 B2 Hb2 Lp L2.
  rewrite (port_str c po s []) by easy.
  destruct ((2 <=? zlen po) && (zlen po <=? 256)) eqn:E2; [|easy]. cbn [dbind app].
  apply head_stuck; [easy|lia|]. intros tv r3 B3 Hb3 Lt L3.
  destruct tv as [|x [|y [|? ?]]]; try easy. rewrite Hm. change (1 =? DECODE_PRINT) with false.
  cbv iota zeta. apply lldp_loop_stuck; try easy.
  pose proof (zlen_nonneg _ ch). pose proof (zlen_nonneg _ po). unfold zlen in *. lia.
Qed.

Lemma lldp_frame_payload c f payload : in_buffer c f -> lldp_frame f payload ->
  bytes payload /\ zlen f - 18 <= zlen payload <= zlen f.
Proof.
  intros (tail & _ & _ & _ & Hl & Hb) Hf.
  destruct Hf; (split; [rewrite !bytes_app in Hb; apply Hb|zlia]).
Qed.
Theorem lldp_decode_iff c f payload s n s' :
  in_buffer c f -> lldp_frame f payload -> d_mode c = 1 -> s_peer s = no_peers ->
  lldp_decode c s = DOk (n, s') <->
  exists used ttl attrs, lldp_packet_means payload used ttl attrs
    /\ n = zlen f - zlen payload + used
    /\ s' = mkDst (report attrs) ttl (s_proto s) (s_out s).
Proof.
  intros Hin Hf Hm Hs. rewrite (lldp_decode_pure c f payload s Hin Hf).
  destruct (lldp_frame_payload _ _ _ Hin Hf) as [Hb Hl].
  apply p_lldp_iff; solve [assumption|lia].
Qed.
Theorem lldp_decode_stuck c f payload s :
  in_buffer c f -> lldp_frame f payload -> d_mode c = 1 -> s_peer s = no_peers ->
  quiet (lldp_decode c s) \/ (lldp_decode c s = DUB /\ zlen f = 1518).
Proof.
  intros Hin Hf Hm Hs. rewrite (lldp_decode_pure c f payload s Hin Hf).
  destruct (lldp_frame_payload _ _ _ Hin Hf) as [Hb Hl].
  pose proof (p_lldp_stuck (zlen f) c payload s Hm Hb Hl Hs) as H.
  destruct Hin as (tail & _ & _ & _ & Hle & _).
  destruct (p_lldp _ _ _ _); try (now left); try easy. right. split; [easy|lia].
Qed.
