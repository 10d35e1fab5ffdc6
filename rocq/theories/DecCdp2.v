(** Acceptance and reports of the CDP decoder in table mode. *)
From Verif Require Import Base Vis Tlv Types Checks Msg Cdp Spec Lemmas VisProofs EncProofs DecProofs DecCheck
  DecCdp.

Lemma set_peer_id s acc : s_peer s = report acc -> set_peer s (report (acc ++ [])) = s.
Proof. intros H. rewrite app_nil_r, <- H. now destruct s. Qed.
Lemma set_peer_twice s p q : set_peer (set_peer s p) q = set_peer s q.
Proof. reflexivity. Qed.
Lemma peer_of_set s p : s_peer (set_peer s p) = p. Proof. reflexivity. Qed.
Lemma store_report c s acc line sl v :
  d_mode c <> 2 -> s_peer s = report acc ->
  show_or_store c s line (slot_no sl) v = set_peer s (report (acc ++ [(sl, v)])).
Proof.
  intros Hm Hs. unfold show_or_store, DECODE_PRINT, peer_str.
  replace (d_mode c =? 2) with false by lia. now rewrite Hs, peer_str_report.
Qed.

(** ** Address records *)
Definition p_addr1 (c : dctx) (af : Z) (a : list Z) (s : dst) : option dst :=
  if af =? 0 then Some s
  else let? str := addr_text af a in Some (show_or_store c s (p_addr_line af str) af str).

Lemma addr1_iff c pt proto a s acc s' :
  d_mode c <> 2 -> s_peer s = report acc ->
  p_addr1 c (p_af pt proto) a s = Some s' <->
  exists attrs, addr_means (pt, proto, a) attrs /\ s' = set_peer s (report (acc ++ attrs)).
Proof.
  intros Hm Hs. unfold p_addr1, p_af, addr_text.
  destruct ((pt =? 1) && beq proto [204]) eqn:E1.
  { apply andb_prop in E1 as [E1 E2]. apply Z.eqb_eq in E1. apply beq_true in E2. subst.
    change (4 =? 0) with false. change (4 =? 4) with true. cbv iota.
    split.
    - destruct (zlen a =? 4) eqn:E3; [|easy]. cbn [obind]. intros [= <-].
      eexists. split; [apply addr_ip4; lia|]. now rewrite (store_report c s acc _ IPv4) by easy.
    - intros (attrs & Ha & ->). inversion Ha; subst.
      + match goal with H : zlen a = 4 |- _ => rewrite H end. cbn [Z.eqb Pos.eqb obind].
        now rewrite (store_report c s acc _ IPv4) by easy.
      + now exfalso. }
  destruct ((pt =? 2) && beq proto [170; 170; 3; 0; 0; 0; 134; 221]) eqn:E2.
  { apply andb_prop in E2 as [E3 E2]. apply Z.eqb_eq in E3. apply beq_true in E2. subst.
    change (5 =? 0) with false. change (5 =? 4) with false. change (5 =? 5) with true. cbv iota.
    split.
    - destruct (zlen a =? 16) eqn:E3; [|easy]. cbn [obind]. intros [= <-].
      eexists. split; [apply addr_ip6; lia|]. now rewrite (store_report c s acc _ IPv6) by easy.
    - intros (attrs & Ha & ->). inversion Ha; subst.
      + match goal with H : zlen a = 16 |- _ => rewrite H end. cbn [Z.eqb Pos.eqb obind].
        now rewrite (store_report c s acc _ IPv6) by easy.
      + now exfalso. }
  assert (N1 : (pt, proto) <> (1, [204])).
  { intros [= -> ->]. now rewrite beq_refl in E1. }
  assert (N2 : (pt, proto) <> (2, [170; 170; 3; 0; 0; 0; 134; 221])).
  { intros [= -> ->]. now rewrite beq_refl in E2. }
  change (0 =? 0) with true. cbv iota. split.
  - intros [= <-]. exists []. split; [now apply addr_other|]. now rewrite set_peer_id.
  - intros (attrs & Ha & ->). inversion Ha; subst; try (now exfalso). now rewrite set_peer_id.
Qed.

Lemma sized_after A l (r : list A) : sized l r ++ after l r = r.
Proof. apply firstn_skipn. Qed.
Lemma sized_app A l (a b : list A) : zlen a = l -> sized l (a ++ b) = a.
Proof. intros <-. apply firstn_zlen_app. Qed.
Lemma after_app A l (a b : list A) : zlen a = l -> after l (a ++ b) = b.
Proof. intros <-. apply skipn_zlen_app. Qed.

Lemma addr_rec_len r : 4 <= zlen (addr_rec_bytes r).
Proof. destruct r as [[pt proto] a]. cbn [addr_rec_bytes]. zlia. Qed.
Lemma addr_recs_len recs : 4 * zlen recs <= zlen (flat_map addr_rec_bytes recs).
Proof.
  induction recs as [|r recs IH]; [easy|]. cbn [flat_map]. pose proof (addr_rec_len r). zlia.
Qed.

(** One record in front of [r]. *)
Lemma addr_loop_rec fuel c count pt proto a r s : 
  addr_rec_fits (pt, proto, a) ->
  p_addr_loop (S fuel) c count (addr_rec_bytes (pt, proto, a) ++ r) s =
  (let? s' := p_addr1 c (p_af pt proto) a s in
   if negb (zlen r =? 0) && (0 <? (count - 1) mod 4294967296)
   then p_addr_loop fuel c ((count - 1) mod 4294967296) r s' else Some s').
Proof.
  intros (Hpt & Hpl & Ha). unfold byte in *. cbn [addr_rec_bytes p_addr_loop].
  rewrite <- !app_assoc. cbn [app].
  replace (zlen (proto ++ U16 (zlen a) ++ a ++ r) <? zlen proto + 2) with false by zlia.
  rewrite (after_app _ _ proto) by easy. rewrite (sized_app _ _ proto) by easy.
  cbn [U16 app].
  pose proof (zlen_nonneg _ a).
  replace (zlen a / 256 * 256 + zlen a mod 256) with (zlen a) by lia.
  replace (zlen (a ++ r) <? zlen a) with false by zlia.
  rewrite (after_app _ _ a), (sized_app _ _ a) by easy. reflexivity.
Qed.
(** An accepted rest begins with a record. *)
Lemma addr_loop_shape fuel c count r s s' : bytes r ->
  p_addr_loop (S fuel) c count r s = Some s' ->
  exists pt proto a r', r = addr_rec_bytes (pt, proto, a) ++ r' /\ addr_rec_fits (pt, proto, a).
Proof.
  intros Hb. cbn [p_addr_loop]. destruct r as [|pt [|pl r]]; try easy.
  apply bytes_cons_inv in Hb as [Hpt Hb]. apply bytes_cons_inv in Hb as [Hpl Hb].
  destruct (zlen r <? pl + 2) eqn:E1; [easy|].
  assert (La : zlen (after pl r) = zlen r - pl) by (apply zlen_after; lia).
  assert (Ls : zlen (sized pl r) = pl) by (apply zlen_sized; lia).
  assert (Hba : bytes (after pl r)) by now apply bytes_skipn.
  pose proof (sized_after _ pl r) as Er.
  destruct (after pl r) as [|l1 [|l2 r2]]; try easy.
  apply bytes_cons_inv in Hba as [Hl1 Hba]. apply bytes_cons_inv in Hba as [Hl2 Hba].
  set (al := l1 * 256 + l2). destruct (zlen r2 <? al) eqn:E2; [easy|]. intros _.
  assert (Ls2 : zlen (sized al r2) = al) by (apply zlen_sized; lia).
  exists pt, (sized pl r), (sized al r2), (after al r2). split.
  - rewrite <- Er at 1. cbn [addr_rec_bytes]. rewrite Ls, Ls2, <- !app_assoc, sized_after.
    cbn [app U16]. unfold al. replace ((l1 * 256 + l2) / 256) with l1 by lia.
    replace ((l1 * 256 + l2) mod 256) with l2 by lia. reflexivity.
  - cbn [addr_rec_fits]. unfold byte. lia.
Qed.

Lemma addr_rec_bytes_bytes pt proto a r : bytes (addr_rec_bytes (pt, proto, a) ++ r) -> bytes r.
Proof. now intros H%bytes_app_r. Qed.

Lemma addr_loop_sound c : d_mode c <> 2 -> forall fuel count r s acc s',
  bytes r -> zlen r < 100000 -> 0 <= count < 4294967296 -> s_peer s = report acc ->
  p_addr_loop fuel c count r s = Some s' ->
  exists recs attrs rest,
    r = flat_map addr_rec_bytes recs ++ rest /\ recs <> []
    /\ (zlen recs = count \/ (rest = [] /\ (zlen recs < count \/ count = 0)))
    /\ Forall addr_rec_fits recs /\ Forall2 addr_means recs attrs
    /\ s' = set_peer s (report (acc ++ concat attrs)).
Proof.
  intros Hm. induction fuel as [|fuel IH]; intros count r s acc s' Hb Hr Hc Hs H; [easy|].
  destruct (addr_loop_shape _ _ _ _ _ _ Hb H) as (pt & proto & a & r' & -> & Hfit).
  rewrite addr_loop_rec in H by easy.
  apply obind_some in H as (s1 & H1 & H).
  apply (addr1_iff c pt proto a s acc s1 Hm Hs) in H1 as (at1 & Hm1 & ->).
  pose proof (addr_rec_bytes_bytes _ _ _ _ Hb) as Hb'.
  pose proof (addr_rec_len (pt, proto, a)) as Hlen.
  rewrite zlen_app in Hr.
  set (count' := (count - 1) mod 4294967296) in *.
  destruct (negb (zlen r' =? 0) && (0 <? count')) eqn:Ec.
  - apply (IH count' r' _ (acc ++ at1)) in H; [|easy|lia|lia|easy].
    destruct H as (recs & attrs & rest & -> & Hne & Hn & HF & HF2 & ->).
    exists ((pt, proto, a) :: recs), (at1 :: attrs), rest.
    split; [cbn [flat_map]; now rewrite <- app_assoc|]. split; [easy|]. split.
    + rewrite zlen_cons. pose proof (addr_recs_len recs). rewrite zlen_app in Hr.
      pose proof (zlen_nonneg _ rest). unfold count' in *. destruct Hn as [Hn|[-> Hn]].
      * destruct (Z.eq_dec count 0); [exfalso; lia | left; lia].
      * right. split; [easy|]. lia.
    + split; [now constructor|]. split; [now constructor|].
      rewrite set_peer_twice. cbn [concat]. now rewrite <- app_assoc.
  - injection H as <-. exists [(pt, proto, a)], [at1], r'.
    split; [cbn [flat_map]; now rewrite app_nil_r|]. split; [easy|]. split.
    + change (zlen [(pt, proto, a)]) with 1. unfold count' in *.
      destruct (Z.eq_dec count 1); [now left|right]. split; [|lia].
      apply zlen_0. lia.
    + split; [now constructor|]. split; [now constructor|]. cbn [concat]. now rewrite app_nil_r.
Qed.

Lemma addr_loop_complete c : d_mode c <> 2 -> forall recs fuel count rest attrs s acc,
  zlen (flat_map addr_rec_bytes recs) < 100000 -> 0 <= count < 4294967296 -> s_peer s = report acc ->
  recs <> [] ->
  (zlen recs = count \/ (rest = [] /\ (zlen recs < count \/ count = 0))) ->
  Forall addr_rec_fits recs -> Forall2 addr_means recs attrs ->
  (length recs <= fuel)%nat ->
  p_addr_loop fuel c count (flat_map addr_rec_bytes recs ++ rest) s
  = Some (set_peer s (report (acc ++ concat attrs))).
Proof.
  intros Hm. induction recs as [|[[pt proto] a] recs IH];
    intros fuel count rest attrs s acc Hr Hc Hs Hne Hn HF HF2 Hfuel; [easy|].
  destruct fuel as [|fuel]; [cbn in Hfuel; lia|].
  inversion HF as [|? ? Hfit HF']; subst. inversion HF2 as [|? at1 ? attrs' Hm1 HF2']; subst.
  cbn [flat_map]. rewrite <- app_assoc. rewrite addr_loop_rec by easy.
  cbn [flat_map] in Hr. rewrite zlen_app in Hr. pose proof (addr_rec_len (pt, proto, a)) as Hlen.
  assert (H1 : p_addr1 c (p_af pt proto) a s = Some (set_peer s (report (acc ++ at1)))).
  { apply (addr1_iff c pt proto a s acc _ Hm Hs). now exists at1. }
  rewrite H1. cbn [obind]. clear H1. rewrite zlen_cons in Hn.
  pose proof (zlen_nonneg _ recs).
  set (count' := (count - 1) mod 4294967296) in *. unfold count' in *.
  destruct recs as [|r2 recs].
  - inversion HF2'; subst. cbn [flat_map app concat]. rewrite app_nil_r.
    replace (negb (zlen rest =? 0) && (0 <? (count - 1) mod 4294967296)) with false; [easy|].
    rewrite zlen_nil in Hn. destruct Hn as [Hn|[-> Hn]].
    + subst. now rewrite andb_false_r.
    + reflexivity.
  - pose proof (addr_recs_len (r2 :: recs)). rewrite zlen_cons in *.
    pose proof (zlen_nonneg _ recs).
    assert (Hpos : 4 <= zlen (flat_map addr_rec_bytes (r2 :: recs) ++ rest)).
    { cbn [flat_map]. pose proof (addr_rec_len r2). zlia. }
    replace (negb _ && _) with true by lia.
    rewrite (IH fuel count' rest attrs' _ (acc ++ at1)); try easy.
    + rewrite set_peer_twice. cbn [concat]. now rewrite <- app_assoc.
    + lia.
    + unfold count'. lia.
    + unfold count'. destruct Hn as [Hn|[-> Hn]]; [left; lia|right; split; [easy|lia]].
    + cbn [length] in *. lia.
Qed.

(** ** TLVs *)
Lemma U32_split a b d e : 0 <= a < 256 -> 0 <= b < 256 -> 0 <= d < 256 -> 0 <= e < 256 ->
  [a; b; d; e] = U32 (((a * 256 + b) * 256 + d) * 256 + e).
Proof. intros. unfold U32. f_equal; [lia|f_equal; [lia|f_equal; [lia|f_equal; lia]]]. Qed.
Lemma U32_value w : ((w / 16777216 * 256 + w / 65536 mod 256) * 256 + w / 256 mod 256) * 256 + w mod 256 = w.
Proof. lia. Qed.
Lemma cdp_caps_decode w : letters (cdp_cap_decode w) = cdp_caps w.
Proof.
  unfold cdp_cap_decode, cdp_caps, CDP_CAP_ROUTER, CDP_CAP_TRANSPARENT_BRIDGE, CDP_CAP_SOURCE_BRIDGE,
    CDP_CAP_SWITCH, CDP_CAP_HOST, CDP_CAP_REPEATER, CDP_CAP_PHONE.
  change (has w 1) with (has w (2 ^ 0)). change (has w 2) with (has w (2 ^ 1)).
  change (has w 4) with (has w (2 ^ 2)). change (has w 8) with (has w (2 ^ 3)).
  change (has w 16) with (has w (2 ^ 4)). change (has w 64) with (has w (2 ^ 6)).
  change (has w 128) with (has w (2 ^ 7)). rewrite !has_bit by lia. reflexivity.
Qed.

Lemma cdp_tlv_iff c t v s acc s' :
  d_mode c <> 2 -> s_peer s = report acc -> bytes v -> zlen v < 100000 -> 0 <= t ->
  p_cdp_tlv c t v s = Some s' <->
  exists attrs, cdp_means (t, v) attrs /\ s' = set_peer s (report (acc ++ attrs)).
Proof.
  intros Hm Hs Hb Hv Ht. unfold p_cdp_tlv, DECODE_PRINT.
  replace (d_mode c =? 2) with false by lia.
  destruct ((t =? 1) || (t =? 20)) eqn:E1.
  { rewrite (store_report c s acc _ Host) by easy. split.
    - intros [= <-]. eexists. split; [|reflexivity]. apply cdp_name. lia.
    - intros (attrs & Ha & ->). inversion Ha; subst; try reflexivity; try (exfalso; lia).
      exfalso. cbn in *. lia. }
  destruct (t =? 3) eqn:E2.
  { apply Z.eqb_eq in E2. subst. rewrite (store_report c s acc _ Port) by easy. split.
    - intros [= <-]. eexists. split; [|reflexivity]. apply cdp_port.
    - intros (attrs & Ha & ->). inversion Ha; subst; try reflexivity; try (exfalso; lia).
      exfalso. cbn in *. lia. }
  destruct (t =? 4) eqn:E3.
  { apply Z.eqb_eq in E3. subst. split.
    - destruct v as [|a [|b [|d [|e [|x v]]]]]; try easy. cbv zeta.
      rewrite (store_report c s acc _ Caps), cdp_caps_decode by easy. intros [= <-].
      do 4 (let H := fresh in apply bytes_cons_inv in Hb as [H Hb]).
      rewrite U32_split by lia. eexists. split; [|reflexivity]. apply cdp_caps4. lia.
    - intros (attrs & Ha & ->). inversion Ha; subst; try (exfalso; lia).
      + unfold U32. rewrite U32_value. cbv zeta.
        now rewrite (store_report c s acc _ Caps), cdp_caps_decode by easy.
      + exfalso. cbn in *. lia. }
  destruct ((t =? 2) || (t =? 22)) eqn:E4.
  { assert (Ht2 : t = 2 \/ t = 22) by lia. split.
    - destruct v as [|a [|b [|d [|e r]]]]; try easy. intros H.
      pose proof Hb as Hb'.
      do 4 (let H := fresh in apply bytes_cons_inv in Hb' as [H Hb']).
      apply (addr_loop_sound c Hm _ _ _ _ acc) in H; [|easy|zlia|lia|easy].
      destruct H as (recs & attrs & rest & -> & Hne & Hn & HF & HF2 & ->).
      exists (concat attrs). split; [|easy].
      change (a :: b :: d :: e :: flat_map addr_rec_bytes recs ++ rest)
        with ([a; b; d; e] ++ flat_map addr_rec_bytes recs ++ rest).
      rewrite U32_split by lia. apply cdp_addrs; try easy. lia.
    - intros (attrs & Ha & ->). inversion Ha; subst; try (exfalso; lia).
      + rewrite U32_value.
        assert (Hle : zlen (flat_map addr_rec_bytes recs) < 100000) by zlia.
        rewrite (addr_loop_complete c Hm recs _ n rest attrs0 s acc); try easy.
        pose proof (addr_recs_len recs) as Hl. cbn [length]. rewrite app_length. unfold zlen in *. lia.
      + exfalso. cbn in *. lia. }
  destruct ((t =? 5) || (t =? 6)) eqn:E5.
  { split.
    - intros [= <-]. exists []. rewrite set_peer_id by easy. split; [|easy]. apply cdp_other. cbn. lia.
    - intros (attrs & Ha & ->). inversion Ha; subst; try (exfalso; lia). now rewrite set_peer_id. }
  destruct (t =? 9) eqn:E6.
  { split.
    - intros [= <-]. exists []. rewrite set_peer_id by easy. split; [|easy]. apply cdp_other. cbn. lia.
    - intros (attrs & Ha & ->). inversion Ha; subst; try (exfalso; lia). now rewrite set_peer_id. }
  destruct (t =? 10) eqn:E7.
  { apply Z.eqb_eq in E7. subst. split.
    - destruct v as [|a [|b [|x v]]]; try easy.
      do 2 (let H := fresh in apply bytes_cons_inv in Hb as [H Hb]).
      rewrite (store_report c s acc _ Vlan) by easy. intros [= <-].
      rewrite dec_decimal by lia.
      replace [a; b] with (U16 (a * 256 + b)) by (unfold U16; f_equal; [lia|f_equal; lia]).
      eexists. split; [|reflexivity]. apply cdp_vlan2. lia.
    - intros (attrs & Ha & ->). inversion Ha; subst; try (exfalso; lia).
      + unfold U16. replace (w / 256 * 256 + w mod 256) with w by lia.
        now rewrite (store_report c s acc _ Vlan), dec_decimal by easy.
      + exfalso. cbn in *. lia. }
  assert (Hno : ~ In t [1; 2; 3; 4; 10; 20; 22]) by (cbn; lia).
  replace (if t =? 11 then Some s else Some s) with (Some s) by now destruct (t =? 11).
  split.
  - intros [= <-]. exists []. rewrite set_peer_id by easy. split; [|easy]. now apply cdp_other.
  - intros (attrs & Ha & ->). inversion Ha; subst; try (exfalso; lia). now rewrite set_peer_id.
Qed.

(** ** The TLV list *)
Lemma cdp_loop_tlv fuel c t v r s : cdp_fits (t, v) ->
  p_cdp_loop (S fuel) c (cdp_bytes (t, v) ++ r) s =
  (let? s' := p_cdp_tlv c t v s in p_cdp_loop fuel c r s').
Proof.
  intros [Ht Hv]. cbn [fst snd] in *. unfold cdp_bytes. cbn [fst snd].
  rewrite <- !app_assoc. cbn [U16 app p_cdp_loop].
  pose proof (zlen_nonneg _ v).
  replace (((4 + zlen v) / 256 * 256 + (4 + zlen v) mod 256 - 4) mod 65536) with (zlen v) by lia.
  replace (zlen (v ++ r) <? zlen v) with false by zlia.
  rewrite (sized_app _ _ v), (after_app _ _ v) by easy.
  now replace (t / 256 * 256 + t mod 256) with t by lia.
Qed.
Lemma cdp_loop_shape fuel c r s s' : bytes r -> zlen r < 65532 ->
  p_cdp_loop (S fuel) c r s = Some s' ->
  r = [] \/ exists t v r', r = cdp_bytes (t, v) ++ r' /\ cdp_fits (t, v).
Proof.
  intros Hb Hl. cbn [p_cdp_loop]. destruct r as [|t1 [|t2 [|l1 [|l2 r]]]]; try easy; [now left|].
  do 4 (let H := fresh in apply bytes_cons_inv in Hb as [H Hb]).
  destruct (zlen r <? _) eqn:E1; [easy|]. intros _. right.
  assert (Hl4 : (l1 * 256 + l2 - 4) mod 65536 = l1 * 256 + l2 - 4) by zlia.
  rewrite Hl4 in E1. set (l := l1 * 256 + l2 - 4) in *.
  assert (Ls : zlen (sized l r) = l) by (apply zlen_sized; zlia).
  exists (t1 * 256 + t2), (sized l r), (after l r). split.
  - unfold cdp_bytes. cbn [fst snd]. rewrite Ls, <- !app_assoc, sized_after. unfold U16, l. cbn [app].
    replace ((t1 * 256 + t2) / 256) with t1 by lia. replace ((t1 * 256 + t2) mod 256) with t2 by lia.
    replace ((4 + (l1 * 256 + l2 - 4)) / 256) with l1 by lia.
    replace ((4 + (l1 * 256 + l2 - 4)) mod 256) with l2 by lia. reflexivity.
  - unfold cdp_fits. cbn [fst snd]. rewrite Ls. lia.
Qed.

Lemma cdp_bytes_len x : 4 <= zlen (cdp_bytes x).
Proof. unfold cdp_bytes. zlia. Qed.

Lemma cdp_loop_sound c : d_mode c <> 2 -> forall fuel r s acc s',
  bytes r -> zlen r < 65532 -> s_peer s = report acc ->
  p_cdp_loop fuel c r s = Some s' ->
  exists tlvs attrs, r = flat_map cdp_bytes tlvs /\ Forall cdp_fits tlvs
    /\ Forall2 cdp_means tlvs attrs /\ s' = set_peer s (report (acc ++ concat attrs)).
Proof.
  intros Hm. induction fuel as [|fuel IH]; intros r s acc s' Hb Hl Hs H; [easy|].
  destruct (cdp_loop_shape _ _ _ _ _ Hb Hl H) as [->|(t & v & r' & -> & Hfit)].
  - injection H as <-. exists [], []. repeat split; try constructor. now rewrite set_peer_id.
  - rewrite cdp_loop_tlv in H by easy. apply obind_some in H as (s1 & H1 & H).
    pose proof (cdp_bytes_len (t, v)). rewrite zlen_app in Hl. pose proof (zlen_nonneg _ r').
    pose proof Hb as Hb'. apply bytes_app in Hb' as [Hbv Hbr]. unfold cdp_bytes in Hbv.
    apply bytes_app_r, bytes_app_r in Hbv. cbn [snd] in Hbv.
    apply (cdp_tlv_iff c t v s acc s1) in H1; try easy.
    2:{ unfold cdp_bytes in Hl. cbn [fst snd] in Hl. zlia. }
    2:{ destruct Hfit as [Hf _]. cbn [fst] in Hf. lia. }
    destruct H1 as (at1 & Hm1 & ->).
    apply (IH r' _ (acc ++ at1)) in H; try easy; [|lia].
    destruct H as (tlvs & attrs & -> & HF & HF2 & ->).
    exists ((t, v) :: tlvs), (at1 :: attrs). repeat split; try (now constructor).
    rewrite set_peer_twice. cbn [concat]. now rewrite <- app_assoc.
Qed.

Lemma cdp_loop_complete c : d_mode c <> 2 -> forall tlvs fuel s acc attrs,
  bytes (flat_map cdp_bytes tlvs) -> zlen (flat_map cdp_bytes tlvs) < 65532 -> s_peer s = report acc ->
  Forall cdp_fits tlvs -> Forall2 cdp_means tlvs attrs -> (length tlvs < fuel)%nat ->
  p_cdp_loop fuel c (flat_map cdp_bytes tlvs) s = Some (set_peer s (report (acc ++ concat attrs))).
Proof.
  intros Hm. induction tlvs as [|[t v] tlvs IH]; intros fuel s acc attrs Hb Hl Hs HF HF2 Hf;
    (destruct fuel as [|fuel]; [cbn in Hf; lia|]).
  - inversion HF2; subst. cbn [flat_map p_cdp_loop concat]. now rewrite set_peer_id.
  - inversion HF as [|? ? Hfit HF']; subst. inversion HF2 as [|? at1 ? attrs' Hm1 HF2']; subst.
    cbn [flat_map] in *. rewrite cdp_loop_tlv by easy.
    pose proof (cdp_bytes_len (t, v)). rewrite zlen_app in Hl.
    pose proof (zlen_nonneg _ (flat_map cdp_bytes tlvs)).
    apply bytes_app in Hb as [Hbv Hbr]. unfold cdp_bytes in Hbv.
    apply bytes_app_r, bytes_app_r in Hbv. cbn [snd] in Hbv.
    assert (H1 : p_cdp_tlv c t v s = Some (set_peer s (report (acc ++ at1)))).
    { apply (cdp_tlv_iff c t v s acc); try easy.
      - unfold cdp_bytes in Hl. cbn [fst snd] in Hl. zlia.
      - destruct Hfit as [Hf2 _]. cbn [fst] in Hf2. lia.
      - now exists at1. }
    rewrite H1. cbn [obind]. rewrite (IH fuel _ (acc ++ at1) attrs'); try easy.
    + rewrite set_peer_twice. cbn [concat]. now rewrite <- app_assoc.
    + lia.
    + cbn [length] in Hf. lia.
Qed.

Lemma cdp_tlvs_count tlvs : 4 * zlen tlvs <= zlen (flat_map cdp_bytes tlvs).
Proof.
  induction tlvs as [|r recs IH]; [easy|]. cbn [flat_map]. pose proof (cdp_bytes_len r). zlia.
Qed.

(** The whole payload. *)
Lemma p_cdp_iff c payload s s' :
  d_mode c <> 2 -> bytes payload -> zlen payload < 65532 -> s_peer s = no_peers ->
  p_cdp c payload s = Some s' <->
  exists version ttl attrs, cdp_packet_means payload version ttl attrs
    /\ s' = mkDst (report attrs) ttl (if version =? 1 then 5 else 1) (s_out s).
Proof.
  intros Hm Hb Hl Hs. unfold p_cdp. split.
  - destruct payload as [|v [|ttl [|x [|y r]]]]; try easy.
    destruct ((v <? 1) || (2 <? v)) eqn:E; [easy|]. intros H.
    pose proof Hb as Hb'.
    do 4 (let H := fresh in apply bytes_cons_inv in Hb' as [H Hb']).
    unfold p_cdp_header, DECODE_PRINT in H. replace (d_mode c =? 2) with false in H by lia.
    apply (cdp_loop_sound c Hm _ _ _ []) in H; [|easy|zlia|now rewrite report_nil].
    destruct H as (tlvs & attrs & -> & HF & HF2 & ->). cbn [app].
    exists v, ttl, (concat attrs). split; [|reflexivity].
    change (v :: ttl :: x :: y :: flat_map cdp_bytes tlvs)
      with ([v; ttl] ++ [x; y] ++ flat_map cdp_bytes tlvs).
    apply cdp_packet_intro; try easy. lia.
  - intros (v & ttl & attrs & Hp & ->). inversion Hp as [? ? chk tlvs at2 Hv Hchk HF HF2]; subst.
    destruct chk as [|x [|y [|? ?]]]; try (exfalso; zlia). cbn [app] in *.
    replace ((v <? 1) || (2 <? v)) with false by lia.
    unfold p_cdp_header, DECODE_PRINT. replace (d_mode c =? 2) with false by lia.
    do 4 (let H := fresh in apply bytes_cons_inv in Hb as [H Hb]).
    rewrite (cdp_loop_complete c Hm tlvs _ _ [] at2); try easy.
    + zlia.
    + pose proof (cdp_tlvs_count tlvs). unfold zlen in *. lia.
Qed.

Theorem cdp_decode_iff c f payload s n s' :
  in_buffer c f -> cdp_frame f payload -> d_mode c <> 2 -> s_peer s = no_peers ->
  cdp_decode c s = DOk (n, s') <->
  n = zlen f /\
  exists version ttl attrs, cdp_packet_means payload version ttl attrs
    /\ s' = mkDst (report attrs) ttl (if version =? 1 then 5 else 1) (s_out s).
Proof.
  intros Hin Hf Hm Hs. rewrite (cdp_decode_pure c f payload s Hin Hf).
  assert (Hb : bytes payload /\ zlen payload < 65532).
  { destruct Hin as (tail & _ & _ & _ & Hl & Hb).
    destruct Hf; (split; [rewrite !bytes_app in Hb; apply Hb|zlia]). }
  destruct Hb as [Hb Hl]. rewrite <- (p_cdp_iff c payload s s' Hm Hb Hl Hs).
  destruct (p_cdp c payload s) as [s2|]; cbn [obind lift]; split.
  - intros [= <- <-]. now split.
  - intros [-> [= <-]]. reflexivity.
  - easy.
  - intros [_ [=]].
Qed.
