(** Proofs about the encoders: each builder produces exactly the specified
    frame, or nothing when it does not fit. *)
From Verif Require Import Base Vis Tlv Types Chksum Checks Cdp Edp Fdp Ndp Lldp.
From Verif Require Import Spec SpecAdv Lemmas VisProofs ChkProofs TypesProofs.

Lemma zlen_U16 v : zlen (U16 v) = 2. Proof. reflexivity. Qed.
Lemma zlen_U32 v : zlen (U32 v) = 4. Proof. reflexivity. Qed.
Lemma zlen_le16 v : zlen (le16 v) = 2. Proof. reflexivity. Qed.
#[export] Hint Rewrite zlen_U16 zlen_U32 zlen_le16 : zl.
Lemma zlen_cdp_bytes t v : zlen (cdp_bytes (t, v)) = 4 + zlen v.
Proof. unfold cdp_bytes. cbn [fst snd]. zlia. Qed.
Lemma zlen_edp_bytes m t v : zlen (edp_bytes (m, (t, v))) = 4 + zlen v.
Proof. unfold edp_bytes. zlia. Qed.
Lemma zlen_lldp_bytes t v : zlen (lldp_bytes (t, v)) = 2 + zlen v.
Proof. unfold lldp_bytes. cbn [fst snd]. zlia. Qed.
Lemma zlen_addr_rec t p a : zlen (addr_rec_bytes (t, p, a)) = 4 + zlen p + zlen a.
Proof. unfold addr_rec_bytes. zlia. Qed.
#[export] Hint Rewrite zlen_cdp_bytes zlen_edp_bytes zlen_lldp_bytes zlen_addr_rec : zl.

Lemma be16_U16 v : 0 <= v < 65536 -> be16 v = U16 v.
Proof. intros H. unfold be16, U16. f_equal. lia. Qed.
Lemma be32_U32 v : 0 <= v < 4294967296 -> be32 v = U32 v.
Proof. intros H. unfold be32, U32. f_equal. lia. Qed.
Lemma be16_mod v : be16 v = U16 (v mod 65536).
Proof. unfold be16, U16. f_equal; [|f_equal]; lia. Qed.

(** [f] appends [b] to the packet when there is room and fails otherwise. *)
Definition appends (f : enc -> option enc) (b : list Z) : Prop :=
  forall e, 0 <= left e <= 1518 ->
    f e = if zlen b <=? left e
          then Some (mkEnc (out e ++ b) (left e - zlen b)) else None.

Lemma appends_push b : appends (push b) b.
Proof. intros e _. reflexivity. Qed.
Lemma appends_push8 v : appends (push8 v) [v mod 256].
Proof. apply appends_push. Qed.
Lemma appends_push8' v : 0 <= v < 256 -> appends (push8 v) [v].
Proof. intros H. unfold push8. rewrite Z.mod_small by lia. apply appends_push. Qed.
Lemma appends_push16 v : 0 <= v < 65536 -> appends (push16 v) (U16 v).
Proof. intros H. unfold push16. rewrite be16_U16 by easy. apply appends_push. Qed.
Lemma appends_push16m v : appends (push16 v) (U16 (v mod 65536)).
Proof. unfold push16. rewrite be16_mod. apply appends_push. Qed.
Lemma appends_push32 v : 0 <= v < 4294967296 -> appends (push32 v) (U32 v).
Proof. intros H. unfold push32. rewrite be32_U32 by easy. apply appends_push. Qed.
Lemma appends_nopush : appends nopush [].
Proof.
  intros e H. unfold nopush. replace (zlen [] <=? left e) with true by zlia.
  rewrite app_nil_r, zlen_nil, Z.sub_0_r. now destruct e.
Qed.
Lemma appends_and f g a b : appends f a -> appends g b -> appends (f &&& g) (a ++ b).
Proof.
  intros Hf Hg e He. unfold andthen. rewrite Hf by easy.
  destruct (zlen a <=? left e) eqn:E.
  - cbn [obind]. rewrite Hg by (cbn [left]; zlia). cbn [left out].
    replace (zlen (a ++ b) <=? left e) with (zlen b <=? left e - zlen a) by zlia.
    destruct (zlen b <=? left e - zlen a); [|easy].
    rewrite app_assoc. do 2 f_equal. zlia.
  - cbn [obind]. replace (zlen (a ++ b) <=? left e) with false by zlia. reflexivity.
Qed.
Lemma appends_if (c : bool) f g a b : (c = true -> appends f a) -> (c = false -> appends g b) ->
  appends (if c then f else g) (if c then a else b).
Proof. destruct c; auto. Qed.
Lemma appends_when (c : bool) f a : (c = true -> appends f a) ->
  appends (if c then f else nopush) (when c a).
Proof. destruct c; auto. intros _. apply appends_nopush. Qed.
Lemma appends_whenn (c : bool) f a : (c = false -> appends f a) ->
  appends (if c then nopush else f) (when (negb c) a).
Proof. destruct c; auto. intros _. apply appends_nopush. Qed.

Lemma patch_mid o x y b : zlen x = zlen y ->
  patch (zlen o) x (o ++ y ++ b) = o ++ x ++ b.
Proof.
  intros H. unfold patch. rewrite firstn_zlen_app. do 2 f_equal.
  replace (Z.to_nat (zlen o) + length x)%nat with (Z.to_nat (zlen (o ++ y)))
    by (unfold zlen in *; rewrite app_length; lia).
  rewrite app_assoc. apply skipn_zlen_app.
Qed.
Lemma patch_mid2 o a x y b k : k = zlen o + zlen a -> zlen x = zlen y ->
  patch k x (o ++ a ++ y ++ b) = o ++ a ++ x ++ b.
Proof.
  intros -> H. rewrite !(app_assoc o a). rewrite <- zlen_app. now apply patch_mid.
Qed.

Lemma appends_cdp_tlv t f b : 0 <= t < 65536 -> appends f b ->
  appends (cdp_tlv t f) (cdp_bytes (t, b)).
Proof.
  intros Ht Hf e He. unfold cdp_tlv, cdp_bytes. cbn [fst snd].
  assert (H : appends (push16 t &&& push16 0 &&& f) (U16 t ++ U16 0 ++ b)).
  { rewrite app_assoc. apply appends_and; [|easy].
    apply appends_and; apply appends_push16; lia. }
  rewrite H by easy.
  replace (zlen (U16 t ++ U16 (4 + zlen b) ++ b)) with (zlen (U16 t ++ U16 0 ++ b)) by zlia.
  destruct (_ <=? left e) eqn:E; [|reflexivity].
  cbn [obind patch_enc out left]. unfold patch_enc. cbn [out left].
  do 2 f_equal. rewrite patch_mid2 by zlia.
  do 3 f_equal. rewrite be16_U16 by zlia. f_equal. zlia.
Qed.

Lemma appends_edp_tlv t f b : 0 <= t < 256 -> appends f b ->
  appends (edp_tlv t f) (edp_bytes (153, (t, b))).
Proof.
  intros Ht Hf e He. unfold edp_tlv, edp_bytes. cbn [fst snd].
  assert (H : appends (push8 153 &&& push8 t &&& push16 0 &&& f) ([153; t] ++ U16 0 ++ b)).
  { rewrite app_assoc. apply appends_and; [|easy].
    apply appends_and; [|apply appends_push16; lia].
    apply (appends_and _ _ [153] [t]); apply appends_push8'; lia. }
  rewrite H by easy.
  replace (zlen ([153; t] ++ U16 (4 + zlen b) ++ b)) with (zlen ([153; t] ++ U16 0 ++ b)) by zlia.
  destruct (_ <=? left e) eqn:E; [|reflexivity].
  cbn [obind patch_enc out left]. unfold patch_enc. cbn [out left].
  do 2 f_equal. rewrite patch_mid2 by zlia.
  do 3 f_equal. rewrite be16_U16 by zlia. f_equal. zlia.
Qed.

Lemma lor_add_512 t l : 0 <= l < 512 -> Z.lor (t * 512) l = t * 512 + l.
Proof.
  intros H.
  assert (E : Z.land (t * 512) l = 0).
  { apply Z.bits_inj'. intros i Hi. rewrite Z.land_spec, Z.bits_0.
    change 512 with (2 ^ 9). destruct (Z.ltb_spec i 9).
    - now rewrite Z.mul_pow2_bits_low by lia.
    - replace l with (l mod 2 ^ 9) by (apply Z.mod_small; lia).
      rewrite Z.mod_pow2_bits_high by lia. apply andb_false_r. }
  rewrite <- Z.lxor_lor by easy. now rewrite Z.add_nocarry_lxor.
Qed.

Lemma slice_mid A (o a b : list A) : slice (o ++ a ++ b) (zlen o) (zlen a) = a.
Proof. unfold slice. now rewrite skipn_zlen_app, firstn_zlen_app. Qed.

Lemma appends_lldp_tlv t f b : 0 <= t < 128 -> zlen b < 512 -> appends f b ->
  appends (lldp_tlv t f) (lldp_bytes (t, b)).
Proof.
  intros Ht Hl Hf e He. unfold lldp_tlv, lldp_bytes. cbn [fst snd].
  rewrite Z.shiftl_mul_pow2 by lia. change (2 ^ 9) with 512.
  assert (H : appends (push16 (t * 512) &&& f) (U16 (t * 512) ++ b))
    by (apply appends_and; [apply appends_push16; lia | easy]).
  rewrite H by easy.
  replace (zlen (U16 (t * 512 + zlen b) ++ b)) with (zlen (U16 (t * 512) ++ b)) by zlia.
  destruct (_ <=? left e) eqn:E; [|reflexivity].
  cbn [obind patch_enc out left]. unfold patch_enc. cbn [out left].
  do 2 f_equal.
  change 2 with (zlen (U16 (t * 512))) at 1. rewrite slice_mid.
  rewrite patch_mid by (rewrite zlen_be16; easy). do 2 f_equal.
  rewrite <- (be16_U16 (t * 512)) by lia. rewrite de16_be16 by lia.
  replace (_ - (_ + 2)) with (zlen b) by zlia.
  change 511 with (Z.ones 9). rewrite Z.land_ones, Z.mod_small by zlia.
  rewrite lor_add_512 by zlia. apply be16_U16. zlia.
Qed.

(** Running the encoder on the initial header. *)
Lemma appends_run f b hdr : appends f b -> zlen hdr <= 1518 ->
  f (mkEnc hdr (1518 - zlen hdr)) =
  if zlen (hdr ++ b) <=? 1518
  then Some (mkEnc (hdr ++ b) (1518 - zlen (hdr ++ b))) else None.
Proof.
  intros Hf Hh. rewrite Hf by (cbn [left]; zlia). cbn [out left].
  replace (zlen b <=? 1518 - zlen hdr) with (zlen (hdr ++ b) <=? 1518) by zlia.
  destruct (_ <=? 1518); [|easy]. do 2 f_equal. zlia.
Qed.

Lemma is_set_addr a : bytes a -> addr_set a = is_set a.
Proof.
  intros H. unfold addr_set, is_set. induction H as [|b l Hb _ IH]; cbn; [easy|].
  rewrite IH. f_equal. unfold byte in Hb. lia.
Qed.

Lemma flat_map_app A B (f : A -> list B) l l' :
  flat_map f (l ++ l') = flat_map f l ++ flat_map f l'.
Proof. induction l; cbn; [easy|]. rewrite IHl. apply app_assoc. Qed.
Lemma flat_map_when A B (f : A -> list B) c l :
  flat_map f (when c l) = when c (flat_map f l).
Proof. now destruct c. Qed.

(** Rewriting [appends f b] up to equal bytes. *)
Lemma appends_eq f b b' : appends f b -> b = b' -> appends f b'.
Proof. now intros H <-. Qed.

Lemma cdp_addr_tlv_spec t n : 0 <= t < 65536 ->
  bytes (nf_ipaddr4 n) -> bytes (nf_ipaddr6 n) ->
  zlen (nf_ipaddr4 n) = 4 -> zlen (nf_ipaddr6 n) = 16 ->
  appends (cdp_addr_tlv t n) (flat_map cdp_bytes (addr_tlv t n)).
Proof.
  intros Ht B4 B6 L4 L6. unfold cdp_addr_tlv, addr_tlv, cdp_push_addrs, addr_count, ip_recs.
  rewrite !is_set_addr by easy.
  assert (H4 : appends (push8 PT_IPV4 &&& push8 1 &&& push PROTO_BYTES_IPV4 &&& push16 4
                         &&& push (nf_ipaddr4 n))
                 (addr_rec_bytes (1, [204], nf_ipaddr4 n))).
  { unfold addr_rec_bytes. rewrite L4.
    eapply appends_eq.
    - repeat apply appends_and; first
        [ apply appends_push8'; easy | apply appends_push16; easy | apply appends_push ].
    - reflexivity. }
  assert (H6 : appends (push8 PT_IPV6 &&& push8 8 &&& push PROTO_BYTES_IPV6 &&& push16 16
                         &&& push (nf_ipaddr6 n))
                 (addr_rec_bytes (2, [170; 170; 3; 0; 0; 0; 134; 221], nf_ipaddr6 n))).
  { unfold addr_rec_bytes. rewrite L6.
    eapply appends_eq.
    - repeat apply appends_and; first
        [ apply appends_push8'; easy | apply appends_push16; easy | apply appends_push ].
    - reflexivity. }
  destruct (is_set (nf_ipaddr4 n)), (is_set (nf_ipaddr6 n)).
  1-3: cbn [app Z.add Z.ltb Z.compare flat_map]; rewrite app_nil_r;
    apply appends_cdp_tlv; [easy|];
    apply appends_and; [apply appends_push32; easy|].
  - rewrite app_nil_r. now apply appends_and.
  - now apply appends_and; [|apply appends_nopush].
  - rewrite app_nil_r. eapply appends_eq; [apply appends_and; [apply appends_nopush|exact H6]|].
    reflexivity.
  - apply appends_nopush.
Qed.

(** Header fix-ups shared by the 802.3 framed builders. *)
Lemma patch_ether hdr14 rest x : zlen hdr14 = 14 -> zlen x = 14 ->
  patch 0 x (hdr14 ++ rest) = x ++ rest.
Proof. intros H H'. apply (patch_mid [] x hdr14 rest). zlia. Qed.
Lemma bytes_app a b : bytes (a ++ b) <-> bytes a /\ bytes b.
Proof. apply Forall_app. Qed.
Lemma bytes_U16 v : 0 <= v < 65536 -> bytes (U16 v).
Proof. intros. repeat constructor; lia. Qed.
Lemma bytes_U32 v : 0 <= v < 4294967296 -> bytes (U32 v).
Proof. intros. repeat constructor; lia. Qed.
Lemma bytes_repeat0 n : bytes (repeat 0 n).
Proof. apply Forall_forall. intros x H. apply repeat_spec in H. subst. split; lia. Qed.
Lemma bytes_when c l : bytes l -> bytes (when c l).
Proof. destruct c; [easy|constructor]. Qed.
Lemma bytes_flat_map A (f : A -> list Z) l :
  (forall x, In x l -> bytes (f x)) -> bytes (flat_map f l).
Proof.
  induction l as [|x l IH]; cbn; intros H; [constructor|].
  apply bytes_app. split; [apply H; now left | apply IH; intros; apply H; now right].
Qed.
Lemma cstring_bytes n s : cstring n s -> bytes s. Proof. now intros []. Qed.
Lemma cstring_len n s : cstring n s -> 0 <= zlen s < n.
Proof. intros (_ & _ & H). zlia. Qed.

Lemma bytes_cdp_bytes x : bytes (snd x) -> cdp_fits x -> bytes (cdp_bytes x).
Proof.
  intros H [H1 H2]. unfold cdp_bytes. rewrite !bytes_app.
  split; [now apply bytes_U16|]. split; [|easy]. apply bytes_U16. zlia.
Qed.
Lemma bytes_lldp_bytes x : bytes (snd x) -> lldp_fits x -> bytes (lldp_bytes x).
Proof.
  intros H [H1 H2]. unfold lldp_bytes. rewrite !bytes_app.
  split; [|easy]. apply bytes_U16. zlia.
Qed.
