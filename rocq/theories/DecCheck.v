(** Signature checks against the frame specification. *)
From Verif Require Import Base Vis Tlv Types Checks Msg Spec Lemmas VisProofs EncProofs DecProofs.

Lemma slice_view buf p v o n : view buf p v -> 0 <= o -> 0 <= n -> o + n <= zlen v ->
  rdn buf (p + o) n = DOk (slice v o n).
Proof.
  intros H Ho Hn Hl.
  pose proof (view_skipn _ _ _ o H ltac:(lia)) as H'.
  rewrite (rdn_view _ _ _ n H') by (rewrite zlen_skipn; lia). reflexivity.
Qed.

Lemma U16_split l : zlen l = 2 -> bytes l -> exists v, l = U16 v /\ 0 <= v < 65536.
Proof.
  destruct l as [|a [|b [|? ?]]]; intros H Hb; try (exfalso; zlia).
  inversion Hb as [|? ? Ha Hb1]; subst. inversion Hb1 as [|? ? Hc _]; subst. unfold byte in *.
  exists (a * 256 + b). unfold U16. split; [|lia]. f_equal; [lia|f_equal; lia].
Qed.
Lemma de16_U16 v : de16 (U16 v) = v.
Proof. unfold de16, U16. lia. Qed.
Lemma bytes_app_l a b : bytes (a ++ b) -> bytes a. Proof. now intros H%bytes_app. Qed.
Lemma bytes_app_r a b : bytes (a ++ b) -> bytes b. Proof. now intros H%bytes_app. Qed.

(** Cutting a list at a given length. *)
Lemma cut A n (l : list A) : 0 <= n <= zlen l ->
  exists a b, l = a ++ b /\ zlen a = n /\ zlen b = zlen l - n.
Proof.
  intros H. destruct (split_at A l n H) as (a & b & -> & E). exists a, b.
  repeat split; [easy|zlia].
Qed.

Lemma slice_app_r A (a b : list A) o n : zlen a = o -> slice (a ++ b) o n = firstn (Z.to_nat n) b.
Proof. intros <-. unfold slice. now rewrite skipn_zlen_app. Qed.
Lemma slice_app_l A (a b : list A) n : zlen a = n -> slice (a ++ b) 0 n = a.
Proof. intros <-. unfold slice. cbn [Z.to_nat skipn]. apply firstn_zlen_app. Qed.
Lemma slice_app_m A (a b c : list A) o n : zlen a = o -> zlen b = n -> slice (a ++ b ++ c) o n = b.
Proof. intros H <-. rewrite slice_app_r by easy. apply firstn_zlen_app. Qed.

Lemma in_buffer_view c f : in_buffer c f -> view (d_buf c) 0 f.
Proof. intros (tail & -> & _). apply view_self. Qed.

Ltac cuts f n a r H :=
  destruct (cut _ n f ltac:(zlia)) as (a & r & -> & H & ?).

Lemma llc_check_some dst org pid c f payload :
  in_buffer c f -> zlen dst = 6 -> zlen org = 3 ->
  snap_frame dst org pid f payload ->
  exists p, llc_check dst org pid (d_buf c) (d_len c) = DOk (Some p)
    /\ view (d_buf c) p payload /\ 22 <= p /\ p + zlen payload = zlen f.
Proof.
  intros Hin Ld Lo Hf. pose proof (in_buffer_view _ _ Hin) as Hv.
  destruct Hin as (tail & _ & _ & -> & Hl & Hb).
  unfold llc_check, ETHER_MAX_LEN.
  replace (negb (22 <? zlen f)) with false by lia.
  replace (negb (zlen f <=? 1518)) with false by lia.
  destruct Hf as [src ty payload Ls Ht Hty | src tag ty payload Ls Lt Ht].
  - exists 22.
    assert (E1 : rdn (d_buf c) 0 14 = DOk (dst ++ src ++ U16 ty)).
    { rewrite (rdn_view _ _ _ 14 Hv) by zlia. f_equal.
      rewrite (app_assoc src), (app_assoc dst).
      replace 14 with (zlen (dst ++ src ++ U16 ty)) by zlia. apply firstn_zlen_app. }
    rewrite E1. cbn [dbind]. rewrite slice_app_l by easy. rewrite beq_refl. cbn [negb].
    replace (slice (dst ++ src ++ U16 ty) 12 2) with (U16 ty).
    2:{ rewrite (app_assoc dst). rewrite <- (app_nil_r (U16 ty)) at 2.
        symmetry. apply slice_app_m; zlia. }
    rewrite de16_U16. unfold ETHERTYPE_VLAN. destruct (ty =? 33024) eqn:E; [lia|]. cbv zeta.
    replace (14 + 0) with (0 + 14) by lia.
    rewrite (slice_view _ _ _ _ _ Hv) by zlia.
    replace (slice (dst ++ src ++ U16 ty ++ [170; 170; 3] ++ org ++ U16 pid ++ payload) 14 8)
      with ([170; 170; 3] ++ org ++ U16 pid).
    2:{ symmetry. rewrite (app_assoc src), (app_assoc dst), (app_assoc org), (app_assoc [170; 170; 3]).
        apply slice_app_m; zlia. }
    cbn [dbind]. change (nth 0 ([170; 170; 3] ++ org ++ U16 pid) 0) with 170.
    change (nth 1 ([170; 170; 3] ++ org ++ U16 pid) 0) with 170.
    change (nth 2 ([170; 170; 3] ++ org ++ U16 pid) 0) with 3. cbn [Z.eqb negb orb LLC_SNAP_LSAP LLC_UI].
    change (negb (170 =? LLC_SNAP_LSAP) || negb (170 =? LLC_SNAP_LSAP) || negb (3 =? LLC_UI)) with false.
    cbv iota. rewrite (slice_app_m _ [170; 170; 3] org) by easy. rewrite beq_refl.
    replace (slice ([170; 170; 3] ++ org ++ U16 pid) 6 2) with (U16 pid).
    2:{ symmetry. rewrite app_assoc. rewrite <- (app_nil_r (U16 pid)) at 1. apply slice_app_m; zlia. }
    rewrite de16_U16, Z.eqb_refl. cbn [andb]. split; [easy|]. split; [|zlia].
    rewrite (app_assoc org), (app_assoc [170; 170; 3]), (app_assoc (U16 ty)), (app_assoc src), (app_assoc dst) in Hv.
    apply view_app_r in Hv. match type of Hv with view _ ?q _ => replace 22 with q by zlia end. exact Hv.
  - exists 26.
    assert (E1 : rdn (d_buf c) 0 14 = DOk (dst ++ src ++ U16 33024)).
    { rewrite (rdn_view _ _ _ 14 Hv) by zlia. f_equal.
      rewrite (app_assoc src), (app_assoc dst).
      replace 14 with (zlen (dst ++ src ++ U16 33024)) by zlia. apply firstn_zlen_app. }
    rewrite E1. cbn [dbind]. rewrite slice_app_l by easy. rewrite beq_refl. cbn [negb].
    replace (slice (dst ++ src ++ U16 33024) 12 2) with (U16 33024).
    2:{ rewrite (app_assoc dst). rewrite <- (app_nil_r (U16 33024)) at 2.
        symmetry. apply slice_app_m; zlia. }
    rewrite de16_U16. unfold ETHERTYPE_VLAN, ETHER_VLAN_ENCAP_LEN. cbv zeta.
    change (33024 =? 33024) with true. cbv iota. change (14 + 4) with (0 + 18).
    rewrite (slice_view _ _ _ _ _ Hv) by zlia.
    replace (slice (dst ++ src ++ U16 33024 ++ tag ++ U16 ty ++ [170; 170; 3] ++ org ++ U16 pid ++ payload) 18 8)
      with ([170; 170; 3] ++ org ++ U16 pid).
    2:{ symmetry. rewrite (app_assoc tag), (app_assoc (U16 33024)), (app_assoc src), (app_assoc dst), (app_assoc org), (app_assoc [170; 170; 3]).
        apply slice_app_m; zlia. }
    cbn [dbind]. change (nth 0 ([170; 170; 3] ++ org ++ U16 pid) 0) with 170.
    change (nth 1 ([170; 170; 3] ++ org ++ U16 pid) 0) with 170.
    change (nth 2 ([170; 170; 3] ++ org ++ U16 pid) 0) with 3.
    change (negb (170 =? LLC_SNAP_LSAP) || negb (170 =? LLC_SNAP_LSAP) || negb (3 =? LLC_UI)) with false.
    cbv iota. rewrite (slice_app_m _ [170; 170; 3] org) by easy. rewrite beq_refl.
    replace (slice ([170; 170; 3] ++ org ++ U16 pid) 6 2) with (U16 pid).
    2:{ symmetry. rewrite app_assoc. rewrite <- (app_nil_r (U16 pid)) at 1. apply slice_app_m; zlia. }
    rewrite de16_U16, Z.eqb_refl. cbn [andb]. split; [easy|]. split; [|zlia].
    rewrite (app_assoc org), (app_assoc [170; 170; 3]), (app_assoc (U16 ty)), (app_assoc tag),
      (app_assoc (U16 33024)), (app_assoc src), (app_assoc dst) in Hv.
    apply view_app_r in Hv. match type of Hv with view _ ?q _ => replace 26 with q by zlia end. exact Hv.
Qed.

(** Every long enough frame is an ethernet header, a type and the rest, plus
    another type when tagged. *)
Lemma frame_cut f : bytes f -> 60 <= zlen f ->
  exists dst src ty tag ty2 a b rest,
    f = dst ++ src ++ U16 ty ++ tag ++ U16 ty2 ++ a ++ b ++ rest
    /\ zlen dst = 6 /\ zlen src = 6 /\ zlen tag = 2 /\ zlen a = 4 /\ zlen b = 4
    /\ 0 <= ty < 65536 /\ 0 <= ty2 < 65536 /\ bytes tag /\ bytes a /\ bytes b.
Proof.
  intros Hb Hl.
  destruct (cut _ 6 f ltac:(zlia)) as (dst & r & -> & Ld & ?).
  destruct (cut _ 6 r ltac:(zlia)) as (src & r1 & -> & Ls & ?).
  destruct (cut _ 2 r1 ltac:(zlia)) as (t1 & r2 & -> & Lt & ?).
  destruct (cut _ 2 r2 ltac:(zlia)) as (tag & r3 & -> & Lg & ?).
  destruct (cut _ 2 r3 ltac:(zlia)) as (t2 & r4 & -> & Lt2 & ?).
  destruct (cut _ 4 r4 ltac:(zlia)) as (a & r5 & -> & La & ?).
  destruct (cut _ 4 r5 ltac:(zlia)) as (b & r6 & -> & Lb & ?).
  rewrite !bytes_app in Hb. destruct Hb as (_ & _ & B1 & B2 & B3 & B4 & B5 & _).
  destruct (U16_split t1 Lt B1) as (ty & -> & Hty).
  destruct (U16_split t2 Lt2 B3) as (ty2 & -> & Hty2).
  exists dst, src, ty, tag, ty2, a, b, r6. repeat split; easy || lia.
Qed.

(** The SNAP part of the check on 8 bytes. *)
Lemma llc_part org pid llc : zlen llc = 8 -> bytes llc -> zlen org = 3 ->
  (negb (nth 0 llc 0 =? LLC_SNAP_LSAP) || negb (nth 1 llc 0 =? LLC_SNAP_LSAP)
     || negb (nth 2 llc 0 =? LLC_UI)) = false ->
  (beq (slice llc 3 3) org && (de16 (slice llc 6 2) =? pid)) = true ->
  llc = [170; 170; 3] ++ org ++ U16 pid.
Proof.
  intros L B Lo H1 H2.
  do 8 (destruct llc as [|? llc]; [exfalso; zlia|]).
  destruct llc; [|exfalso; zlia].
  cbn [nth] in H1. unfold LLC_SNAP_LSAP, LLC_UI in H1.
  apply andb_prop in H2 as [H2 H3]. apply beq_true in H2.
  change (slice _ 3 3) with [z2; z3; z4] in H2. change (slice _ 6 2) with [z5; z6] in H3.
  subst org. cbn [de16] in H3. unfold bytes in B. rewrite !Forall_cons_iff in B. unfold byte in B.
  cbn [app]. unfold U16.
  replace z with 170 by lia. replace z0 with 170 by lia. replace z1 with 3 by lia.
  apply Z.eqb_eq in H3. clear L Lo.  assert (z5 = pid / 256) by lia. assert (z6 = pid mod 256) by lia.
  subst z5 z6. reflexivity.
Qed.

Lemma llc_check_cases dst org pid c f :
  in_buffer c f -> zlen dst = 6 -> zlen org = 3 ->
  llc_check dst org pid (d_buf c) (d_len c) = DOk None
  \/ (exists payload, snap_frame dst org pid f payload).
Proof.
  intros Hin Ld Lo. pose proof (in_buffer_view _ _ Hin) as Hv.
  destruct Hin as (tail & _ & _ & -> & Hl & Hb).
  unfold llc_check, ETHER_MAX_LEN.
  replace (negb (22 <? zlen f)) with false by lia.
  replace (negb (zlen f <=? 1518)) with false by lia.
  destruct (frame_cut f Hb (proj1 Hl)) as
    (d & src & ty & tag & ty2 & a & b & rest & -> & L1 & L2 & L3 & L4 & L5 & T1 & T2 & Bt & Ba & Bb).
  assert (E1 : rdn (d_buf c) 0 14 = DOk (d ++ src ++ U16 ty)).
  { rewrite (rdn_view _ _ _ 14 Hv) by zlia. f_equal.
    rewrite (app_assoc src), (app_assoc d).
    replace 14 with (zlen (d ++ src ++ U16 ty)) by zlia. apply firstn_zlen_app. }
  rewrite E1. cbn [dbind]. rewrite slice_app_l by easy.
  destruct (beq d dst) eqn:Ed; [|now left]. apply beq_true in Ed. subst d. cbn [negb].
  replace (slice (dst ++ src ++ U16 ty) 12 2) with (U16 ty).
  2:{ rewrite (app_assoc dst). rewrite <- (app_nil_r (U16 ty)) at 2.
      symmetry. apply slice_app_m; zlia. }
  rewrite de16_U16. unfold ETHERTYPE_VLAN, ETHER_VLAN_ENCAP_LEN. cbv zeta.
  destruct (ty =? 33024) eqn:Et.
  - apply Z.eqb_eq in Et. subst ty. change (14 + 4) with (0 + 18).
    rewrite (slice_view _ _ _ _ _ Hv) by zlia.
    replace (slice (dst ++ src ++ U16 33024 ++ tag ++ U16 ty2 ++ a ++ b ++ rest) 18 8) with (a ++ b).
    2:{ symmetry. rewrite (app_assoc tag), (app_assoc (U16 33024)), (app_assoc src), (app_assoc dst), (app_assoc a).
        apply slice_app_m; zlia. }
    cbn [dbind].
    destruct (_ || _ || _) eqn:E3; [now left|]. destruct (_ && _) eqn:E4; [|now left].
    assert (E5 : a ++ b = [170; 170; 3] ++ org ++ U16 pid).
    { apply llc_part; try easy; [zlia|now apply bytes_app]. }
    right. exists rest. rewrite (app_assoc a), E5, <- !app_assoc. now constructor.
  - change (14 + 0) with (0 + 14).
    rewrite (slice_view _ _ _ _ _ Hv) by zlia.
    replace (slice (dst ++ src ++ U16 ty ++ tag ++ U16 ty2 ++ a ++ b ++ rest) 14 8) with (tag ++ U16 ty2 ++ a).
    2:{ symmetry. rewrite (app_assoc src), (app_assoc dst), (app_assoc (U16 ty2)), (app_assoc tag).
        apply slice_app_m; zlia. }
    cbn [dbind].
    destruct (_ || _ || _) eqn:E3; [now left|]. destruct (_ && _) eqn:E4; [|now left].
    assert (E5 : tag ++ U16 ty2 ++ a = [170; 170; 3] ++ org ++ U16 pid).
    { apply llc_part; try easy; [zlia|]. rewrite !bytes_app. repeat split; try easy.
      repeat constructor; unfold byte; lia. }
    right. exists (b ++ rest). rewrite (app_assoc (U16 ty2)), (app_assoc tag), E5, <- !app_assoc.
    constructor; lia.
Qed.

Lemma lldp_check_some c f payload :
  in_buffer c f -> lldp_frame f payload ->
  exists p, lldp_check (d_buf c) (d_len c) = DOk (Some p)
    /\ view (d_buf c) p payload /\ 14 <= p <= 18 /\ p + zlen payload = zlen f.
Proof.
  intros Hin Hf. pose proof (in_buffer_view _ _ Hin) as Hv.
  destruct Hin as (tail & _ & _ & -> & Hl & Hb).
  unfold lldp_check, ETHER_MAX_LEN.
  replace (negb (14 <? zlen f)) with false by lia.
  replace (negb (zlen f <=? 1518)) with false by lia.
  assert (Ld : zlen [1; 128; 194; 0; 0; 14] = 6) by reflexivity.
  unfold LLDP_MULTICAST_ADDR.
  destruct Hf as [src payload Ls | src tag payload Ls Lt];
    remember [1; 128; 194; 0; 0; 14] as dst eqn:Edst.
  - exists 14.
    assert (E1 : rdn (d_buf c) 0 14 = DOk (dst ++ src ++ U16 35020)).
    { rewrite (rdn_view _ _ _ 14 Hv) by zlia. f_equal.
      rewrite (app_assoc src), (app_assoc dst).
      replace 14 with (zlen (dst ++ src ++ U16 35020)) by zlia. apply firstn_zlen_app. }
    rewrite E1. cbn [dbind]. rewrite slice_app_l by easy. rewrite beq_refl. cbn [negb].
    replace (slice (dst ++ src ++ U16 35020) 12 2) with (U16 35020).
    2:{ rewrite (app_assoc dst). rewrite <- (app_nil_r (U16 35020)) at 2.
        symmetry. apply slice_app_m; zlia. }
    split; [easy|]. split; [|zlia].
    rewrite (app_assoc src), (app_assoc dst) in Hv. apply view_app_r in Hv.
    match type of Hv with view _ ?q _ => replace 14 with q by zlia end. exact Hv.
  - exists 18.
    assert (E1 : rdn (d_buf c) 0 14 = DOk (dst ++ src ++ U16 33024)).
    { rewrite (rdn_view _ _ _ 14 Hv) by zlia. f_equal.
      rewrite (app_assoc src), (app_assoc dst).
      replace 14 with (zlen (dst ++ src ++ U16 33024)) by zlia. apply firstn_zlen_app. }
    rewrite E1. cbn [dbind]. rewrite slice_app_l by easy. rewrite beq_refl. cbn [negb].
    replace (slice (dst ++ src ++ U16 33024) 12 2) with (U16 33024).
    2:{ rewrite (app_assoc dst). rewrite <- (app_nil_r (U16 33024)) at 2.
        symmetry. apply slice_app_m; zlia. }
    rewrite de16_U16. unfold ETHERTYPE_VLAN, ETHER_VLAN_ENCAP_LEN. cbv zeta.
    change (33024 =? 33024) with true. cbv iota. change (12 + 4) with (0 + 16).
    rewrite (slice_view _ _ _ _ _ Hv) by zlia.
    replace (slice (dst ++ src ++ U16 33024 ++ tag ++ U16 35020 ++ payload) 16 2) with (U16 35020).
    2:{ symmetry. rewrite (app_assoc (U16 33024)), (app_assoc src), (app_assoc dst).
        apply slice_app_m; zlia. }
    split; [easy|]. split; [|zlia].
    rewrite (app_assoc tag), (app_assoc (U16 33024)), (app_assoc src), (app_assoc dst) in Hv.
    apply view_app_r in Hv. match type of Hv with view _ ?q _ => replace 18 with q by zlia end. exact Hv.
Qed.

Lemma lldp_check_cases c f :
  in_buffer c f ->
  lldp_check (d_buf c) (d_len c) = DOk None \/ (exists payload, lldp_frame f payload).
Proof.
  intros Hin. pose proof (in_buffer_view _ _ Hin) as Hv.
  destruct Hin as (tail & _ & _ & -> & Hl & Hb).
  unfold lldp_check, ETHER_MAX_LEN.
  replace (negb (14 <? zlen f)) with false by lia.
  replace (negb (zlen f <=? 1518)) with false by lia.
  destruct (frame_cut f Hb (proj1 Hl)) as
    (d & src & ty & tag & ty2 & a & b & rest & -> & L1 & L2 & L3 & L4 & L5 & T1 & T2 & Bt & Ba & Bb).
  assert (E1 : rdn (d_buf c) 0 14 = DOk (d ++ src ++ U16 ty)).
  { rewrite (rdn_view _ _ _ 14 Hv) by zlia. f_equal.
    rewrite (app_assoc src), (app_assoc d).
    replace 14 with (zlen (d ++ src ++ U16 ty)) by zlia. apply firstn_zlen_app. }
  rewrite E1. cbn [dbind]. rewrite slice_app_l by easy.
  destruct (beq d LLDP_MULTICAST_ADDR) eqn:Ed; [|now left]. apply beq_true in Ed. cbn [negb].
  replace (slice (d ++ src ++ U16 ty) 12 2) with (U16 ty).
  2:{ rewrite (app_assoc d). rewrite <- (app_nil_r (U16 ty)) at 2.
      symmetry. apply slice_app_m; zlia. }
  rewrite de16_U16. unfold ETHERTYPE_VLAN, ETHER_VLAN_ENCAP_LEN, ETHERTYPE_LLDP. cbv zeta.
  destruct (ty =? 33024) eqn:Et.
  - apply Z.eqb_eq in Et. subst ty. change (12 + 4) with (0 + 16).
    rewrite (slice_view _ _ _ _ _ Hv) by zlia.
    replace (slice (d ++ src ++ U16 33024 ++ tag ++ U16 ty2 ++ a ++ b ++ rest) 16 2) with (U16 ty2).
    2:{ symmetry. rewrite (app_assoc (U16 33024)), (app_assoc src), (app_assoc d).
        apply slice_app_m; zlia. }
    cbn [dbind]. rewrite de16_U16. destruct (ty2 =? 35020) eqn:E2; [|now left].
    apply Z.eqb_eq in E2. subst. right. eexists. now apply (lldp_tagged src tag (a ++ b ++ rest)).
  - destruct (ty =? 35020) eqn:E2; [|now left].
    apply Z.eqb_eq in E2. subst. right. eexists.
    now apply (lldp_untagged src (tag ++ U16 ty2 ++ a ++ b ++ rest)).
Qed.
