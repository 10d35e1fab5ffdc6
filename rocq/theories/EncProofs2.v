(** The complete frames produced by the builders. *)
From Verif Require Import Base Vis Tlv Types Chksum Checks Cdp Edp Fdp Ndp Lldp Protos.
From Verif Require Import Spec SpecAdv Lemmas VisProofs ChkProofs TypesProofs EncProofs.

Lemma cdp_like_build (dst hw org llc0 tlvs : list Z) (pid v : Z) (cisco : bool)
  (f : enc -> option enc) :
  appends f tlvs -> bytes tlvs -> 0 <= v < 256 ->
  zlen dst = 6 -> zlen hw = 6 -> zlen org = 3 -> 0 <= pid < 65536 ->
  llc0 = [170; 170; 3] ++ org ++ be16 pid ++ [v; 180; 0; 0] ->
  (let hdr0 := repeat 0 14 ++ llc0 in
   let? e := f (mkEnc hdr0 (ETHER_MAX_LEN - zlen hdr0)) in
   let p1 := patch 24 (le16 (my_chksum (skipn 22 (out e)) cisco)) (out e) in
   Some (patch 0 (dst ++ hw ++ be16 (zlen (out e) - 14)) p1))
  = if 26 + zlen tlvs <=? 1518
    then Some (snap dst hw org pid ([v; 180] ++ chk_of cisco [v; 180] tlvs ++ tlvs))
    else None.
Proof.
  intros Hf Hb Hv Ld Lh Lo Hp ->. cbv zeta. unfold ETHER_MAX_LEN.
  set (h14 := repeat 0 14). assert (L14 : zlen h14 = 14) by reflexivity. clearbody h14.
  rewrite (appends_run f tlvs) by (try assumption; zlia).
  replace (zlen ((h14 ++ [170; 170; 3] ++ org ++ be16 pid ++ [v; 180; 0; 0]) ++ tlvs) <=? 1518)
    with (26 + zlen tlvs <=? 1518) by zlia.
  destruct (26 + zlen tlvs <=? 1518) eqn:E; [|reflexivity].
  cbn [obind out]. rewrite (be16_U16 pid) by easy.
  set (llc := [170; 170; 3] ++ org ++ U16 pid).
  assert (Ll : zlen llc = 8) by (subst llc; zlia).
  replace ((h14 ++ [170; 170; 3] ++ org ++ U16 pid ++ [v; 180; 0; 0]) ++ tlvs)
    with (h14 ++ llc ++ [v; 180] ++ [0; 0] ++ tlvs)
    by (subst llc; now rewrite <- !app_assoc).
  replace (skipn 22 (h14 ++ llc ++ [v; 180] ++ [0; 0] ++ tlvs))
    with ([v; 180] ++ [0; 0] ++ tlvs).
  2:{ rewrite (app_assoc h14 llc). change 22%nat with (Z.to_nat 22).
      replace 22 with (zlen (h14 ++ llc)) by zlia. now rewrite skipn_zlen_app. }
  rewrite my_chksum_ok.
  2:{ repeat (apply bytes_app; split); try assumption; repeat constructor; lia. }
  2:{ zlia. }
  fold (chk_of cisco [v; 180] tlvs).
  assert (Lc : zlen (chk_of cisco [v; 180] tlvs) = 2) by reflexivity.
  set (chk := chk_of cisco [v; 180] tlvs) in *. clearbody chk.
  replace (h14 ++ llc ++ [v; 180] ++ [0; 0] ++ tlvs)
    with ((h14 ++ llc) ++ [v; 180] ++ [0; 0] ++ tlvs) at 2 by now rewrite <- !app_assoc.
  rewrite patch_mid2 by zlia. rewrite <- app_assoc.
  rewrite patch_ether by zlia. f_equal. unfold snap. subst llc.
  replace (zlen (h14 ++ ([170; 170; 3] ++ org ++ U16 pid) ++ [v; 180] ++ [0; 0] ++ tlvs) - 14)
    with (8 + zlen ([v; 180] ++ chk ++ tlvs)) by zlia.
  rewrite be16_U16 by zlia. now rewrite <- !app_assoc.
Qed.

Lemma appends_whenn' (c : bool) f (t : Z) b : (c = false -> appends f (cdp_bytes (t, b))) ->
  appends (if c then nopush else f) (flat_map cdp_bytes (when (negb c) [(t, b)])).
Proof.
  destruct c; cbn [when negb flat_map]; intros H; [apply appends_nopush|].
  rewrite app_nil_r. now apply H.
Qed.


Lemma cdp_cap_word cap : cdp_cap cap =
  (if cap =? 4 then 16 else cap_word [(1, 2); (3, 1); (4, 8)] cap).
Proof.
  unfold cdp_cap, cap_word, CAP_HOST, CAP_BRIDGE, CAP_ROUTER, CAP_SWITCH, CDP_CAP_HOST,
    CDP_CAP_TRANSPARENT_BRIDGE, CDP_CAP_ROUTER, CDP_CAP_SWITCH.
  cbn [fold_right fst snd].
  change (has cap 2) with (has cap (2 ^ 1)). change (has cap 8) with (has cap (2 ^ 3)).
  change (has cap 16) with (has cap (2 ^ 4)). rewrite !has_bit by lia.
  destruct (cap =? 4), (Z.testbit cap 1), (Z.testbit cap 3), (Z.testbit cap 4); reflexivity.
Qed.
Lemma cdp_cap_range cap : 0 <= cdp_cap cap < 32.
Proof.
  rewrite cdp_cap_word. unfold cap_word. cbn [fold_right fst snd].
  destruct (cap =? 4), (Z.testbit cap 1), (Z.testbit cap 3), (Z.testbit cap 4); lia.
Qed.

(** Bytes of the content. *)
Ltac unok H :=
  unfold netif_ok in H; unfold sysinfo_ok in H;
  decompose [and] H; clear H.

Lemma addr_tlv_len t n : zlen (nf_ipaddr4 n) = 4 -> zlen (nf_ipaddr6 n) = 16 ->
  0 <= zlen (flat_map cdp_bytes (addr_tlv t n)) <= 45.
Proof.
  intros L4 L6. unfold addr_tlv, ip_recs.
  destruct (is_set (nf_ipaddr4 n)), (is_set (nf_ipaddr6 n));
    cbn [app flat_map]; zlia.
Qed.
(** A list of TLVs whose values are short byte strings. *)
Definition small (x : tlv) : Prop := 0 <= fst x < 128 /\ bytes (snd x) /\ zlen (snd x) < 512.
Lemma small_bytes l : Forall small l -> bytes (flat_map cdp_bytes l).
Proof.
  intros H. rewrite Forall_forall in H. apply bytes_flat_map. intros x Hx.
  destruct (H x Hx) as (H1 & H2 & H3). apply bytes_cdp_bytes; [easy|]. split; lia.
Qed.
Lemma small_fits l : Forall small l -> Forall cdp_fits l.
Proof. apply Forall_impl. intros x (H1 & H2 & H3). split; lia. Qed.
Lemma small_lldp_fits l : Forall small l -> Forall lldp_fits l.
Proof. apply Forall_impl. intros x (H1 & H2 & H3). split; lia. Qed.
Lemma small_when c l : Forall small l -> Forall small (when c l).
Proof. destruct c; [easy|constructor]. Qed.
Lemma bytes_cons b l : byte b -> bytes l -> bytes (b :: l).
Proof. now constructor. Qed.
Lemma bytes_nil : bytes [].
Proof. constructor. Qed.
Ltac byt :=
  repeat match goal with
  | |- bytes (_ ++ _) => apply bytes_app; split
  | |- bytes (_ :: _) => apply bytes_cons; [unfold byte; zlia|]
  | |- bytes [] => apply bytes_nil
  | |- bytes (U16 _) => apply bytes_U16; zlia
  | |- bytes (U32 _) => apply bytes_U32; zlia
  | |- bytes (repeat 0 _) => apply bytes_repeat0
  | |- bytes (if ?c then _ else _) => destruct c
  | _ => assumption
  end.
Lemma addr_tlv_small t n : 0 <= t < 128 -> bytes (nf_ipaddr4 n) -> bytes (nf_ipaddr6 n) ->
  zlen (nf_ipaddr4 n) = 4 -> zlen (nf_ipaddr6 n) = 16 -> Forall small (addr_tlv t n).
Proof.
  intros Ht B4 B6 L4 L6. unfold addr_tlv, ip_recs.
  destruct (is_set (nf_ipaddr4 n)), (is_set (nf_ipaddr6 n)); cbn [app]; constructor;
    try constructor; try easy; unfold addr_rec_bytes; cbn [fst snd flat_map];
    (split; [|zlia]); rewrite ?L4, ?L6, ?app_nil_r; byt.
Qed.

Lemma small1 t v k : 0 <= t < 128 -> bytes v -> zlen v < 512 -> Forall small k ->
  Forall small ((t, v) :: k).
Proof. intros. constructor; [|easy]. now repeat split. Qed.

(** Collects the facts about a string field. *)
Ltac cs :=
  repeat match goal with
  | H : cstring _ _ |- _ =>
      pose proof (cstring_bytes _ _ H); pose proof (cstring_len _ _ H);
      destruct H as (_ & ? & _)
  end.

Ltac smallt :=
  repeat match goal with
  | |- Forall small (_ ++ _) => apply Forall_app; split
  | |- Forall small (when _ _) => apply small_when
  | |- Forall small (_ :: _) => apply small1; [lia| byt | zlia |]
  | |- Forall small [] => constructor
  | |- Forall small (addr_tlv _ _) => apply addr_tlv_small; (lia || assumption)
  end.

Lemma cdp_content_small n p mgmt si :
  netif_ok n -> netif_ok p -> (forall m, mgmt = Some m -> netif_ok m) -> sysinfo_ok si ->
  Forall small (cdp_content n p mgmt si).
Proof.
  intros Hn Hp Hm Hs. unok Hn. unok Hp. unok Hs. cs.
  pose proof (cdp_cap_range (si_cap_active si)) as Hc. rewrite cdp_cap_word in Hc.
  unfold cdp_content. smallt.
  destruct mgmt as [m|]; [|constructor]. specialize (Hm m eq_refl). unok Hm. smallt.
Qed.

Lemma cdp_content_len n p mgmt si :
  netif_ok n -> netif_ok p -> (forall m, mgmt = Some m -> netif_ok m) -> sysinfo_ok si ->
  26 <= zlen (flat_map cdp_bytes (cdp_content n p mgmt si)) <= 1426.
Proof.
  intros Hn Hp Hm Hs.
  unok Hn. unok Hp. unok Hs. cs.
  unfold cdp_content. rewrite !flat_map_app, !flat_map_when.
  cbn [flat_map].
  pose proof (addr_tlv_len 2 p ltac:(assumption) ltac:(assumption)).
  assert (0 <= zlen (flat_map cdp_bytes
    match mgmt with Some m => addr_tlv 22 m | None => [] end) <= 45).
  { destruct mgmt as [m|]; [|cbn; zlia]. specialize (Hm m eq_refl). unok Hm.
    now apply addr_tlv_len. }
  set (A := zlen (flat_map cdp_bytes (addr_tlv 2 p))) in *.
  rewrite !zlen_app.
  assert (Hw : forall c (l : list Z), 0 <= zlen (when c l) <= zlen l)
    by (intros [] l; cbn [when]; zlia).
  repeat match goal with |- context [when ?c ?l] =>
    pose proof (Hw c l); set (when c l) in * end.
  zlia.
Qed.

Lemma appends_cdp_cons t v f g l : 0 <= t < 65536 ->
  True -> appends f v -> appends g (flat_map cdp_bytes l) ->
  appends (cdp_tlv t f &&& g) (flat_map cdp_bytes ((t, v) :: l)).
Proof. intros. cbn [flat_map]. apply appends_and; [now apply appends_cdp_tlv|easy]. Qed.

Theorem cdp_packet_spec proto n par mgmt si :
  netif_ok n -> netif_ok (up n par) -> (forall m, mgmt = Some m -> netif_ok m) ->
  sysinfo_ok si ->
  cdp_packet proto n par mgmt si
  = Some (cdp_advert (if proto =? 5 then 1 else 2) n (up n par) mgmt si).
Proof.
  intros Hn Hp Hm Hs.
  pose proof (cdp_content_small n (up n par) mgmt si Hn Hp Hm Hs) as Hsm.
  pose proof (cdp_content_len n (up n par) mgmt si Hn Hp Hm Hs) as Hlen.
  unfold cdp_packet, cdp_advert. change PROTO_CDP1 with 5.
  change (match par with Some p => p | None => n end) with (up n par).
  set (v := if proto =? 5 then 1 else 2).
  rewrite (cdp_like_build CDP_MULTICAST_ADDR (nf_hwaddr n) LLC_ORG_CISCO _
             (flat_map cdp_bytes (cdp_content n (up n par) mgmt si)) LLC_PID_CDP v true).
  - replace (26 + _ <=? 1518) with true by lia. reflexivity.
  - unok Hn. unok Hp. unok Hs. unfold cdp_content. rewrite !flat_map_app.
    cbn [flat_map]. rewrite !app_assoc, app_nil_r. rewrite app_nil_r.
    pose proof (cdp_cap_range (si_cap_active si)) as Hc.
    rewrite <- cdp_cap_word.
    repeat match goal with
    | |- appends (_ &&& _) (_ ++ _) => apply appends_and
    | |- appends (cdp_tlv _ _) (cdp_bytes (_, _)) => apply appends_cdp_tlv; [easy|]
    | |- appends (push _) _ => apply appends_push
    | |- appends (push32 _) _ => apply appends_push32; lia
    | |- appends (cdp_addr_tlv _ _) _ => apply cdp_addr_tlv_spec; (easy || assumption)
    end.
    + destruct mgmt as [m|]; [|apply appends_nopush]. specialize (Hm m eq_refl). unok Hm.
      apply cdp_addr_tlv_spec; (easy || assumption).
    + apply appends_whenn'. intros _. apply appends_cdp_tlv; [easy|]. apply appends_push32. lia.
    + apply appends_whenn'. intros _. apply appends_cdp_tlv; [easy|]. apply appends_push8.
    + replace (0 <? zlen (si_location si)) with (negb (zlen (si_location si) =? 0)) by zlia.
      apply appends_whenn'. intros _. apply appends_cdp_tlv; [easy|].
      apply (appends_and _ _ [0]); [apply (appends_push8 0)|apply appends_push].
  - now apply small_bytes.
  - subst v. destruct (proto =? 5); lia.
  - reflexivity.
  - now unok Hn.
  - reflexivity.
  - easy.
  - reflexivity.
Qed.
