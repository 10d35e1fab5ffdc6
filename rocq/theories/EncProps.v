(** Consequences of the exact shape of the advertisements. *)
From Verif Require Import Base Vis Tlv Types Chksum Checks Cdp Edp Fdp Ndp Lldp Protos.
From Verif Require Import Spec SpecAdv Lemmas VisProofs ChkProofs TypesProofs EncProofs
  EncProofs2 EncProofs3 EncProofs4.

Lemma inputs_up count n par mgmt nfs si : inputs_ok count n par mgmt nfs si -> netif_ok (up n par).
Proof. intros (Hn & Hp & _). destruct par; [now apply Hp|easy]. Qed.

Lemma zlen_snap dst src org pid pl :
  zlen (snap dst src org pid pl) = 7 + zlen dst + zlen src + zlen org + zlen pl.
Proof. unfold snap. zlia. Qed.

Lemma edp_advert_len opts count n p nfs si : netif_ok n -> sysinfo_ok si ->
  zlen (edp_advert opts count n p nfs si) = edp_total opts n p nfs si.
Proof.
  intros Hn Hs. unfold edp_advert, edp_total. rewrite zlen_snap.
  fold (edp_sent (edp_content opts n p nfs si)).
  assert (zlen (nf_hwaddr n) = 6) by apply Hn.
  assert (zlen (si_hwaddr si) = 6) by apply Hs.
  assert (zlen (if Z.testbit opts 13 then nf_hwaddr n else si_hwaddr si) = 6)
    by (now destruct (Z.testbit opts 13)).
  unfold chk_of. zlia.
Qed.

Lemma cdp_advert_len v n p mgmt si : netif_ok n ->
  zlen (cdp_advert v n p mgmt si) = 26 + zlen (flat_map cdp_bytes (cdp_content n p mgmt si)).
Proof.
  intros Hn. unfold cdp_advert. rewrite zlen_snap.
  assert (zlen (nf_hwaddr n) = 6) by apply Hn. unfold chk_of. zlia.
Qed.
Lemma fdp_advert_len n m si : netif_ok n ->
  zlen (fdp_advert n m si) = 26 + zlen (flat_map cdp_bytes (fdp_content n m si)).
Proof.
  intros Hn. unfold fdp_advert. rewrite zlen_snap.
  assert (zlen (nf_hwaddr n) = 6) by apply Hn. unfold chk_of. zlia.
Qed.
Lemma ndp_advert_len n p si : netif_ok n -> netif_ok p -> zlen (ndp_advert n p si) = 64.
Proof.
  intros Hn Hp. unfold ndp_advert. rewrite zlen_snap.
  assert (zlen (nf_hwaddr n) = 6) by apply Hn.
  assert (zlen (nf_ipaddr4 p) = 4) by apply Hp. zlia.
Qed.

Theorem proto_build_spec p opts count n par mgmt nfs si :
  0 <= p < 6 -> inputs_ok count n par mgmt nfs si ->
  proto_build p opts count n par mgmt nfs si =
    let f := advert p opts count n par mgmt nfs si in
    if zlen f <=? 1518 then Some f else None.
Proof.
  intros Hr Hi. pose proof (inputs_up _ _ _ _ _ _ Hi) as Hp.
  destruct Hi as (Hn & _ & Hm & Hv & Hs & Hc).
  assert (Hmg : netif_ok (up (up n par) mgmt)) by (destruct mgmt; [now apply Hm|easy]).
  assert (p = 0 \/ p = 1 \/ p = 2 \/ p = 3 \/ p = 4 \/ p = 5) as H by lia.
  destruct H as [-> | [-> | [-> | [-> | [-> | ->]]]]]; cbn [proto_build advert]; cbv zeta.
  - now apply lldp_packet_spec.
  - change (proto_build 1 opts count n par mgmt nfs si) with (cdp_packet 1 n par mgmt si).
    rewrite cdp_packet_spec by assumption. change (1 =? 5) with false. cbv iota.
    rewrite cdp_advert_len by easy.
    pose proof (cdp_content_len n (up n par) mgmt si Hn Hp Hm Hs).
    now replace (_ <=? 1518) with true by lia.
  - change (proto_build 2 opts count n par mgmt nfs si) with (edp_packet opts count n par nfs si).
    rewrite edp_packet_spec by assumption. now rewrite edp_advert_len.
  - change (proto_build 3 opts count n par mgmt nfs si) with (fdp_packet n par mgmt si).
    rewrite fdp_packet_spec by assumption. rewrite fdp_advert_len by easy.
    pose proof (fdp_content_len n _ si Hn Hmg Hs).
    now replace (_ <=? 1518) with true by lia.
  - change (proto_build 4 opts count n par mgmt nfs si) with (ndp_packet n par si).
    rewrite ndp_packet_spec by assumption. now rewrite ndp_advert_len.
  - change (proto_build 5 opts count n par mgmt nfs si) with (cdp_packet 5 n par mgmt si).
    rewrite cdp_packet_spec by assumption. change (5 =? 5) with true. cbv iota.
    rewrite cdp_advert_len by easy.
    pose proof (cdp_content_len n (up n par) mgmt si Hn Hp Hm Hs).
    now replace (_ <=? 1518) with true by lia.
Qed.

Lemma small_edp_fits l : Forall small l -> Forall edp_fits (map (fun x => (153, x)) l).
Proof.
  intros H. apply Forall_map. revert H. apply Forall_impl. intros x (H1 & H2 & H3).
  unfold edp_fits, byte. cbn [fst snd]. lia.
Qed.
Lemma edp_sent_map l : edp_sent l = flat_map edp_bytes (map (fun x => (153, x)) l).
Proof. unfold edp_sent. now rewrite !flat_map_concat_map, map_map. Qed.

(** What the LLDP content consists of. *)
Lemma lldp_content_small opts n p m nfs si :
  netif_ok n -> netif_ok p -> netif_ok m -> (forall v, In v nfs -> netif_ok v) ->
  sysinfo_ok si -> Forall small (lldp_content opts n p m nfs si).
Proof.
  intros Hn Hp Hm Hv Hs.
  pose proof (port_descr_ok opts n p Hn Hp) as Hd.
  pose proof (lldp_capword_range (si_cap si =? 4) (si_cap si)) as Hc1.
  pose proof (lldp_capword_range (si_cap si =? 4) (si_cap_active si)) as Hc2.
  unfold netif_ok in Hn, Hm. unfold sysinfo_ok in Hs.
  destruct Hn as (Nn & Nne & Nd & Ndev & Nhb & Nhl & N4b & N4l & N6b & N6l & Nix & Nmtu & Nvl
                  & Npmd & Nmau & Nlac & Ndup & Nas & Nae).
  destruct Hm as (Mn & Mne & Md & Mdev & Mhb & Mhl & M4b & M4l & M6b & M6l & Mix & _).
  destruct Hs as (Su & Spl & Sh & Sco & Slo & Srb & Srl & Shb & Shl & Sc & Sca & Scm & Sdt
                  & Sph & Shi).
  destruct Shi as (I1 & I2 & I3 & I4 & I5 & I6 & I7).
  pose proof (cstring_len _ _ Nn). pose proof (cstring_len _ _ Su).
  pose proof (cstring_len _ _ Sh). pose proof (cstring_len _ _ Slo).
  pose proof (cstring_len _ _ Sco). pose proof (cstring_len _ _ Hd).
  pose proof (cstring_bytes _ _ Nn). pose proof (cstring_bytes _ _ Su).
  pose proof (cstring_bytes _ _ Sh). pose proof (cstring_bytes _ _ Slo).
  pose proof (cstring_bytes _ _ Sco). pose proof (cstring_bytes _ _ Hd).
  assert (Hinv : forall sub s, 0 <= sub < 256 -> cstring 33 s ->
     Forall small (when (0 <? zlen s) [org_tlv [0; 18; 187] sub s])).
  { clear. intros sub s Hsub Hc. apply small_when. unfold org_tlv.
    pose proof (cstring_len _ _ Hc). pose proof (cstring_bytes _ _ Hc).
    apply small1; [easy|byt|zlia|constructor]. }
  assert (Hmg : forall af a i, 0 <= af < 256 -> bytes a -> zlen a <= 16 ->
     0 <= i < 4294967296 -> Forall small [mgmt_tlv af a i]).
  { clear. intros af a i H1 H2 H3 H4. unfold mgmt_tlv.
    apply small1; [easy|byt|zlia|constructor]. }
  unfold lldp_content. cbv zeta.
  clear Nne Nd Ndev Md Mdev Mn Spl Hp.
  repeat apply Forall_app_2 || (rewrite !Forall_app; repeat split).
  - apply small_when. apply small1; [easy|easy|lia|constructor].
  - clear Hinv Hmg. apply small1; [easy|easy|lia|]. apply small1; [easy|easy|lia|].
    apply small1; [easy|byt|zlia|constructor].
  - apply small_when, Hmg; [easy|easy|lia|lia].
  - apply small_when, Hmg; [easy|easy|lia|lia].
  - apply Hmg; [easy|easy|lia|lia].
  - clear -Hv. apply Forall_forall. intros x Hx. apply in_map_iff in Hx as (v & <- & Hin).
    apply vlans_of_in, Hv in Hin. unfold netif_ok in Hin.
    destruct Hin as (Nn & _ & _ & _ & _ & _ & _ & _ & _ & _ & _ & _ & Nvl & _).
    pose proof (cstring_len _ _ Nn). pose proof (cstring_bytes _ _ Nn).
    unfold org_tlv. unfold small. cbn [fst snd]. split; [easy|]. split; [byt|zlia].
  - clear Hinv Hmg. apply small_when. unfold org_tlv. apply small1; [easy|byt|zlia|constructor].
  - clear Hinv Hmg. apply small_when. unfold org_tlv. apply small1; [easy|byt|zlia|constructor].
  - clear Hinv Hmg. apply small_when. unfold org_tlv. apply small1; [easy|byt|zlia|constructor].
  - clear Hinv Hmg. unfold org_tlv. apply small1; [easy|byt|zlia|constructor].
  - clear Hinv Hmg. apply small_when. unfold org_tlv. apply small1; [easy|byt|zlia|constructor].
  - apply Hinv; easy.
  - apply Hinv; easy.
  - apply Hinv; easy.
  - apply Hinv; easy.
  - apply Hinv; easy.
  - apply Hinv; easy.
  - apply Hinv; easy.
Qed.

Lemma advert_tiled p opts count n par mgmt nfs si :
  0 <= p < 6 -> inputs_ok count n par mgmt nfs si ->
  tiled p (advert p opts count n par mgmt nfs si).
Proof.
  intros Hr Hi. pose proof (inputs_up _ _ _ _ _ _ Hi) as Hp.
  destruct Hi as (Hn & _ & Hm & Hv & Hs & Hc).
  assert (Hmg : netif_ok (up (up n par) mgmt)) by (destruct mgmt; [now apply Hm|easy]).
  assert (Lh : zlen (nf_hwaddr n) = 6) by apply Hn.
  assert (Lh' : zlen (si_hwaddr si) = 6) by apply Hs.
  assert (Bs : cstring 16 (nf_name n)) by apply Hn. apply cstring_len in Bs.
  assert (p = 0 \/ p = 1 \/ p = 2 \/ p = 3 \/ p = 4 \/ p = 5) as H by lia.
  destruct H as [-> | [-> | [-> | [-> | [-> | ->]]]]]; cbn [advert].
  - unfold lldp_advert. cbv zeta. apply tiled_lldp; [easy|].
    apply Forall_app. split.
    + assert (zlen (if Z.testbit opts 13 then nf_hwaddr n else si_hwaddr si) = 6)
        by (now destruct (Z.testbit opts 13)).
      repeat constructor; cbn [fst snd]; zlia.
    + apply Forall_app. split.
      * now apply small_lldp_fits, lldp_content_small.
      * repeat constructor; cbn [fst snd]; zlia.
  - unfold cdp_advert. apply tiled_cdp; [now left|easy|reflexivity|].
    now apply small_fits, cdp_content_small.
  - unfold edp_advert. cbv zeta. rewrite <- !app_assoc.
    fold (edp_sent (edp_content opts n (up n par) nfs si)). rewrite edp_sent_map.
    apply tiled_edp; [easy|reflexivity|reflexivity| |].
    + now destruct (Z.testbit opts 13).
    + now apply small_edp_fits, edp_content_small.
  - unfold fdp_advert. apply tiled_fdp; [easy|reflexivity|].
    now apply small_fits, fdp_content_small.
  - apply tiled_ndp; [easy|].
    assert (zlen (nf_ipaddr4 (up n par)) = 4) by apply Hp. zlia.
  - unfold cdp_advert. apply tiled_cdp; [now right|easy|reflexivity|].
    now apply small_fits, cdp_content_small.
Qed.

Lemma build_tiled p opts count n par mgmt nfs si f :
  0 <= p < 6 -> inputs_ok count n par mgmt nfs si ->
  proto_build p opts count n par mgmt nfs si = Some f ->
  zlen f <= 1518 /\ tiled p f.
Proof.
  intros Hr Hi. rewrite proto_build_spec by assumption. cbv zeta.
  destruct (_ <=? 1518) eqn:E; [|discriminate]. intros [= <-].
  split; [lia|]. now apply advert_tiled.
Qed.

Lemma chk_of_sum cisco a b :
  bytes (a ++ [0; 0] ++ b) -> zlen (a ++ [0; 0] ++ b) <= 65536 ->
  (exists k, zlen a = 2 * k) -> (exists x, In x a /\ x <> 0) ->
  inet_sum cisco (a ++ chk_of cisco a b ++ b) = 65535.
Proof.
  intros. unfold chk_of. rewrite <- my_chksum_ok by assumption. now apply chksum_verifies.
Qed.
Lemma summed_snap dst src org pid pl : zlen dst = 6 -> zlen src = 6 -> zlen org = 3 ->
  summed (snap dst src org pid pl) = pl.
Proof.
  intros. unfold summed, snap. rewrite !app_assoc.
  match goal with |- skipn 22 (?a ++ pl) = _ =>
    replace 22%nat with (Z.to_nat (zlen a)) by (zl; lia) end.
  apply skipn_zlen_app.
Qed.

Lemma build_sums p opts count n par mgmt nfs si f :
  In p [1; 2; 3; 5] -> inputs_ok count n par mgmt nfs si ->
  proto_build p opts count n par mgmt nfs si = Some f ->
  inet_sum ((p =? 1) || (p =? 5)) (summed f) = 65535.
Proof.
  intros Hr Hi. rewrite proto_build_spec by (try assumption; cbn in Hr; lia). cbv zeta.
  destruct (_ <=? 1518) eqn:E; [|discriminate]. intros [= <-].
  pose proof (inputs_up _ _ _ _ _ _ Hi) as Hp.
  destruct Hi as (Hn & _ & Hm & Hv & Hs & Hc).
  assert (Hmg : netif_ok (up (up n par) mgmt)) by (destruct mgmt; [now apply Hm|easy]).
  assert (Lh : zlen (nf_hwaddr n) = 6) by apply Hn.
  assert (Bh : bytes (nf_hwaddr n)) by apply Hn.
  assert (Lh' : zlen (si_hwaddr si) = 6) by apply Hs.
  assert (Bh' : bytes (si_hwaddr si)) by apply Hs.
  cbn in Hr. destruct Hr as [<- | [<- | [<- | [<- | []]]]]; cbn [advert Z.eqb orb] in *.
  - unfold cdp_advert in *. rewrite zlen_snap in E. rewrite summed_snap by easy.
    pose proof (small_bytes _ (cdp_content_small n (up n par) mgmt si Hn Hp Hm Hs)).
    apply chk_of_sum; [byt| |now exists 1|exists 2; cbn; lia].
    unfold chk_of in E. zlia.
  - unfold edp_advert in *. cbv zeta in *. rewrite zlen_snap in E. rewrite summed_snap by easy.
    pose proof (edp_sent_bytes _ (edp_content_small opts n (up n par) nfs si Hn Hp Hv Hs)) as Hb.
    fold (edp_sent (edp_content opts n (up n par) nfs si)) in *.
    set (tl := edp_sent _) in *. clearbody tl.
    set (ch := if Z.testbit opts 13 then _ else _) in *.
    assert (zlen ch = 6) by (subst ch; now destruct (Z.testbit opts 13)).
    assert (bytes ch) by (subst ch; now destruct (Z.testbit opts 13)). clearbody ch.
    unfold chk_of in E.
    apply chk_of_sum; [| |now exists 2|exists 1; cbn; lia].
    + assert (zlen tl <= 1480) by zlia. byt.
    + zlia.
  - unfold fdp_advert in *. rewrite zlen_snap in E. rewrite summed_snap by easy.
    pose proof (small_bytes _ (fdp_content_small n (up (up n par) mgmt) si Hn Hmg Hs)).
    apply chk_of_sum; [byt| |now exists 1|exists 1; cbn; lia].
    unfold chk_of in E. zlia.
  - unfold cdp_advert in *. rewrite zlen_snap in E. rewrite summed_snap by easy.
    pose proof (small_bytes _ (cdp_content_small n (up n par) mgmt si Hn Hp Hm Hs)).
    apply chk_of_sum; [byt| |now exists 1|exists 1; cbn; lia].
    unfold chk_of in E. zlia.
Qed.

Lemma build_total p opts count n par mgmt nfs si :
  In p [1; 3; 5] -> inputs_ok count n par mgmt nfs si ->
  exists f, proto_build p opts count n par mgmt nfs si = Some f.
Proof.
  intros Hr Hi. rewrite proto_build_spec by (try assumption; cbn in Hr; lia). cbv zeta.
  pose proof (inputs_up _ _ _ _ _ _ Hi) as Hp.
  destruct Hi as (Hn & _ & Hm & Hv & Hs & Hc).
  assert (Hmg : netif_ok (up (up n par) mgmt)) by (destruct mgmt; [now apply Hm|easy]).
  assert (zlen (advert p opts count n par mgmt nfs si) <= 1518); [|eexists; now replace (_ <=? 1518) with true by lia].
  pose proof (cdp_content_len n (up n par) mgmt si Hn Hp Hm Hs).
  pose proof (fdp_content_len n _ si Hn Hmg Hs).
  cbn in Hr. destruct Hr as [<- | [<- | [<- | []]]]; cbn [advert];
    rewrite ?cdp_advert_len, ?fdp_advert_len by easy; lia.
Qed.
