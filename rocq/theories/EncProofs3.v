(** The frames produced by the FDP, EDP, NDP and LLDP builders. *)
From Verif Require Import Base Vis Tlv Types Chksum Checks Cdp Edp Fdp Ndp Lldp Protos.
From Verif Require Import Spec SpecAdv Lemmas VisProofs ChkProofs TypesProofs EncProofs EncProofs2.

(** ** FDP *)
Lemma has_b cap m i : m = 2 ^ i -> 0 <= i -> has cap m = Z.testbit cap i.
Proof. intros ->. apply has_bit. Qed.

Lemma fdp_cap_str_spec cap : fdp_cap_str cap =
  (if Z.testbit cap 3 then bs "Router"
   else if Z.testbit cap 4 then bs "Switch"
   else if Z.testbit cap 1 then bs "Bridge"
   else bs "Host").
Proof.
  unfold fdp_cap_str. rewrite (has_b cap CAP_ROUTER 3), (has_b cap CAP_SWITCH 4),
    (has_b cap CAP_BRIDGE 1) by easy. reflexivity.
Qed.

Lemma fdp_role_ok cap :
  let r := if Z.testbit cap 3 then bs "Router"
   else if Z.testbit cap 4 then bs "Switch"
   else if Z.testbit cap 1 then bs "Bridge"
   else bs "Host" in bytes r /\ 4 <= zlen r <= 6.
Proof.
  destruct (Z.testbit cap 3), (Z.testbit cap 4), (Z.testbit cap 1);
    (split; [repeat constructor; cbn; lia | split; vm_compute; discriminate]).
Qed.
Lemma fdp_content_small n m si : netif_ok n -> netif_ok m -> sysinfo_ok si ->
  Forall small (fdp_content n m si).
Proof.
  intros Hn Hm Hs. unok Hn. unok Hm. unok Hs. cs. unfold fdp_content.
  destruct (fdp_role_ok (si_cap_active si)) as [HB HL].
  set (r := if Z.testbit (si_cap_active si) 3 then _ else _) in *. clearbody r. smallt.
Qed.
Lemma fdp_content_len n m si : netif_ok n -> netif_ok m -> sysinfo_ok si ->
  24 <= zlen (flat_map cdp_bytes (fdp_content n m si)) <= 1000.
Proof.
  intros Hn Hm Hs. unok Hn. unok Hm. unok Hs. cs. unfold fdp_content.
  rewrite flat_map_app. cbn [flat_map].
  pose proof (addr_tlv_len 2 m ltac:(assumption) ltac:(assumption)).
  destruct (fdp_role_ok (si_cap_active si)) as [HB HL].
  set (r := if Z.testbit (si_cap_active si) 3 then _ else _) in *. clearbody r.
  set (A := flat_map cdp_bytes (addr_tlv 2 m)) in *. clearbody A. zlia.
Qed.

Theorem fdp_packet_spec n par mgmt si :
  netif_ok n -> netif_ok (up n par) -> (forall m, mgmt = Some m -> netif_ok m) ->
  sysinfo_ok si ->
  fdp_packet n par mgmt si = Some (fdp_advert n (up (up n par) mgmt) si).
Proof.
  intros Hn Hp Hm Hs.
  assert (Hmg : netif_ok (up (up n par) mgmt)) by (destruct mgmt; [now apply Hm|easy]).
  pose proof (fdp_content_small n (up (up n par) mgmt) si Hn Hmg Hs) as Hsm.
  pose proof (fdp_content_len n (up (up n par) mgmt) si Hn Hmg Hs) as Hlen.
  unfold fdp_packet, fdp_advert.
  change (match par with Some p => p | None => n end) with (up n par).
  change (match mgmt with Some m => m | None => up n par end) with (up (up n par) mgmt).
  set (mg := up (up n par) mgmt) in *.
  rewrite (cdp_like_build FDP_MULTICAST_ADDR (nf_hwaddr n) LLC_ORG_FOUNDRY _
             (flat_map cdp_bytes (fdp_content n mg si)) LLC_PID_FDP 1 false).
  - replace (26 + _ <=? 1518) with true by lia. reflexivity.
  - unfold netif_ok in Hmg. unfold fdp_content. rewrite !flat_map_app.
    cbn [flat_map]. rewrite !app_assoc, app_nil_r. rewrite <- fdp_cap_str_spec.
    repeat match goal with
    | |- appends (_ &&& _) (_ ++ _) => apply appends_and
    | |- appends (cdp_tlv _ _) (cdp_bytes (_, _)) => apply appends_cdp_tlv; [easy|]
    | |- appends (push _) _ => apply appends_push
    | |- appends (cdp_addr_tlv _ _) _ => apply cdp_addr_tlv_spec; (easy || apply Hmg)
    end.
  - now apply small_bytes.
  - lia.
  - reflexivity.
  - unfold netif_ok in Hn. apply Hn.
  - reflexivity.
  - easy.
  - reflexivity.
Qed.

(** ** NDP *)
Theorem ndp_packet_spec n par si :
  netif_ok n -> netif_ok (up n par) ->
  ndp_packet n par si = Some (ndp_advert n (up n par) si).
Proof.
  intros Hn Hp. unfold ndp_packet, ndp_advert.
  change (match par with Some p => p | None => n end) with (up n par).
  assert (L : zlen (nf_hwaddr n) = 6) by apply Hn.
  assert (L4 : zlen (nf_ipaddr4 (up n par)) = 4) by apply Hp.
  change LLC_ORG_NORTEL with [0; 0; 129]. change NDP_MULTICAST_ADDR with [1; 0; 129; 0; 1; 0].
  change (be16 LLC_PID_NDP_HELLO) with (U16 418).
  rewrite patch_ether by zlia.
  f_equal. unfold snap, NDP_PADDING. change (Z.to_nat 31) with 31%nat.
  rewrite be16_U16 by zlia.
  replace (zlen (repeat 0 14 ++ _) - 14) with
    (8 + zlen (nf_ipaddr4 (up n par) ++ [0; 0; nf_index n mod 256; 1; 12; 3; si_physif_count si mod 256]
       ++ repeat 0 31)) by zlia.
  rewrite <- !app_assoc. reflexivity.
Qed.

(** ** EDP *)
Definition edp_sent (l : list tlv) : list Z := flat_map (fun x => edp_bytes (153, x)) l.

Lemma edp_vlans_spec n vs :
  (forall v, In v vs -> netif_ok v) ->
  appends (edp_vlans n vs)
    (edp_sent (map (fun v => (5, [if is_set (nf_ipaddr4 v) then 128 else 0; 0]
        ++ U16 (nf_vlan_id v) ++ repeat 0 4 ++ nf_ipaddr4 v ++ nf_name n)) vs)).
Proof.
  induction vs as [|v vs IH]; intros H.
  - apply appends_nopush.
  - assert (Hv : netif_ok v) by (apply H; now left).
    change (edp_vlans n (v :: vs)) with (edp_vlan_tlv n v &&& edp_vlans n vs).
    cbn [edp_sent map flat_map]. apply appends_and; [|apply IH; intros; apply H; now right].
    unfold edp_vlan_tlv. unfold netif_ok in Hv. rewrite is_set_addr by apply Hv.
    apply appends_edp_tlv; [easy|].
    eapply appends_eq.
    + repeat apply appends_and;
        [ apply appends_push8'; destruct (is_set (nf_ipaddr4 v)); easy
        | apply (appends_push8' 0); easy | apply appends_push16; apply Hv
        | apply (appends_push32 0); easy | apply appends_push | apply appends_push ].
    + rewrite <- !app_assoc. reflexivity.
Qed.

Definition edp_total (opts : Z) (n p : netif) (nfs : list netif) (si : sysinfo) : Z :=
  38 + zlen (edp_sent (edp_content opts n p nfs si)).

Lemma bytes_edp_bytes x : bytes (snd x) -> 0 <= fst x < 128 -> zlen (snd x) < 512 ->
  bytes (edp_bytes (153, x)).
Proof.
  destruct x as [t v]. cbn [fst snd]. intros. unfold edp_bytes. byt.
Qed.

Lemma vlans_of_in opts n p nfs v : In v (vlans_of opts n p nfs) -> In v nfs.
Proof. unfold vlans_of. intros H. now apply filter_In in H. Qed.

Lemma edp_content_small opts n p nfs si :
  netif_ok n -> netif_ok p -> (forall v, In v nfs -> netif_ok v) -> sysinfo_ok si ->
  Forall small (edp_content opts n p nfs si).
Proof.
  intros Hn Hp Hv Hs. unok Hn. unok Hp. unok Hs. cs. unfold edp_content. smallt.
  apply Forall_forall. intros x Hx. apply in_map_iff in Hx as (v & <- & Hin).
  apply vlans_of_in, Hv in Hin. unok Hin. cbn [fst snd].
  split; [cbn; lia|]. cbn [snd]. split; [|zlia].
  destruct (is_set (nf_ipaddr4 v)); byt.
Qed.

Lemma edp_sent_bytes l : Forall small l -> bytes (edp_sent l).
Proof.
  intros H. rewrite Forall_forall in H. apply bytes_flat_map. intros x Hx.
  destruct (H x Hx) as (H1 & H2 & H3). now apply bytes_edp_bytes.
Qed.

Lemma edp_info_tlv n si : bytes (si_uts_rel si) -> zlen (si_uts_rel si) = 3 ->
  appends (edp_tlv EDP_TYPE_INFO
          (push16 0 &&& push16 (nf_index n) &&& push16 0 &&& push32 0 &&& push16 0
           &&& push8 (nth 0 (si_uts_rel si) 0) &&& push8 (nth 1 (si_uts_rel si) 0)
           &&& push8 (nth 2 (si_uts_rel si) 0) &&& push8 0
           &&& push16 65535 &&& push16 0 &&& push32 0 &&& push32 0 &&& push32 0))
    (edp_bytes (153, (2, [0; 0] ++ U16 (nf_index n mod 65536) ++ repeat 0 8 ++ si_uts_rel si ++ [0]
         ++ [255; 255] ++ repeat 0 14))).
Proof.
  intros Hb Hl. destruct (si_uts_rel si) as [|a [|b [|c [|? ?]]]]; try (exfalso; zlia).
  cbn [nth]. inversion Hb as [|? ? Ha Hb1]; subst. inversion Hb1 as [|? ? Hb' Hb2]; subst.
  inversion Hb2; subst.
  apply appends_edp_tlv; [easy|]. eapply appends_eq.
  - repeat apply appends_and; first
      [ apply appends_push8'; assumption || (split; reflexivity || discriminate)
      | apply appends_push16; split; reflexivity || discriminate
      | apply appends_push32; split; reflexivity || discriminate
      | apply appends_push16m].
  - reflexivity.
Qed.
Lemma edp_ip_tlv n p : bytes (nf_ipaddr4 p) ->
  appends (if addr_set (nf_ipaddr4 p) then
            edp_tlv EDP_TYPE_VLAN
              (push8 EDP_VLAN_FLAG_IP &&& push8 0 &&& push16 0 &&& push32 0
               &&& push (nf_ipaddr4 p) &&& push (nf_name n) &&& push8 0)
          else nopush)
    (edp_sent (when (is_set (nf_ipaddr4 p))
       [(5, 128 :: repeat 0 7 ++ nf_ipaddr4 p ++ nf_name n ++ [0])])).
Proof.
  intros H. rewrite is_set_addr by easy. unfold edp_sent. rewrite flat_map_when.
  apply appends_when. intros _. cbn [flat_map]. rewrite app_nil_r.
  apply appends_edp_tlv; [easy|]. eapply appends_eq.
  - repeat apply appends_and;
          [ apply (appends_push8' 128); easy
          | apply (appends_push8' 0); easy | apply (appends_push16 0); easy
          | apply (appends_push32 0); easy | apply appends_push | apply appends_push
          | apply (appends_push8' 0); easy].
  - cbn [app repeat U16 U32]. rewrite <- ?app_assoc. reflexivity.
Qed.

Theorem edp_packet_spec opts count n par nfs si :
  netif_ok n -> netif_ok (up n par) -> (forall v, In v nfs -> netif_ok v) ->
  sysinfo_ok si -> 0 <= count < 65536 ->
  edp_packet opts count n par nfs si =
    if edp_total opts n (up n par) nfs si <=? 1518
    then Some (edp_advert opts count n (up n par) nfs si) else None.
Proof.
  intros Hn Hp Hv Hs Hcount.
  pose proof (edp_content_small opts n (up n par) nfs si Hn Hp Hv Hs) as Hsm.
  pose proof (edp_sent_bytes _ Hsm) as Hbt.
  unfold edp_packet, edp_advert, edp_total, ETHER_MAX_LEN.
  fold (edp_sent (edp_content opts n (up n par) nfs si)).
  change (match par with Some p => p | None => n end) with (up n par).
  set (p := up n par) in *. rewrite (has_b opts OPT_CHASSIS_IF 13) by easy.
  set (chassis := if Z.testbit opts 13 then nf_hwaddr n else si_hwaddr si).
  assert (Lc : zlen chassis = 6 /\ bytes chassis).
  { unfold netif_ok in Hn. unfold sysinfo_ok in Hs. subst chassis.
    destruct (Z.testbit opts 13); split; (apply Hn || apply Hs). }
  destruct Lc as [Lc Bc].
  assert (Lh : zlen (nf_hwaddr n) = 6) by apply Hn. cbv zeta.
  change LLC_ORG_EXTREME with [0; 224; 43].
  change EDP_MULTICAST_ADDR with [0; 224; 43; 0; 0; 0].
  set (h14 := repeat 0 14). assert (L14 : zlen h14 = 14) by reflexivity. clearbody h14.
  set (h16 := repeat 0 16). assert (L16 : zlen h16 = 16) by reflexivity. clearbody h16.
  set (tlvs := edp_sent (edp_content opts n p nfs si)) in *.
  match goal with |- obind (?f _) _ = _ => assert (Hf : appends f tlvs) end.
  { subst tlvs. eapply appends_eq.
    - repeat apply appends_and.
      + apply appends_edp_tlv; [easy|apply appends_push].
      + apply edp_info_tlv; apply Hs.
      + apply edp_ip_tlv, Hp.
      + rewrite vlan_attached_spec. apply edp_vlans_spec.
        intros v Hin. apply vlans_of_in in Hin. now apply Hv.
      + apply appends_edp_tlv; [easy|apply appends_nopush].
    - unfold edp_content, edp_sent. rewrite !flat_map_app. cbn [flat_map].
      rewrite !app_nil_r, <- !app_assoc. reflexivity. }
  rewrite (appends_run _ tlvs) by (try assumption; zlia).
  replace (zlen ((h14 ++ [LLC_SNAP_LSAP; LLC_SNAP_LSAP; LLC_UI] ++ [0; 224; 43]
       ++ be16 LLC_PID_EDP ++ h16) ++ tlvs) <=? 1518)
    with (38 + zlen tlvs <=? 1518) by zlia.
  destruct (38 + zlen tlvs <=? 1518) eqn:E; [|reflexivity].
  cbn [obind out].
  set (llc := [LLC_SNAP_LSAP; LLC_SNAP_LSAP; LLC_UI] ++ [0; 224; 43] ++ be16 LLC_PID_EDP).
  assert (Ll : zlen llc = 8) by reflexivity.
  replace ((h14 ++ [LLC_SNAP_LSAP; LLC_SNAP_LSAP; LLC_UI] ++ [0; 224; 43]
       ++ be16 LLC_PID_EDP ++ h16) ++ tlvs)
    with ((h14 ++ llc) ++ h16 ++ tlvs)
    by (subst llc; now rewrite <- !app_assoc).
  assert (E22 : 22 = zlen (h14 ++ llc)) by zlia.
  replace (zlen ((h14 ++ llc) ++ h16 ++ tlvs) - 22) with (16 + zlen tlvs) by zlia.
  unfold edp_header. rewrite (be16_U16 (16 + zlen tlvs)) by zlia.
  rewrite (be16_U16 count) by easy.
  set (a := [1; 0] ++ U16 (16 + zlen tlvs)). set (b := U16 count ++ [0; 0] ++ chassis ++ tlvs).
  change 22%nat with (Z.to_nat 22). rewrite E22. rewrite !patch_mid by zlia.
  rewrite skipn_zlen_app.
  replace (([1; 0] ++ U16 (16 + zlen tlvs) ++ [0; 0] ++ U16 count ++ [0; 0] ++ chassis) ++ tlvs)
    with (a ++ [0; 0] ++ b) by (subst a b; now rewrite <- !app_assoc).
  rewrite my_chksum_ok; [|subst a b; byt | subst a b; zlia].
  fold (chk_of false a b). set (chk := chk_of false a b).
  assert (Lk : zlen chk = 2) by reflexivity. clearbody chk.
  rewrite <- !(app_assoc h14 llc). rewrite patch_ether by zlia.
  f_equal. unfold snap. rewrite be16_U16 by zlia.
  replace (zlen (h14 ++ llc ++ h16 ++ tlvs) - 14) with (8 + zlen (a ++ chk ++ b))
    by (subst a b; zlia).
  subst llc a b. change (be16 LLC_PID_EDP) with (U16 187).
  change [LLC_SNAP_LSAP; LLC_SNAP_LSAP; LLC_UI] with [170; 170; 3].
  rewrite <- !app_assoc. reflexivity.
Qed.
