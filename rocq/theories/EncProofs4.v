(** The frame produced by the LLDP builder. *)
From Verif Require Import Base Vis Tlv Types Chksum Checks Lldp.
From Verif Require Import Spec SpecAdv Lemmas VisProofs ChkProofs TypesProofs EncProofs EncProofs2 EncProofs3.

Definition sent (l : list tlv) : list Z := flat_map lldp_bytes l.
Lemma sent_app a b : sent (a ++ b) = sent a ++ sent b.
Proof. apply flat_map_app. Qed.
Lemma sent_cons a b : sent (a :: b) = lldp_bytes a ++ sent b.
Proof. reflexivity. Qed.

Lemma appends_sent1 t f b : 0 <= t < 128 -> zlen b < 512 -> appends f b ->
  appends (lldp_tlv t f) (sent [(t, b)]).
Proof. intros. cbn [sent flat_map]. rewrite app_nil_r. now apply appends_lldp_tlv. Qed.
Lemma sent_when (c : bool) f l : (c = true -> appends f (sent l)) ->
  appends (if c then f else nopush) (sent (when c l)).
Proof. destruct c; auto. intros _. apply appends_nopush. Qed.
Lemma sent_whenn (c : bool) f l : (c = false -> appends f (sent l)) ->
  appends (if c then nopush else f) (sent (when (negb c) l)).
Proof. destruct c; auto. intros _. apply appends_nopush. Qed.

Lemma lldp_mgmt_spec af addr index : 0 <= af < 256 -> zlen addr <= 16 ->
  0 <= index < 4294967296 ->
  appends (lldp_mgmt_tlv af addr index) (sent [mgmt_tlv af addr index]).
Proof.
  intros Ha Hl Hi. pose proof (zlen_nonneg _ addr).
  apply appends_sent1; [easy | zlia |].
  eapply appends_eq.
  - repeat apply appends_and;
      [ apply appends_push8'; lia | apply appends_push8'; lia | apply appends_push
      | apply (appends_push8' 2); easy | apply appends_push32; lia
      | apply (appends_push8' 0); easy ].
  - rewrite <- !app_assoc. reflexivity.
Qed.

Lemma lldp_private_spec oui sub f b : zlen oui = 3 -> 0 <= sub < 256 -> zlen b < 500 ->
  appends f b ->
  appends (lldp_private_tlv oui sub f) (sent [org_tlv oui sub b]).
Proof.
  intros Ho Hs Hb Hf. apply appends_sent1; [easy|zlia|].
  eapply appends_eq.
  - repeat apply appends_and; [apply appends_push | apply appends_push8'; easy | exact Hf].
  - rewrite <- !app_assoc. reflexivity.
Qed.

Lemma lldp_vlans_spec vs : (forall v, In v vs -> netif_ok v) ->
  appends (lldp_vlans vs)
    (sent (map (fun v => org_tlv [0; 128; 194] 3
                  (U16 (nf_vlan_id v) ++ [zlen (nf_name v)] ++ nf_name v)) vs)).
Proof.
  induction vs as [|v vs IH]; intros H.
  - apply appends_nopush.
  - assert (Hv : netif_ok v) by (apply H; now left).
    match goal with |- appends (lldp_vlans (v :: vs)) _ =>
      change (lldp_vlans (v :: vs)) with
        (lldp_private_tlv OUI_8021 3 (push16 (nf_vlan_id v) &&& push8 (zlen (nf_name v))
                      &&& push (nf_name v)) &&& lldp_vlans vs) end.
    cbn [map]. rewrite sent_cons. apply appends_and.
    2:{ apply IH. intros; apply H; now right. }
    rewrite <- (app_nil_r (lldp_bytes _)).
    unfold netif_ok in Hv. destruct Hv as (Hn & _ & _ & _ & _ & _ & _ & _ & _ & _ & _ & _ & Hi & _).
    pose proof (cstring_len _ _ Hn).
    apply (lldp_private_spec OUI_8021); [reflexivity | easy | zlia |].
    eapply appends_eq.
    + repeat apply appends_and; [apply appends_push16; lia | apply appends_push8'; lia
                                | apply appends_push].
    + rewrite <- !app_assoc. reflexivity.
Qed.

Lemma lldp_cap_bits_spec cap : lldp_cap_bits cap = lldp_capword false cap.
Proof.
  unfold lldp_cap_bits, lldp_capword, cap_word. cbn [fold_right fst snd].
  rewrite (has_b cap CAP_BRIDGE 1), (has_b cap CAP_ROUTER 3), (has_b cap CAP_SWITCH 4),
    (has_b cap CAP_WLAN 5) by easy.
  destruct (Z.testbit cap 1), (Z.testbit cap 3), (Z.testbit cap 4), (Z.testbit cap 5);
    reflexivity.
Qed.
Lemma lldp_capword_spec (h : bool) cap :
  (if h then LLDP_CAP_STATION_ONLY else lldp_cap_bits cap) = lldp_capword h cap.
Proof. destruct h; [reflexivity|apply lldp_cap_bits_spec]. Qed.
Lemma lldp_capword_range h cap : 0 <= lldp_capword h cap < 256.
Proof.
  unfold lldp_capword, cap_word. cbn [fold_right fst snd].
  destruct h, (Z.testbit cap 1), (Z.testbit cap 3), (Z.testbit cap 4), (Z.testbit cap 5);
    cbn [orb]; lia.
Qed.

Lemma lldp_inv_spec sub s : 0 <= sub < 256 -> cstring 33 s ->
  appends (lldp_inv_tlv sub s) (sent (when (0 <? zlen s) [org_tlv [0; 18; 187] sub s])).
Proof.
  intros Hs Hc. pose proof (cstring_len _ _ Hc). apply sent_when. intros _.
  apply (lldp_private_spec OUI_TIA); [reflexivity|lia|zlia|apply appends_push].
Qed.

Lemma lldp_description_spec opts n p : lldp_description opts n p = port_descr opts n p.
Proof.
  unfold lldp_description, port_descr. rewrite (has_b opts OPT_IFDESCR 11) by easy.
  replace (negb (zlen (nf_description n) =? 0)) with (0 <? zlen (nf_description n)) by zlia.
  replace (negb (zlen (nf_description p) =? 0)) with (0 <? zlen (nf_description p)) by zlia.
  reflexivity.
Qed.
Lemma port_descr_ok opts n p : netif_ok n -> netif_ok p -> cstring 64 (port_descr opts n p).
Proof.
  intros Hn Hp. unfold netif_ok in Hn, Hp. unfold port_descr.
  repeat match goal with |- context [if ?c then _ else _] => destruct c end;
    (apply Hn || apply Hp).
Qed.

Definition lldp_total (opts : Z) (n p m : netif) (nfs : list netif) (si : sysinfo) : Z :=
  zlen (lldp_advert opts n p m nfs si).

Theorem lldp_packet_spec opts n par mgmt nfs si :
  netif_ok n -> netif_ok (up n par) -> (forall m, mgmt = Some m -> netif_ok m) ->
  (forall v, In v nfs -> netif_ok v) -> sysinfo_ok si ->
  lldp_packet opts n par mgmt nfs si =
    let m := up (up n par) mgmt in
    if zlen (lldp_advert opts n (up n par) m nfs si) <=? 1518
    then Some (lldp_advert opts n (up n par) m nfs si) else None.
Proof.
  intros Hn Hp Hm Hv Hs.
  assert (Hmg : netif_ok (up (up n par) mgmt)) by (destruct mgmt; [now apply Hm|easy]).
  unfold lldp_packet, lldp_advert, ETHER_MAX_LEN. cbv zeta.
  change (match par with Some p => p | None => n end) with (up n par).
  change (match mgmt with Some m => m | None => up n par end) with (up (up n par) mgmt).
  set (p := up n par) in *. set (m := up p mgmt) in *.
  rewrite (has_b opts OPT_CHASSIS_IF 13) by easy.
  set (chassis := if Z.testbit opts 13 then nf_hwaddr n else si_hwaddr si).
  assert (Lc : zlen chassis = 6).
  { unfold netif_ok in Hn. unfold sysinfo_ok in Hs. subst chassis.
    destruct (Z.testbit opts 13); (apply Hn || apply Hs). }
  rewrite lldp_description_spec, !lldp_capword_spec.
  pose proof (cstring_len _ _ (port_descr_ok opts n p Hn Hp)) as Hd.
  pose proof (lldp_capword_range (si_cap si =? CAP_HOST) (si_cap si)) as Hc1.
  pose proof (lldp_capword_range (si_cap si =? CAP_HOST) (si_cap_active si)) as Hc2.
  change CAP_HOST with 4 in *.
  set (hdr := LLDP_MULTICAST_ADDR ++ nf_hwaddr n ++ be16 ETHERTYPE_LLDP).
  set (content := [(1, 4 :: chassis); (2, 5 :: nf_name n); (3, U16 180)]
          ++ lldp_content opts n p m nfs si ++ [(0, [])]).
  match goal with |- obind (?f _) _ = _ => assert (Hf : appends f (sent content)) end.
  { unfold netif_ok in Hn, Hp, Hmg. unfold sysinfo_ok in Hs.
    destruct Hn as (Nn & Nne & Nd & Ndev & Nhb & Nhl & N4b & N4l & N6b & N6l & Nix & Nmtu & Nvl
                    & Npmd & Nmau & Nlac & Ndup & Nas & Nae).
    destruct Hmg as (Mn & Mne & Md & Mdev & Mhb & Mhl & M4b & M4l & M6b & M6l & Mix & _).
    destruct Hs as (Su & Spl & Sh & Sco & Slo & Srb & Srl & Shb & Shl & Sc & Sca & Scm & Sdt
                    & Sph & Shi).
    destruct Shi as (I1 & I2 & I3 & I4 & I5 & I6 & I7).
    pose proof (cstring_len _ _ Nn). pose proof (cstring_len _ _ Su).
    pose proof (cstring_len _ _ Sh). pose proof (cstring_len _ _ Slo).
    pose proof (cstring_len _ _ Sco).
    clear Hp Hm Spl Nd Ndev Md Mdev Mn.
    eapply appends_eq.
    - repeat match goal with |- appends (_ &&& _) _ => apply appends_and end.
      + apply (appends_sent1 1 _ (4 :: chassis)); [easy|zlia|].
        apply (appends_and _ _ [4]); [now apply appends_push8' | apply appends_push].
      + apply (appends_sent1 2 _ (5 :: nf_name n)); [easy|zlia|].
        apply (appends_and _ _ [5]); [now apply appends_push8' | apply appends_push].
      + apply (appends_sent1 3 _ (U16 180)); [easy|zlia|]. apply (appends_push16 180). easy.
      + apply sent_when. intros _. eapply appends_sent1; [easy| |apply appends_push]. zlia.
      + eapply appends_sent1; [easy| |apply appends_push]. zlia.
      + eapply appends_sent1; [easy| |apply appends_push]. zlia.
      + apply (appends_sent1 7 _ (U16 (lldp_capword (si_cap si =? 4) (si_cap si))
                 ++ U16 (lldp_capword (si_cap si =? 4) (si_cap_active si)))); [easy|zlia|].
        apply appends_and; apply appends_push16; lia.
      + rewrite is_set_addr by easy. apply sent_when. intros _.
        apply lldp_mgmt_spec; [easy|lia|lia].
      + rewrite is_set_addr by easy. apply sent_when. intros _.
        apply lldp_mgmt_spec; [easy|lia|lia].
      + apply lldp_mgmt_spec; [easy|lia|lia].
      + rewrite vlan_attached_spec. apply lldp_vlans_spec.
        intros v Hin. apply vlans_of_in in Hin. now apply Hv.
      + apply sent_whenn. intros _.
        apply (lldp_private_spec OUI_8023 1 _
           ([(nf_autoneg_supported n + 2 * nf_autoneg_enabled n) mod 256]
             ++ U16 (nf_autoneg_pmd n) ++ U16 (nf_mau n))); [reflexivity|lia|zlia|].
        rewrite app_assoc. apply appends_and; [apply appends_and|];
          [apply appends_push8|apply appends_push16; lia..].
      + apply sent_when. intros _.
        apply (lldp_private_spec OUI_8023 3 _ ([3] ++ U32 (nf_lacp_index n)));
          [reflexivity|lia|zlia|].
        apply appends_and; [now apply appends_push8'|apply appends_push32; lia].
      + apply sent_whenn. intros _.
        apply (lldp_private_spec OUI_8023 4 _ (U16 ((nf_mtu n + 22) mod 65536)));
          [reflexivity|lia|zlia|]. apply appends_push16m.
      + apply (lldp_private_spec OUI_TIA 1 _
                 (U16 (si_cap_lldpmed si) ++ [si_lldpmed_devtype si mod 256]));
          [reflexivity|lia|zlia|].
        apply appends_and; [apply appends_push16; lia|apply appends_push8].
      + apply sent_when. intros _.
        apply (lldp_private_spec OUI_TIA 3 _
           ([2; (5 + zlen (si_location si)) mod 256; 2] ++ si_country si
             ++ [22; zlen (si_location si)] ++ si_location si)); [reflexivity|lia|zlia|].
        eapply appends_eq.
        * repeat apply appends_and;
            [ now apply appends_push8' | apply appends_push8 | now apply appends_push8'
            | apply appends_push | now apply appends_push8' | apply appends_push8'; lia
            | apply appends_push ].
        * rewrite <- !app_assoc. reflexivity.
      + apply lldp_inv_spec; [easy|exact I1].
      + apply lldp_inv_spec; [easy|exact I2].
      + apply lldp_inv_spec; [easy|exact I3].
      + apply lldp_inv_spec; [easy|exact I4].
      + apply lldp_inv_spec; [easy|exact I5].
      + apply lldp_inv_spec; [easy|exact I6].
      + apply lldp_inv_spec; [easy|exact I7].
      + apply (appends_sent1 0 _ []); [easy|zlia|apply appends_nopush].
    - subst content. unfold lldp_content. cbv zeta.
      replace (negb (zlen (si_location si) =? 0)) with (0 <? zlen (si_location si)) by zlia.
      rewrite !sent_app, !sent_cons. change (sent []) with (@nil Z).
      rewrite <- !app_assoc, ?app_nil_r. reflexivity. }
  assert (Lh : zlen (nf_hwaddr n) = 6) by apply Hn.
  assert (Lhdr : zlen hdr = 14) by (subst hdr; change LLDP_MULTICAST_ADDR with [1; 128; 194; 0; 0; 14]; zlia).
  rewrite (appends_run _ (sent content)) by (easy || lia).
  replace (hdr ++ sent content) with ([1; 128; 194; 0; 0; 14] ++ nf_hwaddr n ++ U16 35020
      ++ flat_map lldp_bytes content)
    by (subst hdr; rewrite <- !app_assoc; reflexivity).
  destruct (_ <=? 1518); reflexivity.
Qed.
