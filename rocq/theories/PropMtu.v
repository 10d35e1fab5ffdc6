(** The size of frames and the duplex mode in advertisements: C101 and C102. *)
From Verif Require Import Base Tlv Types Protos Util Netif Bsd Spec SpecAdv SpecNetif SpecBsd SpecMtu Lemmas Cases Cases5 Cases14
  Conformance MtuProofs PropNetif PropBsd.

(** Hosts for the examples: as before, eth0 with another MTU and another answer of
    the driver. *)
Definition h_os (mtu : Z) (e : ecmd) : nos :=
  mkNos (no_ifaddrs v_os1) (no_flags v_os1) (no_wireless v_os1) (no_device v_os1) (no_driver v_os1) (no_vlan v_os1) (no_vid v_os1)
    (no_alias v_os1) (no_device_id v_os1) (no_bond v_os1) (no_slave v_os1) (no_bridge v_os1) (no_team v_os1)
    (fun _ => Some mtu) (fun _ => Some e).
Definition h_big : netif := Eval vm_compute in netif_media (h_os 65535 (mkEcmd 64 63 1000 1 0 1)) v_raw1.
Definition h_big_tlvs : list tlv :=
  [(1, 4 :: si_hwaddr (t_si 4 4)); (2, 5 :: nf_name h_big); (3, U16 180)]
     ++ lldp_content 0 h_big h_big h_big [] (t_si 4 4) ++ [(0, [])].

(** C101 is false: with the largest MTU of virtual interfaces the size wraps, and
    peers are told that frames have at most 21 bytes. *)
Theorem C101_mtu_refuted :
  exists os n count si f tlvs,
    no_mtu os (nf_name n) = Some 65535
    /\ inputs_ok count (netif_media os n) None None [] si
    /\ proto_build 0 0 count (netif_media os n) None None [] si = Some f
    /\ lldp_tlvs f tlvs /\ maxframe tlvs = [U16 21].
Proof.
  exists (h_os 65535 (mkEcmd 64 63 1000 1 0 1)), v_raw1, 0, (t_si 4 4), (lldp_advert 0 h_big h_big h_big [] (t_si 4 4)), h_big_tlvs.
  replace (netif_media (h_os 65535 (mkEcmd 64 63 1000 1 0 1)) v_raw1) with h_big by (vm_compute; reflexivity).
  split; [reflexivity|].
  split; [split; [concrete|split; [discriminate|split; [discriminate|split; [intros v []|split; [apply t_si_ok; lia|lia]]]]]|].
  split; [vm_compute; reflexivity|]. split; [|vm_compute; reflexivity].
  split; [vm_compute; repeat constructor; discriminate|vm_compute; reflexivity].
Qed.
Print Assumptions C101_mtu_refuted.
(** What holds on Linux: an LLDP frame has exactly one maximum frame size, that of
    the interface with its headers, if it can be expressed; a CDP frame has exactly
    one MTU, that of the interface; none if it is not known.  Missing: sizes above
    65535 in LLDP. *)
Theorem C101_mtu_partial os opts count n par mgmt nfs si f tlvs :
  inputs_ok count (netif_media os n) par mgmt nfs si ->
  proto_build 0 opts count (netif_media os n) par mgmt nfs si = Some f -> lldp_tlvs f tlvs ->
  (forall m, no_mtu os (nf_name n) = Some m -> 0 < m -> frame_size m < 65536 -> maxframe tlvs = [U16 (frame_size m)])
  /\ (no_mtu os (nf_name n) = None -> nf_mtu n = 0 -> maxframe tlvs = []).
Proof. exact (mtu_lldp (netif_media os) (no_mtu os (nf_name n)) n (mtu_linux os n) opts count par mgmt nfs si f tlvs). Qed.
Print Assumptions C101_mtu_partial.
Theorem C101_mtu_cdp os p opts count n par mgmt nfs si f tlvs :
  p = 1 \/ p = 5 -> inputs_ok count (netif_media os n) par mgmt nfs si ->
  proto_build p opts count (netif_media os n) par mgmt nfs si = Some f -> cdp_tlvs f tlvs ->
  (forall m, no_mtu os (nf_name n) = Some m -> 0 < m < 65536 -> values 17 tlvs = [U32 m])
  /\ (no_mtu os (nf_name n) = None -> nf_mtu n = 0 -> values 17 tlvs = []).
Proof. exact (mtu_cdp (netif_media os) (no_mtu os (nf_name n)) n (mtu_linux os n) p opts count par mgmt nfs si f tlvs). Qed.
Print Assumptions C101_mtu_cdp.
(** And on BSD. *)
Theorem C101_bsd_mtu_partial b opts count n par mgmt nfs si f tlvs :
  inputs_ok count (bsd_media b n) par mgmt nfs si ->
  proto_build 0 opts count (bsd_media b n) par mgmt nfs si = Some f -> lldp_tlvs f tlvs ->
  (forall m, bo_mtu b (nf_name n) = Some m -> 0 < m -> frame_size m < 65536 -> maxframe tlvs = [U16 (frame_size m)])
  /\ (bo_mtu b (nf_name n) = None -> nf_mtu n = 0 -> maxframe tlvs = []).
Proof. exact (mtu_lldp (bsd_media b) (bo_mtu b (nf_name n)) n (mtu_bsd b n) opts count par mgmt nfs si f tlvs). Qed.
Print Assumptions C101_bsd_mtu_partial.
Theorem C101_bsd_mtu_cdp b p opts count n par mgmt nfs si f tlvs :
  p = 1 \/ p = 5 -> inputs_ok count (bsd_media b n) par mgmt nfs si ->
  proto_build p opts count (bsd_media b n) par mgmt nfs si = Some f -> cdp_tlvs f tlvs ->
  (forall m, bo_mtu b (nf_name n) = Some m -> 0 < m < 65536 -> values 17 tlvs = [U32 m])
  /\ (bo_mtu b (nf_name n) = None -> nf_mtu n = 0 -> values 17 tlvs = []).
Proof. exact (mtu_cdp (bsd_media b) (bo_mtu b (nf_name n)) n (mtu_bsd b n) p opts count par mgmt nfs si f tlvs). Qed.
Print Assumptions C101_bsd_mtu_cdp.
(** eth0 of the Linux host and em0 of the FreeBSD host, both with 1500. *)
Example C101_case :
  inputs_ok 0 v_eth0 None None [] (t_si 4 4) /\ netif_media v_os1 (hd v_eth1 v_tab1) = v_eth0
  /\ no_mtu v_os1 (nf_name (hd v_eth1 v_tab1)) = Some 1500 /\ lldp_tlvs (lldp_advert 0 v_eth0 v_eth0 v_eth0 [] (t_si 4 4)) v_tlvs
  /\ maxframe v_tlvs = [U16 1522]
  /\ proto_build 1 0 0 v_eth0 None None [] (t_si 4 4) = Some (cdp_advert 2 v_eth0 v_eth0 None (t_si 4 4))
  /\ cdp_tlvs (cdp_advert 2 v_eth0 v_eth0 None (t_si 4 4)) (cdp_content v_eth0 v_eth0 None (t_si 4 4))
  /\ values 17 (cdp_content v_eth0 v_eth0 None (t_si 4 4)) = [[0; 0; 5; 220]]
  /\ bo_mtu f_os1 (nf_name f_em) = Some 1500 /\ lldp_tlvs (lldp_advert 0 f_em' f_em' f_em' [] (t_si 4 4)) f_tlvs
  /\ maxframe f_tlvs = [[5; 242]].
Proof.
  destruct C49_case as (H1 & H2 & H3 & H4 & _). destruct C100_case as (G1 & _ & _ & _ & G5 & G6 & _).
  split; [exact H1|]. split; [vm_compute; reflexivity|]. split; [vm_compute; reflexivity|]. split; [now split|].
  split; [vm_compute; reflexivity|]. split; [vm_compute; reflexivity|].
  split; [split; [apply cdp_fits_b; vm_compute; reflexivity|vm_compute; reflexivity]|].
  split; [vm_compute; reflexivity|]. split; [vm_compute; reflexivity|]. split; [now split|vm_compute; reflexivity].
Qed.

(** C102 is false: a link whose duplex mode the driver does not know (255) is
    advertised as half duplex. *)
Definition h_e : ecmd := mkEcmd 64 63 1000 255 0 1.
Definition h_unk : netif := Eval vm_compute in netif_media (h_os 1500 h_e) v_raw1.
Theorem C102_duplex_refuted :
  exists os n e count si f tlvs,
    nf_type n = 0 /\ no_ecmd os (nf_index n) = Some e /\ ec_duplex e = 255
    /\ inputs_ok count (netif_media os n) None None [] si
    /\ proto_build 1 0 count (netif_media os n) None None [] si = Some f
    /\ cdp_tlvs f tlvs /\ values 11 tlvs = [[0]] /\ ~ duplex_says e (values 11 tlvs).
Proof.
  exists (h_os 1500 h_e), v_raw1, h_e, 0, (t_si 4 4), (cdp_advert 2 h_unk h_unk None (t_si 4 4)), (cdp_content h_unk h_unk None (t_si 4 4)).
  replace (netif_media (h_os 1500 h_e) v_raw1) with h_unk by (vm_compute; reflexivity).
  split; [reflexivity|]. split; [reflexivity|]. split; [reflexivity|].
  split; [split; [concrete|split; [discriminate|split; [discriminate|split; [intros v []|split; [apply t_si_ok; lia|lia]]]]]|].
  split; [vm_compute; reflexivity|].
  split; [split; [apply cdp_fits_b; vm_compute; reflexivity|vm_compute; reflexivity]|].
  assert (E : values 11 (cdp_content h_unk h_unk None (t_si 4 4)) = [[0]]) by (vm_compute; reflexivity).
  split; [exact E|]. rewrite E. intros K. discriminate K.
Qed.
Print Assumptions C102_duplex_refuted.
(** What holds on Linux: half and full duplex are advertised as such, once; nothing
    is if the driver does not answer or the interface is not physical.  Missing: the
    case above. *)
Theorem C102_duplex_partial os p opts count n par mgmt nfs si f tlvs :
  p = 1 \/ p = 5 -> inputs_ok count (netif_media os n) par mgmt nfs si ->
  proto_build p opts count (netif_media os n) par mgmt nfs si = Some f -> cdp_tlvs f tlvs ->
  match (if nf_type n =? 0 then no_ecmd os (nf_index n) else None) with
  | Some e => ec_duplex e = 0 \/ ec_duplex e = 1 -> duplex_says e (values 11 tlvs)
  | None => values 11 tlvs = []
  end.
Proof. exact (duplex_cdp_linux os p opts count n par mgmt nfs si f tlvs). Qed.
Print Assumptions C102_duplex_partial.
(** On BSD the mode of the active medium is advertised. *)
Theorem C102_bsd_duplex b p opts count n par mgmt nfs si f tlvs :
  p = 1 \/ p = 5 -> inputs_ok count (bsd_media b n) par mgmt nfs si ->
  proto_build p opts count (bsd_media b n) par mgmt nfs si = Some f -> cdp_tlvs f tlvs ->
  values 11 tlvs = match linked_media b n with Some (im, _) => [[if im_fdx im then 1 else 0]] | None => [] end.
Proof. exact (duplex_cdp_bsd b p opts count n par mgmt nfs si f tlvs). Qed.
Print Assumptions C102_bsd_duplex.
Example C102_case :
  cdp_tlvs (cdp_advert 2 v_eth0 v_eth0 None (t_si 4 4)) (cdp_content v_eth0 v_eth0 None (t_si 4 4))
  /\ values 11 (cdp_content v_eth0 v_eth0 None (t_si 4 4)) = [[1]]
  /\ option_map ec_duplex (no_ecmd v_os1 1) = Some 1
  /\ inputs_ok 0 f_em' None None [] (t_si 4 4)
  /\ proto_build 5 0 0 f_em' None None [] (t_si 4 4) = Some (cdp_advert 1 f_em' f_em' None (t_si 4 4))
  /\ cdp_tlvs (cdp_advert 1 f_em' f_em' None (t_si 4 4)) (cdp_content f_em' f_em' None (t_si 4 4))
  /\ values 11 (cdp_content f_em' f_em' None (t_si 4 4)) = [[1]].
Proof.
  destruct C101_case as (_ & _ & _ & _ & _ & _ & H & _). destruct C100_case as (_ & _ & G3 & _).
  split; [exact H|]. split; [vm_compute; reflexivity|]. split; [reflexivity|]. split; [exact G3|].
  split; [vm_compute; reflexivity|]. split; [|vm_compute; reflexivity].
  split; [apply cdp_fits_b; vm_compute; reflexivity|vm_compute; reflexivity].
Qed.
