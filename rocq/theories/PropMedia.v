(** The media details in the LLDP advertisement: C86. *)
From Verif Require Import Base Tlv Types Protos Util Netif Spec SpecAdv SpecNetif SpecMedia Lemmas Cases Cases5
  Conformance NetifProofs6 MediaProofs PropNetif.

(** C86.  The frame built for a physical interface whose driver answers carries one
    MAC/PHY TLV, and behind its autonegotiation octet (C49) stand the link modes the
    interface advertises, one bit for each, and the number of its kind of port,
    speed and duplex. *)
Theorem C86_media os opts count n par mgmt nfs si f tlvs e :
  inputs_ok count (netif_media os n) par mgmt nfs si ->
  proto_build 0 opts count (netif_media os n) par mgmt nfs si = Some f -> Forall lldp_fits tlvs ->
  skipn 14 f = flat_map lldp_bytes tlvs ->
  nf_type n = 0 -> no_ecmd os (nf_index n) = Some e ->
  exists octet word mau,
    macphy tlvs = [octet :: U16 word ++ U16 mau] /\ says_modes e word /\ says_mau e mau.
Proof. exact (media_details os opts count n par mgmt nfs si f tlvs e). Qed.
Print Assumptions C86_media.
(** A copper port at a gigabit that advertises all six modes up to it. *)
Definition v_copper : ecmd := mkEcmd 64 63 1000 1 0 1.
Example C86_case :
  inputs_ok 0 v_eth0 None None [] (t_si 4 4)
  /\ proto_build 0 0 0 v_eth0 None None [] (t_si 4 4) = Some (lldp_advert 0 v_eth0 v_eth0 v_eth0 [] (t_si 4 4))
  /\ Forall lldp_fits v_tlvs
  /\ skipn 14 (lldp_advert 0 v_eth0 v_eth0 v_eth0 [] (t_si 4 4)) = flat_map lldp_bytes v_tlvs
  /\ netif_media v_os1 (hd v_eth1 v_tab1) = v_eth0
  /\ nf_type (hd v_eth1 v_tab1) = 0 /\ no_ecmd v_os1 (nf_index (hd v_eth1 v_tab1)) = Some v_copper
  /\ macphy v_tlvs = [3 :: U16 27651 ++ U16 30] /\ an_supported v_copper = true
  /\ plug_of v_copper = TwistedPair.
Proof.
  destruct C49_case as (H1 & H2 & H3 & H4 & H5).
  split; [exact H1|]. split; [exact H2|]. split; [exact H3|]. split; [exact H4|]. vm_compute. repeat split; reflexivity.
Qed.
(** The specification tells wrong numbers from right ones: half duplex, fibre and a
    missing mode are not what this port is. *)
Example C86_others :
  ~ says_mau v_copper 29 /\ ~ says_mau v_copper 22 /\ ~ says_mau v_copper 0 /\ ~ says_modes v_copper 27650
  /\ says_mau (mkEcmd 64 63 1000 0 3 1) 21 /\ says_mau (mkEcmd 64 63 10 1 1 1) 1 /\ says_mau (mkEcmd 64 128 100 1 2 1) 16.
Proof.
  repeat split.
  - intros [H|[H _]]; [|discriminate H]. cbn in H. repeat (destruct H as [H|H]; [discriminate H|]). exact H.
  - intros [H|[H _]]; [|discriminate H]. cbn in H. repeat (destruct H as [H|H]; [discriminate H|]). exact H.
  - intros [H|[_ H]]; [cbn in H; repeat (destruct H as [H|H]; [discriminate H|]); exact H|].
    apply (H 30). cbn. tauto.
  - intros [_ H]. destruct (H 15 ltac:(lia)) as [_ K]. cbn in K.
    discriminate (K ltac:(split; [reflexivity|]; exists 5; split; [now left|reflexivity])).
  - left. cbn. tauto.
  - left. cbn. tauto.
Qed.
