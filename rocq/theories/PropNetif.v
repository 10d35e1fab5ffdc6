(** The interface table and the advertised media state: C47 and C49. *)
From Verif Require Import Base Tlv Types Protos Util Netif Spec SpecAdv SpecNetif Lemmas Cases Cases5
  Conformance NetifProofs6.

(** C47.  After any sequence of refreshes ([nfs1] is the table with whatever the
    daemon changed in the interfaces since): a refresh leaves each usable
    interface exactly once and no other, keeps the enabled protocols and the
    count of link events of those that persist, asks the parent to close exactly
    the ones that vanished, and leaves no reference (management interface,
    parent, next member, VLAN interface) to an interface outside the table. *)
Theorem C47_table_mirrors_os cfg oss os nfs nfs1 si ret nfs' si' gone :
  refreshed cfg oss nfs si -> indices nfs1 = indices nfs -> no_ifaddrs os <> None ->
  netif_fetch cfg os nfs1 si = (ret, nfs', si', gone) ->
  table_exact os nfs' /\ (forall n, In n nfs' -> survives nfs1 n)
  /\ (forall i, In i gone <-> In i (indices nfs1) /\ ~ usable os i)
  /\ mgmt_in si' nfs' /\ no_dangling nfs'.
Proof.
  intros H1 H2 H3 H4. destruct (refresh_exact cfg oss os nfs nfs1 si ret nfs' si' gone H1 H2 H3 H4) as (A & B & C & D & E & _).
  split; [exact A|]. split; [intros n Hn; exact (proj1 (B n Hn))|]. split; [exact C|]. split; [exact D|exact E].
Qed.
Print Assumptions C47_table_mirrors_os.
(** A refresh that fails changes nothing. *)
Theorem C47_failed_refresh cfg os nfs si :
  no_ifaddrs os = None -> netif_fetch cfg os nfs si = (0, nfs, si, []).
Proof. exact (refresh_failed cfg os nfs si). Qed.
Print Assumptions C47_failed_refresh.
(** The second refresh of a host that lost eth2: eth0 keeps its protocols, the
    closed index is 3, bond0 (4) remains the management interface. *)
Example C47_case :
  refreshed v_cfg [v_os1] v_tab1 v_si1 /\ indices v_tab1' = indices v_tab1 /\ no_ifaddrs v_os2 <> None
  /\ map nf_index v_tab1 = [1; 2; 3; 4; 5; 6] /\ map nf_type v_tab1 = [0; 0; 0; 12; -1; 13]
  /\ match netif_fetch v_cfg v_os2 v_tab1' v_si1 with
     | (ret, nfs', si', gone) => ret = 5 /\ gone = [3] /\ map nf_index nfs' = [1; 2; 4; 5; 6]
         /\ map nf_protos nfs' = [5; 0; 0; 0; 0] /\ si_mnetif si' = Some 4
     end.
Proof. split; [exact v_refreshed|]. split; [vm_compute; reflexivity|]. split; [discriminate|]. vm_compute. repeat split. Qed.

(** C58.  The relations between interfaces are those the kernel reports: each
    aggregate heads the chain of its members in the order reported, each with its
    state and a pointer back, no other interface is linked to anything, and each
    VLAN has its identifier and interface.  [consistent]: no interface is
    reported as a member twice. *)
Theorem C58_members cfg oss os nfs nfs1 si ret nfs' si' gone :
  refreshed cfg oss nfs si -> indices nfs1 = indices nfs -> no_ifaddrs os <> None ->
  netif_fetch cfg os nfs1 si = (ret, nfs', si', gone) -> consistent os nfs' -> linked os nfs'.
Proof.
  intros H1 H2 H3 H4. exact (proj2 (proj2 (proj2 (proj2 (proj2 (proj2 (refresh_exact cfg oss os nfs nfs1 si ret nfs' si' gone H1 H2 H3 H4))))))).
Qed.
Print Assumptions C58_members.
Theorem C58_vlans cfg oss os nfs nfs1 si ret nfs' si' gone :
  refreshed cfg oss nfs si -> indices nfs1 = indices nfs -> no_ifaddrs os <> None ->
  netif_fetch cfg os nfs1 si = (ret, nfs', si', gone) -> tagged os nfs'.
Proof.
  intros H1 H2 H3 H4. exact (proj1 (proj2 (proj2 (proj2 (proj2 (proj2 (refresh_exact cfg oss os nfs nfs1 si ret nfs' si' gone H1 H2 H3 H4))))))).
Qed.
Print Assumptions C58_vlans.
Example C58_case :
  consistent v_os1 v_tab1
  /\ map nf_subif v_tab1 = [None; Some 3; None; Some 2; None; Some 1]
  /\ map nf_parent v_tab1 = [Some 6; Some 4; Some 4; None; None; None]
  /\ map nf_child v_tab1 = [1; 1; 2; 0; 0; 0] /\ map nf_bonding_mode v_tab1 = [0; 0; 0; 1; 0; 0]
  /\ map nf_vlan_id v_tab1 = [0; 0; 0; 0; 5; 0] /\ map nf_vlan_parent v_tab1 = [0; 0; 0; 0; 1; 0].
Proof.
  split; [|vm_compute; repeat split]. split.
  - replace (flat_map _ _) with [2; 3; 1] by (vm_compute; reflexivity). repeat constructor; cbn; intuition discriminate.
  - intros p ports active Hp Ht Hn. discriminate Hn.
Qed.

(** C49 is false: an interface whose driver does not support autonegotiation is
    advertised with octet 254, which says "enabled" and sets the reserved bits. *)
Definition v_raw1 : netif := Eval vm_compute in nth 1 v_tab1 (fresh_netif 0 [] 0 [] 0 0 0 []).
Definition v_eth1 : netif := Eval vm_compute in netif_media v_os1 v_raw1.
Lemma v_media1 : netif_media v_os1 v_raw1 = v_eth1. Proof. vm_compute. reflexivity. Qed.
Theorem C49_autoneg_refuted :
  exists os n e count si f tlvs octet r,
    nf_type n = 0 /\ no_ecmd os (nf_index n) = Some e /\ an_supported e = false
    /\ inputs_ok count (netif_media os n) None None [] si
    /\ proto_build 0 0 count (netif_media os n) None None [] si = Some f
    /\ Forall lldp_fits tlvs /\ skipn 14 f = flat_map lldp_bytes tlvs
    /\ macphy tlvs = [octet :: r] /\ octet = 254 /\ ~ truthful e octet.
Proof.
  exists v_os1, v_raw1, (mkEcmd 0 0 1000 1 3 0), 0, (t_si 4 4).
  exists (lldp_advert 0 v_eth1 v_eth1 v_eth1 [] (t_si 4 4)),
    ([(1, 4 :: si_hwaddr (t_si 4 4)); (2, 5 :: nf_name v_eth1); (3, U16 180)]
       ++ lldp_content 0 v_eth1 v_eth1 v_eth1 [] (t_si 4 4) ++ [(0, [])]), 254, [0; 0; 0; 22].
  rewrite v_media1.
  split; [vm_compute; reflexivity|]. split; [vm_compute; reflexivity|]. split; [vm_compute; reflexivity|].
  split; [|split; [vm_compute; reflexivity|split; [vm_compute; repeat constructor; discriminate|]]].
  - split; [concrete|]. split; [discriminate|]. split; [discriminate|]. split; [intros v []|]. split; [apply t_si_ok; lia|lia].
  - split; [vm_compute; reflexivity|]. split; [vm_compute; reflexivity|]. split; [reflexivity|].
    intros H. specialize (H 1 ltac:(lia)). vm_compute in H. discriminate H.
Qed.
Print Assumptions C49_autoneg_refuted.
(** With support for autonegotiation the octet is right, and an interface of
    unknown media state (no answer of the driver, or no physical interface) is
    advertised without the TLV.  Missing: the case above. *)
Theorem C49_autoneg_partial os opts count n par mgmt nfs si f tlvs :
  inputs_ok count (netif_media os n) par mgmt nfs si ->
  proto_build 0 opts count (netif_media os n) par mgmt nfs si = Some f -> Forall lldp_fits tlvs ->
  skipn 14 f = flat_map lldp_bytes tlvs ->
  match (if nf_type n =? 0 then no_ecmd os (nf_index n) else None) with
  | Some e => an_supported e = true -> exists octet r, macphy tlvs = [octet :: r] /\ truthful e octet
  | None => macphy tlvs = []
  end.
Proof. exact (media_truth os opts count n par mgmt nfs si f tlvs). Qed.
Print Assumptions C49_autoneg_partial.
Definition v_eth0 : netif := Eval vm_compute in netif_media v_os1 (hd v_eth1 v_tab1).
Definition v_tlvs : list tlv :=
  [(1, 4 :: si_hwaddr (t_si 4 4)); (2, 5 :: nf_name v_eth0); (3, U16 180)]
     ++ lldp_content 0 v_eth0 v_eth0 v_eth0 [] (t_si 4 4) ++ [(0, [])].
Example C49_case :
  inputs_ok 0 v_eth0 None None [] (t_si 4 4)
  /\ proto_build 0 0 0 v_eth0 None None [] (t_si 4 4) = Some (lldp_advert 0 v_eth0 v_eth0 v_eth0 [] (t_si 4 4))
  /\ Forall lldp_fits v_tlvs
  /\ skipn 14 (lldp_advert 0 v_eth0 v_eth0 v_eth0 [] (t_si 4 4)) = flat_map lldp_bytes v_tlvs
  /\ macphy v_tlvs = [[3; 108; 3; 0; 30]].
Proof.
  split; [split; [concrete|split; [discriminate|split; [discriminate|split; [intros v []|split; [apply t_si_ok; lia|lia]]]]]|].
  split; [vm_compute; reflexivity|]. split; [vm_compute; repeat constructor; discriminate|]. split; vm_compute; reflexivity.
Qed.
