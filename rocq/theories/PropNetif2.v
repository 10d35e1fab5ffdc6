(** Addresses, capabilities, interfaces of the command line and management
    interface: C66 to C69. *)
From Verif Require Import Base Tlv Types Util Netif Spec SpecAdv SpecNetif SpecSend SpecNetif2 Lemmas Cases5 Cases8
  NetifProofs6 NetifProofs9.

(** C66.  After any refresh of a running daemon every interface has the hardware
    address last reported under its name, the first nonzero IPv4 address and the
    first nonzero IPv6 address that is not link-local (with -n those of the
    management interface); the chassis address is that of the first interface. *)
Theorem C66_addresses cfg oss os nfs nfs1 si ret nfs' si' gone ias :
  refreshed cfg oss nfs si -> indices nfs1 = indices nfs -> no_ifaddrs os = Some ias -> os_ok os -> names_apart ias ->
  netif_fetch cfg os nfs1 si = (ret, nfs', si', gone) ->
  addressed cfg ias nfs' si'
  /\ si_hwaddr si' = match nfs' with n :: _ => main_hw ias (nf_name n) | [] => si_hwaddr si end.
Proof.
  intros H1 H2 H3 H4 H5 H6. destruct (refresh_rest cfg oss os nfs nfs1 si ret nfs' si' gone ias H1 H2 H3 H4 H5 H6) as (A & B & _).
  exact (conj A B).
Qed.
Print Assumptions C66_addresses.
(** eth0 has two addresses, bond0 a link-local one as well; with -n all are
    advertised with the address of bond0, the management interface. *)
Definition v_cfg_n : ncfg := mkNcfg (12 + 256) [] (Some (bs "bond0")) (repeat 0 4) (repeat 0 16).
Example C66_case :
  refreshed v_cfg [v_os1] v_tab1 v_si1 /\ no_ifaddrs v_os1 = Some v_ias1 /\ os_ok v_os1 /\ names_apart v_ias1
  /\ v4_of v_ias1 (bs "eth0") = [[10; 0; 0; 1]; [10; 0; 0; 3]] /\ zlen (v6_of v_ias1 (bs "bond0")) = 1
  /\ map nf_ipaddr4 v_tab1 = [[10; 0; 0; 1]; [0; 0; 0; 0]; [0; 0; 0; 0]; [10; 0; 0; 2]; [0; 0; 0; 0]; [0; 0; 0; 0]]
  /\ map nf_ipaddr6 v_tab1 = repeat (repeat 0 16) 6 /\ si_hwaddr v_si1 = [2; 0; 0; 0; 0; 1]
  /\ match netif_fetch v_cfg_n v_os1 [] v_si with
     | (_, nfs', si', _) => map nf_ipaddr4 nfs' = repeat [10; 0; 0; 2] 6 /\ si_mnetif si' = Some 4
     end.
Proof.
  split; [exact v_refreshed|]. split; [exact v_os1_ias|]. split; [exact v_os1_ok|]. split; [exact v_ias1_apart|].
  vm_compute. repeat split.
Qed.

(** C67.  The capabilities after a refresh: host and router as before, bridge and
    wireless if and only if such an interface is reported, active if one of them
    is up, nothing else; the number of links is that of the regular
    interfaces. *)
Theorem C67_capabilities cfg oss os nfs nfs1 si ret nfs' si' gone ias :
  refreshed cfg oss nfs si -> indices nfs1 = indices nfs -> no_ifaddrs os = Some ias ->
  netif_fetch cfg os nfs1 si = (ret, nfs', si', gone) ->
  caps_are (reported_kind os 13) (reported_kind os 1) (si_cap si) (si_cap si')
  /\ caps_are (usable_kind os 13) (usable_kind os 1) (si_cap_active si) (si_cap_active si')
  /\ exists k, number (regular_entry os) ias k /\ si_physif_count si' = k mod 65536.
Proof.
  intros H1 H2 H3 H4. destruct (refreshed_inv cfg oss nfs si H1) as [D _]. rewrite <- H2 in D.
  exact (fetch_caps cfg os nfs1 si ret nfs' si' gone ias H3 D H4).
Qed.
Print Assumptions C67_capabilities.
(** A host with a bridge, and a wireless interface that is down: host, bridge and
    wireless (4 + 2 + 32), of which host and bridge are active; three links. *)
Example C67_case :
  si_cap v_si = 4 /\ si_cap v_si1 = 38 /\ si_cap_active v_si1 = 6 /\ si_physif_count v_si1 = 3
  /\ reported_kind v_os1 1 /\ usable_kind v_os1 13.
Proof.
  split; [vm_compute; reflexivity|]. split; [vm_compute; reflexivity|]. split; [vm_compute; reflexivity|]. split; [vm_compute; reflexivity|].
  split.
  - exists v_ias1, (bs "wlan0"), 7, [2; 0; 0; 0; 0; 7]. split; [exact v_os1_ias|]. split; [vm_compute; intuition|]. constructor. vm_compute. reflexivity.
  - exists 6, (bs "br0"). split; [|split].
    + exists v_ias1, [2; 0; 0; 0; 0; 6]. split; [exact v_os1_ias|]. vm_compute; intuition.
    + apply (kind_driver _ _ _ (bs "bridge")); try (vm_compute; reflexivity). apply drv_bridge. vm_compute. reflexivity.
    + exists 4163. split; vm_compute; reflexivity.
Qed.

(** C68.  Of the interfaces of the table exactly those named on the command line
    are marked, VLANs excepted; the value returned is 0 if a name does not belong
    to an interface of the table or to a VLAN, and the number of names otherwise
    (without names, the number of usable interfaces reported). *)
Theorem C68_command_line cfg oss os nfs nfs1 si ret nfs' si' gone ias :
  refreshed cfg oss nfs si -> indices nfs1 = indices nfs -> no_ifaddrs os = Some ias -> os_ok os -> names_apart ias ->
  netif_fetch cfg os nfs1 si = (ret, nfs', si', gone) ->
  marked cfg nfs'
  /\ (nc_ifl cfg <> [] -> all_found cfg nfs' -> ret = zlen (nc_ifl cfg) mod 65536)
  /\ (nc_ifl cfg <> [] -> ~ all_found cfg nfs' -> ret = 0)
  /\ (nc_ifl cfg = [] -> exists k, number (up_entry os) ias k /\ ret = k mod 65536).
Proof.
  intros H1 H2 H3 H4 H5 H6.
  destruct (refresh_rest cfg oss os nfs nfs1 si ret nfs' si' gone ias H1 H2 H3 H4 H5 H6) as (_ & _ & A & B & C & D & _).
  exact (conj A (conj B (conj C D))).
Qed.
Print Assumptions C68_command_line.
(** eth1 and bond0 are marked; with the VLAN eth0.5 in the list the result is 0. *)
Definition v_cfg_l (l : list (list Z)) : ncfg := mkNcfg (12 + 32) l None (repeat 0 4) (repeat 0 16).
Example C68_case :
  (match netif_fetch (v_cfg_l [bs "eth1"; bs "bond0"]) v_os1 [] v_si with
   | (ret, nfs', _, _) => ret = 2 /\ map nf_argv nfs' = [0; 1; 0; 1; 0; 0]
   end)
  /\ (match netif_fetch (v_cfg_l [bs "eth1"; bs "eth0.5"]) v_os1 [] v_si with
      | (ret, nfs', _, _) => ret = 0 /\ map nf_argv nfs' = [0; 1; 0; 0; 0; 0]
      end)
  /\ (match netif_fetch (v_cfg_l []) v_os1 [] v_si with (ret, nfs', _, _) => ret = 6 end).
Proof. vm_compute. repeat split. Qed.

(** C69 is false in two ways.  An address that is not the first of its interface
    does not select it: eth0 has 10.0.0.3, which is configured, and there is no
    management interface. *)
Theorem C69_secondary_refuted :
  exists cfg os ias ret nfs' si' gone n,
    refreshed cfg [] [] v_si /\ no_ifaddrs os = Some ias /\ os_ok os /\ names_apart ias
    /\ netif_fetch cfg os [] v_si = (ret, nfs', si', gone)
    /\ In n nfs' /\ In (nc_maddr4 cfg) (v4_of ias (nf_name n)) /\ nonzero (nc_maddr4 cfg) = true
    /\ si_mnetif si' = None.
Proof.
  pose (cfg := mkNcfg 12 [] None [10; 0; 0; 3] (repeat 0 16)).
  pose (r := netif_fetch cfg v_os1 [] v_si).
  exists cfg, v_os1, v_ias1, (fst (fst (fst r))), (snd (fst (fst r))), (snd (fst r)), (snd r), (hd (fresh_netif 0 [] 0 [] 0 0 0 []) (snd (fst (fst r)))).
  split; [apply ref_start; vm_compute; reflexivity|]. split; [exact v_os1_ias|]. split; [exact v_os1_ok|]. split; [exact v_ias1_apart|].
  split; [vm_compute; reflexivity|]. split; [vm_compute; left; reflexivity|]. split; [vm_compute; intuition|]. vm_compute. repeat split.
Qed.
Print Assumptions C69_secondary_refuted.
(** An interface that no longer has the configured name remains the management
    interface: bond0 was renamed. *)
Theorem C69_renamed_refuted :
  exists cfg oss os nfs si ias ret nfs' si' gone n,
    refreshed cfg oss nfs si /\ no_ifaddrs os = Some ias /\ os_ok os /\ names_apart ias
    /\ netif_fetch cfg os nfs si = (ret, nfs', si', gone)
    /\ In n nfs' /\ si_mnetif si' = Some (nf_index n) /\ nc_mifname cfg = Some (bs "bond0") /\ nf_name n = bs "bond9".
Proof.
  pose (r := netif_fetch v_cfg v_os3 v_tab1 v_si1).
  exists v_cfg, [v_os1], v_os3, v_tab1, v_si1, v_ias3, (fst (fst (fst r))), (snd (fst (fst r))), (snd (fst r)), (snd r),
    (nth 3 (snd (fst (fst r))) (fresh_netif 0 [] 0 [] 0 0 0 [])).
  split; [exact v_refreshed|]. split; [vm_compute; reflexivity|]. split; [exact v_os3_ok|]. split; [exact v_ias3_apart|].
  split; [vm_compute; reflexivity|]. split; [vm_compute; right; right; right; left; reflexivity|]. vm_compute. repeat split.
Qed.
Print Assumptions C69_renamed_refuted.
(** What holds: an interface with the configured name is always the management
    interface; a management interface that was not the one before has the
    configured name, or the configured address is the one it is advertised with;
    and as long as there is none, the first such interface becomes it.  Missing:
    addresses that are not the first, and losing the role with the name or
    address. *)
Theorem C69_management_partial cfg oss os nfs nfs1 si ret nfs' si' gone ias :
  refreshed cfg oss nfs si -> indices nfs1 = indices nfs -> no_ifaddrs os = Some ias -> os_ok os -> names_apart ias ->
  netif_fetch cfg os nfs1 si = (ret, nfs', si', gone) ->
  (forall n, In n nfs' -> nc_mifname cfg = Some (nf_name n) -> si_mnetif si' = Some (nf_index n))
  /\ (forall m, si_mnetif si' = Some m -> si_mnetif si = Some m \/ exists n, In n nfs' /\ nf_index n = m /\ wanted cfg ias n)
  /\ ((forall m, si_mnetif si = Some m -> ~ In m (indices nfs')) ->
      forall n, In n nfs' -> wanted cfg ias n -> si_mnetif si' <> None).
Proof.
  intros H1 H2 H3 H4 H5 H6.
  destruct (refresh_rest cfg oss os nfs nfs1 si ret nfs' si' gone ias H1 H2 H3 H4 H5 H6) as (_ & _ & _ & _ & _ & _ & A & B & C).
  exact (conj A (conj B C)).
Qed.
Print Assumptions C69_management_partial.
(** Selected by name, and by address. *)
Example C69_case :
  si_mnetif v_si1 = Some 4
  /\ (match netif_fetch (mkNcfg 12 [] None [10; 0; 0; 2] (repeat 0 16)) v_os1 [] v_si with
      | (_, _, si', _) => si_mnetif si' = Some 4
      end).
Proof. vm_compute. repeat split. Qed.
