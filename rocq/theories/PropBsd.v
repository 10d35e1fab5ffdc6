(** Interface detection on FreeBSD and OpenBSD: C96 to C100. *)
From Verif Require Import Base Tlv Types Protos Util Netif Bsd Spec SpecAdv SpecNetif SpecSend SpecNetif2 SpecSys SpecBsd Lemmas Cases Cases5 Cases8 Cases14
  Conformance BsdProofs3 BsdProofs4 BsdProofs5.

(** C96.  After any sequence of refreshes on BSD: a refresh leaves each usable
    interface exactly once, with its kind and description, and no other; keeps the
    enabled protocols and the count of link events of those that persist; asks the
    parent to close exactly the ones that vanished; and leaves no reference to an
    interface outside the table. *)
Theorem C96_bsd_table cfg pf b nfs nfs1 si ret nfs' si' gone ias :
  b_refreshed cfg pf nfs si -> indices nfs1 = indices nfs -> bo_ifaddrs b = Some ias -> b_ok b ->
  bsd_fetch cfg pf b nfs1 si = (ret, nfs', si', gone) ->
  b_table pf b nfs' /\ (forall n, In n nfs' -> survives nfs1 n)
  /\ (forall i, In i gone <-> In i (indices nfs1) /\ ~ b_usable pf b i)
  /\ mgmt_in si' nfs' /\ no_dangling nfs'.
Proof.
  intros H1 H2 H3 H4 H5. destruct (b_exact cfg pf b nfs nfs1 si ret nfs' si' gone ias H1 H2 H3 H4 H5) as (A & B & C & D & E & _).
  exact (conj A (conj B (conj C (conj D E)))).
Qed.
Print Assumptions C96_bsd_table.
(** Addresses, and the chassis address. *)
Theorem C96_bsd_addresses cfg pf b nfs nfs1 si ret nfs' si' gone ias :
  b_refreshed cfg pf nfs si -> indices nfs1 = indices nfs -> bo_ifaddrs b = Some ias -> b_ok b ->
  bsd_fetch cfg pf b nfs1 si = (ret, nfs', si', gone) ->
  addressed cfg ias nfs' si'
  /\ si_hwaddr si' = match nfs' with n :: _ => main_hw ias (nf_name n) | [] => si_hwaddr si end.
Proof.
  intros H1 H2 H3 H4 H5. destruct (b_rest cfg pf b nfs nfs1 si ret nfs' si' gone ias H1 H2 H3 H4 H5) as (A & B & _). exact (conj A B).
Qed.
Print Assumptions C96_bsd_addresses.
(** Capabilities and the number of links. *)
Theorem C96_bsd_capabilities cfg pf b nfs nfs1 si ret nfs' si' gone ias :
  b_refreshed cfg pf nfs si -> indices nfs1 = indices nfs -> bo_ifaddrs b = Some ias -> b_ok b ->
  bsd_fetch cfg pf b nfs1 si = (ret, nfs', si', gone) ->
  caps_are (b_reported_kind pf b 13) (b_reported_kind pf b 1) (si_cap si) (si_cap si')
  /\ caps_are (b_usable_kind pf b 13) (b_usable_kind pf b 1) (si_cap_active si) (si_cap_active si')
  /\ exists k, number (b_entry pf b (fun _ ty => ty = 0)) ias k /\ si_physif_count si' = k mod 65536.
Proof.
  intros H1 H2 H3 H4 H5. exact (b_caps cfg pf b nfs nfs1 si ret nfs' si' gone ias H1 H2 H3 H4 H5).
Qed.
Print Assumptions C96_bsd_capabilities.
(** The interfaces of the command line, the value returned, and the management
    interface. *)
Theorem C96_bsd_command_line cfg pf b nfs nfs1 si ret nfs' si' gone ias :
  b_refreshed cfg pf nfs si -> indices nfs1 = indices nfs -> bo_ifaddrs b = Some ias -> b_ok b ->
  bsd_fetch cfg pf b nfs1 si = (ret, nfs', si', gone) ->
  marked cfg nfs'
  /\ (nc_ifl cfg <> [] -> all_found cfg nfs' -> ret = zlen (nc_ifl cfg) mod 65536)
  /\ (nc_ifl cfg <> [] -> ~ all_found cfg nfs' -> ret = 0)
  /\ (nc_ifl cfg = [] -> exists k, number (b_entry pf b (fun x _ => b_up b x)) ias k /\ ret = k mod 65536)
  /\ (forall n, In n nfs' -> nc_mifname cfg = Some (nf_name n) -> si_mnetif si' = Some (nf_index n))
  /\ (forall m, si_mnetif si' = Some m -> si_mnetif si = Some m \/ exists n, In n nfs' /\ nf_index n = m /\ wanted cfg ias n)
  /\ ((forall m, si_mnetif si = Some m -> ~ In m (indices nfs')) ->
      forall n, In n nfs' -> wanted cfg ias n -> si_mnetif si' <> None).
Proof.
  intros H1 H2 H3 H4 H5. destruct (b_rest cfg pf b nfs nfs1 si ret nfs' si' gone ias H1 H2 H3 H4 H5) as (_ & _ & A). exact A.
Qed.
Print Assumptions C96_bsd_command_line.
(** A FreeBSD host; afterwards igb1 (2) and tap0 (8) vanish. *)
Definition f_os2 : bos := f_os [(6, 1); (6, 3); (209, 4); (6, 5); (6, 9); (6, 10); (6, 6)] f_text.
Definition f_tab1' : list netif := map (fun n => if nf_index n =? 5 then set_protos 3 n else n) (f_tab f_os1).
Example C96_case :
  b_refreshed f_cfg FreeBSD (f_tab f_os1) (f_si f_os1) /\ indices f_tab1' = indices (f_tab f_os1) /\ b_ok f_os2
  /\ bo_ifaddrs f_os2 <> None
  /\ map nf_index (f_tab f_os1) = [1; 2; 3; 4; 5; 8; 6] /\ map nf_type (f_tab f_os1) = [0; 0; 12; 13; 0; 2; -1]
  /\ si_cap (f_si f_os1) = 38 /\ si_cap_active (f_si f_os1) = 6 /\ si_physif_count (f_si f_os1) = 3
  /\ map nf_ipaddr4 (f_tab f_os1) = repeat [0; 0; 0; 0] 2 ++ [[10; 0; 0; 2]] ++ repeat [0; 0; 0; 0] 4
  /\ match bsd_fetch f_cfg FreeBSD f_os2 f_tab1' (f_si f_os1) with
     | (ret, nfs', si', gone) => ret = 5 /\ gone = [2; 8] /\ map nf_index nfs' = [1; 3; 4; 5; 6]
         /\ map nf_protos nfs' = [0; 0; 0; 3; 0] /\ si_mnetif si' = Some 3
     end.
Proof.
  split; [exact f_refreshed|]. split; [vm_compute; reflexivity|].
  split; [apply f_ok; [vm_compute; reflexivity|vm_compute; reflexivity|apply f_text_ok|apply f_text_ok]|]. split; [discriminate|].
  vm_compute. repeat split.
Qed.
(** With interfaces on the command line; OpenBSD, where tap0 is told by its name and
    ipfw0 is an interface like any other. *)
Example C96_others :
  (match bsd_fetch (mkNcfg (12 + 32) [bs "em0"; bs "lagg0"] None (repeat 0 4) (repeat 0 16)) FreeBSD f_os1 [] v_si with
   | (ret, nfs', _, _) => ret = 2 /\ map nf_argv nfs' = [0; 0; 1; 0; 1; 0; 0]
   end)
  /\ (match bsd_fetch f_cfg OpenBSD f_os1 [] v_si with
      | (ret, nfs', _, _) => ret = 8 /\ map nf_index nfs' = [1; 2; 3; 4; 5; 8; 10; 6] /\ map nf_type nfs' = [0; 0; 12; 13; 0; 2; 0; -1]
      end)
  /\ b_kind FreeBSD f_os1 8 (bs "tap0") 2 /\ b_kind OpenBSD f_os1 10 (bs "ipfw0") 0 /\ b_usable FreeBSD f_os1 3
  /\ ~ stem_in FreeBSD f_os1 5 (bs "em0") taps.
Proof.
  split; [vm_compute; repeat split|]. split; [vm_compute; repeat split|].
  split; [apply f_kind; [vm_compute; discriminate|vm_compute; reflexivity|discriminate]|].
  split; [apply f_kind; [vm_compute; discriminate|vm_compute; reflexivity|discriminate]|]. split.
  - exists (bs "lagg0"), 12. split; [|split].
    + exists f_ias1, 6, [2; 0; 0; 0; 0; 3]. split; [exact f_os1_ias|]. split; [vm_compute; intuition|now left].
    + apply f_kind; [vm_compute; discriminate|vm_compute; reflexivity|discriminate].
    + exists 34883. split; vm_compute; reflexivity.
  - intros H. apply BsdProofs2.stem_in_iff in H. vm_compute in H. intuition discriminate.
Qed.

(** C97.  The members of lagg (trunk) and bridge interfaces are those the kernel
    reports: each aggregate heads the chain of its members in the order reported,
    each with its state and a pointer back, with the mode of the aggregate; no other
    interface is linked to anything.  [b_consistent]: no interface is reported as a
    member twice. *)
Theorem C97_bsd_members cfg pf b nfs nfs1 si ret nfs' si' gone ias :
  b_refreshed cfg pf nfs si -> indices nfs1 = indices nfs -> bo_ifaddrs b = Some ias -> b_ok b ->
  bsd_fetch cfg pf b nfs1 si = (ret, nfs', si', gone) -> b_consistent b nfs' -> b_linked pf b nfs'.
Proof.
  intros H1 H2 H3 H4 H5. destruct (b_exact cfg pf b nfs nfs1 si ret nfs' si' gone ias H1 H2 H3 H4 H5) as (_ & _ & _ & _ & _ & A & _).
  exact A.
Qed.
Print Assumptions C97_bsd_members.
Example C97_case :
  b_consistent f_os1 (f_tab f_os1)
  /\ map nf_subif (f_tab f_os1) = [None; Some 1; Some 2; Some 5; None; None; None]
  /\ map nf_parent (f_tab f_os1) = [Some 3; Some 3; None; None; Some 4; None; None]
  /\ map nf_child (f_tab f_os1) = [2; 1; 0; 0; 1; 0; 0] /\ map nf_bonding_mode (f_tab f_os1) = [0; 0; 1; 0; 0; 0; 0].
Proof.
  split; [|vm_compute; repeat split]. unfold b_consistent.
  replace (flat_map _ _) with [2; 1; 5] by (vm_compute; reflexivity). repeat constructor; cbn; intuition discriminate.
Qed.

(** C98 is false in two ways.  All VLANs get identifier and interface of the last
    datalink entry, because the kernel is asked about that one: vlan5 is advertised
    as VLAN 7. *)
Definition f_os3 : bos := f_os [(6, 5); (6, 6); (6, 7)] f_text.
Theorem C98_vlan_refuted :
  exists cfg pf b ias ret nfs' si' gone v,
    b_refreshed cfg pf [] v_si /\ bo_ifaddrs b = Some ias /\ b_ok b /\ bsd_fetch cfg pf b [] v_si = (ret, nfs', si', gone)
    /\ In v nfs' /\ nf_name v = bs "vlan5" /\ nf_type v = -1 /\ bo_vlan b (bs "vlan5") = Some (bs "em0", 5)
    /\ nf_vlan_id v = 7 /\ ~ b_tagged b nfs'.
Proof.
  exists f_cfg, FreeBSD, f_os3, (f_ias [(6, 5); (6, 6); (6, 7)]), (fst (fst (fst (f_run f_os3)))), (f_tab f_os3), (f_si f_os3), (snd (f_run f_os3)),
    (nth 1 (f_tab f_os3) (fresh_netif 0 [] 0 [] 0 0 0 [])).
  assert (I : In (nth 1 (f_tab f_os3) (fresh_netif 0 [] 0 [] 0 0 0 [])) (f_tab f_os3)) by (vm_compute; right; left; reflexivity).
  split; [exact f_start|]. split; [reflexivity|].
  split; [apply f_ok; [vm_compute; reflexivity|vm_compute; reflexivity|apply f_text_ok|apply f_text_ok]|]. split; [apply f_run_eq|].
  split; [exact I|]. split; [vm_compute; reflexivity|]. split; [vm_compute; reflexivity|]. split; [vm_compute; reflexivity|].
  split; [vm_compute; reflexivity|]. intros H. specialize (H _ I). vm_compute in H. discriminate H.
Qed.
Print Assumptions C98_vlan_refuted.
(** And VLANs whose datalink entry has the type of a VLAN never get into the table,
    although their kind is known and they are up. *)
Definition f_os4 : bos := f_os [(6, 5); (135, 7)] f_text.
Theorem C98_l2vlan_refuted :
  exists cfg pf b ias ret nfs' si' gone x i hw,
    b_refreshed cfg pf [] v_si /\ bo_ifaddrs b = Some ias /\ b_ok b /\ bsd_fetch cfg pf b [] v_si = (ret, nfs', si', gone)
    /\ In (mkIfa x (Some (SALink 135 i hw))) ias /\ b_kind pf b i x (-1) /\ b_up b x /\ bo_vlan b x = Some (bs "em0", 7)
    /\ ~ In i (indices nfs').
Proof.
  exists f_cfg, FreeBSD, f_os4, (f_ias [(6, 5); (135, 7)]), (fst (fst (fst (f_run f_os4)))), (f_tab f_os4), (f_si f_os4), (snd (f_run f_os4)),
    (bs "vlan7"), 7, [2; 0; 0; 0; 0; 7].
  split; [exact f_start|]. split; [reflexivity|].
  split; [apply f_ok; [vm_compute; reflexivity|vm_compute; reflexivity|apply f_text_ok|apply f_text_ok]|]. split; [apply f_run_eq|].
  split; [vm_compute; intuition|]. split; [apply f_kind; [vm_compute; discriminate|vm_compute; reflexivity|discriminate]|].
  split; [exists 34883; split; vm_compute; reflexivity|]. split; [vm_compute; reflexivity|].
  replace (indices (f_tab f_os4)) with [5] by (vm_compute; reflexivity). cbn. intuition discriminate.
Qed.
Print Assumptions C98_l2vlan_refuted.
(** What holds: the VLANs of the table have identifier and interface of the last
    datalink entry [x], hence the right ones if [x] is the only VLAN; no other
    interface has any.  Missing: the cases above. *)
Theorem C98_vlans_partial cfg pf b nfs nfs1 si ret nfs' si' gone ias x :
  b_refreshed cfg pf nfs si -> indices nfs1 = indices nfs -> bo_ifaddrs b = Some ias -> b_ok b ->
  bsd_fetch cfg pf b nfs1 si = (ret, nfs', si', gone) -> last_link ias x ->
  (forall v, In v nfs' -> (nf_vlan_id v, nf_vlan_parent v) = if nf_type v =? -1 then b_vlan_of b nfs' x else (0, 0))
  /\ ((forall v, In v nfs' -> nf_type v = -1 -> nf_name v = x) -> b_tagged b nfs').
Proof.
  intros H1 H2 H3 H4 H5 H6. pose proof (b_vlans cfg pf b nfs nfs1 si ret nfs' si' gone ias H1 H2 H3 H4 H5 x H6) as A.
  split; [exact A|]. intros K v Hv. rewrite (A v Hv). destruct (nf_type v =? -1) eqn:E; [|reflexivity].
  rewrite (K v Hv); [reflexivity|]. apply Z.eqb_eq. exact E.
Qed.
Print Assumptions C98_vlans_partial.
Example C98_case :
  last_link f_ias1 (bs "vlan5") /\ b_tagged f_os1 (f_tab f_os1)
  /\ map nf_vlan_id (f_tab f_os1) = [0; 0; 0; 0; 0; 0; 5] /\ map nf_vlan_parent (f_tab f_os1) = [0; 0; 0; 0; 0; 0; 5].
Proof.
  assert (L : last_link f_ias1 (bs "vlan5")).
  { exists (firstn 9 f_ias1), 6, 6, [2; 0; 0; 0; 0; 6], (skipn 10 f_ias1). split; [vm_compute; reflexivity|].
    intros z Hz. replace (skipn 10 f_ias1) with [mkIfa (bs "lagg0") (Some (SAInet [10; 0; 0; 2])); mkIfa (bs "igb0") None] in Hz by (vm_compute; reflexivity).
    destruct Hz as [<-|[<-|[]]]; reflexivity. }
  split; [exact L|]. split; [|vm_compute; repeat split].
  apply (proj2 (C98_vlans_partial _ _ _ _ _ _ _ _ _ _ _ _ f_start eq_refl f_os1_ias f_os1_ok (f_run_eq f_os1) L)).
  intros v Hv. refine (proj1 (Forall_forall (fun v => nf_type v = -1 -> nf_name v = bs "vlan5") (f_tab f_os1)) _ v Hv).
  vm_compute. repeat constructor; intros K; (discriminate K || reflexivity).
Qed.

(** C99 is false: a description of 64 or more characters fills the field of the
    device name without a NUL at its end. *)
Definition f_long : list Z := bs "Intel(R) Ethernet Controller X710 for 10GbE SFP+, dual port, rev. 02".
Theorem C99_device_refuted :
  exists cfg pf b ias ret nfs' si' gone n node,
    b_refreshed cfg pf [] v_si /\ bo_ifaddrs b = Some ias /\ bsd_fetch cfg pf b [] v_si = (ret, nfs', si', gone)
    /\ In n nfs' /\ device_node (before_nul (bo_driver b (nf_index n))) node /\ bo_sysctl b node = Some f_long
    /\ device_field f_long = None /\ zlen (nf_device_name n) = 64 /\ ~ cstring 64 (nf_device_name n).
Proof.
  pose (b := f_os f_list f_long).
  exists f_cfg, FreeBSD, b, f_ias1, (fst (fst (fst (f_run b)))), (f_tab b), (f_si b), (snd (f_run b)),
    (nth 4 (f_tab b) (fresh_netif 0 [] 0 [] 0 0 0 [])), (bs "dev.em.0.%desc").
  split; [exact f_start|]. split; [vm_compute; reflexivity|]. split; [apply f_run_eq|].
  split; [vm_compute; do 4 right; left; reflexivity|]. split; [apply sysctl_node; vm_compute; reflexivity|].
  split; [vm_compute; reflexivity|]. split; [vm_compute; reflexivity|]. split; [vm_compute; reflexivity|].
  intros (_ & _ & K). vm_compute in K. discriminate K.
Qed.
Print Assumptions C99_device_refuted.
(** Descriptions of 1 to 63 characters ([b_ok]): a regular interface gets the
    description of its driver's unit at first sight, and keeps it; without one it
    keeps the name it has.  Missing: longer descriptions. *)
Theorem C99_device_partial cfg pf b nfs nfs1 si ret nfs' si' gone ias n t :
  b_refreshed cfg pf nfs si -> indices nfs1 = indices nfs -> bo_ifaddrs b = Some ias -> b_ok b ->
  bsd_fetch cfg pf b nfs1 si = (ret, nfs', si', gone) -> In n nfs' -> b_device pf b (nf_index n) t -> identified nfs1 t n.
Proof.
  intros H1 H2 H3 H4 H5. exact (b_devices cfg pf b nfs nfs1 si ret nfs' si' gone ias H1 H2 H3 H4 H5 n t).
Qed.
Print Assumptions C99_device_partial.
(** On Linux the name comes from the parent, and is cut to 63 characters. *)
Theorem C99_device_linux cfg oss os nfs nfs1 si ret nfs' si' gone n :
  refreshed cfg oss nfs si -> indices nfs1 = indices nfs -> no_ifaddrs os <> None ->
  netif_fetch cfg os nfs1 si = (ret, nfs', si', gone) -> In n nfs' -> identified nfs1 (no_device_id os (nf_index n)) n.
Proof.
  intros H1 H2 H3 H4. destruct (no_ifaddrs os) as [ias|] eqn:E; [|contradiction H3; reflexivity].
  destruct (NetifProofs6.refreshed_inv cfg oss nfs si H1) as [D _]. rewrite <- H2 in D.
  exact (fetch_devices cfg os nfs1 si ret nfs' si' gone ias E D H4 n).
Qed.
Print Assumptions C99_device_linux.
(** em0 is unit 0 of "em"; after its name changed, the one it has stays. *)
Example C99_case :
  b_device FreeBSD f_os1 5 f_text /\ b_device FreeBSD f_os1 1 []
  /\ map nf_device_name (f_tab f_os1) = [[]; []; []; []; f_text; []; []]
  /\ match bsd_fetch f_cfg FreeBSD (f_os f_list (bs "other")) (f_tab f_os1) (f_si f_os1) with
     | (_, nfs', _, _) => map nf_device_name nfs' = [[]; []; []; []; f_text; []; []]
     end.
Proof.
  split.
  { left. exists (bs "dev.em.0.%desc"). split; [apply sysctl_node; vm_compute; reflexivity|vm_compute; reflexivity]. }
  split.
  { right. split; [reflexivity|]. intros node H. apply sysctl_node in H. assert (E : node = bs "dev.igb.0.%desc") by (vm_compute in H; injection H as <-; vm_compute; reflexivity).
    rewrite E. vm_compute. reflexivity. }
  vm_compute. repeat split.
Qed.
Example C99_linux_case :
  let os := mkNos (no_ifaddrs v_os1) (no_flags v_os1) (no_wireless v_os1) (no_device v_os1) (no_driver v_os1) (no_vlan v_os1) (no_vid v_os1)
              (no_alias v_os1) (fun i => if i =? 2 then repeat 65 70 else []) (no_bond v_os1) (no_slave v_os1) (no_bridge v_os1) (no_team v_os1)
              (no_mtu v_os1) (no_ecmd v_os1) in
  match netif_fetch v_cfg os v_tab1 v_si1 with
  | (_, nfs', _, _) => map nf_device_name v_tab1 = repeat [] 6 /\ map nf_device_name nfs' = repeat [] 6
  end
  /\ match netif_fetch v_cfg os [] v_si with
     | (_, nfs', _, _) => map nf_device_name nfs' = [] :: repeat 65 63 :: repeat [] 4
     end.
Proof. vm_compute. repeat split. Qed.

(** C100 is false as C49 is: without "auto" among its media an interface is
    advertised with octet 254, which says "enabled". *)
Definition f_one : netif := Eval vm_compute in nth 0 (f_tab f_os1) (fresh_netif 0 [] 0 [] 0 0 0 []).
Definition f_one' : netif := Eval vm_compute in bsd_media f_os1 f_one.
Lemma f_media1 : bsd_media f_os1 f_one = f_one'. Proof. vm_compute. reflexivity. Qed.
Theorem C100_autoneg_refuted :
  exists b n im l count si f tlvs octet r,
    linked_media b n = Some (im, l) /\ ~ auto_listed l
    /\ inputs_ok count (bsd_media b n) None None [] si
    /\ proto_build 0 0 count (bsd_media b n) None None [] si = Some f
    /\ Forall lldp_fits tlvs /\ skipn 14 f = flat_map lldp_bytes tlvs
    /\ macphy tlvs = [octet :: r] /\ octet = 254 /\ ~ b_truthful im l octet.
Proof.
  exists f_os1, f_one, f_fixed, [(M1000_SX, true)], 0, (t_si 4 4).
  exists (lldp_advert 0 f_one' f_one' f_one' [] (t_si 4 4)),
    ([(1, 4 :: si_hwaddr (t_si 4 4)); (2, 5 :: nf_name f_one'); (3, U16 180)]
       ++ lldp_content 0 f_one' f_one' f_one' [] (t_si 4 4) ++ [(0, [])]), 254, [0; 4; 0; 26].
  rewrite f_media1.
  split; [vm_compute; reflexivity|]. split; [intros (g & [H|[]]); discriminate H|].
  split; [|split; [vm_compute; reflexivity|split; [vm_compute; repeat constructor; discriminate|]]].
  - split; [concrete|]. split; [discriminate|]. split; [discriminate|]. split; [intros v []|]. split; [apply t_si_ok; lia|lia].
  - split; [vm_compute; reflexivity|]. split; [vm_compute; reflexivity|]. split; [reflexivity|].
    intros [[H _]|[[H _]|[H _]]]; discriminate H.
Qed.
Print Assumptions C100_autoneg_refuted.
(** What holds: an Ethernet interface with a link is advertised with exactly the
    media it lists, one bit for each kind, with the number of its active medium and
    duplex, and (if "auto" is in the list) with whether it is chosen; any other is
    advertised without the TLV.  Missing: the octet of lists without "auto". *)
Theorem C100_media_partial b opts count n par mgmt nfs si f tlvs :
  inputs_ok count (bsd_media b n) par mgmt nfs si ->
  proto_build 0 opts count (bsd_media b n) par mgmt nfs si = Some f -> Forall lldp_fits tlvs ->
  skipn 14 f = flat_map lldp_bytes tlvs ->
  match linked_media b n with
  | Some (im, l) => exists octet word mau, macphy tlvs = [octet :: U16 word ++ U16 mau] /\ says_media l word
      /\ b_says_mau (im_active im) (im_fdx im) mau /\ (auto_listed l -> b_truthful im l octet)
  | None => macphy tlvs = []
  end.
Proof. exact (b_media_frame b opts count n par mgmt nfs si f tlvs). Qed.
Print Assumptions C100_media_partial.
Definition f_em : netif := Eval vm_compute in nth 4 (f_tab f_os1) (fresh_netif 0 [] 0 [] 0 0 0 []).
Definition f_em' : netif := Eval vm_compute in bsd_media f_os1 f_em.
Definition f_tlvs : list tlv :=
  [(1, 4 :: si_hwaddr (t_si 4 4)); (2, 5 :: nf_name f_em'); (3, U16 180)]
     ++ lldp_content 0 f_em' f_em' f_em' [] (t_si 4 4) ++ [(0, [])].
Example C100_case :
  bsd_media f_os1 f_em = f_em'
  /\ linked_media f_os1 f_em = Some (f_media, [(MAuto, false); (M1000_T, true); (M100_TX, true); (M10_T, false)])
  /\ inputs_ok 0 f_em' None None [] (t_si 4 4)
  /\ proto_build 0 0 0 f_em' None None [] (t_si 4 4) = Some (lldp_advert 0 f_em' f_em' f_em' [] (t_si 4 4))
  /\ Forall lldp_fits f_tlvs /\ skipn 14 (lldp_advert 0 f_em' f_em' f_em' [] (t_si 4 4)) = flat_map lldp_bytes f_tlvs
  /\ macphy f_tlvs = [3 :: U16 (16384 + 1024 + 1) ++ U16 30]
  /\ ~ says_media [(MAuto, false); (M1000_T, true); (M100_TX, true); (M10_T, false)] 16385
  /\ ~ b_says_mau M1000_T true 29.
Proof.
  split; [vm_compute; reflexivity|]. split; [vm_compute; reflexivity|].
  split; [split; [concrete|split; [discriminate|split; [discriminate|split; [intros v []|split; [apply t_si_ok; lia|lia]]]]]|].
  split; [vm_compute; reflexivity|]. split; [vm_compute; repeat constructor; discriminate|]. split; [vm_compute; reflexivity|].
  split; [vm_compute; reflexivity|]. split.
  - intros [_ H]. destruct (H 5 ltac:(lia)) as [_ K]. assert (Q : Z.testbit 16385 (15 - 5) = true); [|discriminate Q].
    apply K. exists M100_TX, true. split; [cbn; tauto|]. left. cbn. tauto.
  - intros [H|[H _]]; [|discriminate H]. apply (proj2 (mem_in mau_dec _ _)) in H. vm_compute in H. discriminate H.
Qed.
