(** Interface detection, /repo/src/netif.c and /repo/src/netif_linux.c (Linux
    build with sysfs, ethtool, bonding, bridge and vlan headers).  The answers
    of the kernel and of the privileged process are functions of what is asked,
    constant during one call of netif_fetch. *)
From Verif Require Import Base Types Tlv Util.

(** struct sockaddr behind ifa_addr, netif.c 116-141, 346-400: a datalink
    address (sll_hatype, sll_ifindex, the six bytes of sll_addr), IPv4, IPv6, or
    another family. *)
Inductive sockaddr :=
| SALink (hatype index : Z) (hwaddr : list Z)
| SAInet (a : list Z)
| SAInet6 (a : list Z)
| SAOther.
(** struct ifaddrs (getifaddrs(3), netif.c 97, 321-414), the fields used: ifa_name
    and ifa_addr (NULL is [None]). *)
Record ifaddr := mkIfa { ia_name : list Z; ia_addr : option sockaddr }.

(** struct ethtool_cmd, the fields used in netif_linux.c 401-473. *)
Record ecmd := mkEcmd { ec_supported : Z; ec_advertising : Z; ec_speed : Z;
                        ec_duplex : Z; ec_port : Z; ec_autoneg : Z }.

(** The operating system as seen by netif_fetch and netif_media: results of
    ioctl(2) calls on an interface name, and replies of the parent (my_mreq) to
    requests for an interface index.  [None] is a failing call. *)
Record nos := mkNos {
  no_ifaddrs : option (list ifaddr);              (* getifaddrs *)
  no_flags : list Z -> option Z;                  (* SIOCGIFFLAGS *)
  no_wireless : list Z -> bool;                   (* SIOCGIWNAME *)
  no_device : Z -> bool;                          (* PARENT_DEVICE *)
  no_driver : Z -> option (list Z);               (* PARENT_ETHTOOL_GDRV, driver *)
  no_vlan : list Z -> option (list Z);            (* GET_VLAN_REALDEV_NAME_CMD *)
  no_vid : list Z -> option Z;                    (* GET_VLAN_VID_CMD *)
  no_alias : Z -> list Z;                         (* PARENT_ALIAS *)
  no_device_id : Z -> list Z;                     (* PARENT_DEVICE_ID *)
  no_bond : list Z -> option (Z * Z);             (* SIOCBONDINFOQUERY: mode, slaves *)
  no_slave : list Z -> Z -> option (list Z * Z);  (* SIOCBONDSLAVEINFOQUERY: name, state *)
  no_bridge : list Z -> option (list Z);          (* BRCTL_GET_PORT_LIST *)
  no_team : Z -> option (Z * list Z * Z);         (* PARENT_TEAMNL: mode, ports, active *)
  no_mtu : list Z -> option Z;                    (* SIOCGIFMTU *)
  no_ecmd : Z -> option ecmd                      (* PARENT_ETHTOOL_GSET *)
}.

(** ARPHRD_ETHER (net/if_arp.h), IFF_UP (net/if.h), BOND_* (linux/if_bonding.h). *)
Definition ARPHRD_ETHER := 1.
Definition IFF_UP := 1. (* linux/if.h *)
Definition BOND_MODE_ACTIVEBACKUP := 1. (* linux/if_bonding.h *)
Definition BOND_MODE_8023AD := 4. (* linux/if_bonding.h *)
Definition BOND_STATE_BACKUP := 1. (* linux/if_bonding.h *)

(** What is configured on the command line: options, the interface list
    (sargc, sargv), -m as a name (mifname) or an address (maddr4, maddr6;
    unset is zero), main.c 84-191, common.h 184-187. *)
Record ncfg := mkNcfg {
  nc_opts : Z;
  nc_ifl : list (list Z);
  nc_mifname : option (list Z);
  nc_maddr4 : list Z;
  nc_maddr6 : list Z
}.

(** Assignments to fields of struct netif (common.h 113-149); helpers. *)
Definition set_type (v : Z) (n : netif) : netif :=
  mkNetif (nf_index n) (nf_name n) (nf_description n) (nf_hwaddr n) (nf_mtu n) (nf_duplex n)
    (nf_autoneg_supported n) (nf_autoneg_enabled n) (nf_autoneg_pmd n) (nf_mau n)
    (nf_ipaddr4 n) (nf_ipaddr6 n) (nf_argv n) v (nf_child n) (nf_bonding_mode n)
    (nf_lacp_index n) (nf_vlan_id n) (nf_vlan_parent n) (nf_protos n) (nf_update n)
    (nf_parent n) (nf_subif n) (nf_link_event n) (nf_device_identified n) (nf_device_name n).
(** Field hwaddr. *)
Definition set_hwaddr (v : list Z) (n : netif) : netif :=
  mkNetif (nf_index n) (nf_name n) (nf_description n) v (nf_mtu n) (nf_duplex n)
    (nf_autoneg_supported n) (nf_autoneg_enabled n) (nf_autoneg_pmd n) (nf_mau n)
    (nf_ipaddr4 n) (nf_ipaddr6 n) (nf_argv n) (nf_type n) (nf_child n) (nf_bonding_mode n)
    (nf_lacp_index n) (nf_vlan_id n) (nf_vlan_parent n) (nf_protos n) (nf_update n)
    (nf_parent n) (nf_subif n) (nf_link_event n) (nf_device_identified n) (nf_device_name n).
(** Fields ipaddr4 and ipaddr6. *)
Definition set_ips (v4 v6 : list Z) (n : netif) : netif :=
  mkNetif (nf_index n) (nf_name n) (nf_description n) (nf_hwaddr n) (nf_mtu n) (nf_duplex n)
    (nf_autoneg_supported n) (nf_autoneg_enabled n) (nf_autoneg_pmd n) (nf_mau n)
    v4 v6 (nf_argv n) (nf_type n) (nf_child n) (nf_bonding_mode n)
    (nf_lacp_index n) (nf_vlan_id n) (nf_vlan_parent n) (nf_protos n) (nf_update n)
    (nf_parent n) (nf_subif n) (nf_link_event n) (nf_device_identified n) (nf_device_name n).
(** Field argv. *)
Definition set_argv (v : Z) (n : netif) : netif :=
  mkNetif (nf_index n) (nf_name n) (nf_description n) (nf_hwaddr n) (nf_mtu n) (nf_duplex n)
    (nf_autoneg_supported n) (nf_autoneg_enabled n) (nf_autoneg_pmd n) (nf_mau n)
    (nf_ipaddr4 n) (nf_ipaddr6 n) v (nf_type n) (nf_child n) (nf_bonding_mode n)
    (nf_lacp_index n) (nf_vlan_id n) (nf_vlan_parent n) (nf_protos n) (nf_update n)
    (nf_parent n) (nf_subif n) (nf_link_event n) (nf_device_identified n) (nf_device_name n).
(** Fields child, lacp_index and parent. *)
Definition set_child (child lacp : Z) (par : option Z) (n : netif) : netif :=
  mkNetif (nf_index n) (nf_name n) (nf_description n) (nf_hwaddr n) (nf_mtu n) (nf_duplex n)
    (nf_autoneg_supported n) (nf_autoneg_enabled n) (nf_autoneg_pmd n) (nf_mau n)
    (nf_ipaddr4 n) (nf_ipaddr6 n) (nf_argv n) (nf_type n) child (nf_bonding_mode n)
    lacp (nf_vlan_id n) (nf_vlan_parent n) (nf_protos n) (nf_update n)
    par (nf_subif n) (nf_link_event n) (nf_device_identified n) (nf_device_name n).
(** Field subif. *)
Definition set_subif (v : option Z) (n : netif) : netif :=
  mkNetif (nf_index n) (nf_name n) (nf_description n) (nf_hwaddr n) (nf_mtu n) (nf_duplex n)
    (nf_autoneg_supported n) (nf_autoneg_enabled n) (nf_autoneg_pmd n) (nf_mau n)
    (nf_ipaddr4 n) (nf_ipaddr6 n) (nf_argv n) (nf_type n) (nf_child n) (nf_bonding_mode n)
    (nf_lacp_index n) (nf_vlan_id n) (nf_vlan_parent n) (nf_protos n) (nf_update n)
    (nf_parent n) v (nf_link_event n) (nf_device_identified n) (nf_device_name n).
(** Field bonding_mode. *)
Definition set_bonding_mode (v : Z) (n : netif) : netif :=
  mkNetif (nf_index n) (nf_name n) (nf_description n) (nf_hwaddr n) (nf_mtu n) (nf_duplex n)
    (nf_autoneg_supported n) (nf_autoneg_enabled n) (nf_autoneg_pmd n) (nf_mau n)
    (nf_ipaddr4 n) (nf_ipaddr6 n) (nf_argv n) (nf_type n) (nf_child n) v
    (nf_lacp_index n) (nf_vlan_id n) (nf_vlan_parent n) (nf_protos n) (nf_update n)
    (nf_parent n) (nf_subif n) (nf_link_event n) (nf_device_identified n) (nf_device_name n).
(** Fields vlan_id and vlan_parent. *)
Definition set_vlan (id par : Z) (n : netif) : netif :=
  mkNetif (nf_index n) (nf_name n) (nf_description n) (nf_hwaddr n) (nf_mtu n) (nf_duplex n)
    (nf_autoneg_supported n) (nf_autoneg_enabled n) (nf_autoneg_pmd n) (nf_mau n)
    (nf_ipaddr4 n) (nf_ipaddr6 n) (nf_argv n) (nf_type n) (nf_child n) (nf_bonding_mode n)
    (nf_lacp_index n) id par (nf_protos n) (nf_update n)
    (nf_parent n) (nf_subif n) (nf_link_event n) (nf_device_identified n) (nf_device_name n).
(** Fields device_identified and device_name. *)
Definition set_device (ident : Z) (name : list Z) (n : netif) : netif :=
  mkNetif (nf_index n) (nf_name n) (nf_description n) (nf_hwaddr n) (nf_mtu n) (nf_duplex n)
    (nf_autoneg_supported n) (nf_autoneg_enabled n) (nf_autoneg_pmd n) (nf_mau n)
    (nf_ipaddr4 n) (nf_ipaddr6 n) (nf_argv n) (nf_type n) (nf_child n) (nf_bonding_mode n)
    (nf_lacp_index n) (nf_vlan_id n) (nf_vlan_parent n) (nf_protos n) (nf_update n)
    (nf_parent n) (nf_subif n) (nf_link_event n) ident name.
(** Fields mtu, duplex, autoneg_* and mau. *)
Definition set_media (mtu duplex asup aen pmd mau : Z) (n : netif) : netif :=
  mkNetif (nf_index n) (nf_name n) (nf_description n) (nf_hwaddr n) mtu duplex
    asup aen pmd mau
    (nf_ipaddr4 n) (nf_ipaddr6 n) (nf_argv n) (nf_type n) (nf_child n) (nf_bonding_mode n)
    (nf_lacp_index n) (nf_vlan_id n) (nf_vlan_parent n) (nf_protos n) (nf_update n)
    (nf_parent n) (nf_subif n) (nf_link_event n) (nf_device_identified n) (nf_device_name n).

(** netif_type, netif_linux.c 73-140, with netif_driver (144-164: the driver
    name is cut to 15 characters) and netif_wireless (168-179). *)
Definition netif_type (os : nos) (index : Z) (name : list Z) : Z :=
  let dname := match no_driver os index with Some d => firstn 15 (cstr d) | None => [] end in
  if no_wireless os name then NETIF_WIRELESS
  else if no_device os index then NETIF_REGULAR
  else match no_vlan os name with
  | Some _ => NETIF_VLAN
  | None =>
      if zlen dname =? 0 then NETIF_INVALID
      else if beq dname (bs "bonding") then NETIF_BONDING
      else if beq dname (bs "team") then NETIF_TEAMING
      else if beq dname (bs "bridge") then NETIF_BRIDGE
      else if beq dname (bs "802.1Q VLAN Support") then NETIF_VLAN
      else if beq dname (bs "tun") || beq dname (bs "veth") || beq dname (bs "vxlan") then NETIF_TAP
      else NETIF_REGULAR
  end.

(** The fields of struct my_sysinfo changed by netif_fetch (common.h 177-188). *)
Definition set_caps (cap act phys : Z) (si : sysinfo) : sysinfo :=
  mkSysinfo (si_uts_str si) (si_uts_rel si) (si_platform si) (si_hostname si) (si_country si)
    (si_location si) cap act (si_cap_lldpmed si) (si_lldpmed_devtype si) (si_hwaddr si) phys
    (si_mnetif si) (si_hinv si).
(** Field mnetif, common.h 188. *)
Definition set_mnetif (m : option Z) (si : sysinfo) : sysinfo :=
  mkSysinfo (si_uts_str si) (si_uts_rel si) (si_platform si) (si_hostname si) (si_country si)
    (si_location si) (si_cap si) (si_cap_active si) (si_cap_lldpmed si) (si_lldpmed_devtype si)
    (si_hwaddr si) (si_physif_count si) m (si_hinv si).
(** Field hwaddr, common.h 182. *)
Definition set_chassis (a : list Z) (si : sysinfo) : sysinfo :=
  mkSysinfo (si_uts_str si) (si_uts_rel si) (si_platform si) (si_hostname si) (si_country si)
    (si_location si) (si_cap si) (si_cap_active si) (si_cap_lldpmed si) (si_lldpmed_devtype si)
    a (si_physif_count si) (si_mnetif si) (si_hinv si).

(** The counters and capabilities for one detected interface, netif.c 163-185;
    [up] is "enabled == 1". *)
Definition count_type (ty : Z) (up : bool) (si : sysinfo) : sysinfo :=
  if ty =? NETIF_REGULAR then
    set_caps (si_cap si) (si_cap_active si) ((si_physif_count si + 1) mod 65536) si
  else if ty =? NETIF_WIRELESS then
    set_caps (Z.lor (si_cap si) CAP_WLAN)
      (Z.lor (si_cap_active si) (if up then CAP_WLAN else 0)) (si_physif_count si) si
  else if ty =? NETIF_BRIDGE then
    set_caps (Z.lor (si_cap si) CAP_BRIDGE)
      (Z.lor (si_cap_active si) (if up then CAP_BRIDGE else 0)) (si_physif_count si) si
  else si.

(** A struct netif as it is behind netif.c 197-218: zeroed up to [entries], the
    enabled protocols and what follows [entries] kept from the old structure. *)
Definition fresh_netif (index : Z) (name : list Z) (ty : Z) (alias : list Z)
  (protos link ident : Z) (device : list Z) : netif :=
  mkNetif index (firstn 15 name) (firstn 63 (cstr alias)) (repeat 0 6) 0 0 0 0 0 0
    (repeat 0 4) (repeat 0 16) 0 ty 0 0 0 0 0 protos 0 None None link ident device.

(** One AF_PACKET entry, netif.c 116-234: table, sysinfo, count. *)
Definition fetch_one (cfg : ncfg) (os : nos) (st : list netif * sysinfo * Z) (ia : ifaddr)
  : list netif * sysinfo * Z :=
  let '(nfs, si, count) := st in
  match ia_addr ia with
  | Some (SALink hatype index _) =>
      if negb (hatype =? ARPHRD_ETHER) then st
      else
        let name := ia_name ia in
        let up := match no_flags os (firstn 15 name) with Some f => has f IFF_UP | None => false end in
        let ty := netif_type os index name in
        let si := count_type ty up si in
        if ty =? NETIF_INVALID then (nfs, si, count)
        else if negb up then (nfs, si, count)
        else
          let alias := no_alias os index in
          let nfs' :=
            match netif_byindex nfs index with
            | None => nfs ++ [fresh_netif index name ty alias 0 0 0 []]
            | Some o =>
                nf_assign (fun _ => fresh_netif index name ty alias (nf_protos o)
                             (nf_link_event o) (nf_device_identified o) (nf_device_name o))
                  index nfs
            end in
          let si := match nc_mifname cfg with
                    | Some m => if beq (firstn 15 name) m then set_mnetif (Some index) si else si
                    | None => si
                    end in
          (nfs', si, count + 1)
  | _ => st
  end.

(** "sysinfo->mnetif == netif" for a removed interface, netif.c 236-251; the
    parent is asked to close its socket (the indices are returned). *)
Definition remove_old (nfs : list netif) (si : sysinfo) : list netif * sysinfo * list Z :=
  let old n := nf_type n =? NETIF_OLD in
  let gone := map nf_index (filter old nfs) in
  let si' := match si_mnetif si with
             | Some m => if existsb (fun i => i =? m) gone then set_mnetif None si else si
             | None => si
             end in
  (filter (fun n => negb (old n)) nfs, si', gone).

(** Making [sub] the next member behind [last] of aggregate [par], netif_linux.c
    225-230, 285-291, 325-328. *)
Definition add_member (par last sub child lacp : Z) (nfs : list netif) : list netif :=
  nf_assign (set_subif (Some sub)) last (nf_assign (set_child child lacp (Some par)) sub nfs).

(** The slave loop of netif_bond, netif_linux.c 275-294. *)
Fixpoint bond_loop (os : nos) (par : Z) (pname : list Z) (k : nat) (i last : Z) (nfs : list netif)
  : list netif :=
  match k with
  | O => nfs
  | S k' =>
      match no_slave os pname i with
      | None => bond_loop os par pname k' (i + 1) last nfs
      | Some (name, state) =>
          match netif_byname nfs name with
          | None => bond_loop os par pname k' (i + 1) last nfs
          | Some s =>
              if nf_type s <? NETIF_PARENT then
                let child := if state =? BOND_STATE_BACKUP then NETIF_CHILD_BACKUP else NETIF_CHILD_ACTIVE in
                bond_loop os par pname k' (i + 1) (nf_index s)
                  (add_member par last (nf_index s) child (i mod 256) nfs)
              else bond_loop os par pname k' (i + 1) last nfs
          end
      end
  end.
(** netif_bond, netif_linux.c 243-296. *)
Definition netif_bond (os : nos) (p : netif) (nfs : list netif) : list netif :=
  match no_bond os (nf_name p) with
  | None => nfs
  | Some (mode, slaves) =>
      let nfs1 :=
        if mode =? BOND_MODE_8023AD then nf_assign (set_bonding_mode NETIF_BONDING_LACP) (nf_index p) nfs
        else if mode =? BOND_MODE_ACTIVEBACKUP
        then nf_assign (set_bonding_mode NETIF_BONDING_FAILOVER) (nf_index p) nfs
        else nfs in
      bond_loop os (nf_index p) (nf_name p) (Z.to_nat slaves) 0 (nf_index p) nfs1
  end.

(** The port loop of netif_bridge, netif_linux.c 319-330; ports not listed are
    zero, which is no interface. *)
Fixpoint bridge_loop (par : Z) (ports : list Z) (last : Z) (nfs : list netif) : list netif :=
  match ports with
  | [] => nfs
  | i :: ports' =>
      match netif_byindex nfs i with
      | None => bridge_loop par ports' last nfs
      | Some s =>
          if nf_type s <? NETIF_PARENT
          then bridge_loop par ports' (nf_index s)
                 (add_member par last (nf_index s) NETIF_CHILD_ACTIVE (nf_lacp_index s) nfs)
          else bridge_loop par ports' last nfs
      end
  end.
(** netif_bridge, netif_linux.c 300-332. *)
Definition netif_bridge (os : nos) (p : netif) (nfs : list netif) : list netif :=
  match no_bridge os (nf_name p) with
  | None => nfs
  | Some ports => bridge_loop (nf_index p) ports (nf_index p) nfs
  end.

(** The port loop of netif_team, netif_linux.c 219-231. *)
Fixpoint team_loop (par child : Z) (ports : list Z) (last : Z) (nfs : list netif) : list netif :=
  match ports with
  | [] => nfs
  | i :: ports' =>
      match netif_byindex nfs i with
      | None => team_loop par child ports' last nfs
      | Some s =>
          if NETIF_PARENT <? nf_type s then team_loop par child ports' last nfs
          else team_loop par child ports' (nf_index s)
                 (add_member par last (nf_index s) child (nf_lacp_index s) nfs)
      end
  end.
(** netif_team, netif_linux.c 203-238; without libteam there is no reply.  The
    port array holds at most 32 entries (the privileged process fills it). *)
Definition netif_team (os : nos) (p : netif) (nfs : list netif) : list netif :=
  match no_team os (nf_index p) with
  | None => nfs
  | Some (mode, ports, active) =>
      let failover := mode =? NETIF_BONDING_FAILOVER in
      let nfs1 := nf_assign (set_bonding_mode mode) (nf_index p) nfs in
      let nfs2 := team_loop (nf_index p) (if failover then NETIF_CHILD_BACKUP else NETIF_CHILD_ACTIVE)
                    ports (nf_index p) nfs1 in
      if failover
      then nf_assign (fun s => set_child NETIF_CHILD_ACTIVE (nf_lacp_index s) (nf_parent s) s) active nfs2
      else nfs2
  end.

(** netif_vlan, netif_linux.c 336-362. *)
Definition netif_vlan (os : nos) (v : netif) (nfs : list netif) : list netif :=
  match no_vlan os (nf_name v) with
  | None => nfs
  | Some dev =>
      match netif_byname nfs dev with
      | None => nfs
      | Some p =>
          let id := match no_vid os (nf_name v) with Some i => i mod 65536 | None => nf_vlan_id v end in
          nf_assign (set_vlan id (nf_index p)) (nf_index v) nfs
      end
  end.

(** netif_device_id, netif_linux.c 182-199; without libpci there is no name. *)
Definition netif_device_id (os : nos) (n : netif) (nfs : list netif) : list netif :=
  if negb (nf_device_identified n =? 0) then nfs
  else
    let d := no_device_id os (nf_index n) in
    nf_assign (set_device 1 (if zlen d =? 0 then nf_device_name n else firstn 63 (cstr d))) (nf_index n) nfs.

(** The switch for one interface, netif.c 255-278. *)
Definition detect_one (os : nos) (nfs : list netif) (i : Z) : list netif :=
  match netif_byindex nfs i with
  | None => nfs
  | Some n =>
      if nf_type n =? NETIF_TEAMING then netif_team os n nfs
      else if nf_type n =? NETIF_BONDING then netif_bond os n nfs
      else if nf_type n =? NETIF_BRIDGE then netif_bridge os n nfs
      else if nf_type n =? NETIF_VLAN then netif_vlan os n nfs
      else if nf_type n =? NETIF_REGULAR then netif_device_id os n nfs
      else nfs
  end.

(** IN6_IS_ADDR_LINKLOCAL: fe80::/10. *)
Definition linklocal (a : list Z) : bool := (nth 0 a 0 =? 254) && (Z.land (nth 1 a 0) 192 =? 128).
(** One address of netif_addrs, netif.c 335-402. *)
Definition addr_one (cfg : ncfg) (st : list netif * sysinfo) (ia : ifaddr) : list netif * sysinfo :=
  let '(nfs, si) := st in
  match ia_addr ia with
  | None => st
  | Some sa =>
      match netif_byname nfs (ia_name ia) with
      | None => st
      | Some n =>
          match sa with
          | SAInet a =>
              if addr_set (nf_ipaddr4 n) then st
              else
                let nfs' := nf_assign (set_ips a (nf_ipaddr6 n)) (nf_index n) nfs in
                match si_mnetif si with
                | Some _ => (nfs', si)
                | None =>
                    if addr_set (nc_maddr4 cfg) && beq (nc_maddr4 cfg) a
                    then (nfs', set_mnetif (Some (nf_index n)) si) else (nfs', si)
                end
          | SAInet6 a =>
              if addr_set (nf_ipaddr6 n) then st
              else if linklocal a then st
              else
                let nfs' := nf_assign (set_ips (nf_ipaddr4 n) a) (nf_index n) nfs in
                match si_mnetif si with
                | Some _ => (nfs', si)
                | None =>
                    if addr_set (nc_maddr6 cfg) && beq (nc_maddr6 cfg) a
                    then (nfs', set_mnetif (Some (nf_index n)) si) else (nfs', si)
                end
          | SALink _ _ hw => (nf_assign (set_hwaddr hw) (nf_index n) nfs, si)
          | SAOther => st
          end
      end
  end.
(** netif_addrs, netif.c 321-414. *)
Definition netif_addrs (cfg : ncfg) (ias : list ifaddr) (nfs : list netif) (si : sysinfo)
  : list netif * sysinfo :=
  let '(nfs1, si1) := fold_left (addr_one cfg) ias (nfs, si) in
  if negb (has (nc_opts cfg) OPT_MADDR) then (nfs1, si1)
  else match si_mnetif si1 with
  | None => (nfs1, si1)
  | Some m =>
      match netif_byindex nfs1 m with
      | None => (nfs1, si1)
      | Some mn => (map (set_ips (nf_ipaddr4 mn) (nf_ipaddr6 mn)) nfs1, si1)
      end
  end.

(** The check of the interface list, netif.c 289-304. *)
Fixpoint argv_loop (ifl : list (list Z)) (nfs : list netif) (count : Z) : list netif * Z :=
  match ifl with
  | [] => (nfs, count)
  | name :: ifl' =>
      match netif_byname nfs name with
      | None => argv_loop ifl' nfs count
      | Some n =>
          if nf_type n =? NETIF_VLAN then argv_loop ifl' nfs count
          else argv_loop ifl' (nf_assign (set_argv 1) (nf_index n) nfs) (count + 1)
      end
  end.

(** netif_fetch, netif.c 75-317: the value returned (a uint16_t), the table, the
    system information, and the interfaces the parent is asked to close. *)
Definition netif_fetch (cfg : ncfg) (os : nos) (nfs : list netif) (si : sysinfo)
  : Z * list netif * sysinfo * list Z :=
  match no_ifaddrs os with
  | None => (0, nfs, si, [])
  | Some ias =>
      let keep := Z.lor CAP_HOST CAP_ROUTER in
      let si0 := set_caps (Z.land (si_cap si) keep) (Z.land (si_cap_active si) keep) 0 si in
      let nfs0 := map (set_type NETIF_OLD) nfs in
      let '(nfs1, si1, count) := fold_left (fetch_one cfg os) ias (nfs0, si0, 0) in
      let '(nfs2, si2, gone) := remove_old nfs1 si1 in
      let nfs3 := fold_left (detect_one os) (map nf_index nfs2) nfs2 in
      let '(nfs4, si4) := netif_addrs cfg ias nfs3 si2 in
      let si5 := match nfs4 with n :: _ => set_chassis (nf_hwaddr n) si4 | [] => si4 end in
      if 0 <? zlen (nc_ifl cfg) then
        let '(nfs5, c) := argv_loop (nc_ifl cfg) nfs4 0 in
        ((if c =? zlen (nc_ifl cfg) then c else 0) mod 65536, nfs5, si5, gone)
      else (count mod 65536, nfs4, si5, gone)
  end.

(** linux/ethtool.h and LLDP_MAU_PMD_* (/repo/src/proto/lldp.h 172-187):
    ecmd_to_lldp_pmd, netif_linux.c 373-393. *)
Definition ecmd_to_lldp_pmd : list (Z * Z) :=
  [ (1, 16384); (2, 8192); (4, 2048); (8, 1024); (16, 2); (32, 1);
    (4096, 32768); (8192, 128); (16384, 64); (32768, 32768) ].
Definition SUPPORTED_Autoneg := 64. (* linux/ethtool.h *)
Definition ADVERTISED_TP := 128. (* linux/ethtool.h *)
(** The mau guess, netif_linux.c 422-473, with LLDP_MAU_TYPE_*
    (/repo/src/proto/lldp.h 91-169). *)
Definition mau_type (e : ecmd) (duplex : Z) : Z :=
  let half_full h f := if duplex =? 0 then h else f in
  let tp :=
    if ec_speed e =? 10 then half_full 10 11
    else if ec_speed e =? 100 then half_full 15 16
    else if ec_speed e =? 1000 then half_full 29 30
    else if ec_speed e =? 10000 then 54 else 0 in
  if ec_port e =? 2 then (if has (ec_advertising e) ADVERTISED_TP then tp else 0)
  else if ec_port e =? 0 then tp
  else if ec_port e =? 3 then
    if ec_speed e =? 10 then half_full 12 13
    else if ec_speed e =? 100 then half_full 17 18
    else if ec_speed e =? 1000 then half_full 21 22
    else if ec_speed e =? 10000 then 31 else 0
  else if ec_port e =? 4 then (if ec_speed e =? 10 then 4 else 0)
  else if ec_port e =? 1 then 1
  else if ec_port e =? 5 then (if ec_speed e =? 10000 then 41 else 0)
  else 0.
(** netif_media, netif.c 418-446, and netif_physical, netif_linux.c 367-475. *)
Definition netif_media (os : nos) (n : netif) : netif :=
  let mtu := match no_mtu os (nf_name n) with Some m => m mod 65536 | None => nf_mtu n end in
  let n1 := set_media mtu (-1) (-1) (-1) 0 0 n in
  if negb (nf_type n =? NETIF_REGULAR) then n1
  else match no_ecmd os (nf_index n) with
  | None => n1
  | Some e =>
      let duplex := if ec_duplex e =? 1 then 1 else 0 in
      if has (ec_supported e) SUPPORTED_Autoneg then
        let pmd := fold_left (fun acc x => if has (ec_advertising e) (fst x) then Z.lor acc (snd x) else acc)
                     ecmd_to_lldp_pmd 0 in
        set_media mtu duplex 1 (if ec_autoneg e =? 1 then 1 else 0) pmd (mau_type e duplex) n
      else set_media mtu duplex 0 (-1) 0 (mau_type e duplex) n
  end.
