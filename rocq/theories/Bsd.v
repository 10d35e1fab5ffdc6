(** Interface detection on FreeBSD and OpenBSD: /repo/src/netif_bsd.c and the
    AF_LINK branches of /repo/src/netif.c.  FreeBSD is built with net/if_lagg.h,
    net/if_bridgevar.h, net/if_vlan_var.h and net/if_mib.h, OpenBSD with
    net/if_trunk.h, net/if_bridge.h and net/if_vlan_var.h (configure.ac 320-376).
    The bond code for macOS (netif_bsd.c 329-368) is never reached, because
    netif_type returns NETIF_BONDING only with lagg or trunk headers (129-139); it
    is not modelled.  As in Netif, the answers of the kernel are functions of what
    is asked, constant during one call. *)
From Verif Require Import Base Types Tlv Util Sysinfo Netif.

(** __FreeBSD__ and __OpenBSD__, netif_bsd.c 123, 179, 234. *)
Inductive platform := FreeBSD | OpenBSD.

(** Ethernet subtypes of net/if_media.h (IFM_AUTO, IFM_10_T, ...) told apart in
    netif_bsd.c 509-543 and 572-646; their numbers differ between systems. *)
Inductive medium :=
| MAuto | M10_T | M10_2 | M10_5 | M10_FL | M100_TX | M100_FX | M100_T4 | M100_T2
| M1000_SX | M1000_LX | M1000_CX | M1000_T | M10G_LR | M10G_SR | M10G_CX4 | M10G_T
| M40G_CR4 | M40G_SR4 | M40G_LR4 | MOther.
(** struct ifmediareq as netif_physical reads it (netif_bsd.c 475-502, 548-572):
    whether ifm_current has type IFM_ETHER, its subtype, whether ifm_status has
    IFM_ACTIVE, subtype and IFM_FDX of ifm_active, and the list fetched by the
    second call (subtype and IFM_FDX; [None] if that call fails; its length is
    ifm_count). *)
Record ifmedia := mkIfm {
  im_ether : bool;
  im_current : medium;
  im_up : bool;
  im_active : medium;
  im_fdx : bool;
  im_count : Z;
  im_list : option (list (medium * bool))
}.

(** The operating system as seen by netif_fetch and netif_media.  [None] is a
    failing call.  ifi_type is read from ifa_data of the datalink entry
    (netif_bsd.c 102); here it is a function of the name of the interface. *)
Record bos := mkBos {
  bo_ifaddrs : option (list ifaddr);                       (* getifaddrs; hatype is sdl_type *)
  bo_iftype : list Z -> Z;                                 (* ifi_type *)
  bo_flags : list Z -> option Z;                           (* SIOCGIFFLAGS *)
  bo_wireless : list Z -> bool;                            (* SIOCG80211, SIOCG80211NWID *)
  bo_driver : Z -> list Z;                                 (* sysctl IFDATA_DRIVERNAME *)
  bo_vlan : list Z -> option (list Z * Z);                 (* SIOCGETVLAN: parent, tag *)
  bo_lagg : list Z -> option (Z * list (list Z * bool));   (* SIOCGLAGG, SIOCGTRUNK: protocol, ports *)
  bo_ifbreq : Z;                                           (* sizeof(struct ifbreq) *)
  bo_bridge : list Z -> option (list (list Z));            (* BRDGGIFS, SIOCBRDGIFS *)
  bo_descr : list Z -> option (list Z);                    (* SIOCGIFDESCR *)
  bo_sysctl : list Z -> option (list Z);                   (* sysctlbyname *)
  bo_mtu : list Z -> option Z;                             (* SIOCGIFMTU *)
  bo_media : list Z -> option ifmedia                      (* SIOCGIFMEDIA *)
}.

(** Interface types of net/if_types.h, netif.c 144-147, netif_bsd.c 105-150. *)
Definition IFT_ETHER := 6.
Definition IFT_L2VLAN := 135. (* net/if_types.h *)
Definition IFT_IEEE8023ADLAG := 161. (* net/if_types.h *)
Definition IFT_BRIDGE := 209. (* net/if_types.h *)
(** What the protocol of an aggregate is compared with, netif_bsd.c 291-301:
    LAGG_PROTO_LACP (net/if_lagg.h) or TRUNK_PROTO_LACP (net/if_trunk.h), and
    LAGG_PROTO_FAILOVER or TRUNK_PROTO_FAILOVER. *)
Definition PROTO_LACP (pf : platform) : Z := match pf with FreeBSD => 4 | OpenBSD => 5 end.
Definition PROTO_FAILOVER := 2. (* net/if_lagg.h, net/if_trunk.h *)

(** netif_driver, netif_bsd.c 164-182: FreeBSD fills at most 16 bytes of a buffer
    of 17; OpenBSD copies ifr_name. *)
Definition bsd_driver (pf : platform) (b : bos) (index : Z) (ifr : list Z) : list Z :=
  match pf with
  | FreeBSD => firstn 16 (cstr (bo_driver b index))
  | OpenBSD => firstn 15 ifr
  end.
(** The digits at the end, from behind; helper of the loops in netif_bsd.c 114-117
    and 244-246. *)
Fixpoint skip_digits (l : list Z) : list Z :=
  match l with
  | [] => []
  | c :: l' => if isdigit c then skip_digits l' else l
  end.
(** "zap dunit", netif_bsd.c 114-117: the name without the digits at its end. *)
Definition zap_unit (d : list Z) : list Z := rev (skip_digits (rev d)).

(** netif_type, netif_bsd.c 81-160; ifr_name is the name of the interface (netif.c
    129-130). *)
Definition bsd_type (pf : platform) (b : bos) (index : Z) (name : list Z) : Z :=
  let ifr := firstn 15 name in
  let dname := bsd_driver pf b index ifr in
  let ty := bo_iftype b name in
  if bo_wireless b ifr then NETIF_WIRELESS
  else if ty =? IFT_ETHER then
    match bo_vlan b ifr with
    | Some _ => NETIF_VLAN
    | None =>
        let d := zap_unit dname in
        if beq d (bs "tun") || beq d (bs "tap") || beq d (bs "vxlan") then NETIF_TAP
        else if (match pf with FreeBSD => true | OpenBSD => false end) && beq d (bs "ipfw") then NETIF_INVALID
        else match bo_lagg b ifr with
             | Some _ => NETIF_BONDING
             | None => NETIF_REGULAR
             end
    end
  else if ty =? IFT_BRIDGE then NETIF_BRIDGE
  else if ty =? IFT_IEEE8023ADLAG then NETIF_REGULAR
  else if ty =? IFT_L2VLAN then NETIF_VLAN
  else NETIF_INVALID.

(** One AF_LINK entry, netif.c 116-234: table, sysinfo, count.  The description
    (219-227) is what the kernel writes into the field. *)
Definition bsd_fetch_one (cfg : ncfg) (pf : platform) (b : bos) (st : list netif * sysinfo * Z) (ia : ifaddr)
  : list netif * sysinfo * Z :=
  let '(nfs, si, count) := st in
  match ia_addr ia with
  | Some (SALink sdl_type index _) =>
      if negb (sdl_type =? IFT_BRIDGE) && negb (sdl_type =? IFT_ETHER) then st
      else
        let name := ia_name ia in
        let up := match bo_flags b (firstn 15 name) with Some f => has f IFF_UP | None => false end in
        let ty := bsd_type pf b index name in
        let si := count_type ty up si in
        if ty =? NETIF_INVALID then (nfs, si, count)
        else if negb up then (nfs, si, count)
        else
          let descr := match bo_descr b (firstn 15 name) with Some d => d | None => [] end in
          let nfs' :=
            match netif_byindex nfs index with
            | None => nfs ++ [fresh_netif index name ty descr 0 0 0 []]
            | Some o =>
                nf_assign (fun _ => fresh_netif index name ty descr (nf_protos o)
                             (nf_link_event o) (nf_device_identified o) (nf_device_name o))
                  index nfs
            end in
          let si := match nc_mifname cfg with
                    | Some m => if beq (firstn 15 name) m then set_mnetif (Some index) si else si
                    | None => si
                    end in
          (nfs', si, count + 1)
  | _ => st
  end.
(** ifr_name behind the first loop, netif.c 129-130: the name of the last datalink
    entry.  (Without any there is no interface in the table.) *)
Fixpoint last_ifr (ias : list ifaddr) (ifr : list Z) : list Z :=
  match ias with
  | [] => ifr
  | ia :: ias' =>
      match ia_addr ia with
      | Some (SALink _ _ _) => last_ifr ias' (firstn 15 (ia_name ia))
      | _ => last_ifr ias' ifr
      end
  end.

(** The name asked for in netif_device_id, netif_bsd.c 244-256: a dot before the
    unit number; [None] without one.  With a driver name of 16 characters the dot
    would push the last one over the NUL at the end of the buffer of 17 bytes (253),
    see [bm_sysctl_name] in BsdMem; the names of drivers with their units are at most
    as long as those of interfaces, 15 characters. *)
Definition sysctl_name (dname : list Z) : option (list Z) :=
  let d := zap_unit dname in
  let unit := skipn (length d) dname in
  if zlen dname =? 0 then None
  else if zlen unit =? 0 then None
  else Some (bs "dev." ++ d ++ [46] ++ unit ++ bs ".%desc").
(** What sysctlbyname leaves in device_name (64 bytes), netif_bsd.c 260-261: the
    string and its end as far as they fit; a value too long is cut, with an
    error that is not looked at.  Without a NUL in the field [None]: it is no
    string then. *)
Definition device_field (v : list Z) : option (list Z) :=
  let f := firstn 64 (cstr v ++ [0]) in
  if existsb (fun c => c =? 0) f then Some (cstr f) else None.
(** netif_device_id, netif_bsd.c 228-263.  If the field is no string the 64 bytes
    are kept. *)
Definition bsd_device_id (pf : platform) (b : bos) (ifr : list Z) (n : netif) (nfs : list netif) : list netif :=
  if negb (nf_device_identified n =? 0) then nfs
  else
    let name :=
      match pf with
      | OpenBSD => nf_device_name n
      | FreeBSD =>
          match sysctl_name (bsd_driver FreeBSD b (nf_index n) ifr) with
          | None => nf_device_name n
          | Some s =>
              match bo_sysctl b s with
              | None => nf_device_name n
              | Some v => match device_field v with Some d => d | None => firstn 64 (cstr v) end
              end
          end
      end in
    nf_assign (set_device 1 name) (nf_index n) nfs.

(** The port loop of netif_bond, netif_bsd.c 305-324. *)
Fixpoint lagg_loop (par : Z) (ports : list (list Z * bool)) (i last : Z) (nfs : list netif) : list netif :=
  match ports with
  | [] => nfs
  | (name, active) :: ports' =>
      match netif_byname nfs name with
      | None => lagg_loop par ports' (i + 1) last nfs
      | Some s =>
          if nf_type s <? NETIF_PARENT then
            lagg_loop par ports' (i + 1) (nf_index s)
              (add_member par last (nf_index s) (if active then NETIF_CHILD_ACTIVE else NETIF_CHILD_BACKUP)
                 (i mod 256) nfs)
          else lagg_loop par ports' (i + 1) last nfs
      end
  end.
(** netif_bond, netif_bsd.c 266-327; a failing call leaves ra_ports zero.  The
    array holds LAGG_MAX_PORTS (TRUNK_MAX_PORTS) entries, which is also the most
    the kernel has. *)
Definition bsd_bond (pf : platform) (b : bos) (p : netif) (nfs : list netif) : list netif :=
  match bo_lagg b (nf_name p) with
  | None => nfs
  | Some (proto, ports) =>
      let nfs1 :=
        if proto =? PROTO_LACP pf then nf_assign (set_bonding_mode NETIF_BONDING_LACP) (nf_index p) nfs
        else if proto =? PROTO_FAILOVER
        then nf_assign (set_bonding_mode NETIF_BONDING_FAILOVER) (nf_index p) nfs
        else nfs in
      lagg_loop (nf_index p) ports 0 (nf_index p) nfs1
  end.

(** The loop that fetches the bridge members, netif_bsd.c 395-420: [len] bytes are
    offered, the kernel fills in as many of the [total] members as fit, and the
    buffer is doubled until there is room for one more.  Returns the members read;
    [None] where int overflows.  malloc does not fail. *)
Fixpoint bridge_read (fuel : nat) (sz total len : Z) : option Z :=
  match fuel with
  | O => None
  | S f =>
      let got := Z.min total (len / sz) * sz in
      if got + sz <? len then Some (got / sz)
      else if 2147483647 <? len * 2 then None
      else bridge_read f sz total (len * 2)
  end.
(** The member loop of netif_bridge, netif_bsd.c 422-435. *)
Fixpoint bsd_bridge_loop (par : Z) (ports : list (list Z)) (last : Z) (nfs : list netif) : list netif :=
  match ports with
  | [] => nfs
  | name :: ports' =>
      match netif_byname nfs name with
      | None => bsd_bridge_loop par ports' last nfs
      | Some s =>
          if nf_type s <? NETIF_PARENT
          then bsd_bridge_loop par ports' (nf_index s)
                 (add_member par last (nf_index s) NETIF_CHILD_ACTIVE (nf_lacp_index s) nfs)
          else bsd_bridge_loop par ports' last nfs
      end
  end.
(** netif_bridge, netif_bsd.c 373-441; the overflow (a gigabyte of members) is as a
    failing call here. *)
Definition bsd_bridge (b : bos) (p : netif) (nfs : list netif) : list netif :=
  match bo_bridge b (nf_name p) with
  | None => nfs
  | Some ports =>
      match bridge_read 32 (bo_ifbreq b) (zlen ports) 8192 with
      | None => nfs
      | Some k => bsd_bridge_loop (nf_index p) (firstn (Z.to_nat k) ports) (nf_index p) nfs
      end
  end.

(** netif_vlan, netif_bsd.c 445-462: the name of the VLAN is not put into [ifr],
    the kernel is asked about whatever interface is there. *)
Definition bsd_vlan (b : bos) (ifr : list Z) (v : netif) (nfs : list netif) : list netif :=
  match bo_vlan b ifr with
  | None => nfs
  | Some (dev, tag) =>
      match netif_byname nfs dev with
      | None => nfs
      | Some p => nf_assign (set_vlan (tag mod 65536) (nf_index p)) (nf_index v) nfs
      end
  end.

(** The switch for one interface, netif.c 255-278; [ifr] keeps its name. *)
Definition bsd_detect_one (pf : platform) (b : bos) (ifr : list Z) (nfs : list netif) (i : Z) : list netif :=
  match netif_byindex nfs i with
  | None => nfs
  | Some n =>
      if nf_type n =? NETIF_BONDING then bsd_bond pf b n nfs
      else if nf_type n =? NETIF_BRIDGE then bsd_bridge b n nfs
      else if nf_type n =? NETIF_VLAN then bsd_vlan b ifr n nfs
      else if nf_type n =? NETIF_REGULAR then bsd_device_id pf b ifr n nfs
      else nfs
  end.

(** netif_fetch, netif.c 75-317, as [netif_fetch] in Netif. *)
Definition bsd_fetch (cfg : ncfg) (pf : platform) (b : bos) (nfs : list netif) (si : sysinfo)
  : Z * list netif * sysinfo * list Z :=
  match bo_ifaddrs b with
  | None => (0, nfs, si, [])
  | Some ias =>
      let keep := Z.lor CAP_HOST CAP_ROUTER in
      let si0 := set_caps (Z.land (si_cap si) keep) (Z.land (si_cap_active si) keep) 0 si in
      let nfs0 := map (set_type NETIF_OLD) nfs in
      let '(nfs1, si1, count) := fold_left (bsd_fetch_one cfg pf b) ias (nfs0, si0, 0) in
      let '(nfs2, si2, gone) := remove_old nfs1 si1 in
      let nfs3 := fold_left (bsd_detect_one pf b (last_ifr ias [])) (map nf_index nfs2) nfs2 in
      let '(nfs4, si4) := netif_addrs cfg ias nfs3 si2 in
      let si5 := match nfs4 with n :: _ => set_chassis (nf_hwaddr n) si4 | [] => si4 end in
      if 0 <? zlen (nc_ifl cfg) then
        let '(nfs5, c) := argv_loop (nc_ifl cfg) nfs4 0 in
        ((if c =? zlen (nc_ifl cfg) then c else 0) mod 65536, nfs5, si5, gone)
      else (count mod 65536, nfs4, si5, gone)
  end.

(** One advertised medium, netif_bsd.c 505-544: LLDP_MAU_PMD_*
    (/repo/src/proto/lldp.h 172-187). *)
Definition pmd_of (m : medium) (fdx : bool) : Z :=
  match m with
  | MAuto => 0
  | M10_T => if fdx then 8192 else 16384
  | M100_TX => if fdx then 1024 else 2048
  | M100_T2 => if fdx then 256 else 512
  | M100_T4 => 4096
  | M1000_T => if fdx then 1 else 2
  | M1000_SX | M1000_LX | M1000_CX => if fdx then 4 else 8
  | _ => 32768
  end.
(** The mau, netif_bsd.c 569-647: LLDP_MAU_TYPE_* (/repo/src/proto/lldp.h 91-169). *)
Definition bsd_mau (m : medium) (fdx : bool) : Z :=
  match m with
  | M10_T => if fdx then 11 else 10
  | M10_2 => 4
  | M10_5 => 2
  | M100_TX => if fdx then 16 else 15
  | M100_FX => if fdx then 18 else 17
  | M100_T4 => 14
  | M100_T2 => if fdx then 20 else 19
  | M1000_SX => if fdx then 26 else 25
  | M10_FL => if fdx then 13 else 12
  | M1000_LX => if fdx then 24 else 23
  | M1000_CX => if fdx then 28 else 27
  | M1000_T => if fdx then 30 else 29
  | M10G_LR => 35
  | M10G_SR => 36
  | M10G_CX4 => 41
  | M10G_T => 54
  | M40G_CR4 => 71
  | M40G_SR4 => 72
  | M40G_LR4 => 74
  | MAuto | MOther => 0
  end.
(** IFM_AUTO, netif_bsd.c 509 and 548. *)
Definition is_auto (m : medium) : bool := match m with MAuto => true | _ => false end.
(** netif_media, netif.c 418-446, and netif_physical, netif_bsd.c 467-653. *)
Definition bsd_media (b : bos) (n : netif) : netif :=
  let mtu := match bo_mtu b (nf_name n) with Some m => m mod 65536 | None => nf_mtu n end in
  let n1 := set_media mtu (-1) (-1) (-1) 0 0 n in
  if negb (nf_type n =? NETIF_REGULAR) then n1
  else match bo_media b (nf_name n) with
  | None => n1
  | Some im =>
      if negb (im_ether im) then n1
      else if negb (im_up im) then n1
      else if im_count im =? 0 then n1
      else match im_list im with
      | None => n1
      | Some l =>
          let sup := existsb (fun x => is_auto (fst x)) l in
          let pmd := fold_left (fun acc x => if is_auto (fst x) then acc else Z.lor acc (pmd_of (fst x) (snd x))) l 0 in
          set_media mtu (if im_fdx im then 1 else 0) (if sup then 1 else 0)
            (if sup then (if is_auto (im_current im) then 1 else 0) else -1) pmd (bsd_mau (im_active im) (im_fdx im)) n
      end
  end.
