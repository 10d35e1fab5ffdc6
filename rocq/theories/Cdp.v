(** Model of /repo/src/proto/cdp.c. *)
From Verif Require Import Base Vis Tlv Types Chksum Checks Msg.

(** TLV types, cdp.h 37-59 (those the code distinguishes). *)
Definition CDP_TYPE_DEVICE_ID := 1.
Definition CDP_TYPE_ADDRESS := 2. (* proto/cdp.h 38 *)
Definition CDP_TYPE_PORT_ID := 3. (* proto/cdp.h 39 *)
Definition CDP_TYPE_CAPABILITIES := 4. (* proto/cdp.h 40 *)
Definition CDP_TYPE_IOS_VERSION := 5. (* proto/cdp.h 41 *)
Definition CDP_TYPE_PLATFORM := 6. (* proto/cdp.h 42 *)
Definition CDP_TYPE_VTP_MGMT_DOMAIN := 9. (* proto/cdp.h 45 *)
Definition CDP_TYPE_NATIVE_VLAN := 10. (* proto/cdp.h 46 *)
Definition CDP_TYPE_DUPLEX := 11. (* proto/cdp.h 47 *)
Definition CDP_TYPE_MTU := 17. (* proto/cdp.h 53 *)
Definition CDP_TYPE_SYSTEM_NAME := 20. (* proto/cdp.h 56 *)
Definition CDP_TYPE_MGMT_ADDRESS := 22. (* proto/cdp.h 58 *)
Definition CDP_TYPE_LOCATION := 23. (* proto/cdp.h 59 *)

(** Capability bits, cdp.h 62-69. *)
Definition CDP_CAP_ROUTER := 1.
Definition CDP_CAP_TRANSPARENT_BRIDGE := 2. (* proto/cdp.h 63 *)
Definition CDP_CAP_SOURCE_BRIDGE := 4. (* proto/cdp.h 64 *)
Definition CDP_CAP_SWITCH := 8. (* proto/cdp.h 65 *)
Definition CDP_CAP_HOST := 16. (* proto/cdp.h 66 *)
Definition CDP_CAP_REPEATER := 64. (* proto/cdp.h 68 *)
Definition CDP_CAP_PHONE := 128. (* proto/cdp.h 69 *)

(** cdp_protos[CDP_ADDR_IPV4] and [CDP_ADDR_IPV6], cdp.c 26-28 and
    cdp.h 88-97: protocol type and protocol bytes. *)
Definition PT_IPV4 := 1.
Definition PROTO_BYTES_IPV4 := [0xcc]. (* cdp.h 91, 96 *)
Definition PT_IPV6 := 2. (* cdp.h 89, 97 *)
Definition PROTO_BYTES_IPV6 := [0xaa; 0xaa; 0x03; 0; 0; 0; 0x86; 0xdd]. (* cdp.h 92-93, 97 *)

(** The ethernet, llc header bytes as assembled by the 802.3 framed builders
    (cdp.c 102-113, 314-316; same in edp.c, fdp.c, ndp.c); ether.type is the
    length of everything behind the ethernet header. *)
Definition ether_llc_hdr (dst src : list Z) (ty : Z) (org : list Z) (pid : Z) : list Z :=
  dst ++ src ++ be16 ty ++ [LLC_SNAP_LSAP; LLC_SNAP_LSAP; LLC_UI] ++ org ++ be16 pid.

(** The address record pushes of one interface, cdp.c 196-218, 238-260 and
    fdp.c 152-174. *)
Definition cdp_push_addrs (n : netif) : enc -> option enc :=
  (if addr_set (nf_ipaddr4 n) then
     push8 PT_IPV4 &&& push8 1 &&& push PROTO_BYTES_IPV4 &&& push16 4
       &&& push (nf_ipaddr4 n)
   else nopush) &&&
  (if addr_set (nf_ipaddr6 n) then
     push8 PT_IPV6 &&& push8 8 &&& push PROTO_BYTES_IPV6 &&& push16 16
       &&& push (nf_ipaddr6 n)
   else nopush).

(** addr_count, cdp.c 183-187, 225-229 and fdp.c 140-143. *)
Definition addr_count (n : netif) : Z :=
  (if addr_set (nf_ipaddr4 n) then 1 else 0) +
  (if addr_set (nf_ipaddr6 n) then 1 else 0).

(** One address TLV if there is any address, cdp.c 189-221, 231-263 and
    fdp.c 145-177. *)
Definition cdp_addr_tlv (t : Z) (n : netif) : enc -> option enc :=
  if 0 <? addr_count n
  then cdp_tlv t (push32 (addr_count n) &&& cdp_push_addrs n)
  else nopush.

(** The capability word, cdp.c 165-172. *)
Definition cdp_cap (cap_active : Z) : Z :=
  if cap_active =? CAP_HOST then CDP_CAP_HOST
  else Z.lor (Z.lor
    (if has cap_active CAP_BRIDGE then CDP_CAP_TRANSPARENT_BRIDGE else 0)
    (if has cap_active CAP_ROUTER then CDP_CAP_ROUTER else 0))
    (if has cap_active CAP_SWITCH then CDP_CAP_SWITCH else 0).

(** cdp_packet, cdp.c 73-320.  [par] is netif->parent and [mgmt] is
    sysinfo->mnetif (resolved pointers). [None] is a return value of 0;
    otherwise the packet bytes (their number is the return value).
    The header is first written with a zero checksum and the ethernet header
    is copied in last; header bytes occupy offsets 0..25. *)
Definition cdp_packet (proto : Z) (n : netif) (par mgmt : option netif) (si : sysinfo)
  : option (list Z) :=
  let parent := match par with Some p => p | None => n end in
  let version := if proto =? PROTO_CDP1 then 1 else 2 in
  let hdr0 := repeat 0 14 ++ [LLC_SNAP_LSAP; LLC_SNAP_LSAP; LLC_UI] ++ LLC_ORG_CISCO
                ++ be16 LLC_PID_CDP ++ [version; LADVD_TTL; 0; 0] in
  let e0 := mkEnc hdr0 (ETHER_MAX_LEN - zlen hdr0) in
  let? e :=
    (cdp_tlv CDP_TYPE_DEVICE_ID (push (si_hostname si))
     &&& cdp_tlv CDP_TYPE_IOS_VERSION (push (si_uts_str si))
     &&& cdp_tlv CDP_TYPE_PLATFORM (push (si_platform si))
     &&& cdp_tlv CDP_TYPE_PORT_ID (push (nf_name n))
     &&& cdp_tlv CDP_TYPE_CAPABILITIES (push32 (cdp_cap (si_cap_active si)))
     &&& cdp_addr_tlv CDP_TYPE_ADDRESS parent
     &&& (match mgmt with
          | Some m => cdp_addr_tlv CDP_TYPE_MGMT_ADDRESS m
          | None => nopush
          end)
     &&& (if nf_mtu n =? 0 then nopush
          else cdp_tlv CDP_TYPE_MTU (push32 (nf_mtu n)))
     &&& (if nf_duplex n =? -1 then nopush
          else cdp_tlv CDP_TYPE_DUPLEX (push8 (nf_duplex n)))
     &&& (if zlen (si_location si) =? 0 then nopush
          else cdp_tlv CDP_TYPE_LOCATION (push8 0 &&& push (si_location si)))
     &&& cdp_tlv CDP_TYPE_SYSTEM_NAME (push (si_hostname si))) e0 in
  let p1 := patch 24 (le16 (my_chksum (skipn 22 (out e)) true)) (out e) in
  Some (patch 0 (CDP_MULTICAST_ADDR ++ nf_hwaddr n ++ be16 (zlen (out e) - 14)) p1).

(** cdp_header_check, cdp.c 445-480. *)
Definition cdp_header_check (c : dctx) (p l : Z) (s : dst) : dres dst :=
  if l <? 4 then DFail
  else
    let* h := rdn (d_buf c) p 4 in
    let version := nth 0 h 0 in
    if (version <? 1) || (2 <? version) then DFail
    else
      let s := set_proto s (if version =? 1 then PROTO_CDP1 else PROTO_CDP) in
      let s := set_ttl s (nth 1 h 0) in
      DOk (if d_mode c =? DECODE_PRINT
           then print s (bs "CDP Version: " ++ dec version ++ [10] ++
                         bs "Holdtime: " ++ dec (holdtime c s) ++ [10])
           else s).

(** cdp_system_name, cdp.c 482-498. *)
Definition cdp_system_name (c : dctx) (p l t : Z) (s : dst) : dres dst :=
  let* str := tlv_str_copy (d_buf c) p l in
  DOk (show_or_store c s
         ((if t =? CDP_TYPE_DEVICE_ID then bs "Device ID" else bs "System Name")
            ++ bs ": " ++ str ++ [10]) PEER_HOSTNAME str).

(** cdp_port_id, cdp.c 500-516. *)
Definition cdp_port_id (c : dctx) (p l : Z) (s : dst) : dres dst :=
  let* str := tlv_str_copy (d_buf c) p l in
  DOk (show_or_store c s
         (bs "Interface: " ++ d_name c ++ bs ", Port ID (outgoing port): "
            ++ str ++ [10]) PEER_PORTNAME str).

(** cdp_descr_print, cdp.c 518-548 (called for IOS version and platform). *)
Definition cdp_descr_print (c : dctx) (t p l : Z) (s : dst) : dres dst :=
  let* str := tlv_str_copy (d_buf c) p l in
  DOk (descr_print s
        (if t =? CDP_TYPE_IOS_VERSION then bs "Version"
         else if t =? CDP_TYPE_PLATFORM then bs "Platform"
         else bs "Unknown") str).

(** The capability translation, cdp.c 561-567. *)
Definition cdp_cap_decode (w : Z) : Z :=
  fold_left Z.lor
    [ if has w CDP_CAP_ROUTER then CAP_ROUTER else 0;
      if has w CDP_CAP_TRANSPARENT_BRIDGE then CAP_BRIDGE else 0;
      if has w CDP_CAP_SOURCE_BRIDGE then CAP_BRIDGE else 0;
      if has w CDP_CAP_SWITCH then CAP_SWITCH else 0;
      if has w CDP_CAP_HOST then CAP_HOST else 0;
      if has w CDP_CAP_REPEATER then CAP_REPEATER else 0;
      if has w CDP_CAP_PHONE then CAP_PHONE else 0 ] 0.

(** cdp_system_cap, cdp.c 550-578. *)
Definition cdp_system_cap (c : dctx) (p l : Z) (s : dst) : dres dst :=
  if negb (l =? 4) then DFail
  else
    let* (w, _) := GRAB_UINT32 (d_buf c) (mkCur p l) in
    let str := tlv_str_cap (cdp_cap_decode w) in
    DOk (show_or_store c s (bs "Capabilities: " ++ str ++ [10]) PEER_CAP str).

(** The loop at next_addr of cdp_addr, cdp.c 596-651.  [count] is the uint32_t
    addr_count. *)
Fixpoint cdp_addr_loop (fuel : nat) (c : dctx) (count : Z) (k : cur) (s : dst)
  : dres dst :=
  match fuel with
  | O => DLoop
  | S f =>
      let* (pt, k1) := GRAB_UINT8 (d_buf c) k in
      let* (pl, k2) := GRAB_UINT8 (d_buf c) k1 in
      if len k2 <? pl + 2 then DFail
      else
        let* af :=
          (if (pt =? PT_IPV4) && (pl =? 1) then
             let* b := rdn (d_buf c) (pos k2) pl in
             DOk (if beq b PROTO_BYTES_IPV4 then PEER_ADDR_INET4 else 0)
           else if (pt =? PT_IPV6) && (pl =? 8) then
             let* b := rdn (d_buf c) (pos k2) pl in
             DOk (if beq b PROTO_BYTES_IPV6 then PEER_ADDR_INET6 else 0)
           else DOk 0) in
        let* k3 := SKIP pl k2 in
        let* (al, k4) := GRAB_UINT16 (d_buf c) k3 in
        if len k4 <? al then DFail
        else
          let* s' :=
            (if af =? 0 then DOk s
             else
               let* r := tlv_str_addr af (d_buf c) (pos k4) al in
               match r with
               | None => DFail
               | Some str =>
                   DOk (show_or_store c s
                          (bs "  IP" ++ (if af =? PEER_ADDR_INET6 then bs "v6" else [])
                             ++ bs " address: " ++ str ++ [10]) af str)
               end) in
          let* k5 := SKIP al k4 in
          let count := (count - 1) mod 4294967296 in
          if negb (len k5 =? 0) && (0 <? count)
          then cdp_addr_loop f c count k5 s'
          else DOk s'
  end.

(** cdp_addr, cdp.c 580-654. *)
Definition cdp_addr (c : dctx) (p l t : Z) (s : dst) : dres dst :=
  let* (count, k) := GRAB_UINT32 (d_buf c) (mkCur p l) in
  let s :=
    if d_mode c =? DECODE_PRINT
    then print s ((if t =? CDP_TYPE_MGMT_ADDRESS then bs "Management" else bs "Entry")
                    ++ bs " address(es):" ++ [10])
    else s in
  cdp_addr_loop (S (Z.to_nat l)) c count k s.

(** cdp_vlan, cdp.c 656-674. *)
Definition cdp_vlan (c : dctx) (p l : Z) (s : dst) : dres dst :=
  if negb (l =? 2) then DFail
  else
    let* (v, _) := GRAB_UINT16 (d_buf c) (mkCur p l) in
    DOk (show_or_store c s (bs "Native VLAN: " ++ dec v ++ [10]) PEER_VLAN_ID (dec v)).

(** cdp_vtp_print, cdp.c 676-686. *)
Definition cdp_vtp_print (c : dctx) (p l : Z) (s : dst) : dres dst :=
  let* str := tlv_str_copy (d_buf c) p l in
  DOk (print s (bs "VTP Management Domain: '" ++ str ++ bs "'" ++ [10])).

(** cdp_duplex_print, cdp.c 688-701. *)
Definition cdp_duplex_print (c : dctx) (p l : Z) (s : dst) : dres dst :=
  if negb (l =? 1) then DFail
  else
    let* (d, _) := GRAB_UINT8 (d_buf c) (mkCur p l) in
    DOk (print s (bs "Duplex: " ++ (if d =? 0 then bs "half" else bs "full") ++ [10])).

(** The switch over the TLV type, cdp.c 387-433. *)
Definition cdp_tlv_dispatch (c : dctx) (t p l : Z) (s : dst) : dres dst :=
  if (t =? CDP_TYPE_DEVICE_ID) || (t =? CDP_TYPE_SYSTEM_NAME) then
    cdp_system_name c p l t s
  else if t =? CDP_TYPE_PORT_ID then cdp_port_id c p l s
  else if t =? CDP_TYPE_CAPABILITIES then cdp_system_cap c p l s
  else if (t =? CDP_TYPE_ADDRESS) || (t =? CDP_TYPE_MGMT_ADDRESS) then
    cdp_addr c p l t s
  else if (t =? CDP_TYPE_IOS_VERSION) || (t =? CDP_TYPE_PLATFORM) then
    (if d_mode c =? DECODE_PRINT then cdp_descr_print c t p l s else DOk s)
  else if t =? CDP_TYPE_VTP_MGMT_DOMAIN then
    (if d_mode c =? DECODE_PRINT then cdp_vtp_print c p l s else DOk s)
  else if t =? CDP_TYPE_NATIVE_VLAN then cdp_vlan c p l s
  else if t =? CDP_TYPE_DUPLEX then
    (if d_mode c =? DECODE_PRINT then cdp_duplex_print c p l s else DOk s)
  else DOk s.

(** The while loop of cdp_decode, cdp.c 376-439; returns the final position. *)
Fixpoint cdp_loop (fuel : nat) (c : dctx) (k : cur) (s : dst) : dres (Z * dst) :=
  match fuel with
  | O => DLoop
  | S f =>
      if len k =? 0 then DOk (pos k, s)
      else
        let* (t, l, k1) := GRAB_CDP_TLV (d_buf c) k in
        if len k1 <? l then DFail
        else
          let* s' := cdp_tlv_dispatch c t (pos k1) l s in
          let* k2 := SKIP l k1 in
          cdp_loop f c k2 s'
  end.

(** cdp_decode, cdp.c 350-443: the returned packet length and the message
    fields written.  On failure (return 0) the partially written fields are
    dropped: both callers free them at once (child.c 330-333, cli.c 203-206). *)
Definition cdp_decode (c : dctx) (s : dst) : dres (Z * dst) :=
  let* r := cdp_check (d_buf c) (d_len c) in
  match r with
  | None => DAbort
  | Some p =>
      let l := szsub (d_len c) p in
      let* s1 := cdp_header_check c p l s in
      cdp_loop (S (Z.to_nat (d_len c))) c (mkCur (p + 4) (szsub l 4)) s1
  end.
