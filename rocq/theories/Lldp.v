(** Model of /repo/src/proto/lldp.c. *)
From Verif Require Import Base Vis Tlv Types Checks Msg.

(** TLV types, lldp.h 28-37. *)
Definition LLDP_TYPE_END := 0.
Definition LLDP_TYPE_CHASSIS_ID := 1. (* proto/lldp.h 29 *)
Definition LLDP_TYPE_PORT_ID := 2. (* proto/lldp.h 30 *)
Definition LLDP_TYPE_TTL := 3. (* proto/lldp.h 31 *)
Definition LLDP_TYPE_PORT_DESCR := 4. (* proto/lldp.h 32 *)
Definition LLDP_TYPE_SYSTEM_NAME := 5. (* proto/lldp.h 33 *)
Definition LLDP_TYPE_SYSTEM_DESCR := 6. (* proto/lldp.h 34 *)
Definition LLDP_TYPE_SYSTEM_CAP := 7. (* proto/lldp.h 35 *)
Definition LLDP_TYPE_MGMT_ADDR := 8. (* proto/lldp.h 36 *)
Definition LLDP_TYPE_PRIVATE := 127. (* proto/lldp.h 37 *)

(** System capability bits, lldp.h 58-65. *)
Definition LLDP_CAP_OTHER := 1.
Definition LLDP_CAP_REPEATER := 2. (* proto/lldp.h 59 *)
Definition LLDP_CAP_BRIDGE := 4. (* proto/lldp.h 60 *)
Definition LLDP_CAP_WLAN_AP := 8. (* proto/lldp.h 61 *)
Definition LLDP_CAP_ROUTER := 16. (* proto/lldp.h 62 *)
Definition LLDP_CAP_PHONE := 32. (* proto/lldp.h 63 *)
Definition LLDP_CAP_DOCSIS := 64. (* proto/lldp.h 64 *)
Definition LLDP_CAP_STATION_ONLY := 128. (* proto/lldp.h 65 *)

(** Address families and organisation codes, lldp.h 68-76. *)
Definition LLDP_AFNUM_INET := 1.
Definition LLDP_AFNUM_INET6 := 2. (* proto/lldp.h 69 *)
Definition LLDP_AFNUM_802 := 6. (* proto/lldp.h 70 *)
Definition OUI_8021 := [0x00; 0x80; 0xc2]. (* lldp.h 74 *)
Definition OUI_8023 := [0x00; 0x12; 0x0f]. (* lldp.h 75 *)
Definition OUI_TIA := [0x00; 0x12; 0xbb]. (* proto/lldp.h 76 *)

(** The port description chosen, lldp.c 125-133. *)
Definition lldp_description (opts : Z) (n parent : netif) : list Z :=
  if has opts OPT_IFDESCR then nf_device_name n
  else if negb (zlen (nf_description n) =? 0) then nf_description n
  else if negb (zlen (nf_description parent) =? 0) then nf_description parent
  else nf_device_name n.

(** Translation of a capability mask, lldp.c 167-177. *)
Definition lldp_cap_bits (cap : Z) : Z :=
  Z.lor (Z.lor (Z.lor
    (if has cap CAP_BRIDGE then LLDP_CAP_BRIDGE else 0)
    (if has cap CAP_ROUTER then LLDP_CAP_ROUTER else 0))
    (if has cap CAP_SWITCH then LLDP_CAP_BRIDGE else 0))
    (if has cap CAP_WLAN then LLDP_CAP_WLAN_AP else 0).

(** A management address TLV, lldp.c 190-200, 206-216, 221-231. *)
Definition lldp_mgmt_tlv (afnum : Z) (addr : list Z) (index : Z) : enc -> option enc :=
  lldp_tlv LLDP_TYPE_MGMT_ADDR
    (push8 (1 + zlen addr) &&& push8 afnum &&& push addr &&& push8 2
       &&& push32 index &&& push8 0).

(** An organisationally specific TLV, lldp.c 247-249 and following. *)
Definition lldp_private_tlv (oui : list Z) (subtype : Z) (body : enc -> option enc)
  : enc -> option enc :=
  lldp_tlv LLDP_TYPE_PRIVATE (push oui &&& push8 subtype &&& body).

(** The while loop over the VLAN interfaces, lldp.c 237-256. *)
Fixpoint lldp_vlans (vs : list netif) (e : enc) : option enc :=
  match vs with
  | [] => Some e
  | v :: vs' =>
      let? e1 := lldp_private_tlv OUI_8021 3
                   (push16 (nf_vlan_id v) &&& push8 (zlen (nf_name v))
                      &&& push (nf_name v)) e in
      lldp_vlans vs' e1
  end.

(** An inventory TLV, sent when the string is not empty, lldp.c 340-427. *)
Definition lldp_inv_tlv (subtype : Z) (s : list Z) : enc -> option enc :=
  if 0 <? zlen s then lldp_private_tlv OUI_TIA subtype (push s) else nopush.

(** lldp_packet, lldp.c 55-441. *)
Definition lldp_packet (opts : Z) (n : netif) (par mgmt : option netif)
  (nfs : list netif) (si : sysinfo) : option (list Z) :=
  let parent := match par with Some p => p | None => n end in
  let mg := match mgmt with Some m => m | None => parent end in
  let hdr := LLDP_MULTICAST_ADDR ++ nf_hwaddr n ++ be16 ETHERTYPE_LLDP in
  let e0 := mkEnc hdr (ETHER_MAX_LEN - zlen hdr) in
  let hwaddr := if has opts OPT_CHASSIS_IF then nf_hwaddr n else si_hwaddr si in
  let descr := lldp_description opts n parent in
  let host := si_cap si =? CAP_HOST in
  let cap := if host then LLDP_CAP_STATION_ONLY else lldp_cap_bits (si_cap si) in
  let cap_active :=
    if host then LLDP_CAP_STATION_ONLY else lldp_cap_bits (si_cap_active si) in
  let hi := si_hinv si in
  let? e :=
    (lldp_tlv LLDP_TYPE_CHASSIS_ID (push8 4 &&& push hwaddr)
     &&& lldp_tlv LLDP_TYPE_PORT_ID (push8 5 &&& push (nf_name n))
     &&& lldp_tlv LLDP_TYPE_TTL (push16 LADVD_TTL)
     &&& (if 0 <? zlen descr then lldp_tlv LLDP_TYPE_PORT_DESCR (push descr) else nopush)
     &&& lldp_tlv LLDP_TYPE_SYSTEM_NAME (push (si_hostname si))
     &&& lldp_tlv LLDP_TYPE_SYSTEM_DESCR (push (si_uts_str si))
     &&& lldp_tlv LLDP_TYPE_SYSTEM_CAP (push16 cap &&& push16 cap_active)
     &&& (if addr_set (nf_ipaddr4 mg)
          then lldp_mgmt_tlv LLDP_AFNUM_INET (nf_ipaddr4 mg) (nf_index mg) else nopush)
     &&& (if addr_set (nf_ipaddr6 mg)
          then lldp_mgmt_tlv LLDP_AFNUM_INET6 (nf_ipaddr6 mg) (nf_index mg) else nopush)
     &&& lldp_mgmt_tlv LLDP_AFNUM_802 (nf_hwaddr mg) (nf_index mg)
     &&& lldp_vlans (vlan_attached opts n parent nfs)
     &&& (if nf_autoneg_supported n =? -1 then nopush
          else lldp_private_tlv OUI_8023 1
                 (push8 (nf_autoneg_supported n + 2 * nf_autoneg_enabled n)
                    &&& push16 (nf_autoneg_pmd n) &&& push16 (nf_mau n)))
     &&& (if nf_bonding_mode parent =? NETIF_BONDING_LACP
          then lldp_private_tlv OUI_8023 3 (push8 3 &&& push32 (nf_lacp_index n))
          else nopush)
     &&& (if nf_mtu n =? 0 then nopush
          else lldp_private_tlv OUI_8023 4 (push16 (nf_mtu n + 22)))
     &&& lldp_private_tlv OUI_TIA 1
           (push16 (si_cap_lldpmed si) &&& push8 (si_lldpmed_devtype si))
     &&& (if (zlen (si_country si) =? 2) && negb (zlen (si_location si) =? 0)
          then lldp_private_tlv OUI_TIA 3
                 (push8 2 &&& push8 (5 + zlen (si_location si)) &&& push8 2
                    &&& push (si_country si) &&& push8 22
                    &&& push8 (zlen (si_location si)) &&& push (si_location si))
          else nopush)
     &&& lldp_inv_tlv 5 (hi_hw hi)
     &&& lldp_inv_tlv 6 (hi_fw hi)
     &&& lldp_inv_tlv 7 (hi_sw hi)
     &&& lldp_inv_tlv 8 (hi_serial hi)
     &&& lldp_inv_tlv 9 (hi_manuf hi)
     &&& lldp_inv_tlv 10 (hi_model hi)
     &&& lldp_inv_tlv 11 (hi_asset hi)
     &&& lldp_tlv LLDP_TYPE_END nopush) e0 in
  Some (out e).

(** lldp_chassis_id, lldp.c 593-639. *)
Definition lldp_chassis_id (c : dctx) (p l : Z) (s : dst) : dres dst :=
  if (l <=? 1) || (256 <? l) then DFail
  else if negb (d_mode c =? DECODE_PRINT) then DOk s
  else
    let* (sub, k) := GRAB_UINT8 (d_buf c) (mkCur p l) in
    let* str :=
      (if (sub =? 1) || (sub =? 2) || (sub =? 3) || (sub =? 6) || (sub =? 7) then
         let* v := tlv_str_copy (d_buf c) (pos k) (len k) in DOk (Some v)
       else if sub =? 4 then tlv_str_addr PEER_ADDR_802 (d_buf c) (pos k) (len k)
       else if sub =? 5 then
         let* (afnum, k2) := GRAB_UINT8 (d_buf c) k in
         tlv_str_addr afnum (d_buf c) (pos k2) (len k2)
       else DOk None) in
    DOk (match str with
         | Some v => print s (bs "Chassis id: " ++ v ++ [10])
         | None => s
         end).

(** lldp_port_id, lldp.c 641-683.  Printing a NULL string (674-675, MAC
    subtype of the wrong length) is undefined behaviour. *)
Definition lldp_port_id (c : dctx) (p l : Z) (s : dst) : dres dst :=
  if (l <=? 1) || (256 <? l) then DFail
  else
    let* (sub, k) := GRAB_UINT8 (d_buf c) (mkCur p l) in
    if (sub =? 1) || (sub =? 2) || (sub =? 5) || (sub =? 6) || (sub =? 7) then
      let* str := tlv_str_copy (d_buf c) (pos k) (len k) in
      DOk (show_or_store c s (bs "Port id: " ++ str ++ [10]) PEER_PORTNAME str)
    else if sub =? 3 then
      if d_mode c =? DECODE_PRINT then
        let* r := tlv_str_addr PEER_ADDR_802 (d_buf c) (pos k) (len k) in
        match r with
        | Some str => DOk (print s (bs "Port id: " ++ str ++ [10]))
        | None => DUB
        end
      else DOk s
    else DOk s.

(** lldp_system_name, lldp.c 685-709. *)
Definition lldp_system_name (c : dctx) (p l : Z) (s : dst) : dres dst :=
  if 255 <? l then DFail
  else
    match pget (s_peer s) PEER_HOSTNAME with
    | Some _ => DFail
    | None =>
        let* str := tlv_str_copy (d_buf c) p l in
        let s := if d_mode c =? DECODE_PRINT
                 then print s (bs "System Name: " ++ str ++ [10]) else s in
        DOk (peer_str s PEER_HOSTNAME str)
    end.

(** lldp_descr_print, lldp.c 711-741 (called for port and system
    description). *)
Definition lldp_descr_print (c : dctx) (t p l : Z) (s : dst) : dres dst :=
  let* str := tlv_str_copy (d_buf c) p l in
  DOk (descr_print s
         (if t =? LLDP_TYPE_PORT_DESCR then bs "Port Description"
          else bs "System Description") str).

(** The capability translation, lldp.c 780-790 and 798-808. *)
Definition lldp_cap_decode (w : Z) : Z :=
  if w =? LLDP_CAP_STATION_ONLY then CAP_HOST
  else fold_left Z.lor
    [ if has w LLDP_CAP_OTHER then CAP_OTHER else 0;
      if has w LLDP_CAP_REPEATER then CAP_REPEATER else 0;
      if has w LLDP_CAP_BRIDGE then CAP_BRIDGE else 0;
      if has w LLDP_CAP_WLAN_AP then CAP_WLAN else 0;
      if has w LLDP_CAP_ROUTER then CAP_ROUTER else 0;
      if has w LLDP_CAP_PHONE then CAP_PHONE else 0;
      if has w LLDP_CAP_DOCSIS then CAP_DOCSIS else 0 ] 0.

(** lldp_system_cap, lldp.c 757-819.  [&~ STATION_ONLY] on a uint16_t keeps
    the other 15 bits. *)
Definition lldp_system_cap (c : dctx) (p l : Z) (s : dst) : dres dst :=
  if negb (l =? 4) then DFail
  else
    let* (avail, k) := GRAB_UINT16 (d_buf c) (mkCur p l) in
    let* (cap, _) := GRAB_UINT16 (d_buf c) k in
    if negb (avail =? Z.lor cap avail) then DFail
    else if has avail LLDP_CAP_STATION_ONLY && has avail 65407 then DFail
    else
      let s :=
        if d_mode c =? DECODE_PRINT
        then print s (bs "System Capabilities: "
                        ++ tlv_str_cap (lldp_cap_decode avail) ++ [10])
        else s in
      let str := tlv_str_cap (lldp_cap_decode cap) in
      DOk (show_or_store c s (bs "Enabled Capabilities: " ++ str ++ [10]) PEER_CAP str).

(** lldp_mgmt_addr, lldp.c 821-880; lldp_aflen is a uint8_t. *)
Definition lldp_mgmt_addr (c : dctx) (p l : Z) (s : dst) : dres dst :=
  let* (aflen0, k1) := GRAB_UINT8 (d_buf c) (mkCur p l) in
  let* (afnum, k2) := GRAB_UINT8 (d_buf c) k1 in
  let aflen := (aflen0 - 1) mod 256 in
  let af := if afnum =? LLDP_AFNUM_INET then PEER_ADDR_INET4
            else if afnum =? LLDP_AFNUM_INET6 then PEER_ADDR_INET6
            else if afnum =? LLDP_AFNUM_802 then PEER_ADDR_802
            else 0 in
  let astr := if afnum =? LLDP_AFNUM_INET then bs "IPv4"
              else if afnum =? LLDP_AFNUM_INET6 then bs "IPv6"
              else bs "Ethernet" in
  if af =? 0 then DFail
  else if negb (aflen <? len k2) then DFail
  else if (d_mode c =? DECODE_STR) &&
          match pget (s_peer s) af with Some _ => true | None => false end
  then DOk s
  else
    let* r := tlv_str_addr af (d_buf c) (pos k2) aflen in
    match r with
    | None => DFail
    | Some str =>
        DOk (show_or_store c s
               (bs "Management Address " ++ astr ++ bs ": " ++ str ++ [10]) af str)
    end.

(** lldp_private_8021, lldp.c 899-929. *)
Definition lldp_private_8021 (c : dctx) (k : cur) (s : dst) : dres dst :=
  let* (sub, k1) := GRAB_UINT8 (d_buf c) k in
  if sub =? 1 then
    if negb (len k1 =? 2) then DFail
    else
      let* (v, _) := GRAB_UINT16 (d_buf c) k1 in
      DOk (show_or_store c s (bs "Port VLAN ID: " ++ dec v ++ [10]) PEER_VLAN_ID (dec v))
  else DOk s.

(** lldp_private, lldp.c 882-897. *)
Definition lldp_private (c : dctx) (p l : Z) (s : dst) : dres dst :=
  let* (oui, k) := GRAB_BYTES 3 (d_buf c) (mkCur p l) in
  if beq oui OUI_8021 then lldp_private_8021 c k s else DOk s.

(** The switch over the TLV type without the END case, lldp.c 542-574. *)
Definition lldp_tlv_dispatch (c : dctx) (t p l : Z) (s : dst) : dres dst :=
  if t =? LLDP_TYPE_SYSTEM_NAME then lldp_system_name c p l s
  else if t =? LLDP_TYPE_PORT_DESCR then
    let* s1 :=
      (if d_mode c =? DECODE_STR then
         let* str := tlv_str_copy (d_buf c) p l in
         DOk (peer_str s PEER_PORTDESCR str)
       else DOk s) in
    if d_mode c =? DECODE_PRINT then lldp_descr_print c t p l s1 else DOk s1
  else if t =? LLDP_TYPE_SYSTEM_DESCR then
    if d_mode c =? DECODE_PRINT then lldp_descr_print c t p l s else DOk s
  else if t =? LLDP_TYPE_SYSTEM_CAP then lldp_system_cap c p l s
  else if t =? LLDP_TYPE_MGMT_ADDR then lldp_mgmt_addr c p l s
  else if t =? LLDP_TYPE_PRIVATE then lldp_private c p l s
  else if (8 <? t) && (t <? 127) then DFail
  else DOk s.

(** The while loop of lldp_decode, lldp.c 524-589; [last] is the variable
    tlv_type, which must be END when the loop is left. *)
Fixpoint lldp_loop (fuel : nat) (c : dctx) (last : Z) (k : cur) (s : dst)
  : dres (Z * dst) :=
  match fuel with
  | O => DLoop
  | S f =>
      if len k =? 0 then (if last =? 0 then DOk (pos k, s) else DFail)
      else
        let* (t, l, k1) := GRAB_LLDP_TLV (d_buf c) k in
        if len k1 <? l then DFail
        else if t =? LLDP_TYPE_END then
          if l =? 0 then DOk (pos k1, s) else DFail
        else
          let* s' := lldp_tlv_dispatch c t (pos k1) l s in
          let* k2 := SKIP l k1 in
          lldp_loop f c t k2 s'
  end.

(** lldp_decode, lldp.c 469-590. *)
Definition lldp_decode (c : dctx) (s : dst) : dres (Z * dst) :=
  let* r := lldp_check (d_buf c) (d_len c) in
  match r with
  | None => DAbort
  | Some p =>
      let* (t, l, k) := GRAB_LLDP_TLV (d_buf c) (mkCur p (szsub (d_len c) p)) in
      if negb (t =? LLDP_TYPE_CHASSIS_ID) then DFail
      else if len k <? l then DFail
      else
        let* s := lldp_chassis_id c (pos k) l s in
        let* k := SKIP l k in
        let* (t, l, k) := GRAB_LLDP_TLV (d_buf c) k in
        if negb (t =? LLDP_TYPE_PORT_ID) then DFail
        else if len k <? l then DFail
        else
          let* s := lldp_port_id c (pos k) l s in
          let* k := SKIP l k in
          let* (t, l, k) := GRAB_LLDP_TLV (d_buf c) k in
          if negb (t =? LLDP_TYPE_TTL) then DFail
          else if negb (l =? 2) then DFail
          else
            let* (ttl, k) := GRAB_UINT16 (d_buf c) k in
            let s := set_ttl s ttl in
            let s := if d_mode c =? DECODE_PRINT
                     then print s (bs "Time remaining: " ++ dec (holdtime c s)
                                     ++ bs " seconds" ++ [10])
                     else s in
            lldp_loop (S (Z.to_nat (d_len c))) c t k s
  end.
