(** Model of the packet signature checks lldp_check, cdp_check, edp_check,
    fdp_check and ndp_check. *)
From Verif Require Import Base Tlv Types.

(** Group addresses, SNAP organisation codes and protocol ids:
    /repo/src/proto/lldp.h 24, cdp.h 25-27, edp.h 23-25, fdp.h 24-26,
    ndp.h 23-25. *)
Definition LLDP_MULTICAST_ADDR := [0x01; 0x80; 0xc2; 0x00; 0x00; 0x0e].
Definition CDP_MULTICAST_ADDR := [0x01; 0x00; 0x0c; 0xcc; 0xcc; 0xcc]. (* proto/cdp.h 25 *)
Definition EDP_MULTICAST_ADDR := [0x00; 0xe0; 0x2b; 0x00; 0x00; 0x00]. (* proto/edp.h 23 *)
Definition FDP_MULTICAST_ADDR := [0x01; 0xe0; 0x52; 0xcc; 0xcc; 0xcc]. (* proto/fdp.h 24 *)
Definition NDP_MULTICAST_ADDR := [0x01; 0x00; 0x81; 0x00; 0x01; 0x00]. (* proto/ndp.h 23 *)
Definition LLC_ORG_CISCO := [0x00; 0x00; 0x0c]. (* proto/cdp.h 26 *)
Definition LLC_ORG_EXTREME := [0x00; 0xe0; 0x2b]. (* proto/edp.h 24 *)
Definition LLC_ORG_FOUNDRY := [0x00; 0xe0; 0x52]. (* proto/fdp.h 25 *)
Definition LLC_ORG_NORTEL := [0x00; 0x00; 0x81]. (* proto/ndp.h 24 *)
Definition LLC_PID_CDP := 0x2000. (* proto/cdp.h 27 *)
Definition LLC_PID_EDP := 0x00bb. (* proto/edp.h 25 *)
Definition LLC_PID_FDP := 0x2000. (* proto/fdp.h 26 *)
Definition LLC_PID_NDP_HELLO := 0x01a2. (* proto/ndp.h 25 *)
(** /repo/src/ether.h 59-77. *)
Definition LLC_SNAP_LSAP := 0xaa.
Definition LLC_UI := 3. (* ether.h 63 *)
Definition ETHERTYPE_VLAN := 0x8100. (* ether.h 70 *)
Definition ETHERTYPE_LLDP := 0x88cc. (* ether.h 76 *)
Definition ETHER_VLAN_ENCAP_LEN := 4. (* ether.h 73 *)

(** cdp_check, /repo/src/proto/cdp.c 322-348; edp_check, edp.c 165-191;
    fdp_check, fdp.c 192-218 and ndp_check, ndp.c 83-109 are the same code
    with other constants.  [buf] is the packet buffer, [length] the frame
    length; the result is the offset of the payload, [None] for NULL. *)
Definition llc_check (dst org : list Z) (pid : Z) (buf : list Z) (length : Z)
  : dres (option Z) :=
  if negb (22 <? length) then DAbort
  else if negb (length <=? ETHER_MAX_LEN) then DAbort
  else
    let* ether := rdn buf 0 14 in
    if negb (beq (slice ether 0 6) dst) then DOk None
    else
      let offset :=
        if de16 (slice ether 12 2) =? ETHERTYPE_VLAN then ETHER_VLAN_ENCAP_LEN else 0 in
      let* llc := rdn buf (14 + offset) 8 in
      if negb (nth 0 llc 0 =? LLC_SNAP_LSAP) || negb (nth 1 llc 0 =? LLC_SNAP_LSAP)
         || negb (nth 2 llc 0 =? LLC_UI)
      then DOk None
      else if beq (slice llc 3 3) org && (de16 (slice llc 6 2) =? pid)
      then DOk (Some (14 + offset + 8))
      else DOk None.

(** cdp_check, cdp.c 322-348. *)
Definition cdp_check := llc_check CDP_MULTICAST_ADDR LLC_ORG_CISCO LLC_PID_CDP.
(** edp_check, edp.c 165-191. *)
Definition edp_check := llc_check EDP_MULTICAST_ADDR LLC_ORG_EXTREME LLC_PID_EDP.
(** fdp_check, fdp.c 192-218. *)
Definition fdp_check := llc_check FDP_MULTICAST_ADDR LLC_ORG_FOUNDRY LLC_PID_FDP.
(** ndp_check, ndp.c 83-109. *)
Definition ndp_check := llc_check NDP_MULTICAST_ADDR LLC_ORG_NORTEL LLC_PID_NDP_HELLO.

(** lldp_check, /repo/src/proto/lldp.c 443-467. *)
Definition lldp_check (buf : list Z) (length : Z) : dres (option Z) :=
  if negb (14 <? length) then DAbort
  else if negb (length <=? ETHER_MAX_LEN) then DAbort
  else
    let* ether := rdn buf 0 14 in
    if negb (beq (slice ether 0 6) LLDP_MULTICAST_ADDR) then DOk None
    else
      let ty := de16 (slice ether 12 2) in
      if ty =? ETHERTYPE_VLAN then
        let* ty2 := rdn buf (12 + ETHER_VLAN_ENCAP_LEN) 2 in
        if de16 ty2 =? ETHERTYPE_LLDP then DOk (Some (14 + ETHER_VLAN_ENCAP_LEN))
        else DOk None
      else if ty =? ETHERTYPE_LLDP then DOk (Some 14)
      else DOk None.

(** protos[].check and protos[].dst_addr, /repo/src/main.h 24-38.  For a
    protocol number outside the table there is no function to call. *)
Definition proto_check (p : Z) (buf : list Z) (length : Z) : dres (option Z) :=
  if p =? PROTO_LLDP then lldp_check buf length
  else if p =? PROTO_CDP then cdp_check buf length
  else if p =? PROTO_EDP then edp_check buf length
  else if p =? PROTO_FDP then fdp_check buf length
  else if p =? PROTO_NDP then ndp_check buf length
  else if p =? PROTO_CDP1 then cdp_check buf length
  else DUB.
(** protos[p].dst_addr, main.h 24-38. *)
Definition proto_dst (p : Z) : list Z :=
  if p =? PROTO_LLDP then LLDP_MULTICAST_ADDR
  else if p =? PROTO_CDP then CDP_MULTICAST_ADDR
  else if p =? PROTO_EDP then EDP_MULTICAST_ADDR
  else if p =? PROTO_FDP then FDP_MULTICAST_ADDR
  else if p =? PROTO_NDP then NDP_MULTICAST_ADDR
  else CDP_MULTICAST_ADDR.
