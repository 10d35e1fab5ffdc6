(** Model of the TLV reading and writing macros (/repo/src/proto/tlv.h), the
    attribute decoders (/repo/src/proto/tlv.c) and the peer[] slots
    (/repo/src/common.h 254-277). *)
From Verif Require Import Base Vis.

(** TLV_LEN, tlv.h 35. *)
Definition TLV_LEN := 512.
(** ETHER_MAX_LEN and ETHER_MIN_LEN, ether.h 35-36. *)
Definition ETHER_MAX_LEN := 1518.
Definition ETHER_MIN_LEN := 64. (* ether.h 35 *)

(** Decode modes and peer slots, common.h 254-265. *)
Definition DECODE_STR := 1.
Definition DECODE_PRINT := 2. (* common.h 255 *)
Definition PEER_HOSTNAME := 0. (* common.h 257 *)
Definition PEER_PORTNAME := 1. (* common.h 258 *)
Definition PEER_PORTDESCR := 2. (* common.h 259 *)
Definition PEER_CAP := 3. (* common.h 260 *)
Definition PEER_ADDR_INET4 := 4. (* common.h 261 *)
Definition PEER_ADDR_INET6 := 5. (* common.h 262 *)
Definition PEER_ADDR_802 := 6. (* common.h 263 *)
Definition PEER_VLAN_ID := 7. (* common.h 264 *)
Definition PEER_MAX := 8. (* common.h 265 *)

(** Capability bits and letters, common.h 193-203. *)
Definition CAP_REPEATER := 1.
Definition CAP_BRIDGE := 2. (* common.h 194 *)
Definition CAP_HOST := 4. (* common.h 195 *)
Definition CAP_ROUTER := 8. (* common.h 196 *)
Definition CAP_SWITCH := 16. (* common.h 197 *)
Definition CAP_WLAN := 32. (* common.h 198 *)
Definition CAP_DOCSIS := 64. (* common.h 199 *)
Definition CAP_PHONE := 128. (* common.h 200 *)
Definition CAP_OTHER := 256. (* common.h 201 *)
Definition CAP_STRING : list Z := bs "rBHRSWCTO". (* common.h 203 *)

(** char *peer[PEER_MAX] of struct parent_msg (common.h 289): a NULL slot is
    [None]; the list always has PEER_MAX elements. *)
Definition peers := list (option (list Z)).
(** peer[] after memset or peer_free, common.h 268-277. *)
Definition no_peers : peers := repeat None 8.
(** Reading a slot, msg->peer[i]; helper. *)
Definition pget (p : peers) (i : Z) : option (list Z) := nth (Z.to_nat i) p None.
(** Overwriting a slot; helper. *)
Fixpoint upd {A} (l : list A) (i : nat) (x : A) : list A :=
  match l, i with
  | [], _ => []
  | _ :: l', O => x :: l'
  | y :: l', S i' => y :: upd l' i' x
  end.
(** PEER_STR(x, y), common.h 266: keep the first value (freeing the new one). *)
Definition PEER_STR (p : peers) (i : Z) (s : list Z) : peers :=
  match pget p i with
  | Some _ => p
  | None => upd p (Z.to_nat i) (Some s)
  end.
(** peer_free, common.h 268-277. *)
Definition peer_free (p : peers) : peers := map (fun _ => None) p.

(** ** Writing (tlv.h 45-64): state of an encoder: the bytes from the start of the packet up
    to [pos], and the variable [length] (space left).
    Models "char *pos" and "size_t length" of the *_packet functions. *)
Record enc := mkEnc { out : list Z; left : Z }.

(** PUSH_BYTES, tlv.h 57-64. *)
Definition push (b : list Z) (e : enc) : option enc :=
  if zlen b <=? left e
  then Some (mkEnc (out e ++ b) (left e - zlen b)) else None.
(** PUSH_UINT8/16/32, tlv.h 45-56: conversion to the unsigned type, network
    byte order. *)
Definition push8 (v : Z) : enc -> option enc := push [v mod 256].
(** PUSH_UINT16, tlv.h 55. *)
Definition push16 (v : Z) : enc -> option enc := push (be16 v).
(** PUSH_UINT32, tlv.h 56. *)
Definition push32 (v : Z) : enc -> option enc := push (be32 v).

(** "A && B" of two pushes; helper. *)
Definition andthen (f g : enc -> option enc) (e : enc) : option enc :=
  let? e1 := f e in g e1.
Notation "f '&&&' g" := (andthen f g) (at level 40, left associativity).
(** No push at all; helper. *)
Definition nopush (e : enc) : option enc := Some e.

(** memcpy over already written bytes at offset [o] (END_*_TLV, header
    fix-ups). *)
Definition patch (o : Z) (b : list Z) (l : list Z) : list Z :=
  firstn (Z.to_nat o) l ++ b ++ skipn (Z.to_nat o + length b) l.
(** The same on an encoder. *)
Definition patch_enc (o : Z) (b : list Z) (e : enc) : enc :=
  mkEnc (patch o b (out e)) (left e).

(** START_CDP_TLV(t) && body, then END_CDP_TLV: tlv.h 114-123 (FDP is
    identical, 166-175). *)
Definition cdp_tlv (t : Z) (body : enc -> option enc) (e : enc) : option enc :=
  let tlv := zlen (out e) in
  let? e1 := (push16 t &&& push16 0 &&& body) e in
  Some (patch_enc (tlv + 2) (be16 (zlen (out e1) - tlv)) e1).

(** START_EDP_TLV(t) && body, then END_EDP_TLV: tlv.h 149-159. *)
Definition edp_tlv (t : Z) (body : enc -> option enc) (e : enc) : option enc :=
  let tlv := zlen (out e) in
  let? e1 := (push8 153 &&& push8 t &&& push16 0 &&& body) e in
  Some (patch_enc (tlv + 2) (be16 (zlen (out e1) - tlv)) e1).

(** START_LLDP_TLV(t) && body, then END_LLDP_TLV: tlv.h 130-140.  The length
    is or-ed into the low 9 bits of the header word. *)
Definition lldp_tlv (t : Z) (body : enc -> option enc) (e : enc) : option enc :=
  let tlv := zlen (out e) in
  let? e1 := (push16 (Z.shiftl t 9) &&& body) e in
  let w := de16 (slice (out e1) tlv 2) in
  Some (patch_enc tlv
          (be16 (Z.lor w (Z.land (zlen (out e1) - (tlv + 2)) 511))) e1).

(** ** Reading (tlv.h 66-112): a position and the variable [length] (bytes left). *)
Record cur := mkCur { pos : Z; len : Z }.

(** SKIP(b), tlv.h 106-112. *)
Definition SKIP (n : Z) (c : cur) : dres cur :=
  if n <=? len c then DOk (mkCur (pos c + n) (len c - n)) else DFail.

(** GRAB_UINT8/16/32, tlv.h 66-77. *)
Definition GRAB (n : Z) (buf : list Z) (c : cur) : dres (list Z * cur) :=
  if n <=? len c then
    let* b := rdn buf (pos c) n in
    DOk (b, mkCur (pos c + n) (len c - n))
  else DFail.
(** GRAB_UINT8, tlv.h 75. *)
Definition GRAB_UINT8 (buf : list Z) (c : cur) : dres (Z * cur) :=
  let* (b, c') := GRAB 1 buf c in DOk (nth 0 b 0, c').
(** GRAB_UINT16, tlv.h 76. *)
Definition GRAB_UINT16 (buf : list Z) (c : cur) : dres (Z * cur) :=
  let* (b, c') := GRAB 2 buf c in DOk (de16 b, c').
(** GRAB_UINT32, tlv.h 77. *)
Definition GRAB_UINT32 (buf : list Z) (c : cur) : dres (Z * cur) :=
  let* (b, c') := GRAB 4 buf c in DOk (de32 b, c').
(** GRAB_BYTES and GRAB_STRING, tlv.h 78-96. *)
Definition GRAB_BYTES (n : Z) (buf : list Z) (c : cur) : dres (list Z * cur) :=
  GRAB n buf c.

(** GRAB_CDP_TLV / GRAB_FDP_TLV, tlv.h 124-128, 176-180: the announced length
    is a uint16_t from which 4 is subtracted (with wrap). *)
Definition GRAB_CDP_TLV (buf : list Z) (c : cur) : dres (Z * Z * cur) :=
  let* (t, c1) := GRAB_UINT16 buf c in
  let* (l, c2) := GRAB_UINT16 buf c1 in
  DOk (t, (l - 4) mod 65536, c2).

(** GRAB_EDP_TLV, tlv.h 160-164: the marker byte is skipped unchecked. *)
Definition GRAB_EDP_TLV (buf : list Z) (c : cur) : dres (Z * Z * cur) :=
  let* c0 := SKIP 1 c in
  let* (t, c1) := GRAB_UINT8 buf c0 in
  let* (l, c2) := GRAB_UINT16 buf c1 in
  DOk (t, (l - 4) mod 65536, c2).

(** GRAB_LLDP_TLV, tlv.h 141-147: the two header bytes are copied before the
    check that they are inside the frame. *)
Definition GRAB_LLDP_TLV (buf : list Z) (c : cur) : dres (Z * Z * cur) :=
  let* b := rdn buf (pos c) 2 in
  let w := de16 b in
  let* c1 := SKIP 2 c in
  DOk (Z.shiftr w 9, Z.land w 511, c1).

(** tlv_str_copy, tlv.c 92-103. *)
Definition tlv_str_copy (buf : list Z) (p l : Z) : dres (list Z) :=
  let srclen := Z.min l (TLV_LEN - 1) in
  let* b := rdn buf p srclen in
  strnvis (srclen * 4 + 1) (Z.lor VIS_SAFE VIS_OCTAL) (cstr b).

(** The loop over the capability letters, tlv.c 53-56, 111-114. *)
Fixpoint cap_letters (cap : Z) (bit : Z) (letters : list Z) : list Z :=
  match letters with
  | [] => []
  | c :: r => (if has cap bit then [c] else []) ++ cap_letters cap (2 * bit) r
  end.
(** tlv_str_cap, tlv.c 105-116. *)
Definition tlv_str_cap (cap : Z) : list Z := cap_letters cap 1 CAP_STRING.

(** tlv_str_addr, tlv.c 118-155: [DOk None] is a NULL result (inet_ntop and
    asprintf are assumed to succeed). *)
Definition tlv_str_addr (type : Z) (buf : list Z) (p l : Z) : dres (option (list Z)) :=
  if type =? PEER_ADDR_INET4 then
    if l =? 4 then let* b := rdn buf p 4 in DOk (Some (inet_ntop4 b)) else DOk None
  else if type =? PEER_ADDR_INET6 then
    if l =? 16 then let* b := rdn buf p 16 in DOk (Some (inet_ntop6 b)) else DOk None
  else if type =? PEER_ADDR_802 then
    if l =? 6 then let* b := rdn buf p 6 in DOk (Some (mac_str b)) else DOk None
  else DOk None.

(** The string branch of tlv_value_str, tlv.c 37-49: escaped value. *)
Definition tlv_value_vis (buf : list Z) (p l : Z) : dres (list Z) :=
  let srclen := Z.min l (TLV_LEN - 1) in
  let* b := rdn buf p srclen in
  strnvis (srclen * 4 + 1)
    (Z.lor VIS_NL (Z.lor VIS_TAB (Z.lor VIS_GLOB VIS_OCTAL))) (cstr b).

(** tlv_value_str for PEER_HOSTNAME and PEER_PORTNAME, tlv.c 28-90 (the
    address cases are never used by the decoders). *)
Definition tlv_value_str (p : peers) (type l : Z) (buf : list Z) (ps : Z) : dres peers :=
  match pget p type with
  | Some _ => DOk p
  | None =>
      let* s := tlv_value_vis buf ps l in
      DOk (upd p (Z.to_nat type) (Some s))
  end.

(** tlv_value_str for PEER_CAP, tlv.c 50-57: the value is the host-order
    variable [cap]. *)
Definition tlv_value_cap (p : peers) (cap : Z) : peers :=
  match pget p PEER_CAP with
  | Some _ => p
  | None => upd p (Z.to_nat PEER_CAP) (Some (tlv_str_cap cap))
  end.

(** DECODE_STRING(m, t, b), tlv.h 98-105. *)
Definition DECODE_STRING (p : peers) (type l : Z) (buf : list Z) (c : cur)
  : dres (peers * cur) :=
  if l <=? len c then
    let* p' := tlv_value_str p type l buf (pos c) in
    DOk (p', mkCur (pos c + l) (len c - l))
  else DFail.
