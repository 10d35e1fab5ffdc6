(** The protocol table, /repo/src/main.h 24-38: decoder and builder by protocol
    number. *)
From Verif Require Import Base Tlv Types Checks Msg Cdp Edp Fdp Ndp Lldp.

(** protos[p].decode, main.h 24-38. *)
Definition proto_decode (p : Z) (c : dctx) (s : dst) : dres (Z * dst) :=
  if p =? PROTO_LLDP then lldp_decode c s
  else if p =? PROTO_CDP then cdp_decode c s
  else if p =? PROTO_EDP then edp_decode c s
  else if p =? PROTO_FDP then fdp_decode c s
  else if p =? PROTO_NDP then ndp_decode c s
  else if p =? PROTO_CDP1 then cdp_decode c s
  else DUB.

(** protos[p].build, main.h 24-38; [edp_count] is the static counter of edp_packet. *)
Definition proto_build (p opts edp_count : Z) (n : netif) (par mgmt : option netif)
  (nfs : list netif) (si : sysinfo) : option (list Z) :=
  if p =? PROTO_LLDP then lldp_packet opts n par mgmt nfs si
  else if p =? PROTO_CDP then cdp_packet p n par mgmt si
  else if p =? PROTO_EDP then edp_packet opts edp_count n par nfs si
  else if p =? PROTO_FDP then fdp_packet n par mgmt si
  else if p =? PROTO_NDP then ndp_packet n par si
  else cdp_packet p n par mgmt si.
