(** Model of /repo/src/proto/ndp.c. *)
From Verif Require Import Base Vis Tlv Types Chksum Checks Msg.

(** NDP_PADDING, ndp.c 25-27: 64 - 14 - 8 - 11. *)
Definition NDP_PADDING := 31.

(** ndp_packet, ndp.c 29-81.  seg[2] and links are uint8_t. *)
Definition ndp_packet (n : netif) (par : option netif) (si : sysinfo) : option (list Z) :=
  let parent := match par with Some p => p | None => n end in
  let ndp := nf_ipaddr4 parent ++ [0; 0; nf_index n mod 256] ++ [1; 12; 3]
               ++ [si_physif_count si mod 256] in
  let p0 := repeat 0 14 ++ [LLC_SNAP_LSAP; LLC_SNAP_LSAP; LLC_UI] ++ LLC_ORG_NORTEL
               ++ be16 LLC_PID_NDP_HELLO ++ ndp ++ repeat 0 (Z.to_nat NDP_PADDING) in
  Some (patch 0 (NDP_MULTICAST_ADDR ++ nf_hwaddr n ++ be16 (zlen p0 - 14)) p0).

(** ndp_decode, ndp.c 111-142. *)
Definition ndp_decode (c : dctx) (s : dst) : dres (Z * dst) :=
  let* r := ndp_check (d_buf c) (d_len c) in
  match r with
  | None => DAbort
  | Some p =>
      let l := szsub (d_len c) p in
      if l <? 11 then DFail
      else DOk (p + 11, set_ttl s LADVD_TTL)
  end.
