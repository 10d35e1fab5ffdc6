(** Model of /repo/src/proto/edp.c. *)
From Verif Require Import Base Vis Tlv Types Chksum Checks Msg.

(** TLV types, edp.h 38-42. *)
Definition EDP_TYPE_NULL := 0.
Definition EDP_TYPE_DISPLAY := 1. (* proto/edp.h 39 *)
Definition EDP_TYPE_INFO := 2. (* proto/edp.h 40 *)
Definition EDP_TYPE_VLAN := 5. (* proto/edp.h 41 *)
(** EDP_VLAN_FLAG_IP, edp.h 44. *)
Definition EDP_VLAN_FLAG_IP := 128.

(** One VLAN TLV of the loop, edp.c 130-140 (note: it carries the name of the
    physical interface). *)
Definition edp_vlan_tlv (n v : netif) : enc -> option enc :=
  edp_tlv EDP_TYPE_VLAN
    (push8 (if addr_set (nf_ipaddr4 v) then EDP_VLAN_FLAG_IP else 0)
     &&& push8 0 &&& push16 (nf_vlan_id v) &&& push32 0
     &&& push (nf_ipaddr4 v) &&& push (nf_name n)).

(** The while loop over the VLAN interfaces, edp.c 121-141. *)
Fixpoint edp_vlans (n : netif) (vs : list netif) (e : enc) : option enc :=
  match vs with
  | [] => Some e
  | v :: vs' => let? e1 := edp_vlan_tlv n v e in edp_vlans n vs' e1
  end.

(** The edp header with its fields, edp.c 69-72, 151-155 and edp.h 27-35. *)
Definition edp_header (length : Z) (chk : list Z) (seq : Z) (hwaddr : list Z) : list Z :=
  [1; 0] ++ be16 length ++ chk ++ be16 seq ++ [0; 0] ++ hwaddr.

(** edp_packet, edp.c 26-163.  [count] is the static sequence counter before
    the call (the new value is [(count + 1) mod 65536]); [par] is
    netif->parent. *)
Definition edp_packet (opts count : Z) (n : netif) (par : option netif)
  (nfs : list netif) (si : sysinfo) : option (list Z) :=
  let parent := match par with Some p => p | None => n end in
  let hwaddr := if has opts OPT_CHASSIS_IF then nf_hwaddr n else si_hwaddr si in
  let hdr0 := repeat 0 14 ++ [LLC_SNAP_LSAP; LLC_SNAP_LSAP; LLC_UI] ++ LLC_ORG_EXTREME
                ++ be16 LLC_PID_EDP ++ repeat 0 16 in
  let e0 := mkEnc hdr0 (ETHER_MAX_LEN - zlen hdr0) in
  let? e :=
    (edp_tlv EDP_TYPE_DISPLAY (push (si_hostname si ++ [0]))
     &&& edp_tlv EDP_TYPE_INFO
          (push16 0 &&& push16 (nf_index n) &&& push16 0 &&& push32 0 &&& push16 0
           &&& push8 (nth 0 (si_uts_rel si) 0) &&& push8 (nth 1 (si_uts_rel si) 0)
           &&& push8 (nth 2 (si_uts_rel si) 0) &&& push8 0
           &&& push16 65535 &&& push16 0 &&& push32 0 &&& push32 0 &&& push32 0)
     &&& (if addr_set (nf_ipaddr4 parent) then
            edp_tlv EDP_TYPE_VLAN
              (push8 EDP_VLAN_FLAG_IP &&& push8 0 &&& push16 0 &&& push32 0
               &&& push (nf_ipaddr4 parent) &&& push (nf_name n) &&& push8 0)
          else nopush)
     &&& edp_vlans n (vlan_attached opts n parent nfs)
     &&& edp_tlv EDP_TYPE_NULL nopush) e0 in
  let elen := zlen (out e) - 22 in
  let p1 := patch 22 (edp_header elen [0; 0] count hwaddr) (out e) in
  let p2 := patch 22
              (edp_header elen (le16 (my_chksum (skipn 22 p1) false)) count hwaddr) p1 in
  Some (patch 0 (EDP_MULTICAST_ADDR ++ nf_hwaddr n ++ be16 (zlen (out e) - 14)) p2).

(** The while loop of edp_decode, edp.c 230-252. *)
Fixpoint edp_loop (fuel : nat) (c : dctx) (k : cur) (s : dst) : dres (Z * dst) :=
  match fuel with
  | O => DLoop
  | S f =>
      if len k =? 0 then DOk (pos k, s)
      else
        let* (t, l, k1) := GRAB_EDP_TLV (d_buf c) k in
        if t =? EDP_TYPE_DISPLAY then
          let* (p', k2) := DECODE_STRING (s_peer s) PEER_HOSTNAME l (d_buf c) k1 in
          edp_loop f c k2 (set_peer s p')
        else
          let* k2 := SKIP l k1 in
          edp_loop f c k2 s
  end.

(** edp_decode, edp.c 193-256. *)
Definition edp_decode (c : dctx) (s : dst) : dres (Z * dst) :=
  let* r := edp_check (d_buf c) (d_len c) in
  match r with
  | None => DAbort
  | Some p =>
      let l := szsub (d_len c) p in
      if l <? 16 then DFail
      else
        let* h := rdn (d_buf c) p 16 in
        if negb (nth 0 h 0 =? 1) then DFail
        else
          edp_loop (S (Z.to_nat (d_len c))) c (mkCur (p + 16) (szsub l 16))
            (set_ttl s LADVD_TTL)
  end.
