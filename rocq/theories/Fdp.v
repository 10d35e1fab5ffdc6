(** Model of /repo/src/proto/fdp.c. *)
From Verif Require Import Base Vis Tlv Types Chksum Checks Msg Cdp.

(** TLV types, fdp.h 35-40. *)
Definition FDP_TYPE_DEVICE_ID := 1.
Definition FDP_TYPE_ADDRESS := 2. (* proto/fdp.h 36 *)
Definition FDP_TYPE_PORT_ID := 3. (* proto/fdp.h 37 *)
Definition FDP_TYPE_CAPABILITIES := 4. (* proto/fdp.h 38 *)
Definition FDP_TYPE_SW_VERSION := 5. (* proto/fdp.h 39 *)
Definition FDP_TYPE_PLATFORM := 6. (* proto/fdp.h 40 *)

(** cap_str, fdp.c 103-111. *)
Definition fdp_cap_str (cap_active : Z) : list Z :=
  if has cap_active CAP_ROUTER then bs "Router"
  else if has cap_active CAP_SWITCH then bs "Switch"
  else if has cap_active CAP_BRIDGE then bs "Bridge"
  else bs "Host".

(** fdp_packet, fdp.c 26-190. *)
Definition fdp_packet (n : netif) (par mgmt : option netif) (si : sysinfo)
  : option (list Z) :=
  let parent := match par with Some p => p | None => n end in
  let mg := match mgmt with Some m => m | None => parent end in
  let hdr0 := repeat 0 14 ++ [LLC_SNAP_LSAP; LLC_SNAP_LSAP; LLC_UI] ++ LLC_ORG_FOUNDRY
                ++ be16 LLC_PID_FDP ++ [1; LADVD_TTL; 0; 0] in
  let e0 := mkEnc hdr0 (ETHER_MAX_LEN - zlen hdr0) in
  let? e :=
    (cdp_tlv FDP_TYPE_DEVICE_ID (push (si_hostname si))
     &&& cdp_tlv FDP_TYPE_PORT_ID (push (nf_name n))
     &&& cdp_tlv FDP_TYPE_CAPABILITIES (push (fdp_cap_str (si_cap_active si)))
     &&& cdp_tlv FDP_TYPE_SW_VERSION (push (si_uts_str si))
     &&& cdp_tlv FDP_TYPE_PLATFORM (push (si_platform si))
     &&& cdp_addr_tlv FDP_TYPE_ADDRESS mg) e0 in
  let p1 := patch 24 (le16 (my_chksum (skipn 22 (out e)) false)) (out e) in
  Some (patch 0 (FDP_MULTICAST_ADDR ++ nf_hwaddr n ++ be16 (zlen (out e) - 14)) p1).

(** The string comparisons of the capability TLV, fdp.c 283-290. *)
Definition fdp_cap_decode (s : list Z) : Z :=
  if beq s (bs "Router") then CAP_ROUTER
  else if beq s (bs "Switch") then CAP_SWITCH
  else if beq s (bs "Bridge") then CAP_BRIDGE
  else if beq s (bs "Host") then CAP_HOST
  else 0.

(** The while loop of fdp_decode, fdp.c 259-303; [cap] accumulates over the
    capability TLVs. *)
Fixpoint fdp_loop (fuel : nat) (c : dctx) (cap : Z) (k : cur) (s : dst)
  : dres (Z * dst) :=
  match fuel with
  | O => DLoop
  | S f =>
      if len k =? 0 then DOk (pos k, s)
      else
        let* (t, l, k1) := GRAB_CDP_TLV (d_buf c) k in
        if t =? FDP_TYPE_DEVICE_ID then
          let* (p', k2) := DECODE_STRING (s_peer s) PEER_HOSTNAME l (d_buf c) k1 in
          fdp_loop f c cap k2 (set_peer s p')
        else if t =? FDP_TYPE_PORT_ID then
          let* (p', k2) := DECODE_STRING (s_peer s) PEER_PORTNAME l (d_buf c) k1 in
          fdp_loop f c cap k2 (set_peer s p')
        else if t =? FDP_TYPE_CAPABILITIES then
          let* (b, k2) := GRAB_BYTES l (d_buf c) k1 in
          let cap' := Z.lor cap (fdp_cap_decode (cstr b)) in
          fdp_loop f c cap' k2 (set_peer s (tlv_value_cap (s_peer s) cap'))
        else
          let* k2 := SKIP l k1 in
          fdp_loop f c cap k2 s
  end.

(** fdp_decode, fdp.c 220-307. *)
Definition fdp_decode (c : dctx) (s : dst) : dres (Z * dst) :=
  let* r := fdp_check (d_buf c) (d_len c) in
  match r with
  | None => DAbort
  | Some p =>
      let l := szsub (d_len c) p in
      if l <? 4 then DFail
      else
        let* h := rdn (d_buf c) p 4 in
        if negb (nth 0 h 0 =? 1) then DFail
        else
          fdp_loop (S (Z.to_nat (d_len c))) c 0 (mkCur (p + 4) (szsub l 4))
            (set_ttl s (nth 1 h 0))
  end.
