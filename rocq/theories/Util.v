(** Interface bookkeeping of /repo/src/util.c used by the child process:
    neighbour table entries, automatically enabled protocols, interface
    descriptions and port name abbreviation. *)
From Verif Require Import Base Types Tlv.

(** struct parent_msg as an element of the neighbour table, common.h 279-295.
    [q_id] identifies the allocation (the pointer). *)
Record entry := mkEnt {
  q_id : Z;
  q_index : Z;
  q_name : list Z;
  q_proto : Z;
  q_received : Z;
  q_len : Z;
  q_msg : list Z;           (* the 1518-byte buffer *)
  q_ttl : Z;
  q_peer : peers;
  q_lock : Z
}.
(** The first 12 bytes of the frame: destination and source; the source alone
    (child.c 350-358, util.c 401). *)
Definition q_dst (e : entry) : list Z := slice (q_msg e) 0 6.
(** The source address, util.c 401. *)
Definition q_src (e : entry) : list Z := slice (q_msg e) 6 6.

(** Assignments through a struct netif pointer (common.h 113-149); helpers. *)
Definition set_protos (v : Z) (n : netif) : netif :=
  mkNetif (nf_index n) (nf_name n) (nf_description n) (nf_hwaddr n) (nf_mtu n) (nf_duplex n)
    (nf_autoneg_supported n) (nf_autoneg_enabled n) (nf_autoneg_pmd n) (nf_mau n)
    (nf_ipaddr4 n) (nf_ipaddr6 n) (nf_argv n) (nf_type n) (nf_child n) (nf_bonding_mode n)
    (nf_lacp_index n) (nf_vlan_id n) (nf_vlan_parent n) v (nf_update n)
    (nf_parent n) (nf_subif n) (nf_link_event n) (nf_device_identified n) (nf_device_name n).
(** As above, field update. *)
Definition set_update (v : Z) (n : netif) : netif :=
  mkNetif (nf_index n) (nf_name n) (nf_description n) (nf_hwaddr n) (nf_mtu n) (nf_duplex n)
    (nf_autoneg_supported n) (nf_autoneg_enabled n) (nf_autoneg_pmd n) (nf_mau n)
    (nf_ipaddr4 n) (nf_ipaddr6 n) (nf_argv n) (nf_type n) (nf_child n) (nf_bonding_mode n)
    (nf_lacp_index n) (nf_vlan_id n) (nf_vlan_parent n) (nf_protos n) v
    (nf_parent n) (nf_subif n) (nf_link_event n) (nf_device_identified n) (nf_device_name n).
(** As above, field link_event. *)
Definition set_link_event (v : Z) (n : netif) : netif :=
  mkNetif (nf_index n) (nf_name n) (nf_description n) (nf_hwaddr n) (nf_mtu n) (nf_duplex n)
    (nf_autoneg_supported n) (nf_autoneg_enabled n) (nf_autoneg_pmd n) (nf_mau n)
    (nf_ipaddr4 n) (nf_ipaddr6 n) (nf_argv n) (nf_type n) (nf_child n) (nf_bonding_mode n)
    (nf_lacp_index n) (nf_vlan_id n) (nf_vlan_parent n) (nf_protos n) (nf_update n)
    (nf_parent n) (nf_subif n) v (nf_device_identified n) (nf_device_name n).
(** "netif->field = ..." for the interface with index [i] (the first such table
    element; indices are unique, C47). *)
Fixpoint nf_assign (f : netif -> netif) (i : Z) (nfs : list netif) : list netif :=
  match nfs with
  | [] => []
  | n :: nfs' => if nf_index n =? i then f n :: nfs' else n :: nf_assign f i nfs'
  end.

(** netif_protos, util.c 360-372: the value stored in netif->protos (a uint8_t). *)
Definition netif_protos (n : netif) (nfs : list netif) (q : list entry) : Z :=
  fold_left (fun acc s =>
    fold_left (fun acc e =>
      if nf_index s =? q_index e then Z.lor acc (Z.shiftl 1 (q_proto e)) else acc) q acc)
    (subif_each n nfs) 0 mod 256.

(** strstr(s, p) == s and strcasestr(s, p) == s: [p] is a prefix of [s];
    util.c 450, 457. *)
Fixpoint prefix (p s : list Z) : bool :=
  match p, s with
  | [], _ => true
  | a :: p', b :: s' => (a =? b) && prefix p' s'
  | _, _ => false
  end.
(** tolower(3) on one byte, as in strcasestr(3), util.c 457. *)
Definition lower (b : Z) : Z := if (65 <=? b) && (b <=? 90) then b + 32 else b.
(** portname_abbr, util.c 442-461: memmove of the rest behind the first two
    (three) characters. *)
Definition portname_abbr (s : list Z) : list Z :=
  if prefix (bs "FastEthernet") s then firstn 2 s ++ skipn 12 s
  else if prefix (bs "GigabitEthernet") s then firstn 2 s ++ skipn 15 s
  else if prefix (bs "TenGigabitEthernet") s then firstn 2 s ++ skipn 18 s
  else if prefix (bs "ethernet") (map lower s) then firstn 3 s ++ skipn 8 s
  else s.

(** Everything before the first dot, "peer[strcspn(peer, ".")] = 0",
    util.c 391. *)
Fixpoint upto_dot (l : list Z) : list Z :=
  match l with
  | [] => []
  | b :: l' => if b =? 46 then [] else b :: upto_dot l'
  end.
(** The scan of netif_descr, util.c 386-404: first host name, first suffix, last
    source address, number of peers (uint16_t). *)
Record dscan := mkScan { ds_peer : option (list Z); ds_suffix : option (list Z);
                         ds_paddr : list Z; ds_peers : Z }.
(** The body of that loop, util.c 387-403. *)
Definition descr_step (index slot : Z) (d : dscan) (e : entry) : dscan :=
  if negb (index =? q_index e) then d
  else
    let peer := match ds_peer d, nth (Z.to_nat PEER_HOSTNAME) (q_peer e) None with
                | None, Some h => Some (upto_dot h)
                | p, _ => p
                end in
    let suffix := match ds_suffix d, nth (Z.to_nat slot) (q_peer e) None with
                  | None, Some s => Some s
                  | s, _ => s
                  end in
    if beq (ds_paddr d) (q_src e) then mkScan peer suffix (ds_paddr d) (ds_peers d)
    else mkScan peer suffix (q_src e) ((ds_peers d + 1) mod 65536).
(** The whole loop, util.c 386-404. *)
Definition descr_scan (opts index : Z) (q : list entry) : dscan :=
  let slot := if has opts OPT_USEDESCR then PEER_PORTDESCR else PEER_PORTNAME in
  fold_left (descr_step index slot) q (mkScan None None [0; 0; 0; 0; 0; 0] 0).
(** The text, util.c 406-425; snprintf into 64 bytes keeps 63 characters. *)
Definition descr_text (d : dscan) : list Z :=
  if ds_peers d =? 0 then []
  else if ds_peers d =? 1 then
    match ds_peer d, ds_suffix d with
    | Some p, Some s => firstn 63 (bs "connected to " ++ p ++ bs " (" ++ portname_abbr s ++ bs ")")
    | Some p, None => firstn 63 (bs "connected to " ++ p)
    | None, _ => []
    end
  else firstn 63 (bs "connected to " ++ dec (ds_peers d) ++ bs " peers").
(** netif_descr, util.c 374-440: the text requested from the parent, [None] when
    it is the one already set.  netif->description itself is not changed. *)
Definition netif_descr (opts : Z) (n : netif) (q : list entry) : option (list Z) :=
  let t := descr_text (descr_scan opts (nf_index n) q) in
  if beq t (nf_description n) then None else Some t.
