(** Specification of what is advertised: for every protocol the frame as a
    function of the interface and system data.  Independent of the encoder
    model; only the data records of Types.v are used. *)
From Verif Require Import Base Types Spec.

(** An address that is not all zero. *)
Definition is_set (a : list Z) : bool := existsb (fun b => 0 <? b) a.
(** The address records of an interface: IPv4 if set, IPv6 if set. *)
Definition ip_recs (n : netif) : list addr_rec :=
  (if is_set (nf_ipaddr4 n) then [(1, [204], nf_ipaddr4 n)] else []) ++
  (if is_set (nf_ipaddr6 n)
   then [(2, [170; 170; 3; 0; 0; 0; 134; 221], nf_ipaddr6 n)] else []).
Definition addr_tlv (t : Z) (n : netif) : list tlv :=
  match ip_recs n with
  | [] => []
  | recs => [(t, U32 (zlen recs) ++ flat_map addr_rec_bytes recs)]
  end.
(** Sum of the values whose capability bit is set. *)
Definition cap_word (tbl : list (Z * Z)) (cap : Z) : Z :=
  fold_right (fun p s => (if Z.testbit cap (fst p) then snd p else 0) + s) 0 tbl.
(** Optional part. *)
Definition when {A} (b : bool) (l : list A) : list A := if b then l else [].
(** An interface an advertisement is about is represented by its parent
    (aggregate) where it has one. *)
Definition up (n : netif) (par : option netif) : netif :=
  match par with Some p => p | None => n end.
(** Interfaces seen by the VLAN loops: those named on the command line, or
    else all that are not members; aggregates without members are left out. *)
Definition visible (opts : Z) (v : netif) : bool :=
  (if Z.testbit opts 5 then negb (nf_argv v =? 0) else nf_child v =? 0)
  && negb ((10 <? nf_type v) && match nf_subif v with None => true | _ => false end).
(** VLAN interfaces on top of the interface or its parent. *)
Definition vlans_of (opts : Z) (n p : netif) (nfs : list netif) : list netif :=
  filter (fun v => visible opts v && (nf_type v =? -1)
                   && ((nf_vlan_parent v =? nf_index n) || (nf_vlan_parent v =? nf_index p)))
         nfs.

(** 802.3 frame with LLC/SNAP header. *)
Definition snap (dst src org : list Z) (pid : Z) (payload : list Z) : list Z :=
  dst ++ src ++ U16 (8 + zlen payload) ++ [170; 170; 3] ++ org ++ U16 pid ++ payload.
(** The checksum that makes the sum of [a ++ chk ++ b] all ones. *)
Definition chk_of (cisco : bool) (a b : list Z) : list Z :=
  U16 (65535 - inet_sum cisco (a ++ [0; 0] ++ b)).

(** ** CDP *)
Definition cdp_content (n p : netif) (mgmt : option netif) (si : sysinfo) : list tlv :=
  [(1, si_hostname si); (5, si_uts_str si); (6, si_platform si); (3, nf_name n);
   (4, U32 (if si_cap_active si =? 4 then 16
            else cap_word [(1, 2); (3, 1); (4, 8)] (si_cap_active si)))]
  ++ addr_tlv 2 p
  ++ (match mgmt with Some m => addr_tlv 22 m | None => [] end)
  ++ when (negb (nf_mtu n =? 0)) [(17, U32 (nf_mtu n))]
  ++ when (negb (nf_duplex n =? -1)) [(11, [nf_duplex n mod 256])]
  ++ when (0 <? zlen (si_location si)) [(23, 0 :: si_location si)]
  ++ [(20, si_hostname si)].
Definition cdp_advert (version : Z) (n p : netif) (mgmt : option netif) (si : sysinfo)
  : list Z :=
  let tlvs := flat_map cdp_bytes (cdp_content n p mgmt si) in
  snap [1; 0; 12; 204; 204; 204] (nf_hwaddr n) [0; 0; 12] 8192
    ([version; 180] ++ chk_of true [version; 180] tlvs ++ tlvs).

(** ** FDP *)
Definition fdp_content (n m : netif) (si : sysinfo) : list tlv :=
  [(1, si_hostname si); (3, nf_name n);
   (4, if Z.testbit (si_cap_active si) 3 then bs "Router"
       else if Z.testbit (si_cap_active si) 4 then bs "Switch"
       else if Z.testbit (si_cap_active si) 1 then bs "Bridge"
       else bs "Host");
   (5, si_uts_str si); (6, si_platform si)]
  ++ addr_tlv 2 m.
Definition fdp_advert (n m : netif) (si : sysinfo) : list Z :=
  let tlvs := flat_map cdp_bytes (fdp_content n m si) in
  snap [1; 224; 82; 204; 204; 204] (nf_hwaddr n) [0; 224; 82] 8192
    ([1; 180] ++ chk_of false [1; 180] tlvs ++ tlvs).

(** ** EDP *)
Definition edp_content (opts : Z) (n p : netif) (nfs : list netif) (si : sysinfo)
  : list tlv :=
  [(1, si_hostname si ++ [0]);
   (2, [0; 0] ++ U16 (nf_index n mod 65536) ++ repeat 0 8 ++ si_uts_rel si ++ [0]
         ++ [255; 255] ++ repeat 0 14)]
  ++ when (is_set (nf_ipaddr4 p))
       [(5, 128 :: repeat 0 7 ++ nf_ipaddr4 p ++ nf_name n ++ [0])]
  ++ map (fun v => (5, [if is_set (nf_ipaddr4 v) then 128 else 0; 0] ++ U16 (nf_vlan_id v)
                         ++ repeat 0 4 ++ nf_ipaddr4 v ++ nf_name n))
       (vlans_of opts n p nfs)
  ++ [(0, [])].
Definition edp_advert (opts count : Z) (n p : netif) (nfs : list netif) (si : sysinfo)
  : list Z :=
  let tlvs := flat_map (fun x => edp_bytes (153, x)) (edp_content opts n p nfs si) in
  let chassis := if Z.testbit opts 13 then nf_hwaddr n else si_hwaddr si in
  let a := [1; 0] ++ U16 (16 + zlen tlvs) in
  let b := U16 count ++ [0; 0] ++ chassis ++ tlvs in
  snap [0; 224; 43; 0; 0; 0] (nf_hwaddr n) [0; 224; 43] 187 (a ++ chk_of false a b ++ b).

(** ** NDP *)
Definition ndp_advert (n p : netif) (si : sysinfo) : list Z :=
  snap [1; 0; 129; 0; 1; 0] (nf_hwaddr n) [0; 0; 129] 418
    (nf_ipaddr4 p ++ [0; 0; nf_index n mod 256; 1; 12; 3; si_physif_count si mod 256]
       ++ repeat 0 31).

(** ** LLDP *)
Definition lldp_capword (host : bool) (cap : Z) : Z :=
  if host then 128
  else (if Z.testbit cap 1 || Z.testbit cap 4 then 4 else 0)
       + cap_word [(3, 16); (5, 8)] cap.
Definition mgmt_tlv (af : Z) (addr : list Z) (index : Z) : tlv :=
  (8, [1 + zlen addr; af] ++ addr ++ [2] ++ U32 index ++ [0]).
Definition org_tlv (oui : list Z) (sub : Z) (body : list Z) : tlv := (127, oui ++ [sub] ++ body).
Definition port_descr (opts : Z) (n p : netif) : list Z :=
  if Z.testbit opts 11 then nf_device_name n
  else if 0 <? zlen (nf_description n) then nf_description n
  else if 0 <? zlen (nf_description p) then nf_description p
  else nf_device_name n.
Definition lldp_content (opts : Z) (n p m : netif) (nfs : list netif) (si : sysinfo)
  : list tlv :=
  let host := si_cap si =? 4 in
  let descr := port_descr opts n p in
  let inv sub s := when (0 <? zlen s) [org_tlv [0; 18; 187] sub s] in
  when (0 <? zlen descr) [(4, descr)]
  ++ [(5, si_hostname si); (6, si_uts_str si);
      (7, U16 (lldp_capword host (si_cap si)) ++ U16 (lldp_capword host (si_cap_active si)))]
  ++ when (is_set (nf_ipaddr4 m)) [mgmt_tlv 1 (nf_ipaddr4 m) (nf_index m)]
  ++ when (is_set (nf_ipaddr6 m)) [mgmt_tlv 2 (nf_ipaddr6 m) (nf_index m)]
  ++ [mgmt_tlv 6 (nf_hwaddr m) (nf_index m)]
  ++ map (fun v => org_tlv [0; 128; 194] 3 (U16 (nf_vlan_id v) ++ [zlen (nf_name v)] ++ nf_name v))
       (vlans_of opts n p nfs)
  ++ when (negb (nf_autoneg_supported n =? -1))
       [org_tlv [0; 18; 15] 1
          ([(nf_autoneg_supported n + 2 * nf_autoneg_enabled n) mod 256]
             ++ U16 (nf_autoneg_pmd n) ++ U16 (nf_mau n))]
  ++ when (nf_bonding_mode p =? 1) [org_tlv [0; 18; 15] 3 ([3] ++ U32 (nf_lacp_index n))]
  ++ when (negb (nf_mtu n =? 0)) [org_tlv [0; 18; 15] 4 (U16 ((nf_mtu n + 22) mod 65536))]
  ++ [org_tlv [0; 18; 187] 1
        (U16 (si_cap_lldpmed si) ++ [si_lldpmed_devtype si mod 256])]
  ++ when ((zlen (si_country si) =? 2) && (0 <? zlen (si_location si)))
       [org_tlv [0; 18; 187] 3
          ([2; (5 + zlen (si_location si)) mod 256; 2] ++ si_country si
             ++ [22; zlen (si_location si)] ++ si_location si)]
  ++ inv 5 (hi_hw (si_hinv si)) ++ inv 6 (hi_fw (si_hinv si)) ++ inv 7 (hi_sw (si_hinv si))
  ++ inv 8 (hi_serial (si_hinv si)) ++ inv 9 (hi_manuf (si_hinv si))
  ++ inv 10 (hi_model (si_hinv si)) ++ inv 11 (hi_asset (si_hinv si)).
Definition lldp_advert (opts : Z) (n p m : netif) (nfs : list netif) (si : sysinfo)
  : list Z :=
  let chassis := if Z.testbit opts 13 then nf_hwaddr n else si_hwaddr si in
  [1; 128; 194; 0; 0; 14] ++ nf_hwaddr n ++ U16 35020
  ++ flat_map lldp_bytes
       ([(1, 4 :: chassis); (2, 5 :: nf_name n); (3, U16 180)]
          ++ lldp_content opts n p m nfs si ++ [(0, [])]).

(** ** Any protocol: 0 LLDP, 1 CDP, 2 EDP, 3 FDP, 4 NDP, 5 CDP version 1 *)
Definition advert (p opts count : Z) (n : netif) (par mgmt : option netif)
  (nfs : list netif) (si : sysinfo) : list Z :=
  let q := up n par in
  match p with
  | 0 => lldp_advert opts n q (up q mgmt) nfs si
  | 1 => cdp_advert 2 n q mgmt si
  | 2 => edp_advert opts count n q nfs si
  | 3 => fdp_advert n (up q mgmt) si
  | 4 => ndp_advert n q si
  | _ => cdp_advert 1 n q mgmt si
  end.
(** All data fit the fields of their C structures. *)
Definition inputs_ok (count : Z) (n : netif) (par mgmt : option netif) (nfs : list netif)
  (si : sysinfo) : Prop :=
  netif_ok n /\ (forall q, par = Some q -> netif_ok q) /\ (forall m, mgmt = Some m -> netif_ok m)
  /\ (forall v, In v nfs -> netif_ok v) /\ sysinfo_ok si /\ 0 <= count < 65536.

(** A frame whose length fields are all true: the 802.3 length counts what
    follows it ([snap]) and the payload is a fixed header followed by TLVs,
    each with its true length, up to the very end. *)
Inductive tiled : Z -> list Z -> Prop :=
| tiled_lldp src tlvs :
    zlen src = 6 -> Forall lldp_fits tlvs ->
    tiled 0 ([1; 128; 194; 0; 0; 14] ++ src ++ U16 35020 ++ flat_map lldp_bytes tlvs)
| tiled_cdp p src v ttl chk tlvs :
    p = 1 /\ v = 2 \/ p = 5 /\ v = 1 ->
    zlen src = 6 -> zlen chk = 2 -> Forall cdp_fits tlvs ->
    tiled p (snap [1; 0; 12; 204; 204; 204] src [0; 0; 12] 8192
               ([v; ttl] ++ chk ++ flat_map cdp_bytes tlvs))
| tiled_edp src chk seq chassis tlvs :
    zlen src = 6 -> zlen chk = 2 -> zlen seq = 2 -> zlen chassis = 6 -> Forall edp_fits tlvs ->
    (* the EDP header has a length field of its own *)
    let size := 16 + zlen (flat_map edp_bytes tlvs) in
    tiled 2 (snap [0; 224; 43; 0; 0; 0] src [0; 224; 43] 187
               ([1; 0] ++ U16 size ++ chk ++ seq ++ [0; 0] ++ chassis ++ flat_map edp_bytes tlvs))
| tiled_fdp src ttl chk tlvs :
    zlen src = 6 -> zlen chk = 2 -> Forall cdp_fits tlvs ->
    tiled 3 (snap [1; 224; 82; 204; 204; 204] src [0; 224; 82] 8192
               ([1; ttl] ++ chk ++ flat_map cdp_bytes tlvs))
| tiled_ndp src body :
    zlen src = 6 -> zlen body = 42 ->
    tiled 4 (snap [1; 0; 129; 0; 1; 0] src [0; 0; 129] 418 body).

(** What a receiver sums to verify the checksum: the protocol header and
    everything behind it. *)
Definition summed (f : list Z) : list Z := skipn 22 f.

(** A chain of aggregate members: each interface in the table and named by the
    link of the one before. *)
Inductive member_chain (nfs : list netif) : option Z -> list netif -> Prop :=
| chain_end : member_chain nfs None []
| chain_next i m ms :
    In m nfs -> nf_index m = i -> member_chain nfs (nf_subif m) ms ->
    member_chain nfs (Some i) (m :: ms).
