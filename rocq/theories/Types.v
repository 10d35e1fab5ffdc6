(** Data structures of /repo/src/common.h and the interface table iterators of
    /repo/src/util.c. *)
From Verif Require Import Base Tlv.

(** Constants, common.h 96-111 and 205-214. *)
Definition LADVD_TTL := 180.
Definition IFDESCRSIZE := 64. (* common.h 100 *)
Definition NETIF_BONDING_LACP := 1. (* common.h 105 *)
Definition NETIF_BONDING_FAILOVER := 2. (* common.h 106 *)
Definition NETIF_BONDING_OTHER := 3. (* common.h 107 *)
Definition NETIF_CHILD_ACTIVE := 1. (* common.h 108 *)
Definition NETIF_CHILD_BACKUP := 2. (* common.h 109 *)
Definition NETIF_INVALID := -128. (* common.h 205 *)
Definition NETIF_VLAN := -1. (* common.h 206 *)
Definition NETIF_REGULAR := 0. (* common.h 207 *)
Definition NETIF_WIRELESS := 1. (* common.h 208 *)
Definition NETIF_TAP := 2. (* common.h 209 *)
Definition NETIF_PARENT := 10. (* common.h 210 *)
Definition NETIF_TEAMING := 11. (* common.h 211 *)
Definition NETIF_BONDING := 12. (* common.h 212 *)
Definition NETIF_BRIDGE := 13. (* common.h 213 *)
Definition NETIF_OLD := 127. (* common.h 214 *)

(** Option bits, common.h 216-230. *)
Definition OPT_DAEMON := 1.
Definition OPT_SEND := 2. (* common.h 217 *)
Definition OPT_RECV := 4. (* common.h 218 *)
Definition OPT_AUTO := 8. (* common.h 219 *)
Definition OPT_ONCE := 16. (* common.h 220 *)
Definition OPT_ARGV := 32. (* common.h 221 *)
Definition OPT_DEBUG := 64. (* common.h 222 *)
Definition OPT_MNETIF := 128. (* common.h 223 *)
Definition OPT_MADDR := 256. (* common.h 224 *)
Definition OPT_WIRELESS := 512. (* common.h 225 *)
Definition OPT_TAP := 1024. (* common.h 226 *)
Definition OPT_IFDESCR := 2048. (* common.h 227 *)
Definition OPT_USEDESCR := 4096. (* common.h 228 *)
Definition OPT_CHASSIS_IF := 8192. (* common.h 229 *)

(** Protocol numbers, /repo/src/proto/protos.h 29-35. *)
Definition PROTO_LLDP := 0.
Definition PROTO_CDP := 1. (* proto/protos.h 30 *)
Definition PROTO_EDP := 2. (* proto/protos.h 31 *)
Definition PROTO_FDP := 3. (* proto/protos.h 32 *)
Definition PROTO_NDP := 4. (* proto/protos.h 33 *)
Definition PROTO_CDP1 := 5. (* proto/protos.h 34 *)
Definition PROTO_MAX := 6. (* proto/protos.h 35 *)

(** struct netif, common.h 113-149.  Strings are stored without their NUL,
    addresses as their bytes in memory order (4, 16, 6 bytes); the pointers
    [parent] and [subif] are the index of the interface pointed to. *)
Record netif := mkNetif {
  nf_index : Z;
  nf_name : list Z;
  nf_description : list Z;
  nf_hwaddr : list Z;
  nf_mtu : Z;
  nf_duplex : Z;
  nf_autoneg_supported : Z;
  nf_autoneg_enabled : Z;
  nf_autoneg_pmd : Z;
  nf_mau : Z;
  nf_ipaddr4 : list Z;
  nf_ipaddr6 : list Z;
  nf_argv : Z;
  nf_type : Z;
  nf_child : Z;
  nf_bonding_mode : Z;
  nf_lacp_index : Z;
  nf_vlan_id : Z;
  nf_vlan_parent : Z;
  nf_protos : Z;
  nf_update : Z;
  nf_parent : option Z;
  nf_subif : option Z;
  nf_link_event : Z;
  nf_device_identified : Z;
  nf_device_name : list Z
}.

(** struct hinv, common.h 160-168. *)
Record hinv := mkHinv {
  hi_hw : list Z; hi_fw : list Z; hi_sw : list Z; hi_serial : list Z;
  hi_manuf : list Z; hi_model : list Z; hi_asset : list Z
}.

(** struct my_sysinfo, common.h 170-191 (the fields used when building
    packets; uts and maddr/mifname are only used by the probing code). *)
Record sysinfo := mkSysinfo {
  si_uts_str : list Z;
  si_uts_rel : list Z;      (* three bytes *)
  si_platform : list Z;
  si_hostname : list Z;
  si_country : list Z;
  si_location : list Z;
  si_cap : Z;
  si_cap_active : Z;
  si_cap_lldpmed : Z;
  si_lldpmed_devtype : Z;
  si_hwaddr : list Z;
  si_physif_count : Z;
  si_mnetif : option Z;     (* index of the management interface *)
  si_hinv : hinv
}.

(** "addr != 0" and !IN6_IS_ADDR_UNSPECIFIED on the address bytes. *)
Definition addr_set (a : list Z) : bool := existsb (fun b => negb (b =? 0)) a.

(** netif_byindex, /repo/src/util.h 63-74. *)
Definition netif_byindex (nfs : list netif) (i : Z) : option netif :=
  find (fun n => nf_index n =? i) nfs.
(** netif_byname, /repo/src/util.h 76-87. *)
Definition netif_byname (nfs : list netif) (name : list Z) : option netif :=
  find (fun n => beq (nf_name n) name) nfs.
(** netif_byaddr, /repo/src/util.h 89-100. *)
Definition netif_byaddr (nfs : list netif) (a : list Z) : option netif :=
  find (fun n => beq (nf_hwaddr n) a) nfs.

(** The skip conditions of netif_iter, /repo/src/util.c 312-324. *)
Definition iter_skip (opts : Z) (n : netif) : bool :=
  (negb (has opts OPT_ARGV) && negb (nf_child n =? 0))
  || (has opts OPT_ARGV && (nf_argv n =? 0))
  || ((NETIF_PARENT <? nf_type n) && match nf_subif n with None => true | _ => false end).

(** The for loop of netif_iter, /repo/src/util.c 311-327, from position [k]. *)
Fixpoint iter_scan (opts : Z) (l : list netif) (k : nat) : option nat :=
  match l with
  | [] => None
  | n :: l' => if iter_skip opts n then iter_scan opts l' (S k) else Some k
  end.

(** netif_iter, /repo/src/util.c 301-330; an element pointer is its position
    in the TAILQ. *)
Definition netif_iter (opts : Z) (cur : option nat) (nfs : list netif) : option nat :=
  match cur with
  | None => iter_scan opts nfs 0
  | Some k => iter_scan opts (skipn (S k) nfs) (S k)
  end.

(** util.c 301-330 called in a loop.  The pattern "while ((n = netif_iter(n, netifs))
    != NULL)": the elements
    visited, with the loop bounded by [fuel]. *)
Fixpoint netif_loop (fuel : nat) (opts : Z) (cur : option nat) (nfs : list netif)
  : list netif :=
  match fuel with
  | O => []
  | S f =>
      match netif_iter opts cur nfs with
      | None => []
      | Some k =>
          match nth_error nfs k with
          | Some n => n :: netif_loop f opts (Some k) nfs
          | None => []
          end
      end
  end.
(** The whole loop over netifs, util.c 301-330. *)
Definition netif_each (opts : Z) (nfs : list netif) : list netif :=
  netif_loop (S (length nfs)) opts None nfs.

(** subif_iter, /repo/src/util.c 332-349; [nfs] resolves the pointers, which
    are interface indices. *)
Definition subif_iter (sub : option netif) (n : netif) (nfs : list netif)
  : option netif :=
  let deref p := match p with Some i => netif_byindex nfs i | None => None end in
  match sub with
  | None =>
      if NETIF_PARENT <? nf_type n then deref (nf_subif n)
      else if nf_type n <? NETIF_REGULAR then None
      else Some n
  | Some s =>
      if nf_index s =? nf_index n then None else deref (nf_subif s)
  end.

(** util.c 332-349 called in a loop.  The pattern "while ((subif = subif_iter(subif,
    netif)) != NULL)". *)
Fixpoint subif_loop (fuel : nat) (sub : option netif) (n : netif) (nfs : list netif)
  : list netif :=
  match fuel with
  | O => []
  | S f =>
      match subif_iter sub n nfs with
      | None => []
      | Some s => s :: subif_loop f (Some s) n nfs
      end
  end.
(** The whole loop over the subinterfaces, util.c 332-349. *)
Definition subif_each (n : netif) (nfs : list netif) : list netif :=
  subif_loop (S (length nfs)) None n nfs.

(** netif_excluded, /repo/src/util.c 351-358. *)
Definition netif_excluded (n : netif) (excl : list (list Z)) : bool :=
  existsb (fun x => beq (nf_name n) x) excl.

(** The loop over attached VLAN interfaces shared by edp_packet
    (/repo/src/proto/edp.c 121-128) and lldp_packet
    (/repo/src/proto/lldp.c 237-244): the interfaces a TLV is built for. *)
Definition vlan_attached (opts : Z) (n par : netif) (nfs : list netif) : list netif :=
  filter (fun v => (nf_type v =? NETIF_VLAN) &&
                   ((nf_vlan_parent v =? nf_index n) ||
                    (nf_vlan_parent v =? nf_index par)))
         (netif_each opts nfs).
