(** What the interface table has to be, given what the operating system reports:
    vocabulary of C47 and C49. *)
From Verif Require Import Base Types Tlv Util Netif Spec SpecAdv.

(** ** Which interfaces *)
(** The kind of an interface: wireless, backed by a device, a VLAN, or else told
    by the name of its driver (15 characters of it). *)
Inductive driver_kind (d : list Z) : Z -> Prop :=
| drv_bond : d = bs "bonding" -> driver_kind d 12
| drv_team : d = bs "team" -> driver_kind d 11
| drv_bridge : d = bs "bridge" -> driver_kind d 13
| drv_tap : In d [bs "tun"; bs "veth"; bs "vxlan"] -> driver_kind d 2
| drv_other : ~ In d [[]; bs "bonding"; bs "team"; bs "bridge"; bs "tun"; bs "veth"; bs "vxlan"] ->
    driver_kind d 0.
Inductive kind (os : nos) (index : Z) (name : list Z) : Z -> Prop :=
| kind_wireless : no_wireless os name = true -> kind os index name 1
| kind_device : no_wireless os name = false -> no_device os index = true -> kind os index name 0
| kind_vlan base : no_wireless os name = false -> no_device os index = false ->
    no_vlan os name = Some base -> kind os index name (-1)
| kind_driver d ty : no_wireless os name = false -> no_device os index = false ->
    no_vlan os name = None -> no_driver os index = Some d -> driver_kind (firstn 15 (before_nul d)) ty ->
    kind os index name ty.
(** A usable Ethernet interface: reported with an Ethernet datalink address, of a
    known kind, and up. *)
Definition usable_as (os : nos) (index : Z) (name : list Z) (ty : Z) : Prop :=
  (exists ias a, no_ifaddrs os = Some ias /\ In (mkIfa name (Some (SALink 1 index a))) ias)
  /\ kind os index name ty
  /\ exists f, no_flags os (firstn 15 name) = Some f /\ Z.testbit f 0 = true.
Definition usable (os : nos) (index : Z) : Prop := exists name ty, usable_as os index name ty.

(** ** A refresh *)
Definition indices (nfs : list netif) : list Z := map nf_index nfs.
Definition table_exact (os : nos) (nfs' : list netif) : Prop :=
  NoDup (indices nfs') /\ (forall i, In i (indices nfs') <-> usable os i)
  /\ forall n, In n nfs' -> exists name, usable_as os (nf_index n) name (nf_type n)
       /\ nf_name n = firstn 15 name /\ nf_description n = firstn 63 (before_nul (no_alias os (nf_index n))).
(** What survives a refresh: enabled protocols, the count of link events and the
    device name; a new interface starts without. *)
Definition survives (nfs : list netif) (n : netif) : Prop :=
  (forall o, In o nfs -> nf_index o = nf_index n ->
     nf_protos n = nf_protos o /\ nf_link_event n = nf_link_event o)
  /\ (~ In (nf_index n) (indices nfs) -> nf_protos n = 0 /\ nf_link_event n = 0).
Definition mgmt_in (si : sysinfo) (nfs : list netif) : Prop :=
  forall m, si_mnetif si = Some m -> In m (indices nfs).

(** Refreshes, with anything happening to the interfaces in between but
    additions and removals. *)
Inductive refreshed (cfg : ncfg) : list nos -> list netif -> sysinfo -> Prop :=
| ref_start si : si_mnetif si = None -> refreshed cfg [] [] si
| ref_fetch oss nfs nfs1 si os ret nfs' si' gone :
    refreshed cfg oss nfs si -> indices nfs1 = indices nfs ->
    netif_fetch cfg os nfs1 si = (ret, nfs', si', gone) ->
    refreshed cfg (oss ++ [os]) nfs' si'.

(** ** References between interfaces *)
(** No pointer to an interface outside the table. *)
Definition no_dangling (nfs : list netif) : Prop :=
  forall n, In n nfs ->
    (forall i, nf_parent n = Some i -> In i (indices nfs))
    /\ (forall i, nf_subif n = Some i -> In i (indices nfs))
    /\ (nf_vlan_parent n <> 0 -> In (nf_vlan_parent n) (indices nfs)).

(** ** Members of aggregates *)
Definition from_to (k : Z) : list Z := map Z.of_nat (seq 0 (Z.to_nat k)).
(** The interface of the table a member report refers to; aggregates are not
    accepted as members. *)
Definition as_member (nfs : list netif) (is : netif -> bool) (state : Z) : list (Z * Z) :=
  match find is nfs with
  | Some n => if nf_type n <? 10 then [(nf_index n, state)] else []
  | None => []
  end.
Definition index_is (i : Z) (n : netif) : bool := nf_index n =? i.
Definition name_is (x : list Z) (n : netif) : bool := if list_eq_dec Z.eq_dec (nf_name n) x then true else false.
(** The members the kernel reports for an aggregate, in this order, with their
    state: 1 active, 2 backup. *)
Definition reported (os : nos) (nfs : list netif) (p : netif) : list (Z * Z) :=
  if nf_type p =? 12 then
    match no_bond os (nf_name p) with
    | None => []
    | Some (_, k) =>
        flat_map (fun i => match no_slave os (nf_name p) i with
                           | Some (x, st) => as_member nfs (name_is x) (if st =? 1 then 2 else 1)
                           | None => []
                           end) (from_to k)
    end
  else if nf_type p =? 13 then
    match no_bridge os (nf_name p) with
    | None => []
    | Some ports => flat_map (fun i => as_member nfs (index_is i) 1) ports
    end
  else if nf_type p =? 11 then
    match no_team os (nf_index p) with
    | None => []
    | Some (mode, ports, active) =>
        flat_map (fun i => as_member nfs (index_is i) (if (mode =? 2) && negb (i =? active) then 2 else 1)) ports
    end
  else [].
(** Link aggregation mode: 1 for LACP, 2 for failover. *)
Definition mode_of (os : nos) (p : netif) : Z :=
  if nf_type p =? 12 then
    match no_bond os (nf_name p) with
    | Some (m, _) => if m =? 4 then 1 else if m =? 1 then 2 else 0
    | None => 0
    end
  else if nf_type p =? 11 then match no_team os (nf_index p) with Some (m, _, _) => m | None => 0 end
  else 0.
(** The kernel is consistent: no interface is reported as a member twice, and the
    active port of a failover team is one of its ports. *)
Definition consistent (os : nos) (nfs : list netif) : Prop :=
  NoDup (flat_map (fun p => map fst (reported os nfs p)) nfs)
  /\ forall p ports active, In p nfs -> nf_type p = 11 -> no_team os (nf_index p) = Some (2, ports, active) ->
       In active (map fst (reported os nfs p)) \/ ~ In active (indices nfs).
(** The pointers between the interfaces say what the kernel reports: the members
    of an aggregate are the chain starting at its [subif], each with its state
    and a pointer back; all others have no parent and are no members. *)
Definition linked (os : nos) (nfs : list netif) : Prop :=
  forall p, In p nfs ->
    nf_bonding_mode p = mode_of os p
    /\ (10 < nf_type p -> exists ms, member_chain nfs (nf_subif p) ms
          /\ map (fun m => (nf_index m, nf_child m)) ms = reported os nfs p
          /\ forall m, In m ms -> nf_parent m = Some (nf_index p))
    /\ (~ In (nf_index p) (flat_map (fun q => map fst (reported os nfs q)) nfs) ->
        nf_parent p = None /\ nf_child p = 0 /\ (nf_type p <= 10 -> nf_subif p = None)).

(** ** VLANs *)
(** Identifier and interface of a VLAN, if the interface is in the table. *)
Definition vlan_of (os : nos) (nfs : list netif) (v : netif) : Z * Z :=
  match no_vlan os (nf_name v) with
  | Some dev =>
      match find (name_is dev) nfs with
      | Some p => (match no_vid os (nf_name v) with Some i => i mod 65536 | None => 0 end, nf_index p)
      | None => (0, 0)
      end
  | None => (0, 0)
  end.
Definition tagged (os : nos) (nfs : list netif) : Prop :=
  forall v, In v nfs ->
    (nf_vlan_id v, nf_vlan_parent v) = if nf_type v =? -1 then vlan_of os nfs v else (0, 0).

(** ** Autonegotiation in an LLDP frame *)
(** The MAC/PHY configuration TLVs (802.3, subtype 1) of an LLDP frame: octet of
    autonegotiation support and status, capabilities, MAU type. *)
Definition is_macphy (t : tlv) : bool :=
  (fst t =? 127) && (if list_eq_dec Z.eq_dec (firstn 4 (snd t)) [0; 18; 15; 1] then true else false).
Definition macphy (tlvs : list tlv) : list (list Z) :=
  map (fun t => skipn 4 (snd t)) (filter is_macphy tlvs).
(** What the driver says: autonegotiation supported, and enabled. *)
Definition an_supported (e : ecmd) : bool := Z.testbit (ec_supported e) 6.
Definition an_enabled (e : ecmd) : bool := an_supported e && (ec_autoneg e =? 1).
(** Bit 0 of the octet: supported; bit 1: enabled; no other bit. *)
Definition truthful (e : ecmd) (octet : Z) : Prop :=
  forall i, 0 <= i -> Z.testbit octet i = if i =? 0 then an_supported e else if i =? 1 then an_enabled e else false.
