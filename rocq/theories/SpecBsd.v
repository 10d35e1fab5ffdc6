(** What the interface table has to be on FreeBSD and OpenBSD, given what the
    operating system reports: vocabulary of C96 to C100. *)
From Verif Require Import Base Types Tlv Util Netif Bsd Spec SpecAdv SpecNetif SpecSend SpecNetif2 SpecSys.

(** ** Kinds of interfaces *)
(** A name is a stem and a unit number: all digits at its end. *)
Definition stem_unit (d stem unit : list Z) : Prop :=
  d = stem ++ unit /\ Forall digit unit /\ forall r c, stem = r ++ [c] -> ~ digit c.
(** The name of the driver: FreeBSD is asked for it (16 characters of it), on
    OpenBSD it is the name of the interface. *)
Definition driver_text (pf : platform) (b : bos) (index : Z) (name : list Z) : list Z :=
  match pf with FreeBSD => firstn 16 (before_nul (bo_driver b index)) | OpenBSD => name end.
Definition stem_in (pf : platform) (b : bos) (index : Z) (name : list Z) (l : list (list Z)) : Prop :=
  exists s u, stem_unit (driver_text pf b index name) s u /\ In s l.
Definition taps : list (list Z) := [bs "tun"; bs "tap"; bs "vxlan"].
(** Names no usable interface has. *)
Definition unwanted (pf : platform) : list (list Z) := match pf with FreeBSD => [bs "ipfw"] | OpenBSD => [] end.
(** The type of an interface (ifi_type) is 6 for Ethernet, 209 for a bridge, 161
    for a port of an aggregate, 135 for a VLAN. *)
Inductive b_kind (pf : platform) (b : bos) (index : Z) (name : list Z) : Z -> Prop :=
| bk_wireless : bo_wireless b name = true -> b_kind pf b index name 1
| bk_vlan v : bo_wireless b name = false -> bo_iftype b name = 6 -> bo_vlan b name = Some v ->
    b_kind pf b index name (-1)
| bk_tap : bo_wireless b name = false -> bo_iftype b name = 6 -> bo_vlan b name = None ->
    stem_in pf b index name taps -> b_kind pf b index name 2
| bk_bond l : bo_wireless b name = false -> bo_iftype b name = 6 -> bo_vlan b name = None ->
    ~ stem_in pf b index name (taps ++ unwanted pf) -> bo_lagg b name = Some l -> b_kind pf b index name 12
| bk_ether : bo_wireless b name = false -> bo_iftype b name = 6 -> bo_vlan b name = None ->
    ~ stem_in pf b index name (taps ++ unwanted pf) -> bo_lagg b name = None -> b_kind pf b index name 0
| bk_bridge : bo_wireless b name = false -> bo_iftype b name = 209 -> b_kind pf b index name 13
| bk_port : bo_wireless b name = false -> bo_iftype b name = 161 -> b_kind pf b index name 0
| bk_l2vlan : bo_wireless b name = false -> bo_iftype b name = 135 -> b_kind pf b index name (-1).

(** A datalink entry of an Ethernet interface or a bridge. *)
Definition b_listed (b : bos) (index : Z) (name : list Z) : Prop :=
  exists ias t a, bo_ifaddrs b = Some ias /\ In (mkIfa name (Some (SALink t index a))) ias /\ (t = 6 \/ t = 209).
Definition b_up (b : bos) (name : list Z) : Prop := exists f, bo_flags b name = Some f /\ Z.testbit f 0 = true.
Definition b_usable_as (pf : platform) (b : bos) (index : Z) (name : list Z) (ty : Z) : Prop :=
  b_listed b index name /\ b_kind pf b index name ty /\ b_up b name.
Definition b_usable (pf : platform) (b : bos) (index : Z) : Prop := exists name ty, b_usable_as pf b index name ty.

(** ** What the kernel may answer *)
(** Names have at most 15 characters and belong to one index each; a bridge has
    less than half a gigabyte of members; device descriptions are strings of 1 to
    63 characters (C99 is about longer ones); so are the names of drivers, of at
    most 15. *)
Definition b_ok (b : bos) : Prop :=
  (forall ias, bo_ifaddrs b = Some ias -> Forall ifaddr_ok ias /\ names_apart ias)
  /\ 0 < bo_ifbreq b <= 2048
  /\ (forall x ports, bo_bridge b x = Some ports -> zlen ports * bo_ifbreq b < 268435456)
  /\ (forall x d, bo_descr b x = Some d -> bytes d)
  /\ (forall x v, bo_sysctl b x = Some v -> cstring 64 v /\ v <> [])
  /\ (forall i, zlen (before_nul (bo_driver b i)) <= 15).

(** ** A refresh *)
Definition b_table (pf : platform) (b : bos) (nfs' : list netif) : Prop :=
  NoDup (indices nfs') /\ (forall i, In i (indices nfs') <-> b_usable pf b i)
  /\ forall n, In n nfs' -> b_usable_as pf b (nf_index n) (nf_name n) (nf_type n)
       /\ nf_description n = match bo_descr b (nf_name n) with Some d => firstn 63 (before_nul d) | None => [] end.
(** Refreshes, with anything happening to the interfaces in between but additions
    and removals. *)
Inductive b_refreshed (cfg : ncfg) (pf : platform) : list netif -> sysinfo -> Prop :=
| bref_start si : si_mnetif si = None -> b_refreshed cfg pf [] si
| bref_fetch nfs nfs1 si b ret nfs' si' gone :
    b_refreshed cfg pf nfs si -> indices nfs1 = indices nfs -> b_ok b ->
    bsd_fetch cfg pf b nfs1 si = (ret, nfs', si', gone) -> b_refreshed cfg pf nfs' si'.

(** ** Capabilities and counts *)
Definition b_reported_kind (pf : platform) (b : bos) (ty : Z) : Prop :=
  exists name i, b_listed b i name /\ b_kind pf b i name ty.
Definition b_usable_kind (pf : platform) (b : bos) (ty : Z) : Prop := exists i name, b_usable_as pf b i name ty.
Definition b_entry (pf : platform) (b : bos) (P : list Z -> Z -> Prop) (ia : ifaddr) : Prop :=
  exists t i a ty, ia_addr ia = Some (SALink t i a) /\ (t = 6 \/ t = 209) /\ b_kind pf b i (ia_name ia) ty /\ P (ia_name ia) ty.

(** ** Members of aggregates *)
(** The members the kernel reports for an aggregate, in this order, with their
    state: 1 active, 2 backup. *)
Definition b_reported (b : bos) (nfs : list netif) (p : netif) : list (Z * Z) :=
  if nf_type p =? 12 then
    match bo_lagg b (nf_name p) with
    | None => []
    | Some (_, ports) => flat_map (fun x : list Z * bool => as_member nfs (name_is (fst x)) (if snd x then 1 else 2)) ports
    end
  else if nf_type p =? 13 then
    match bo_bridge b (nf_name p) with
    | None => []
    | Some ports => flat_map (fun x => as_member nfs (name_is x) 1) ports
    end
  else [].
(** Link aggregation mode: 1 for LACP, 2 for failover. *)
Definition b_mode (pf : platform) (b : bos) (p : netif) : Z :=
  if nf_type p =? 12 then
    match bo_lagg b (nf_name p) with
    | Some (proto, _) =>
        if proto =? (match pf with FreeBSD => 4 | OpenBSD => 5 end) then 1 else if proto =? 2 then 2 else 0
    | None => 0
    end
  else 0.
(** No interface is reported as a member twice. *)
Definition b_consistent (b : bos) (nfs : list netif) : Prop :=
  NoDup (flat_map (fun p => map fst (b_reported b nfs p)) nfs).
(** As [linked] on Linux. *)
Definition b_linked (pf : platform) (b : bos) (nfs : list netif) : Prop :=
  forall p, In p nfs ->
    nf_bonding_mode p = b_mode pf b p
    /\ (10 < nf_type p -> exists ms, member_chain nfs (nf_subif p) ms
          /\ map (fun m => (nf_index m, nf_child m)) ms = b_reported b nfs p
          /\ forall m, In m ms -> nf_parent m = Some (nf_index p))
    /\ (~ In (nf_index p) (flat_map (fun q => map fst (b_reported b nfs q)) nfs) ->
        nf_parent p = None /\ nf_child p = 0 /\ (nf_type p <= 10 -> nf_subif p = None)).

(** ** VLANs *)
(** Identifier and interface of a VLAN, as the kernel answers for its name. *)
Definition b_vlan_of (b : bos) (nfs : list netif) (name : list Z) : Z * Z :=
  match bo_vlan b name with
  | Some (dev, tag) => match find (name_is dev) nfs with Some p => (tag mod 65536, nf_index p) | None => (0, 0) end
  | None => (0, 0)
  end.
Definition b_tagged (b : bos) (nfs : list netif) : Prop :=
  forall v, In v nfs ->
    (nf_vlan_id v, nf_vlan_parent v) = if nf_type v =? -1 then b_vlan_of b nfs (nf_name v) else (0, 0).
(** The last datalink entry. *)
Definition last_link (ias : list ifaddr) (name : list Z) : Prop :=
  exists a t i hw r, ias = a ++ mkIfa name (Some (SALink t i hw)) :: r /\ forall x, In x r -> link_of x = None.

(** ** Device names *)
(** The node of the device tree with the description of the driver's unit. *)
Definition device_node (d node : list Z) : Prop :=
  exists s u, stem_unit d s u /\ u <> [] /\ node = bs "dev." ++ s ++ bs "." ++ u ++ bs ".%desc".
(** What is known about the device behind an interface, [[]] if nothing. *)
Definition b_device (pf : platform) (b : bos) (i : Z) (t : list Z) : Prop :=
  match pf with
  | OpenBSD => t = []
  | FreeBSD =>
      (exists node, device_node (before_nul (bo_driver b i)) node /\ bo_sysctl b node = Some t)
      \/ t = [] /\ forall node, device_node (before_nul (bo_driver b i)) node -> bo_sysctl b node = None
  end.
(** Whether an interface was identified before, and its device name then. *)
Definition device_before (nfs : list netif) (i : Z) : Z * list Z :=
  match find (index_is i) nfs with Some o => (nf_device_identified o, nf_device_name o) | None => (0, []) end.
(** A regular interface gets the device name [t] once; what it has stays. *)
Definition identified (nfs : list netif) (t : list Z) (n : netif) : Prop :=
  let (k, x) := device_before nfs (nf_index n) in
  if (nf_type n =? 0) && (k =? 0)
  then nf_device_identified n = 1 /\ nf_device_name n = match t with [] => x | _ => firstn 63 (before_nul t) end
  else nf_device_identified n = k /\ nf_device_name n = x.

(** ** Media *)
(** Media behind bit [k] of RFC 3636's ifMauAutoNegCapAdvertisedBits (bit 0 is the
    first on the wire), with full duplex or not. *)
Definition media_bit (k : Z) : list (medium * bool) :=
  match k with
  | 1 => [(M10_T, false)]
  | 2 => [(M10_T, true)]
  | 3 => [(M100_T4, false); (M100_T4, true)]
  | 4 => [(M100_TX, false)]
  | 5 => [(M100_TX, true)]
  | 6 => [(M100_T2, false)]
  | 7 => [(M100_T2, true)]
  | 12 => [(M1000_SX, false); (M1000_LX, false); (M1000_CX, false)]
  | 13 => [(M1000_SX, true); (M1000_LX, true); (M1000_CX, true)]
  | 14 => [(M1000_T, false)]
  | 15 => [(M1000_T, true)]
  | _ => []
  end.
(** Bit 0 is for anything else. *)
Definition media_other (m : medium) : Prop :=
  In m [M10_2; M10_5; M10_FL; M100_FX; M10G_LR; M10G_SR; M10G_CX4; M10G_T; M40G_CR4; M40G_SR4; M40G_LR4; MOther].
Definition says_media (l : list (medium * bool)) (word : Z) : Prop :=
  0 <= word < 65536
  /\ forall k, 0 <= k < 16 ->
     (Z.testbit word (15 - k) = true
      <-> exists m f, In (m, f) l /\ (In (m, f) (media_bit k) \/ k = 0 /\ media_other m)).
(** dot3MauType of RFC 4836 by medium and full duplex. *)
Definition media_mau : list (medium * bool * Z) :=
  [(M10_5, false, 2); (M10_5, true, 2); (M10_2, false, 4); (M10_2, true, 4);
   (M10_T, false, 10); (M10_T, true, 11); (M10_FL, false, 12); (M10_FL, true, 13);
   (M100_T4, false, 14); (M100_T4, true, 14); (M100_TX, false, 15); (M100_TX, true, 16);
   (M100_FX, false, 17); (M100_FX, true, 18); (M100_T2, false, 19); (M100_T2, true, 20);
   (M1000_LX, false, 23); (M1000_LX, true, 24); (M1000_SX, false, 25); (M1000_SX, true, 26);
   (M1000_CX, false, 27); (M1000_CX, true, 28); (M1000_T, false, 29); (M1000_T, true, 30);
   (M10G_LR, false, 35); (M10G_LR, true, 35); (M10G_SR, false, 36); (M10G_SR, true, 36);
   (M10G_CX4, false, 41); (M10G_CX4, true, 41); (M10G_T, false, 54); (M10G_T, true, 54);
   (M40G_CR4, false, 71); (M40G_CR4, true, 71); (M40G_SR4, false, 72); (M40G_SR4, true, 72);
   (M40G_LR4, false, 74); (M40G_LR4, true, 74)].
Definition b_says_mau (m : medium) (full : bool) (mau : Z) : Prop :=
  In (m, full, mau) media_mau \/ mau = 0 /\ forall x, ~ In (m, full, x) media_mau.
(** The details of an Ethernet interface with a link; [None] otherwise. *)
Definition linked_media (b : bos) (n : netif) : option (ifmedia * list (medium * bool)) :=
  match bo_media b (nf_name n) with
  | Some im =>
      match im_list im with
      | Some l => if (nf_type n =? 0) && im_ether im && im_up im && negb (im_count im =? 0) then Some (im, l) else None
      | None => None
      end
  | None => None
  end.
(** The list has "auto", and it is chosen. *)
Definition auto_listed (l : list (medium * bool)) : Prop := exists f, In (MAuto, f) l.
Definition b_truthful (im : ifmedia) (l : list (medium * bool)) (octet : Z) : Prop :=
  octet = 3 /\ auto_listed l /\ im_current im = MAuto
  \/ octet = 1 /\ auto_listed l /\ im_current im <> MAuto
  \/ octet = 0 /\ ~ auto_listed l.
