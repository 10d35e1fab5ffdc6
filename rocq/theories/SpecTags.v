(** What is advertised about VLANs and link aggregation: vocabulary of C104 to
    C106. *)
From Verif Require Import Base Types Netif Spec SpecAdv SpecNetif SpecSend SpecMtu.

(** The organisation specific TLVs of an LLDP frame with this organisation and
    subtype, without these four octets. *)
Definition org_values (head : list Z) (tlvs : list tlv) : list (list Z) :=
  map (fun t => skipn 4 (snd t))
    (filter (fun t => (fst t =? 127) && (if list_eq_dec Z.eq_dec (firstn 4 (snd t)) head then true else false)) tlvs).
(** VLAN names (802.1, subtype 3) and link aggregation (802.3, subtype 3). *)
Definition vlan_names : list tlv -> list (list Z) := org_values [0; 128; 194; 3].
Definition aggregation : list tlv -> list (list Z) := org_values [0; 18; 15; 3].
(** [f] is an EDP frame with these TLVs behind its header. *)
Definition edp_tlvs (f : list Z) (tlvs : list (Z * tlv)) : Prop :=
  Forall edp_fits tlvs /\ skipn 38 f = flat_map edp_bytes tlvs.

(** The VLAN interface [v] is configured on [n]. *)
Definition rests_on (os : nos) (nfs : list netif) (v n : netif) : bool :=
  (nf_type v =? -1)
  && match no_vlan os (nf_name v) with
     | Some dev => match find (name_is dev) nfs with Some b => nf_index b =? nf_index n | None => false end
     | None => false
     end.
(** The aggregates the kernel reports [n] as a member of. *)
Definition owners (os : nos) (nfs : list netif) (n : netif) : list netif :=
  filter (fun p => existsb (fun r => fst r =? nf_index n) (reported os nfs p)) nfs.
(** The VLANs on an interface: those configured on it or on its aggregate. *)
Definition vlans_at (os : nos) (nfs : list netif) (n : netif) : list netif :=
  filter (fun v => existsb (rests_on os nfs v) (n :: owners os nfs n)) nfs.
(** Identifier of a VLAN, 0 if the kernel does not tell. *)
Definition vid (os : nos) (v : netif) : Z :=
  match no_vid os (nf_name v) with Some i => i mod 65536 | None => 0 end.
(** What an LLDP frame says about a VLAN: identifier, length of the name, name. *)
Definition vlan_entry (os : nos) (v : netif) : list Z := U16 (vid os v) ++ [zlen (nf_name v)] ++ nf_name v.
(** What an EDP frame says: whether there is an address, identifier, address,
    and the name at the end. *)
Definition edp_entry (os : nos) (v : netif) (name : list Z) : list Z :=
  [if is_set (nf_ipaddr4 v) then 128 else 0; 0] ++ U16 (vid os v) ++ [0; 0; 0; 0] ++ nf_ipaddr4 v ++ name.
(** No VLAN interface is a member of an aggregate. *)
Definition vlans_apart (os : nos) (nfs : list netif) : Prop :=
  forall v p, In v nfs -> nf_type v = -1 -> In p nfs -> ~ In (nf_index v) (map fst (reported os nfs p)).
(** Interface indices start at 1. *)
Definition numbered (nfs : list netif) : Prop := forall n, In n nfs -> 0 < nf_index n.
(** The interface [n] is the slave number [i], counted from 0, of the bond [p]. *)
Definition slave_number (os : nos) (p n : netif) (i : Z) : Prop :=
  exists m k st, no_bond os (nf_name p) = Some (m, k) /\ 0 <= i < k /\ no_slave os (nf_name p) i = Some (nf_name n, st).
