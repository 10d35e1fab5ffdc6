(** What is advertised about the size of frames and the duplex mode: vocabulary of
    C101 and C102. *)
From Verif Require Import Base Types Netif Bsd Spec SpecAdv SpecNetif SpecBsd.

(** The maximum frame size TLVs (802.3, subtype 4) of an LLDP frame. *)
Definition is_maxframe (t : tlv) : bool :=
  (fst t =? 127) && (if list_eq_dec Z.eq_dec (firstn 4 (snd t)) [0; 18; 15; 4] then true else false).
Definition maxframe (tlvs : list tlv) : list (list Z) :=
  map (fun t => skipn 4 (snd t)) (filter is_maxframe tlvs).
(** The values of the TLVs of one type. *)
Definition values (k : Z) (tlvs : list tlv) : list (list Z) := map snd (filter (fun t => fst t =? k) tlvs).
(** [f] is a CDP frame (version 2 or 1) with these TLVs behind its header. *)
Definition cdp_tlvs (f : list Z) (tlvs : list tlv) : Prop :=
  Forall cdp_fits tlvs /\ skipn 26 f = flat_map cdp_bytes tlvs.
(** The same for LLDP. *)
Definition lldp_tlvs (f : list Z) (tlvs : list tlv) : Prop :=
  Forall lldp_fits tlvs /\ skipn 14 f = flat_map lldp_bytes tlvs.
(** A frame with an MTU of data has 14 bytes of addresses and type, 4 of a VLAN tag
    and 4 of a checksum more. *)
Definition frame_size (mtu : Z) : Z := mtu + 14 + 4 + 4.
(** What the driver says about the duplex mode of a link: half, full or unknown
    (DUPLEX_HALF, DUPLEX_FULL and DUPLEX_UNKNOWN of linux/ethtool.h). *)
Definition duplex_says (e : ecmd) (l : list (list Z)) : Prop :=
  match ec_duplex e with
  | 0 => l = [[0]]
  | 1 => l = [[1]]
  | _ => l = []
  end.
