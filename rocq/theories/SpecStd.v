(** The rules of the LLDP standards (IEEE 802.1AB, its 802.1 and 802.3 extensions and
    TIA-1057) for the TLVs of a frame: vocabulary of C131. *)
From Verif Require Import Base Types Spec SpecAdv SpecMtu SpecTags.

(** A chassis or port identifier: a subtype from 1 to 7 and 1 to 255 bytes. *)
Definition identifier (v : list Z) : Prop := exists sub id, v = sub :: id /\ 1 <= sub <= 7 /\ 1 <= zlen id <= 255.
(** System capabilities: what is enabled is among what is there, and a station that
    only is one is nothing else. *)
Definition capabilities (v : list Z) : Prop :=
  exists cap act, v = U16 cap ++ U16 act /\ 0 <= cap < 65536 /\ 0 <= act < 65536
  /\ (forall i, Z.testbit act i = true -> Z.testbit cap i = true) /\ (Z.testbit cap 7 = true -> cap = 128).
(** A management address: its family and 1 to 31 bytes, counted; the kind of interface
    number, the number; no object identifier. *)
Definition management (v : list Z) (addr : list Z) : Prop :=
  exists kind number, v = [zlen addr] ++ addr ++ [kind] ++ number ++ [0]
  /\ 2 <= zlen addr <= 32 /\ 1 <= kind <= 3 /\ zlen number = 4.
(** A VLAN name: identifier, length, 1 to 32 bytes. *)
Definition vlan_name (v : list Z) : Prop :=
  exists id name, v = U16 id ++ [zlen name] ++ name /\ 0 <= id < 65536 /\ 1 <= zlen name <= 32.
(** Organisation and subtype of an organisation specific TLV. *)
Definition kind_of (v : list Z) : list Z := firstn 4 v.
(** The subtypes of the TLVs of LLDP-MED, in order. *)
Definition med_kinds (tlvs : list tlv) : list Z :=
  map (fun v => nth 3 v 0) (filter (fun v => if list_eq_dec Z.eq_dec (firstn 3 v) [0; 18; 187] then true else false) (values 127 tlvs)).

(** The TLVs of a frame follow the standard. *)
Record conforming (tlvs : list tlv) : Prop := mkConforming {
  (* chassis, port and time to live come first, the end last; in between are only the
     optional TLVs, no second mandatory one and no reserved type *)
  std_order : exists chassis port ttl opt,
    tlvs = [(1, chassis); (2, port); (3, ttl)] ++ opt ++ [(0, [])]
    /\ identifier chassis /\ identifier port /\ zlen ttl = 2 /\ ttl <> [0; 0]
    /\ Forall (fun t => In (fst t) [4; 5; 6; 7; 8; 127]) opt;
  (* port description, system name, system description and capabilities at most once *)
  std_once : forall k, In k [4; 5; 6; 7] -> zlen (values k tlvs) <= 1;
  std_text : forall k v, In k [4; 5; 6] -> In v (values k tlvs) -> zlen v <= 255;
  std_caps : forall v, In v (values 7 tlvs) -> capabilities v;
  (* every management address once *)
  std_mgmt : exists addrs, Forall2 management (values 8 tlvs) addrs /\ NoDup addrs;
  (* organisation specific TLVs have an organisation and a subtype; only VLAN names
     come more than once *)
  std_org : Forall (fun v => 4 <= zlen v <= 511) (values 127 tlvs);
  std_kinds : NoDup (map kind_of (filter (fun v => if list_eq_dec Z.eq_dec (kind_of v) [0; 128; 194; 3] then false else true) (values 127 tlvs)));
  std_vlans : Forall vlan_name (vlan_names tlvs);
  std_sizes : (forall v, In v (org_values [0; 18; 15; 1] tlvs) -> zlen v = 5)
              /\ (forall v, In v (org_values [0; 18; 15; 3] tlvs) -> zlen v = 5)
              /\ (forall v, In v (org_values [0; 18; 15; 4] tlvs) -> zlen v = 2);
  (* LLDP-MED: the capabilities come first; inventory texts have 1 to 32 bytes *)
  std_med : hd_error (med_kinds tlvs) = Some 1;
  std_inventory : forall k v, 5 <= k <= 11 -> In v (org_values [0; 18; 187; k] tlvs) -> 1 <= zlen v <= 32 }.
