(** Specification vocabulary, written independently of the model functions:
    only the data types of the model (records, lists of bytes) are used. *)
From Coq Require Import Decimal DecimalString.
From Verif Require Import Base Types.

(** ** Bytes and numbers on the wire *)
Definition byte (b : Z) : Prop := 0 <= b < 256.
Definition bytes (l : list Z) : Prop := Forall byte l.
(** Network byte order. *)
Definition U16 (v : Z) : list Z := [v / 256; v mod 256].
Definition U32 (v : Z) : list Z :=
  [v / 16777216; v / 65536 mod 256; v / 256 mod 256; v mod 256].
(** Decimal notation, by way of the standard library's number printer. *)
Definition decimal (n : Z) : list Z :=
  bs (NilEmpty.string_of_uint (N.to_uint (Z.to_N n))).

(** A C string that fits a buffer of [n] bytes. *)
Definition cstring (n : Z) (s : list Z) : Prop :=
  bytes s /\ ~ In 0 s /\ zlen s < n.

(** ** Escaping *)
(** Everything before the first NUL byte. *)
Fixpoint before_nul (l : list Z) : list Z :=
  match l with
  | [] => []
  | b :: l' => if Z.eq_dec b 0 then [] else b :: before_nul l'
  end.
(** Backslash and three octal digits. *)
Definition octal (b : Z) : list Z := [92; 48 + b / 64; 48 + b / 8 mod 8; 48 + b mod 8].
(** One byte as shown for CDP and LLDP strings: printable characters, newline,
    tab, carriage return, bell and backspace stand for themselves, a backslash
    is doubled, all else is octal. *)
Definition show_safe (b : Z) : list Z :=
  if b =? 92 then [92; 92]
  else if (32 <=? b) && (b <=? 126) || existsb (Z.eqb b) [7; 8; 9; 10; 13] then [b]
  else octal b.
(** One byte as shown for EDP and FDP strings: control characters and the shell
    glob characters # * ? [ are octal. *)
Definition show_strict (b : Z) : list Z :=
  if b =? 92 then [92; 92]
  else if (32 <=? b) && (b <=? 126) && negb (existsb (Z.eqb b) [35; 42; 63; 91]) then [b]
  else octal b.
(** A received string: cut to 511 bytes, up to the first NUL, escaped. *)
Definition shown (show : Z -> list Z) (v : list Z) : list Z :=
  flat_map show (before_nul (firstn 511 v)).

(** ** Reported attributes *)
(** The attribute slots, in the order of the client output. *)
Inductive slot := Host | Port | PortDescr | Caps | IPv4 | IPv6 | Mac | Vlan.
Definition slot_eqb (a b : slot) : bool :=
  match a, b with
  | Host, Host | Port, Port | PortDescr, PortDescr | Caps, Caps
  | IPv4, IPv4 | IPv6, IPv6 | Mac, Mac | Vlan, Vlan => true
  | _, _ => false
  end.
(** The first value of an attribute. *)
Fixpoint first_of (s : slot) (l : list (slot * list Z)) : option (list Z) :=
  match l with
  | [] => None
  | (s', v) :: l' => if slot_eqb s s' then Some v else first_of s l'
  end.
(** All eight slots of a neighbour. *)
Definition report (l : list (slot * list Z)) : list (option (list Z)) :=
  map (fun s => first_of s l) [Host; Port; PortDescr; Caps; IPv4; IPv6; Mac; Vlan].

(** Capability letters: bits 0..8 are rBHRSWCTO. *)
Definition letters (cap : Z) : list Z :=
  map snd (filter (fun p => Z.testbit cap (fst p))
             (combine [0; 1; 2; 3; 4; 5; 6; 7; 8] (bs "rBHRSWCTO"))).
(** The set of capabilities whose bits are listed. *)
Definition cap_set (l : list Z) : Z := fold_right (fun i c => Z.lor (2 ^ i) c) 0 l.

(** ** TLVs: a type and a value *)
Notation tlv := (Z * list Z)%type.
(** CDP and FDP: 16-bit type, 16-bit length including the 4 header bytes. *)
Definition cdp_bytes (x : tlv) : list Z := U16 (fst x) ++ U16 (4 + zlen (snd x)) ++ snd x.
Definition cdp_fits (x : tlv) : Prop := 0 <= fst x < 65536 /\ 4 + zlen (snd x) < 65536.
(** EDP: a marker byte, 8-bit type, 16-bit length including the header.  The
    marker is 0x99 when sent and ignored when received. *)
Definition edp_bytes (x : Z * tlv) : list Z :=
  let '(m, (t, v)) := x in [m; t] ++ U16 (4 + zlen v) ++ v.
Definition edp_fits (x : Z * tlv) : Prop :=
  byte (fst x) /\ byte (fst (snd x)) /\ 4 + zlen (snd (snd x)) < 65536.
(** LLDP: 7-bit type, 9-bit length of the value. *)
Definition lldp_bytes (x : tlv) : list Z := U16 (fst x * 512 + zlen (snd x)) ++ snd x.
Definition lldp_fits (x : tlv) : Prop := 0 <= fst x < 128 /\ zlen (snd x) < 512.

(** ** Frames *)
(** An ethernet header, optionally with an 802.1Q tag, for an LLC/SNAP frame;
    [ty] is the length field behind the tag (not looked at). *)
Inductive snap_frame (dst org : list Z) (pid : Z) : list Z -> list Z -> Prop :=
| snap_untagged src ty payload :
    zlen src = 6 -> 0 <= ty < 65536 -> ty <> 33024 ->
    snap_frame dst org pid
      (dst ++ src ++ U16 ty ++ [170; 170; 3] ++ org ++ U16 pid ++ payload) payload
| snap_tagged src tag ty payload :
    zlen src = 6 -> zlen tag = 2 -> 0 <= ty < 65536 ->
    snap_frame dst org pid
      (dst ++ src ++ U16 33024 ++ tag ++ U16 ty ++ [170; 170; 3] ++ org ++ U16 pid
         ++ payload) payload.
(** An ethernet header for LLDP (ethertype 0x88cc), optionally tagged. *)
Inductive lldp_frame : list Z -> list Z -> Prop :=
| lldp_untagged src payload :
    zlen src = 6 ->
    lldp_frame ([1; 128; 194; 0; 0; 14] ++ src ++ U16 35020 ++ payload) payload
| lldp_tagged src tag payload :
    zlen src = 6 -> zlen tag = 2 ->
    lldp_frame ([1; 128; 194; 0; 0; 14] ++ src ++ U16 33024 ++ tag ++ U16 35020 ++ payload)
      payload.
Definition cdp_frame := snap_frame [1; 0; 12; 204; 204; 204] [0; 0; 12] 8192.
Definition edp_frame := snap_frame [0; 224; 43; 0; 0; 0] [0; 224; 43] 187.
Definition fdp_frame := snap_frame [1; 224; 82; 204; 204; 204] [0; 224; 82] 8192.
Definition ndp_frame := snap_frame [1; 0; 129; 0; 1; 0] [0; 0; 129] 418.

(** ** What a CDP TLV reports *)
(** One record of an address TLV: protocol type, protocol id, address. *)
Notation addr_rec := (Z * list Z * list Z)%type.
Definition addr_rec_bytes (r : addr_rec) : list Z :=
  let '(pt, proto, a) := r in [pt; zlen proto] ++ proto ++ U16 (zlen a) ++ a.
Definition addr_rec_fits (r : addr_rec) : Prop :=
  let '(pt, proto, a) := r in byte pt /\ byte (zlen proto) /\ zlen a < 65536.
(** IPv4 is NLPID 0xcc, IPv6 is SNAP ethertype 0x86dd; other families are
    skipped; a known family must have its size. *)
Inductive addr_means : addr_rec -> list (slot * list Z) -> Prop :=
| addr_ip4 a : zlen a = 4 ->
    addr_means (1, [204], a) [(IPv4, inet_ntop4 a)]
| addr_ip6 a : zlen a = 16 ->
    addr_means (2, [170; 170; 3; 0; 0; 0; 134; 221], a) [(IPv6, inet_ntop6 a)]
| addr_other pt proto a :
    (pt, proto) <> (1, [204]) ->
    (pt, proto) <> (2, [170; 170; 3; 0; 0; 0; 134; 221]) ->
    addr_means (pt, proto, a) [].
(** CDP capability word to capability letters. *)
Definition cdp_caps (w : Z) : list Z :=
  letters (Z.lor (Z.lor (Z.lor (Z.lor (Z.lor (Z.lor
    (if Z.testbit w 0 then 8 else 0)        (* router *)
    (if Z.testbit w 1 then 2 else 0))       (* transparent bridge *)
    (if Z.testbit w 2 then 2 else 0))       (* source route bridge *)
    (if Z.testbit w 3 then 16 else 0))      (* switch *)
    (if Z.testbit w 4 then 4 else 0))       (* host *)
    (if Z.testbit w 6 then 1 else 0))       (* repeater *)
    (if Z.testbit w 7 then 128 else 0)).    (* phone *)
(** Legal values of a TLV and the attributes they give. *)
Inductive cdp_means : tlv -> list (slot * list Z) -> Prop :=
| cdp_name t v : t = 1 \/ t = 20 -> cdp_means (t, v) [(Host, shown show_safe v)]
| cdp_port v : cdp_means (3, v) [(Port, shown show_safe v)]
| cdp_caps4 w : 0 <= w < 4294967296 -> cdp_means (4, U32 w) [(Caps, cdp_caps w)]
| cdp_addrs t n recs attrs rest :
    t = 2 \/ t = 22 -> 0 <= n < 4294967296 -> recs <> [] ->
    (* all announced records, or (when fewer are there, or none announced)
       records up to the end of the TLV *)
    (zlen recs = n \/ (rest = [] /\ (zlen recs < n \/ n = 0))) ->
    Forall addr_rec_fits recs ->
    Forall2 addr_means recs attrs ->
    cdp_means (t, U32 n ++ flat_map addr_rec_bytes recs ++ rest) (concat attrs)
| cdp_vlan2 w : 0 <= w < 65536 -> cdp_means (10, U16 w) [(Vlan, decimal w)]
| cdp_other t v : ~ In t [1; 2; 3; 4; 10; 20; 22] -> cdp_means (t, v) [].
(** The content of a CDP packet: header and TLVs tiling the rest, with the
    attributes reported. *)
Inductive cdp_packet_means : list Z -> Z -> Z -> list (slot * list Z) -> Prop :=
| cdp_packet_intro version ttl chk tlvs attrs :
    version = 1 \/ version = 2 -> zlen chk = 2 ->
    Forall cdp_fits tlvs -> Forall2 cdp_means tlvs attrs ->
    cdp_packet_means ([version; ttl] ++ chk ++ flat_map cdp_bytes tlvs) version ttl
      (concat attrs).

(** ** What an EDP TLV reports *)
Inductive edp_means : Z * tlv -> list (slot * list Z) -> Prop :=
| edp_display m v : edp_means (m, (1, v)) [(Host, shown show_strict v)]
| edp_other m t v : t <> 1 -> edp_means (m, (t, v)) [].
Inductive edp_packet_means : list Z -> list (slot * list Z) -> Prop :=
| edp_packet_intro hdr tlvs attrs :
    zlen hdr = 15 -> Forall edp_fits tlvs -> Forall2 edp_means tlvs attrs ->
    edp_packet_means ([1] ++ hdr ++ flat_map edp_bytes tlvs) (concat attrs).

(** ** What FDP TLVs report *)
(** Role names of the capability TLV: bit numbers. *)
Definition fdp_role (v : list Z) : Z :=
  let s := before_nul v in
  if list_eq_dec Z.eq_dec s (bs "Router") then 8
  else if list_eq_dec Z.eq_dec s (bs "Switch") then 16
  else if list_eq_dec Z.eq_dec s (bs "Bridge") then 2
  else if list_eq_dec Z.eq_dec s (bs "Host") then 4
  else 0.
Inductive fdp_means : tlv -> list (slot * list Z) -> Prop :=
| fdp_name v : fdp_means (1, v) [(Host, shown show_strict v)]
| fdp_port v : fdp_means (3, v) [(Port, shown show_strict v)]
| fdp_caps v : fdp_means (4, v) [(Caps, letters (fdp_role v))]
| fdp_other t v : ~ In t [1; 3; 4] -> fdp_means (t, v) [].
Inductive fdp_packet_means : list Z -> Z -> list (slot * list Z) -> Prop :=
| fdp_packet_intro ttl chk tlvs attrs :
    zlen chk = 2 -> Forall cdp_fits tlvs -> Forall2 fdp_means tlvs attrs ->
    fdp_packet_means ([1; ttl] ++ chk ++ flat_map cdp_bytes tlvs) ttl (concat attrs).

(** ** What LLDP TLVs report *)
(** LLDP capability word to capability letters. *)
Definition lldp_caps (w : Z) : list Z :=
  letters
    (if w =? 128 then 4
     else Z.lor (Z.lor (Z.lor (Z.lor (Z.lor (Z.lor
       (if Z.testbit w 0 then 256 else 0)      (* other *)
       (if Z.testbit w 1 then 1 else 0))       (* repeater *)
       (if Z.testbit w 2 then 2 else 0))       (* bridge *)
       (if Z.testbit w 3 then 32 else 0))      (* WLAN access point *)
       (if Z.testbit w 4 then 8 else 0))       (* router *)
       (if Z.testbit w 5 then 128 else 0))     (* telephone *)
       (if Z.testbit w 6 then 64 else 0)).     (* DOCSIS cable device *)
(** Enabled is a subset of available, and "station only" is not combined. *)
Definition lldp_caps_ok (avail enabled : Z) : Prop :=
  (forall i, Z.testbit enabled i = true -> Z.testbit avail i = true)
  /\ (Z.testbit avail 7 = true -> avail = 128).
(** Management address families: number, slot, size, notation. *)
Inductive mgmt_family : Z -> slot -> Z -> (list Z -> list Z) -> Prop :=
| mgmt_ip4 : mgmt_family 1 IPv4 4 inet_ntop4
| mgmt_ip6 : mgmt_family 2 IPv6 16 inet_ntop6
| mgmt_mac : mgmt_family 6 Mac 6 mac_str.
(** A TLV of the optional part, given the attributes already reported. *)
Inductive lldp_means (seen : list (slot * list Z)) : tlv -> list (slot * list Z) -> Prop :=
| lldp_name v :
    zlen v <= 255 -> first_of Host seen = None ->
    lldp_means seen (5, v) [(Host, shown show_safe v)]
| lldp_pdescr v : lldp_means seen (4, v) [(PortDescr, shown show_safe v)]
| lldp_caps4 avail enabled :
    0 <= avail < 65536 -> 0 <= enabled < 65536 -> lldp_caps_ok avail enabled ->
    lldp_means seen (7, U16 avail ++ U16 enabled) [(Caps, lldp_caps enabled)]
| lldp_mgmt af sl size text addr rest :
    mgmt_family af sl size text -> zlen addr = size -> rest <> [] ->
    lldp_means seen (8, [1 + size; af] ++ addr ++ rest) [(sl, text addr)]
| lldp_mgmt_again af sl size text l rest :
    mgmt_family af sl size text -> first_of sl seen <> None ->
    byte l -> (if l =? 0 then 255 else l - 1) < zlen rest ->
    lldp_means seen (8, [l; af] ++ rest) []
| lldp_pvid w : 0 <= w < 65536 ->
    lldp_means seen (127, [0; 128; 194; 1] ++ U16 w) [(Vlan, decimal w)]
| lldp_8021 sub rest : sub <> 1 ->
    lldp_means seen (127, [0; 128; 194; sub] ++ rest) []
| lldp_org oui rest : zlen oui = 3 -> oui <> [0; 128; 194] ->
    lldp_means seen (127, oui ++ rest) []
| lldp_other t v : In t [1; 2; 3; 6] -> lldp_means seen (t, v) [].
Inductive lldp_body : list (slot * list Z) -> list tlv -> list (slot * list Z) -> Prop :=
| lldp_body_nil seen : lldp_body seen [] seen
| lldp_body_cons seen x tlvs attrs all :
    lldp_means seen x attrs -> lldp_body (seen ++ attrs) tlvs all ->
    lldp_body seen (x :: tlvs) all.
(** Port id subtypes shown as text: alias, component, name, circuit id, local. *)
Definition port_attrs (v : list Z) : list (slot * list Z) :=
  match v with
  | sub :: id => if existsb (Z.eqb sub) [1; 2; 5; 6; 7] then [(Port, shown show_safe id)] else []
  | [] => []
  end.
(** The content of an LLDP frame: mandatory TLVs, optional TLVs, End, and
    anything behind it.  [used] is the part up to and including End. *)
Inductive lldp_packet_means : list Z -> Z -> Z -> list (slot * list Z) -> Prop :=
| lldp_packet_intro chassis port ttl tlvs attrs trailer :
    2 <= zlen chassis <= 256 -> 2 <= zlen port <= 256 -> 0 <= ttl < 65536 ->
    Forall lldp_fits tlvs -> lldp_body (port_attrs port) tlvs attrs ->
    let used := flat_map lldp_bytes ([(1, chassis); (2, port); (3, U16 ttl)] ++ tlvs ++ [(0, [])]) in
    lldp_packet_means (used ++ trailer) (zlen used) ttl attrs.

(** ** Well-formed inputs of the builders: what the struct fields can hold *)
Definition netif_ok (n : netif) : Prop :=
  cstring 16 (nf_name n) /\ nf_name n <> []
  /\ cstring 64 (nf_description n) /\ cstring 64 (nf_device_name n)
  /\ bytes (nf_hwaddr n) /\ zlen (nf_hwaddr n) = 6
  /\ bytes (nf_ipaddr4 n) /\ zlen (nf_ipaddr4 n) = 4
  /\ bytes (nf_ipaddr6 n) /\ zlen (nf_ipaddr6 n) = 16
  /\ 0 <= nf_index n < 4294967296 /\ 0 <= nf_mtu n < 65536
  /\ 0 <= nf_vlan_id n < 65536 /\ 0 <= nf_autoneg_pmd n < 65536 /\ 0 <= nf_mau n < 65536
  /\ 0 <= nf_lacp_index n < 256
  /\ -128 <= nf_duplex n < 128 /\ -128 <= nf_autoneg_supported n < 128
  /\ -128 <= nf_autoneg_enabled n < 128.
Definition hinv_ok (h : hinv) : Prop :=
  cstring 33 (hi_hw h) /\ cstring 33 (hi_fw h) /\ cstring 33 (hi_sw h)
  /\ cstring 33 (hi_serial h) /\ cstring 33 (hi_manuf h) /\ cstring 33 (hi_model h)
  /\ cstring 33 (hi_asset h).
Definition sysinfo_ok (si : sysinfo) : Prop :=
  cstring 256 (si_uts_str si) /\ cstring 256 (si_platform si)
  /\ cstring 256 (si_hostname si) /\ cstring 3 (si_country si)
  /\ cstring 256 (si_location si)
  /\ bytes (si_uts_rel si) /\ zlen (si_uts_rel si) = 3
  /\ bytes (si_hwaddr si) /\ zlen (si_hwaddr si) = 6
  /\ 0 <= si_cap si < 65536 /\ 0 <= si_cap_active si < 65536
  /\ 0 <= si_cap_lldpmed si < 65536 /\ -128 <= si_lldpmed_devtype si < 128
  /\ 0 <= si_physif_count si < 65536
  /\ hinv_ok (si_hinv si).

(** ** Internet checksum (RFC 1071) *)
(** One's complement addition of 16-bit words: end-around carry. *)
Definition ones_add (a b : Z) : Z := if a + b <? 65536 then a + b else a + b - 65535.
(** 16-bit words in network order; an odd last byte is the high half of the
    last word, in the Cisco variant the low half. *)
Fixpoint words (cisco : bool) (d : list Z) : list Z :=
  match d with
  | a :: b :: d' => (a * 256 + b) :: words cisco d'
  | [a] => [if cisco then a else a * 256]
  | [] => []
  end.
Definition inet_sum (cisco : bool) (d : list Z) : Z := fold_left ones_add (words cisco d) 0.
