(** Specification vocabulary: the full text of an advertisement (ladvdc -f). *)
From Verif Require Import Base Spec SpecAddr Util.

(** A labelled line; a text of several lines stands indented below its label. *)
Definition line (label text : list Z) : list Z := label ++ bs ": " ++ text ++ [10].
Definition paragraph (label text : list Z) : list Z :=
  match fields 10 text with
  | [one] => line label one
  | several => label ++ bs ":" ++ [10] ++ flat_map (fun l => bs "  " ++ l ++ [10]) several
  end.
(** Seconds left of a hold time, as an unsigned 16-bit number. *)
Definition left (ttl age : Z) : list Z := decimal ((ttl - age) mod 65536).

(** ** CDP *)
Inductive addr_says : addr_rec -> list Z -> Prop :=
| addr_says_ip4 a : zlen a = 4 -> addr_says (1, [204], a) (line (bs "  IP address") (inet_ntop4 a))
| addr_says_ip6 a : zlen a = 16 ->
    addr_says (2, [170; 170; 3; 0; 0; 0; 134; 221], a) (line (bs "  IPv6 address") (inet_ntop6 a))
| addr_says_other pt proto a :
    (pt, proto) <> (1, [204]) -> (pt, proto) <> (2, [170; 170; 3; 0; 0; 0; 134; 221]) ->
    addr_says (pt, proto, a) [].
(** The text of a TLV received on the interface [ifname]. *)
Inductive cdp_says (ifname : list Z) : tlv -> list Z -> Prop :=
| cdp_says_device v : cdp_says ifname (1, v) (line (bs "Device ID") (shown show_safe v))
| cdp_says_name v : cdp_says ifname (20, v) (line (bs "System Name") (shown show_safe v))
| cdp_says_port v :
    cdp_says ifname (3, v)
      (bs "Interface: " ++ ifname ++ bs ", " ++ line (bs "Port ID (outgoing port)") (shown show_safe v))
| cdp_says_caps w : 0 <= w < 4294967296 -> cdp_says ifname (4, U32 w) (line (bs "Capabilities") (cdp_caps w))
| cdp_says_addrs t label n recs texts rest :
    In (t, label) [(2, bs "Entry"); (22, bs "Management")] -> 0 <= n < 4294967296 -> recs <> [] ->
    (zlen recs = n \/ (rest = [] /\ (zlen recs < n \/ n = 0))) ->
    Forall addr_rec_fits recs -> Forall2 addr_says recs texts ->
    cdp_says ifname (t, U32 n ++ flat_map addr_rec_bytes recs ++ rest)
      (label ++ bs " address(es):" ++ [10] ++ concat texts)
| cdp_says_version v : cdp_says ifname (5, v) (paragraph (bs "Version") (shown show_safe v))
| cdp_says_platform v : cdp_says ifname (6, v) (paragraph (bs "Platform") (shown show_safe v))
| cdp_says_vtp v :
    cdp_says ifname (9, v) (line (bs "VTP Management Domain") (bs "'" ++ shown show_safe v ++ bs "'"))
| cdp_says_vlan w : 0 <= w < 65536 -> cdp_says ifname (10, U16 w) (line (bs "Native VLAN") (decimal w))
| cdp_says_duplex d :
    cdp_says ifname (11, [d]) (line (bs "Duplex") (if d =? 0 then bs "half" else bs "full"))
| cdp_says_other t v : ~ In t [1; 2; 3; 4; 5; 6; 9; 10; 11; 20; 22] -> cdp_says ifname (t, v) [].
(** The text of a packet [age] seconds old: its version, hold time and TLVs in order. *)
Inductive cdp_packet_says (ifname : list Z) (age : Z) : list Z -> list Z -> Prop :=
| cdp_packet_says_intro version ttl chk tlvs texts :
    version = 1 \/ version = 2 -> zlen chk = 2 -> Forall cdp_fits tlvs -> Forall2 (cdp_says ifname) tlvs texts ->
    cdp_packet_says ifname age ([version; ttl] ++ chk ++ flat_map cdp_bytes tlvs)
      (line (bs "CDP Version") (decimal version) ++ line (bs "Holdtime") (left ttl age) ++ concat texts).

(** ** LLDP *)
(** The chassis: text, an Ethernet address, or a network address. *)
Inductive chassis_says : list Z -> list Z -> Prop :=
| chassis_says_text sub id : In sub [1; 2; 3; 6; 7] -> chassis_says (sub :: id) (line (bs "Chassis id") (shown show_safe id))
| chassis_says_mac id : zlen id = 6 -> chassis_says (4 :: id) (line (bs "Chassis id") (mac_str id))
| chassis_says_net af sl size text a : mgmt_family af sl size text -> zlen a = size ->
    chassis_says (5 :: af :: a) (line (bs "Chassis id") (text a))
| chassis_says_other sub id :
    ~ In sub [1; 2; 3; 6; 7] -> (sub = 4 -> zlen id <> 6) ->
    (forall af sl size text a, mgmt_family af sl size text -> zlen a = size -> sub :: id <> 5 :: af :: a) ->
    chassis_says (sub :: id) [].
(** The port: text or an Ethernet address. *)
Inductive port_says : list Z -> list Z -> Prop :=
| port_says_text sub id : In sub [1; 2; 5; 6; 7] -> port_says (sub :: id) (line (bs "Port id") (shown show_safe id))
| port_says_mac id : zlen id = 6 -> port_says (3 :: id) (line (bs "Port id") (mac_str id))
| port_says_other sub id : ~ In sub [1; 2; 3; 5; 6; 7] -> port_says (sub :: id) [].
Definition family_name (af : Z) : list Z :=
  if af =? 1 then bs "IPv4" else if af =? 2 then bs "IPv6" else bs "Ethernet".
(** An optional TLV; [named] says whether a system name stood before. *)
Inductive lldp_says (named : bool) : tlv -> list Z -> Prop :=
| lldp_says_name v : zlen v <= 255 -> named = false ->
    lldp_says named (5, v) (line (bs "System Name") (shown show_safe v))
| lldp_says_pdescr v : lldp_says named (4, v) (paragraph (bs "Port Description") (shown show_safe v))
| lldp_says_descr v : lldp_says named (6, v) (paragraph (bs "System Description") (shown show_safe v))
| lldp_says_caps avail enabled :
    0 <= avail < 65536 -> 0 <= enabled < 65536 -> lldp_caps_ok avail enabled ->
    lldp_says named (7, U16 avail ++ U16 enabled)
      (line (bs "System Capabilities") (lldp_caps avail) ++ line (bs "Enabled Capabilities") (lldp_caps enabled))
| lldp_says_mgmt af sl size text addr rest :
    mgmt_family af sl size text -> zlen addr = size -> rest <> [] ->
    lldp_says named (8, [1 + size; af] ++ addr ++ rest)
      (line (bs "Management Address " ++ family_name af) (text addr))
| lldp_says_pvid w : 0 <= w < 65536 ->
    lldp_says named (127, [0; 128; 194; 1] ++ U16 w) (line (bs "Port VLAN ID") (decimal w))
| lldp_says_8021 sub rest : sub <> 1 -> lldp_says named (127, [0; 128; 194; sub] ++ rest) []
| lldp_says_org oui rest : zlen oui = 3 -> oui <> [0; 128; 194] -> lldp_says named (127, oui ++ rest) []
| lldp_says_other t v : In t [1; 2; 3] -> lldp_says named (t, v) [].
Inductive lldp_lines : bool -> list tlv -> list Z -> Prop :=
| lldp_lines_nil named : lldp_lines named [] []
| lldp_lines_cons named x tlvs text texts :
    lldp_says named x text -> lldp_lines (named || (fst x =? 5)) tlvs texts ->
    lldp_lines named (x :: tlvs) (text ++ texts).
(** A packet [age] seconds old; [used] bytes of it, up to its End TLV. *)
Inductive lldp_packet_says (age : Z) : list Z -> Z -> list Z -> Prop :=
| lldp_packet_says_intro chassis port ttl tlvs t1 t2 t3 trailer :
    2 <= zlen chassis <= 256 -> 2 <= zlen port <= 256 -> 0 <= ttl < 65536 ->
    Forall lldp_fits tlvs -> chassis_says chassis t1 -> port_says port t2 -> lldp_lines false tlvs t3 ->
    let used := flat_map lldp_bytes ([(1, chassis); (2, port); (3, U16 ttl)] ++ tlvs ++ [(0, [])]) in
    lldp_packet_says age (used ++ trailer) (zlen used)
      (t1 ++ t2 ++ line (bs "Time remaining") (left ttl age ++ bs " seconds") ++ t3).
(** The chassis is named by a network address of family [af]. *)
Definition network_chassis (af : Z) (payload : list Z) : Prop :=
  exists a rest, payload = lldp_bytes (1, 5 :: af :: a) ++ rest /\ zlen a <= 254.

(** ** The table of the daemon *)
(** The text of a CDP or LLDP entry, read at time [now]; LLDP without a network
    address as chassis. *)
Inductive entry_says (now : Z) (e : entry) (text : list Z) : Prop :=
| entry_says_cdp f payload :
    In (q_proto e) [1; 5] -> q_msg e = f ++ repeat 0 (Z.to_nat (1518 - zlen f)) -> q_len e = zlen f -> cdp_frame f payload ->
    cdp_packet_says (q_name e) (now - q_received e) payload text -> entry_says now e text
| entry_says_lldp f payload used :
    q_proto e = 0 -> q_msg e = f ++ repeat 0 (Z.to_nat (1518 - zlen f)) -> q_len e = zlen f -> lldp_frame f payload ->
    (forall af, In af [1; 2; 4; 5] -> ~ network_chassis af payload) ->
    lldp_packet_says (now - q_received e) payload used text -> entry_says now e text.
