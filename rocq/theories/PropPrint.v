(** The full text of advertisements: C91. *)
From Verif Require Import Base Tlv Types Msg Cdp Edp Fdp Lldp Protos Wire Util Child Cli Spec SpecAdv SpecRound SpecNet SpecChild SpecCli SpecAddr SpecPrint.
From Verif Require Import DecProofs Cases2 Cases7 Cases10 PrintProofs PrintProofs2 PrintProofs3 PropCli.

(** C91 for CDP: the frame is decoded for printing exactly if it says a text, and
    this text is printed. *)
Theorem C91_cdp c f payload s text :
  in_buffer c f -> cdp_frame f payload -> d_mode c = 2 ->
  (exists s', cdp_decode c s = DOk (zlen f, s') /\ concat (s_out s') = concat (s_out s) ++ text)
  <-> cdp_packet_says (d_name c) (d_now c - d_received c) payload text.
Proof. exact (cdp_full c f payload s text). Qed.
Print Assumptions C91_cdp.
(** A capture of a Catalyst 6504, ten seconds old. *)
Example C91_cdp_case :
  in_buffer (t_ctx 255 2 c_cdp) c_cdp /\ cdp_frame c_cdp (skipn 22 c_cdp)
  /\ k_text (cdp_decode (t_ctx 255 2 c_cdp) t_start) = Some (zlen c_cdp,
       bs "CDP Version: 2" ++ [10] ++ bs "Holdtime: 170" ++ [10] ++ bs "Device ID: mpls-sbp-ams1.leazewep.nat" ++ [10]
       ++ bs "Version:" ++ [10] ++ bs "  Cisco Internetwork Operating System Software " ++ [10]
       ++ bs "  IOS (tm) s72033_rp Software (s72033_rp-ADVIPSERVICESK9_WAN-M), Version 12.2(18)SXF4, RELEASE SOFTWARE (fc1)" ++ [10]
       ++ bs "  Technical Support: http://www.cisco.com/techsupport" ++ [10]
       ++ bs "  Copyright (c) 1986-2006 by cisco Systems, Inc." ++ [10]
       ++ bs "  Compiled Thu 23-Mar-06 20:09 by tinhuang" ++ [10]
       ++ bs "Platform: cisco WS-C6504-E" ++ [10] ++ bs "Entry address(es):" ++ [10] ++ bs "  IP address: 62.212.94.90" ++ [10]
       ++ bs "Interface: eth0, Port ID (outgoing port): FastEthernet4/11" ++ [10] ++ bs "Capabilities: RS" ++ [10]
       ++ bs "VTP Management Domain: 'mpls-ams1'" ++ [10] ++ bs "Native VLAN: 971" ++ [10] ++ bs "Duplex: full" ++ [10]).
Proof. split; [apply c_cdp_in|]. split; [exact c_cdp_frame|]. vm_compute. reflexivity. Qed.

(** C91 for LLDP, for a chassis that is not named by an IPv4 or IPv6 address (or by
    one of the families 4 and 5).  Missing: those, which are not shown or shown as
    something else, see the refutation. *)
Theorem C91_lldp_partial c f payload s n text :
  in_buffer c f -> lldp_frame f payload -> d_mode c = 2 -> s_peer s = no_peers ->
  (forall af, In af [1; 2; 4; 5] -> ~ network_chassis af payload) ->
  (exists s', lldp_decode c s = DOk (n, s') /\ concat (s_out s') = concat (s_out s) ++ text)
  <-> exists used, n = zlen f - zlen payload + used /\ lldp_packet_says (d_now c - d_received c) payload used text.
Proof. exact (lldp_full c f payload s n text). Qed.
Print Assumptions C91_lldp_partial.
Example C91_lldp_case :
  in_buffer (t_ctx 255 2 c_lldp) c_lldp /\ lldp_frame c_lldp (skipn 14 c_lldp)
  /\ (forall af, In af [1; 2; 4; 5] -> ~ network_chassis af (skipn 14 c_lldp))
  /\ k_text (lldp_decode (t_ctx 255 2 c_lldp) t_start) = Some (zlen c_lldp,
       bs "Chassis id: 00:01:30:f9:ad:a0" ++ [10] ++ bs "Port id: 1/1" ++ [10] ++ bs "Time remaining: 110 seconds" ++ [10]
       ++ bs "Port Description: Summit300-48-Port 1001" ++ [10] ++ bs "System Name: Summit300-48" ++ [10]
       ++ bs "System Description: Summit300-48 - Version 7.4e.1 (Build 5) by Release_Master 05/27/05 04:53:11" ++ [10]
       ++ bs "System Capabilities: BR" ++ [10] ++ bs "Enabled Capabilities: BR" ++ [10]
       ++ bs "Management Address Ethernet: 00:01:30:f9:ad:a0" ++ [10] ++ bs "Port VLAN ID: 488" ++ [10]).
Proof.
  split; [apply c_lldp_in|]. split; [exact c_lldp_frame|]. split.
  - intros af _. replace (skipn 14 c_lldp) with (lldp_bytes (1, 4 :: [0; 1; 48; 249; 173; 160]) ++ skipn 23 c_lldp) by (vm_compute; reflexivity).
    apply k_no_net; [lia|vm_compute; discriminate].
  - vm_compute. reflexivity.
Qed.
(** C91 is false for LLDP: a chassis named by its IPv4 address is not shown, and an
    address of the family 4 (HDLC) is shown as IPv4. *)
Theorem C91_chassis_refuted : exists c f payload used text shown,
  in_buffer c f /\ lldp_frame f payload /\ d_mode c = 2
  /\ lldp_packet_says (d_now c - d_received c) payload used text
  /\ k_text (lldp_decode c t_start) = Some (zlen f - zlen payload + used, shown) /\ shown <> text
  /\ text = line (bs "Chassis id") (bs "192.0.2.1") ++ shown
  /\ exists rest, k_text (lldp_decode (t_ctx 255 2 (k_net 4 [192; 0; 2; 1])) t_start)
       = Some (zlen f - zlen payload + used, line (bs "Chassis id") (bs "192.0.2.1") ++ rest).
Proof.
  exists (t_ctx 255 2 (k_net 1 [192; 0; 2; 1])), (k_net 1 [192; 0; 2; 1]), (skipn 14 (k_net 1 [192; 0; 2; 1])), 37, k_net_text,
    (line (bs "Port id") (bs "5") ++ line (bs "Time remaining") (bs "110 seconds") ++ line (bs "System Name") (bs "phone.example.org")).
  split; [apply k_net_in|]. split; [exact k_net_frame|]. split; [reflexivity|]. split; [exact k_net_says|].
  split; [vm_compute; reflexivity|]. split; [vm_compute; discriminate|]. split; [vm_compute; reflexivity|].
  exists (line (bs "Port id") (bs "5") ++ line (bs "Time remaining") (bs "110 seconds") ++ line (bs "System Name") (bs "phone.example.org")).
  vm_compute. reflexivity.
Qed.
Print Assumptions C91_chassis_refuted.

(** C91 is false for EDP, FDP and NDP: nothing is ever printed, whatever they say. *)
Theorem C91_others_silent p c s n s' : In p [2; 3; 4] -> proto_decode p c s = DOk (n, s') -> s_out s' = s_out s.
Proof. exact (others_silent p c s n s'). Qed.
Print Assumptions C91_others_silent.
Theorem C91_others_refuted : exists c1 c2 s1 s2,
  in_buffer c1 c_edp /\ edp_frame c_edp (skipn 22 c_edp) /\ d_mode c1 = 2
  /\ proto_decode 2 c1 t_start = DOk (zlen c_edp, s1) /\ nth 0 (s_peer s1) None = Some (bs "HD000002") /\ s_out s1 = []
  /\ in_buffer c2 c_fdp /\ fdp_frame c_fdp (skipn 22 c_fdp) /\ d_mode c2 = 2
  /\ proto_decode 3 c2 t_start = DOk (zlen c_fdp, s2) /\ nth 0 (s_peer s2) None = Some (bs "doetnix") /\ s_out s2 = [].
Proof.
  exists (t_ctx 255 2 c_edp), (t_ctx 255 2 c_fdp). eexists. eexists.
  split; [apply c_edp_in|]. split; [exact c_edp_frame|]. split; [reflexivity|]. split; [vm_compute; reflexivity|].
  split; [vm_compute; reflexivity|]. split; [reflexivity|].
  split; [apply c_fdp_in|]. split; [exact c_fdp_frame|]. split; [reflexivity|]. split; [vm_compute; reflexivity|].
  split; [vm_compute; reflexivity|]. reflexivity.
Qed.
Print Assumptions C91_others_refuted.

(** C91 for the client, as long as the wanted entries are CDP or LLDP with a text
    and have not expired: it prints their texts in order, each with an empty line
    after it, and nothing else.  Missing: the other protocols, expired entries (see
    C44) and network addresses as chassis. *)
Theorem C91_client_partial letters names ifindex now ws es texts :
  usable letters names ifindex -> In 102 letters -> (forall x, In x letters -> In x (bs "LCEFNfv")) ->
  0 <= now < 9223372036854775808 -> Forall genuine es -> (forall e, In e es -> q_received e <= now) ->
  (forall e, In e es -> q_proto e = 5 -> ~ In 67 letters) ->
  let wanted := filter (fun e => asked letters (q_proto e) && asked_if names ifindex (q_index e)) es in
  (forall e, In e wanted -> fresh now e = true) -> Forall2 (entry_says now) wanted texts ->
  exists o, cli_main letters names ifindex now ws (map entry_bytes es)
    = Some (DOk (o, flat_map (fun t => t ++ [10]) texts)).
Proof. exact (client_full letters names ifindex now ws es texts). Qed.
Print Assumptions C91_client_partial.
Definition k_texts : list (list Z) :=
  [line (bs "Chassis id") (bs "02:00:00:00:00:09") ++ line (bs "Port id") (bs "Ethernet1/7")
     ++ line (bs "Time remaining") (bs "116 seconds") ++ line (bs "System Name") (bs "sw2.example.org");
   line (bs "CDP Version") (bs "2") ++ line (bs "Holdtime") (bs "177")
     ++ line (bs "Interface: eth1, Port ID (outgoing port)") (bs "GigabitEthernet0/17")
     ++ line (bs "Capabilities") (bs "S") ++ line (bs "Platform") (bs "cisco WS-C2960-24TT");
   line (bs "CDP Version") (bs "1") ++ line (bs "Holdtime") (bs "178") ++ line (bs "Device ID") (bs "old.example.org")
     ++ line (bs "Interface: eth0, Port ID (outgoing port)") (bs "FastEthernet0/3");
   line (bs "Chassis id") (bs "02:00:00:00:00:09") ++ line (bs "Port id") (bs "ge-0/0/1")
     ++ line (bs "Time remaining") (bs "5 seconds") ++ line (bs "System Name") (bs "sw1.example.org")].
Example C91_client_case :
  Forall genuine x_last /\ usable [102] [] x_ifindex /\ (forall e, In e x_last -> q_received e <= 105)
  /\ filter (fun e => asked [102] (q_proto e) && asked_if [] x_ifindex (q_index e)) x_last = x_last
  /\ forallb (fresh 105) x_last = true /\ Forall2 (entry_says 105) x_last k_texts
  /\ x_text (cli_main [102] [] x_ifindex 105 None (map entry_bytes x_last)) = flat_map (fun t => t ++ [10]) k_texts.
Proof.
  split; [exact x_last_genuine|]. split; [now apply x_usable|]. split; [apply x_before; vm_compute; reflexivity|].
  split; [vm_compute; reflexivity|]. split; [vm_compute; reflexivity|]. split; [|vm_compute; reflexivity].
  replace x_last with [x_at 0 x_last; x_at 1 x_last; x_at 2 x_last; x_at 3 x_last] by (vm_compute; reflexivity). unfold k_texts.
  constructor; [|constructor; [|constructor; [|constructor; [|constructor]]]].
  - apply (k_entry_lldp 105 (x_at 0 x_last) x_sw2 4 [2; 0; 0; 0; 0; 9] (skipn 23 x_sw2)); try (vm_compute; reflexivity).
    + apply t_lldp; vm_compute; reflexivity.
    + lia.
    + vm_compute. discriminate.
  - apply (k_entry_cdp 105 (x_at 1 x_last) x_port); try (vm_compute; reflexivity).
    apply (t_snap _ _ _ 66); vm_compute; (reflexivity || discriminate || easy).
  - apply (k_entry_cdp 105 (x_at 2 x_last) x_old); try (vm_compute; reflexivity).
    apply (t_snap _ _ _ 50); vm_compute; (reflexivity || discriminate || easy).
  - apply (k_entry_lldp 105 (x_at 3 x_last) x_brief 4 [2; 0; 0; 0; 0; 9] (skipn 23 x_brief)); try (vm_compute; reflexivity).
    + apply t_lldp; vm_compute; reflexivity.
    + lia.
    + vm_compute. discriminate.
Qed.
