(** ladvd understands its own advertisements: C01 to C05.

    [proto_build p opts count n par mgmt nfs si] is the frame ladvd builds for
    interface [n]; [in_buffer c f] says that the frame [f] has been received
    into the 1518-byte message buffer of [c], with anything behind it;
    [s] is the message before decoding, without any attribute. *)
From Verif Require Import Base Types Tlv Msg Protos Spec SpecAdv SpecRound DecProofs Conformance Cases Cases2.
From Verif Require Import RoundTrip.

(** C01.  The attributes shown are host name, interface name, port
    description, capability letters and management addresses. *)
Theorem C01_lldp_round_trip opts count n par mgmt nfs si f c s :
  inputs_ok count n par mgmt nfs si -> caps_consistent si ->
  proto_build 0 opts count n par mgmt nfs si = Some f ->
  in_buffer c f -> d_mode c = 1 -> s_peer s = no_peers ->
  proto_decode 0 c s =
  DOk (zlen f, mkDst (lldp_seen opts n (up n par) (up (up n par) mgmt) si) 180 (s_proto s) (s_out s)).
Proof. exact (round_lldp opts count n par mgmt nfs si f c s). Qed.
Print Assumptions C01_lldp_round_trip.
Example C01_case :
  inputs_ok 7 t_n1 (Some t_parent) (Some t_parent) t_nfs (t_si 8 8) /\ caps_consistent (t_si 8 8)
  /\ exists f, proto_build 0 0 7 t_n1 (Some t_parent) (Some t_parent) t_nfs (t_si 8 8) = Some f
     /\ in_buffer (t_ctx 171 1 f) f
     /\ lldp_seen 0 t_n1 t_parent t_parent (t_si 8 8)
        = [Some (bs "Blanket"); Some (bs "eth0"); Some (bs "utp naar de bur"); Some (bs "R");
           Some (bs "160.0.0.1"); Some (bs "6262:6262:6262:6262:6262:6262:6262:6262");
           Some (bs "00:00:00:00:00:00"); None].
Proof.
  split; [exact t_inputs_ok|]. split; [intros i H; exact H|].
  eexists. split; [vm_compute; reflexivity|]. split; [apply t_in_buffer; vm_compute; reflexivity|].
  vm_compute. reflexivity.
Qed.

(** C02. *)
Theorem C02_cdp_round_trip p opts count n par mgmt nfs si f c s :
  p = 1 \/ p = 5 -> inputs_ok count n par mgmt nfs si ->
  proto_build p opts count n par mgmt nfs si = Some f ->
  in_buffer c f -> d_mode c = 1 -> s_peer s = no_peers ->
  proto_decode 1 c s = DOk (zlen f, mkDst (cdp_seen n (up n par) mgmt si) 180 p (s_out s)).
Proof. exact (round_cdp p opts count n par mgmt nfs si f c s). Qed.
Print Assumptions C02_cdp_round_trip.
Example C02_case :
  exists f, proto_build 5 0 7 t_n1 (Some t_parent) (Some t_parent) t_nfs (t_si 8 8) = Some f
     /\ in_buffer (t_ctx 171 1 f) f
     /\ cdp_seen t_n1 t_parent (Some t_parent) (t_si 8 8)
        = [Some (bs "Blanket"); Some (bs "eth0"); None; Some (bs "R");
           Some (bs "160.0.0.1"); Some (bs "6262:6262:6262:6262:6262:6262:6262:6262"); None; None].
Proof.
  eexists. split; [vm_compute; reflexivity|]. split; [apply t_in_buffer; vm_compute; reflexivity|].
  vm_compute. reflexivity.
Qed.

(** C03. *)
Theorem C03_edp_round_trip opts count n par mgmt nfs si f c s :
  inputs_ok count n par mgmt nfs si ->
  proto_build 2 opts count n par mgmt nfs si = Some f ->
  in_buffer c f -> s_peer s = no_peers ->
  proto_decode 2 c s = DOk (zlen f, mkDst (edp_seen si) 180 (s_proto s) (s_out s)).
Proof. exact (round_edp opts count n par mgmt nfs si f c s). Qed.
Print Assumptions C03_edp_round_trip.
Example C03_case :
  exists f, proto_build 2 0 7 t_n1 (Some t_parent) (Some t_parent) t_nfs (t_si 8 8) = Some f
     /\ in_buffer (t_ctx 171 1 f) f /\ hd None (edp_seen (t_si 8 8)) = Some (bs "Blanket").
Proof.
  eexists. split; [vm_compute; reflexivity|]. split; [apply t_in_buffer; vm_compute; reflexivity|].
  vm_compute. reflexivity.
Qed.

(** C04. *)
Theorem C04_fdp_round_trip opts count n par mgmt nfs si f c s :
  inputs_ok count n par mgmt nfs si ->
  proto_build 3 opts count n par mgmt nfs si = Some f ->
  in_buffer c f -> s_peer s = no_peers ->
  proto_decode 3 c s = DOk (zlen f, mkDst (fdp_seen n si) 180 (s_proto s) (s_out s)).
Proof. exact (round_fdp opts count n par mgmt nfs si f c s). Qed.
Print Assumptions C04_fdp_round_trip.
Example C04_case :
  exists f, proto_build 3 0 7 t_n1 (Some t_parent) (Some t_parent) t_nfs (t_si 8 8) = Some f
     /\ in_buffer (t_ctx 171 1 f) f
     /\ fdp_seen t_n1 (t_si 8 8)
        = [Some (bs "Blanket"); Some (bs "eth0"); None; Some (bs "R"); None; None; None; None].
Proof.
  eexists. split; [vm_compute; reflexivity|]. split; [apply t_in_buffer; vm_compute; reflexivity|].
  vm_compute. reflexivity.
Qed.

(** C05.  Offset 22 is right behind the SNAP header. *)
Theorem C05_ndp_fixed opts count n par mgmt nfs si f c s :
  inputs_ok count n par mgmt nfs si ->
  proto_build 4 opts count n par mgmt nfs si = Some f ->
  in_buffer c f ->
  zlen f = 64 /\ (exists payload, ndp_frame f payload)
  /\ slice f 22 4 = nf_ipaddr4 (up n par)
  /\ exists k, proto_decode 4 c s = DOk (k, mkDst (s_peer s) 180 (s_proto s) (s_out s)).
Proof. exact (round_ndp opts count n par mgmt nfs si f c s). Qed.
Print Assumptions C05_ndp_fixed.
Example C05_case :
  exists f, proto_build 4 0 7 t_n1 (Some t_parent) (Some t_parent) t_nfs (t_si 8 8) = Some f
     /\ in_buffer (t_ctx 171 1 f) f /\ slice f 22 4 = nf_ipaddr4 t_parent.
Proof.
  eexists. split; [vm_compute; reflexivity|]. split; [apply t_in_buffer; vm_compute; reflexivity|].
  vm_compute. reflexivity.
Qed.
