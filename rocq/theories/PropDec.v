(** What the decoders accept and report, and their safety: C10 to C15, C56.

    [in_buffer c f]: the frame [f], of 60 to 1518 bytes, is in the message buffer
    of [c] with anything behind it.  [d_mode c] is 1 for the neighbour table, 2
    for detailed printing.  [proto_frame p f payload]: [f] has the header of
    protocol [p] (otherwise the decoder is not called). *)
From Verif Require Import Base Types Tlv Msg Cdp Edp Fdp Lldp Protos Spec SpecAdv SpecRound DecProofs
  Conformance Cases Cases2.
From Verif Require Import DecCdp2 DecEdp DecLldp2 DecSafe Modes.

(** C10. *)
Theorem C10_cdp_accepts c f payload s n s' :
  in_buffer c f -> cdp_frame f payload -> d_mode c = 1 -> s_peer s = no_peers ->
  cdp_decode c s = DOk (n, s') <->
  n = zlen f /\
  exists version ttl attrs, cdp_packet_means payload version ttl attrs
    /\ s' = mkDst (report attrs) ttl (if version =? 1 then 5 else 1) (s_out s).
Proof.
  intros Hin Hf Hm Hs. apply (cdp_decode_iff c f payload s n s' Hin Hf); [|exact Hs].
  rewrite Hm. discriminate.
Qed.
Print Assumptions C10_cdp_accepts.
Example C10_case :
  in_buffer (t_ctx 9 1 c_cdp) c_cdp /\ cdp_frame c_cdp (skipn 22 c_cdp)
  /\ cdp_decode (t_ctx 9 1 c_cdp) t_start =
     DOk (458, mkDst [Some (bs "mpls-sbp-ams1.leazewep.nat"); Some (bs "FastEthernet4/11"); None;
                      Some (bs "RS"); Some (bs "62.212.94.90"); None; None; Some (bs "971")] 180 1 [])
  /\ cdp_decode (t_ctx 9 1 (firstn 400 c_cdp)) t_start = DFail.
Proof.
  split; [apply c_cdp_in|]. split; [apply c_cdp_frame|]. split; vm_compute; reflexivity.
Qed.

(** C11. *)
Theorem C11_edp_accepts c f payload s n s' :
  in_buffer c f -> edp_frame f payload -> s_peer s = no_peers ->
  edp_decode c s = DOk (n, s') <->
  n = zlen f /\
  exists attrs, edp_packet_means payload attrs
    /\ s' = mkDst (report attrs) 180 (s_proto s) (s_out s).
Proof. exact (edp_decode_iff c f payload s n s'). Qed.
Print Assumptions C11_edp_accepts.
Theorem C11_fdp_accepts c f payload s n s' :
  in_buffer c f -> fdp_frame f payload -> s_peer s = no_peers ->
  fdp_decode c s = DOk (n, s') <->
  n = zlen f /\
  exists ttl attrs, fdp_packet_means payload ttl attrs
    /\ s' = mkDst (report attrs) ttl (s_proto s) (s_out s).
Proof. exact (fdp_decode_iff c f payload s n s'). Qed.
Print Assumptions C11_fdp_accepts.
Example C11_case :
  in_buffer (t_ctx 9 1 c_edp) c_edp /\ edp_frame c_edp (skipn 22 c_edp)
  /\ edp_decode (t_ctx 9 1 c_edp) t_start =
     DOk (338, mkDst (Some (bs "HD000002") :: repeat None 7) 180 0 [])
  /\ in_buffer (t_ctx 9 1 c_fdp) c_fdp /\ fdp_frame c_fdp (skipn 22 c_fdp)
  /\ fdp_decode (t_ctx 9 1 c_fdp) t_start =
     DOk (743, mkDst [Some (bs "doetnix"); Some (bs "ethernet3/1"); None; Some (bs "S"); None; None; None; None]
                 10 0 []).
Proof.
  split; [apply c_edp_in|]. split; [apply c_edp_frame|]. split; [vm_compute; reflexivity|].
  split; [apply c_fdp_in|]. split; [apply c_fdp_frame|]. vm_compute; reflexivity.
Qed.

(** C12. *)
Theorem C12_lldp_accepts c f payload s n s' :
  in_buffer c f -> lldp_frame f payload -> d_mode c = 1 -> s_peer s = no_peers ->
  lldp_decode c s = DOk (n, s') <->
  exists used ttl attrs, lldp_packet_means payload used ttl attrs
    /\ n = zlen f - zlen payload + used
    /\ s' = mkDst (report attrs) ttl (s_proto s) (s_out s).
Proof. exact (lldp_decode_iff c f payload s n s'). Qed.
Print Assumptions C12_lldp_accepts.
Example C12_case :
  in_buffer (t_ctx 9 1 c_lldp) c_lldp /\ lldp_frame c_lldp (skipn 14 c_lldp)
  /\ match lldp_decode (t_ctx 9 1 c_lldp) t_start with
     | DOk (n, s) => (n, s_ttl s, firstn 2 (s_peer s)) | _ => (0, 0, []) end
     = (263, 120, [Some (bs "Summit300-48"); Some (bs "1/1")])
  /\ lldp_decode (t_ctx 9 1 (firstn 200 c_lldp)) t_start = DFail.
Proof.
  split; [apply c_lldp_in|]. split; [apply c_lldp_frame|]. split; vm_compute; reflexivity.
Qed.

(** C13, for every decode mode: the outcome is acceptance with at most the
    frame's length, or refusal; never a stray read, an abort or a loop. *)
Theorem C13_decoders_safe p c f payload s :
  In p [1; 2; 3; 4; 5] -> in_buffer c f -> proto_frame p f payload -> s_peer s = no_peers ->
  proto_decode p c s = DFail \/ exists n s', proto_decode p c s = DOk (n, s') /\ n <= zlen f.
Proof. exact (other_safe p c f payload s). Qed.
Print Assumptions C13_decoders_safe.
(** A CDP frame whose last TLV claims more than there is, in print mode. *)
Definition t_cut := firstn 400 c_cdp.
Example C13_case :
  in_buffer (t_ctx 255 2 t_cut) t_cut /\ proto_frame 1 t_cut (skipn 22 t_cut)
  /\ proto_decode 1 (t_ctx 255 2 t_cut) t_start = DFail.
Proof.
  split; [apply t_in_buffer; vm_compute; reflexivity|].
  split; [apply (t_snap _ _ _ 444); vm_compute; (reflexivity || discriminate || easy)|].
  vm_compute. reflexivity.
Qed.

(** C14, every decode mode.  Missing: frames of exactly 1518 bytes, and
    detailed printing of a Port ID of subtype MAC address that is not six bytes
    long, for both of which the property is false (next theorems). *)
Theorem C14_lldp_safe_partial c f payload s :
  in_buffer c f -> lldp_frame f payload ->
  zlen f <> 1518 -> ~ (d_mode c = 2 /\ odd_port_mac payload) ->
  lldp_decode c s = DFail \/ exists n s', lldp_decode c s = DOk (n, s') /\ n <= zlen f.
Proof.
  intros Hin Hf Hl Hp. pose proof (lldp_safe c f payload s Hin Hf) as H.
  destruct (lldp_decode c s) as [[n s']| | | |]; cbn [tame] in H.
  - right. exists n, s'. split; [reflexivity|exact H].
  - left. reflexivity.
  - contradiction.
  - destruct H; contradiction.
  - contradiction.
Qed.
Print Assumptions C14_lldp_safe_partial.
Example C14_case :
  in_buffer (t_ctx 255 1 (firstn 200 c_lldp)) (firstn 200 c_lldp)
  /\ lldp_frame (firstn 200 c_lldp) (skipn 14 (firstn 200 c_lldp))
  /\ lldp_decode (t_ctx 255 1 (firstn 200 c_lldp)) t_start = DFail.
Proof.
  split; [apply t_in_buffer; vm_compute; reflexivity|].
  split; [apply t_lldp; vm_compute; reflexivity|]. vm_compute. reflexivity.
Qed.

(** C14 is false: a frame of 1518 bytes with one byte left where a TLV header
    should be makes the decoder read one byte behind the message buffer. *)
Definition t_long : list Z :=
  [1; 128; 194; 0; 0; 14] ++ repeat 2 6 ++ U16 35020
  ++ lldp_bytes (1, 7 :: repeat 65 9) ++ lldp_bytes (2, 7 :: repeat 66 9) ++ lldp_bytes (3, [0; 120])
  ++ flat_map lldp_bytes [(6, repeat 67 500); (6, repeat 67 500)] ++ lldp_bytes (6, repeat 67 469) ++ [2].
Theorem C14_lldp_overread_refuted :
  exists c f payload s,
    in_buffer c f /\ lldp_frame f payload /\ d_mode c = 1 /\ s_peer s = no_peers
    /\ lldp_decode c s = DUB.
Proof.
  exists (t_ctx 0 1 t_long), t_long, (skipn 14 t_long), t_start.
  split; [apply t_in_buffer; vm_compute; reflexivity|].
  split; [apply t_lldp; vm_compute; reflexivity|].
  split; [reflexivity|]. split; [reflexivity|]. vm_compute. reflexivity.
Qed.
Print Assumptions C14_lldp_overread_refuted.
(** And printing a Port ID "MAC address" of five bytes passes a null pointer to
    printf. *)
Definition t_oddmac : list Z :=
  [1; 128; 194; 0; 0; 14] ++ repeat 2 6 ++ U16 35020
  ++ lldp_bytes (1, 7 :: repeat 65 9) ++ lldp_bytes (2, 3 :: repeat 66 5) ++ lldp_bytes (3, [0; 120])
  ++ lldp_bytes (6, repeat 67 50) ++ [0; 0].
Theorem C14_lldp_print_null_refuted :
  exists c f payload s,
    in_buffer c f /\ lldp_frame f payload /\ d_mode c = 2 /\ s_peer s = no_peers /\ zlen f < 1518
    /\ lldp_decode c s = DUB.
Proof.
  exists (t_ctx 0 2 t_oddmac), t_oddmac, (skipn 14 t_oddmac), t_start.
  split; [apply t_in_buffer; vm_compute; reflexivity|].
  split; [apply t_lldp; vm_compute; reflexivity|].
  split; [reflexivity|]. split; [reflexivity|]. split; vm_compute; reflexivity.
Qed.
Print Assumptions C14_lldp_print_null_refuted.

(** C15: two messages holding the same frame (and read with the same mode,
    interface name and clock) decode alike whatever lies behind the frame. *)
Theorem C15_tail_independent p c c' f s :
  0 <= p < 6 -> in_buffer c f -> in_buffer c' f -> alike c c' -> s_peer s = no_peers ->
  proto_decode p c s = proto_decode p c' s.
Proof. exact (decode_alike p c c' f s). Qed.
Print Assumptions C15_tail_independent.
Example C15_case :
  in_buffer (t_ctx 0 1 c_lldp) c_lldp /\ in_buffer (t_ctx 255 1 c_lldp) c_lldp
  /\ alike (t_ctx 0 1 c_lldp) (t_ctx 255 1 c_lldp)
  /\ d_buf (t_ctx 0 1 c_lldp) <> d_buf (t_ctx 255 1 c_lldp).
Proof.
  split; [apply c_lldp_in|]. split; [apply c_lldp_in|]. split; [repeat split|].
  vm_compute. discriminate.
Qed.

(** C56, one direction: what can be printed in full is also listed.  Missing:
    the other direction, which is false (next theorem). *)
Theorem C56_print_implies_list_partial p c c' f payload s :
  0 <= p < 6 -> in_buffer c f -> in_buffer c' f -> proto_frame p f payload ->
  d_mode c = 2 -> d_mode c' = 1 -> s_peer s = no_peers ->
  (exists n s', proto_decode p c s = DOk (n, s')) -> exists n s', proto_decode p c' s = DOk (n, s').
Proof. exact (print_implies_list p c c' f payload s). Qed.
Print Assumptions C56_print_implies_list_partial.
Example C56_case :
  in_buffer (t_ctx 0 2 c_cdp) c_cdp /\ proto_frame 1 c_cdp (skipn 22 c_cdp)
  /\ match proto_decode 1 (t_ctx 0 2 c_cdp) t_start with
     | DOk (n, s) => (n, zlen (s_out s)) | _ => (0, 0) end = (458, 16).
Proof.
  split; [apply c_cdp_in|]. split; [apply c_cdp_frame|]. vm_compute. reflexivity.
Qed.

(** C56 is false: a CDP frame with a duplex TLV of two bytes is listed but
    refused when printed in full. *)
Definition t_duplex : list Z :=
  snap [1; 0; 12; 204; 204; 204] (repeat 2 6) [0; 0; 12] 8192
    ([2; 180; 0; 0] ++ flat_map cdp_bytes [(1, bs "a neighbour with a long name"); (11, [1; 1])]).
Theorem C56_modes_differ_refuted :
  exists c c' f payload s,
    in_buffer c f /\ in_buffer c' f /\ proto_frame 1 f payload /\ s_peer s = no_peers
    /\ d_mode c = 1 /\ d_mode c' = 2
    /\ proto_decode 1 c s =
       DOk (zlen f, mkDst (Some (bs "a neighbour with a long name") :: repeat None 7) 180 1 [])
    /\ proto_decode 1 c' s = DFail.
Proof.
  exists (t_ctx 0 1 t_duplex), (t_ctx 0 2 t_duplex), t_duplex, (skipn 22 t_duplex), t_start.
  split; [apply t_in_buffer; vm_compute; reflexivity|].
  split; [apply t_in_buffer; vm_compute; reflexivity|].
  split; [apply (t_snap _ _ _ 50); vm_compute; (reflexivity || discriminate || easy)|].
  repeat split; vm_compute; reflexivity.
Qed.
Print Assumptions C56_modes_differ_refuted.
