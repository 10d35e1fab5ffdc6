(** Properties of the advertisements ladvd sends: C06, C07, C08, C50, C57. *)
From Verif Require Import Base Types Chksum Protos Spec SpecAdv Conformance Cases.
From Verif Require Import ChkProofs EncProps TlvInj.

(** C06: a built frame has at most 1518 bytes and all its length fields are
    true, up to the very end of the frame. *)
Theorem C06_complete_or_nothing p opts count n par mgmt nfs si f :
  0 <= p < 6 -> inputs_ok count n par mgmt nfs si ->
  proto_build p opts count n par mgmt nfs si = Some f ->
  zlen f <= 1518 /\ tiled p f.
Proof. exact (build_tiled p opts count n par mgmt nfs si f). Qed.
Print Assumptions C06_complete_or_nothing.
(** A frame of each protocol; and an LLDP frame that is not built because 80
    VLANs do not fit. *)
Example C06_case :
  inputs_ok 7 t_n1 (Some t_parent) (Some t_parent) t_nfs (t_si 8 8)
  /\ map (fun p => match proto_build p 0 7 t_n1 (Some t_parent) (Some t_parent) t_nfs (t_si 8 8)
                   with Some f => zlen f | None => 0 end) [0; 1; 2; 3; 4; 5]
     = [276; 203; 131; 126; 64; 203]
  /\ proto_build 0 0 7 t_n1 (Some t_parent) (Some t_parent) (repeat t_vlan2 80) (t_si 8 8) = None.
Proof. split; [exact t_inputs_ok|]. split; vm_compute; reflexivity. Qed.

(** C57: what is built is exactly the specified advertisement of the interface
    and system data, or nothing when that exceeds a frame. *)
Theorem C57_content p opts count n par mgmt nfs si :
  0 <= p < 6 -> inputs_ok count n par mgmt nfs si ->
  proto_build p opts count n par mgmt nfs si =
    let f := advert p opts count n par mgmt nfs si in
    if zlen f <=? 1518 then Some f else None.
Proof. exact (proto_build_spec p opts count n par mgmt nfs si). Qed.
Print Assumptions C57_content.
Example C57_case :
  proto_build 3 0 7 t_n1 (Some t_parent) (Some t_parent) t_nfs (t_si 8 8) =
  Some (advert 3 0 7 t_n1 (Some t_parent) (Some t_parent) t_nfs (t_si 8 8)).
Proof. vm_compute. reflexivity. Qed.

(** C07: CDP (both versions) and FDP frames are always built. *)
Theorem C07_cdp_fdp_always p opts count n par mgmt nfs si :
  In p [1; 3; 5] -> inputs_ok count n par mgmt nfs si ->
  exists f, proto_build p opts count n par mgmt nfs si = Some f.
Proof. exact (build_total p opts count n par mgmt nfs si). Qed.
Print Assumptions C07_cdp_fdp_always.
(** All strings of maximal length: the CDP frame has 1441 bytes. *)
Definition t_max_si : sysinfo :=
  let s n := repeat 65 n in
  mkSysinfo (s 255%nat) [255; 255; 255] (s 255%nat) (s 255%nat) (s 2%nat) (s 255%nat) 8 8 0 0
    (repeat 1 6) 1 None
    (mkHinv (s 32%nat) (s 32%nat) (s 32%nat) (s 32%nat) (s 32%nat) (s 32%nat) (s 32%nat)).
Example C07_case :
  match proto_build 1 0 0 t_n1 (Some t_parent) (Some t_parent) [] t_max_si with
  | Some f => zlen f | None => 0 end = 1441.
Proof. vm_compute. reflexivity. Qed.

(** C08, first part: the checksum function computes the Internet checksum in
    network byte order (an odd last byte is the high half of the last word, in
    the Cisco variant the low half). *)
Theorem C08_checksum d cisco :
  bytes d -> zlen d <= 65536 ->
  le16 (my_chksum d cisco) = U16 (65535 - inet_sum cisco d).
Proof. exact (my_chksum_ok d cisco). Qed.
Print Assumptions C08_checksum.
Example C08_case_odd :
  (inet_sum false [1; 2; 254; 253; 3], inet_sum true [1; 2; 254; 253; 3]) = (768, 3)
  /\ le16 (my_chksum [1; 2; 254; 253; 3] false) = [252; 255]
  /\ le16 (my_chksum [1; 2; 254; 253; 3] true) = [255; 252].
Proof. vm_compute. repeat split. Qed.

(** C08, second part: a receiver summing a built CDP, EDP or FDP frame from the
    protocol header on gets all ones. *)
Theorem C08_frames_verify p opts count n par mgmt nfs si f :
  In p [1; 2; 3; 5] -> inputs_ok count n par mgmt nfs si ->
  proto_build p opts count n par mgmt nfs si = Some f ->
  inet_sum ((p =? 1) || (p =? 5)) (summed f) = 65535.
Proof. exact (build_sums p opts count n par mgmt nfs si f). Qed.
Print Assumptions C08_frames_verify.
Example C08_case :
  match proto_build 2 0 7 t_n1 (Some t_parent) (Some t_parent) t_nfs (t_si 8 8) with
  | Some f => (inet_sum false (summed f), nth 26 f 0, nth 27 f 0) | None => (0, 0, 0) end
  = (65535, 169, 74).
Proof. vm_compute. reflexivity. Qed.

(** C50: the location-information length equals the number of bytes behind it,
    for locations of at most 250 bytes; missing: 251..255 bytes, for which the
    property is false (next theorem). *)
Theorem C50_location_size_partial opts count n par mgmt nfs si f tlvs l rest :
  inputs_ok count n par mgmt nfs si -> zlen (si_location si) <= 250 ->
  proto_build 0 opts count n par mgmt nfs si = Some f -> Forall lldp_fits tlvs ->
  skipn 14 f = flat_map lldp_bytes tlvs ->
  In (127, [0; 18; 187; 3; 2; l] ++ rest) tlvs -> l = zlen rest.
Proof. exact (location_size opts count n par mgmt nfs si f tlvs l rest). Qed.
Print Assumptions C50_location_size_partial.
Definition t_tlvs (si : sysinfo) : list (Z * list Z) :=
  [(1, 4 :: si_hwaddr si); (2, 5 :: nf_name t_n2); (3, U16 180)]
     ++ lldp_content 0 t_n2 t_n2 t_n2 [] si ++ [(0, [])].
Ltac pick :=
  repeat match goal with
  | |- ?a = ?a \/ _ => left; reflexivity
  | |- _ \/ _ => right
  end.
Example C50_case :
  exists f, proto_build 0 0 0 t_n2 None None [] (t_si 4 4) = Some f
    /\ Forall lldp_fits (t_tlvs (t_si 4 4))
    /\ skipn 14 f = flat_map lldp_bytes (t_tlvs (t_si 4 4))
    /\ In (127, [0; 18; 187; 3; 2; 10] ++ [2] ++ bs "ZZ" ++ [22; 5] ++ bs "Towel")
          (t_tlvs (t_si 4 4)).
Proof.
  eexists. split; [vm_compute; reflexivity|].
  split; [vm_compute; repeat constructor; discriminate|].
  split; [vm_compute; reflexivity|]. vm_compute. pick.
Qed.

(** C50 is false: a location of 251 bytes (the configuration accepts up to 255)
    is announced with length 0 although 256 bytes follow. *)
Definition t_loc_si : sysinfo :=
  mkSysinfo (bs "Testing") [12; 34; 56] (bs "Testing VAX") (bs "Blanket") (bs "ZZ")
    (repeat 65 251) 4 4 0 0 (repeat 77 6) 0 None t_hinv.
Theorem C50_location_size_refuted :
  exists count n si f tlvs l rest,
    inputs_ok count n None None [] si
    /\ proto_build 0 0 count n None None [] si = Some f /\ Forall lldp_fits tlvs
    /\ skipn 14 f = flat_map lldp_bytes tlvs
    /\ In (127, [0; 18; 187; 3; 2; l] ++ rest) tlvs /\ l = 0 /\ zlen rest = 256.
Proof.
  exists 0, t_n2, t_loc_si.
  exists (lldp_advert 0 t_n2 t_n2 t_n2 [] t_loc_si), (t_tlvs t_loc_si), 0,
    ([2] ++ bs "ZZ" ++ [22; 251] ++ repeat 65 251).
  split.
  { split; [apply t_n2_ok|]. split; [discriminate|]. split; [discriminate|].
    split; [intros v []|]. split; [concrete|lia]. }
  split; [vm_compute; reflexivity|].
  split; [vm_compute; repeat constructor; discriminate|].
  split; [vm_compute; reflexivity|].
  split; [|split; vm_compute; reflexivity].
  vm_compute. pick.
Qed.
Print Assumptions C50_location_size_refuted.
