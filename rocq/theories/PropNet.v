(** Reception and the privileged process: C16 to C19, C38 to C41, C55. *)
From Verif Require Import Base Types Tlv Checks Msg Protos Bpf Wire Parent Util Child
  Spec SpecAdv SpecRound SpecNet Conformance Cases Cases2 Cases3.
From Verif Require Import BpfProofs NetProofs ParentProofs ParentProofs2.

(** C16.  Bit 2 of the options is OPT_RECV; without it the reject filter is
    installed. *)
Theorem C16_filter_exact opts f :
  bytes f ->
  socket_filter opts f = true <-> Z.testbit opts 2 = true /\ named_frame f.
Proof.
  intros Hb. destruct (Z.testbit opts 2) eqn:E.
  - rewrite (filter_iff opts f E Hb). split; [now split|now intros []].
  - rewrite (reject_all opts f E). split; [discriminate|now intros []].
Qed.
Print Assumptions C16_filter_exact.
(** A tagged LLDP frame passes; with another ethertype it does not, nor does
    anything pass without OPT_RECV. *)
Definition t_tagged (ty : Z) : list Z :=
  [1; 128; 194; 0; 0; 14] ++ repeat 2 6 ++ U16 33024 ++ [0; 5] ++ U16 ty ++ repeat 7 60.
Example C16_case :
  bytes (t_tagged 35020) /\ named_frame (t_tagged 35020)
  /\ socket_filter 4 (t_tagged 35020) = true /\ socket_filter 4 (t_tagged 35021) = false
  /\ socket_filter 2 (t_tagged 35020) = false /\ socket_filter 4 c_cdp = true.
Proof.
  split; [repeat constructor; unfold byte; lia|].
  split; [exists (repeat 7 60%nat); left; now apply lldp_tagged|].
  repeat split; vm_compute; reflexivity.
Qed.

(** C17 is false: every EDP frame is rejected, so no EDP neighbour is ever
    discovered (the filter has 00:0e:2b for 00:e0:2b). *)
Theorem C17_edp_received_refuted :
  exists f payload, bytes f /\ edp_frame f payload /\ 60 <= zlen f <= 1518
    /\ socket_filter 4 f = false.
Proof.
  exists c_edp, (skipn 22 c_edp).
  split; [is_bytes|]. split; [apply c_edp_frame|]. split; vm_compute; [split; discriminate|reflexivity].
Qed.
Print Assumptions C17_edp_received_refuted.
Theorem C17_edp_never_received opts f payload :
  bytes f -> edp_frame f payload -> socket_filter opts f = false.
Proof. exact (edp_rejected opts f payload). Qed.
Print Assumptions C17_edp_never_received.

(** C18: the child survives every frame of the wire [f] that the filter accepts
    and the parent forwards.  Also no endless loop, and no undefined behaviour
    for frames below 1518 bytes (C14 has the exception at 1518). *)
Theorem C18_wire_safe opts index f d c now now2 :
  bytes f -> 0 <= index < 4294967296 ->
  socket_filter opts f = true -> parent_recv_one index f = RForward d ->
  child_queue opts c d now now2 <> DAbort
  /\ child_queue opts c d now now2 <> DLoop
  /\ (zlen f < 1518 -> child_queue opts c d now now2 <> DUB).
Proof. exact (wire_safe opts index f d c now now2). Qed.
Print Assumptions C18_wire_safe.
(** A CDP frame cut in the middle is forwarded and refused; without the filter
    the LLDP address with a CDP payload would have aborted. *)
Definition t_wrong : list Z := [1; 128; 194; 0; 0; 14] ++ skipn 6 c_cdp.
Definition t_net : child := mkChild [t_n1] [] [] 0.
Example C18_case :
  socket_filter 4 (firstn 400 c_cdp) = true
  /\ match parent_recv_one 1 (firstn 400 c_cdp) with
     | RForward d => child_queue 4 t_net d 100 100 = DOk (t_net, [])
     | _ => False end
  /\ socket_filter 4 t_wrong = false
  /\ match parent_recv_one 1 t_wrong with
     | RForward d => child_queue 4 t_net d 100 100 = DAbort
     | _ => False end.
Proof. repeat split; vm_compute; reflexivity. Qed.

(** C19: one frame, then the loop over the frames waiting in the socket. *)
Theorem C19_receive_exact index f :
  0 <= index < 4294967296 -> bytes f ->
  (zlen f < 60 -> parent_recv_one index f = RSkip)
  /\ (60 <= zlen f -> (forall p, 0 <= p < 5 -> firstn 6 f <> group_address p) ->
      parent_recv_one index f = RStop)
  /\ (forall p, 60 <= zlen f -> 0 <= p < 5 -> firstn 6 f = group_address p ->
      exists d, parent_recv_one index f = RForward d /\ carries d index p 0 (firstn 1518 f)).
Proof. exact (forward_cases index f). Qed.
Print Assumptions C19_receive_exact.
(** All frames waiting in a socket: those of at least 60 bytes are forwarded in
    order, up to the first one with an unknown destination. *)
Theorem C19_receive_loop index fs :
  0 <= index < 4294967296 -> Forall bytes fs ->
  exists before after, fs = before ++ after
  /\ (after = [] \/ exists f more, after = f :: more /\ 60 <= zlen f
        /\ forall p, 0 <= p < 5 -> firstn 6 f <> group_address p)
  /\ Forall2 (fun d f => exists p, 0 <= p < 5 /\ firstn 6 f = group_address p
                /\ carries d index p 0 (firstn 1518 f))
       (parent_recv index fs) (filter (fun f => 60 <=? zlen f) before).
Proof. exact (recv_loop index fs). Qed.
Print Assumptions C19_receive_loop.
Example C19_case :
  bytes c_fdp /\ 60 <= zlen c_fdp /\ firstn 6 c_fdp = group_address 3
  /\ map zlen (parent_recv 7 [c_fdp; repeat 1 59; c_cdp; repeat 1 60; c_lldp]) = [783; 498].
Proof.
  split; [is_bytes|]. repeat split; vm_compute; (reflexivity || discriminate).
Qed.

(** C38: all effects of a transmission request [d], whatever its bytes and the
    answers of the operating system: at most one frame, which is the one in the
    datagram and legal, goes to the socket of the interface with the index in
    the first four bytes, which exists; other effects concern this interface
    only. *)
Theorem C38_only_discovery_frames cfg fds d os :
  bytes d ->
  (os_name os = None -> parent_send cfg fds d os = mkRes fds [] true)
  /\ (forall name, os_name os = Some name ->
      Forall (about (unle (firstn 4 (msg_mem d))) name (sendable d)) (r_eff (parent_send cfg fds d os)))
  /\ (length (frames (r_eff (parent_send cfg fds d os))) <= 1)%nat
  /\ (forall i fd data, In (EFrame i fd data) (r_eff (parent_send cfg fds d os)) ->
      (exists r, In r fds /\ rf_index r = i /\ rf_fd r = fd)
      \/ (rfd_byindex fds i = None /\ os_sock os = SockFd fd)).
Proof.
  intros Hb. split; [|split; [|split]].
  - intros Hn. destruct (send_unknown cfg fds d os Hn) as (A & B & C).
    destruct (parent_send cfg fds d os). cbn in *. now subst.
  - intros name. apply send_effects. exact Hb.
  - apply send_one.
  - apply send_socket.
Qed.
Print Assumptions C38_only_discovery_frames.
(** And a genuine frame is transmitted. *)
Theorem C38_genuine_frame_sent cfg fds d os index p received f payload name :
  bytes f -> carries d index p received f -> bytes d -> 0 <= p < 6 -> 60 <= zlen f <= 1518 ->
  proto_frame p f payload -> os_name os = Some name -> os_sock os <> SockFatal ->
  r_alive (parent_send cfg fds d os) = true
  /\ (has (pc_opts cfg) OPT_DEBUG = false ->
      (exists r, rfd_byindex fds index = Some r) \/ (exists fd, os_sock os = SockFd fd /\ 0 <= fd) ->
      exists fd, In (EFrame index fd f) (r_eff (parent_send cfg fds d os))).
Proof. exact (send_good cfg fds d os index p received f payload name). Qed.
Print Assumptions C38_genuine_frame_sent.
(** An operating system where everything works; a daemon with LLDP and CDP. *)
Definition t_os (name : option (list Z)) : pos :=
  mkPos name (SockFd 9) 100 false true [] 5 None [] None true.
Definition t_cfg : pcfg := mkPcfg 7 [true; true; false; false; false; false] false false.
Definition t_dgram := msg_bytes 3 [] 1 0 (zlen c_cdp) c_cdp.
Example C38_case :
  bytes t_dgram
  /\ r_eff (parent_send t_cfg [] t_dgram (t_os (Some (bs "eth0")))) =
     [EOpen 3 (bs "eth0"); EMulti 3 1 (group_address 0); EMulti 3 1 (group_address 1); EFrame 3 9 c_cdp]
  /\ r_alive (parent_send t_cfg [] (msg_bytes 3 [] 0 0 (zlen c_cdp) c_cdp) (t_os (Some (bs "eth0")))) = false
  /\ carries t_dgram 3 1 0 c_cdp.
Proof.
  split; [is_bytes|]. split; [vm_compute; reflexivity|]. split; [vm_compute; reflexivity|].
  repeat split; vm_compute; reflexivity.
Qed.

(** C39. *)
Theorem C39_one_socket_each cfg es : one_each (r_fds (parent_run cfg [] es)).
Proof. apply run_one_each. constructor. Qed.
Print Assumptions C39_one_socket_each.
Theorem C39_open_again cfg fds d os name r :
  bytes d -> request_size d -> os_name os = Some name -> pr_op (req_mem d) = 0 ->
  In r fds -> rf_index r = pr_index (req_mem d) ->
  r_fds (parent_req cfg fds d os) = fds
  /\ exists len data, r_eff (parent_req cfg fds d os) = [EReply 0 (pr_index (req_mem d)) len data].
Proof. exact (req_open_again cfg fds d os name r). Qed.
Print Assumptions C39_open_again.
Theorem C39_closed cfg fds d os name :
  one_each fds -> bytes d -> request_size d -> os_name os = Some name -> pr_op (req_mem d) = 1 ->
  ~ In (pr_index (req_mem d)) (map rf_index (r_fds (parent_req cfg fds d os)))
  /\ forall r, In r fds -> rf_index r <> pr_index (req_mem d) -> In r (r_fds (parent_req cfg fds d os)).
Proof. exact (req_close cfg fds d os name). Qed.
Print Assumptions C39_closed.
Definition t_req op index len buf := req_bytes op index [] len buf.
Example C39_case :
  let os := t_os (Some (bs "eth0")) in
  let run es := map rf_index (r_fds (parent_run t_cfg [] es)) in
  bytes (t_req 0 4 0 []) /\ request_size (t_req 0 4 0 []) /\ pr_op (req_mem (t_req 1 4 0 [])) = 1
  /\ run [PReq (t_req 0 4 0 []) os; PSend t_dgram os; PReq (t_req 0 4 0 []) os; PSend t_dgram os] = [4; 3]
  /\ run [PReq (t_req 0 4 0 []) os; PSend t_dgram os; PReq (t_req 1 4 0 []) os] = [3].
Proof.
  cbv zeta. split; [is_bytes|]. split; [split; vm_compute; (reflexivity || discriminate)|].
  repeat split; vm_compute; reflexivity.
Qed.

(** C40.  Operation, index and length are read from the datagram [d]. *)
Theorem C40_requests cfg fds d os :
  bytes d ->
  let r := parent_req cfg fds d os in
  let op := pr_op (req_mem d) in
  let index := pr_index (req_mem d) in
  (~ request_size d -> r = mkRes fds [] false)
  /\ (request_size d -> os_name os = None ->
      r_fds r = fds /\ r_eff r = [EReply op index 0 []])
  /\ (forall name, request_size d -> os_name os = Some name ->
      ~ legal_request (pc_team cfg) (pc_pci cfg) op (pr_len (req_mem d)) -> r = mkRes fds [] false)
  /\ (forall name, request_size d -> os_name os = Some name -> Forall (req_about index name op) (r_eff r)).
Proof. exact (req_cases cfg fds d os). Qed.
Print Assumptions C40_requests.
Example C40_case :
  let os := t_os (Some (bs "eth0")) in
  let d := t_req 2 4 5 (bs "hello") in
  bytes d /\ request_size d
  /\ r_eff (parent_req t_cfg [] d os) = [EAlias (bs "eth0") (bs "hello"); EReply 2 4 5 (bs "hello")]
  /\ r_eff (parent_req t_cfg [] d (t_os None)) = [EReply 2 4 0 []]
  /\ parent_req t_cfg [] (d ++ [0]) os = mkRes [] [] false
  /\ parent_req t_cfg [] (t_req 2 4 65 (repeat 66 65)) os = mkRes [] [] false
  /\ parent_req t_cfg [] (t_req 9 4 0 []) os = mkRes [] [] false.
Proof.
  cbv zeta. split; [is_bytes|]. split; [split; vm_compute; (reflexivity || discriminate)|].
  repeat split; vm_compute; reflexivity.
Qed.

(** C41 is false: with two protocols, closing drops the first and adds the other
    one a second time. *)
Theorem C41_memberships_refuted :
  exists cfg fds index name os fds1 eff1 r fds2 eff2,
    has (pc_opts cfg) OPT_DEBUG = false
    /\ parent_open cfg fds index name os = Some (fds1, eff1, true) /\ rfd_byindex fds1 index = Some r
    /\ parent_close cfg fds1 r = (fds2, eff2)
    /\ memberships [] (eff1 ++ eff2) = [group_address 1; group_address 1].
Proof.
  exists t_cfg, [], 4, (bs "eth0"), (t_os (Some (bs "eth0"))). do 5 eexists.
  split; [reflexivity|]. split; [vm_compute; reflexivity|]. split; [vm_compute; reflexivity|].
  split; vm_compute; reflexivity.
Qed.
Print Assumptions C41_memberships_refuted.
(** It holds for a single enabled protocol.  Missing: more than one. *)
Theorem C41_memberships_partial cfg fds index name os fds1 eff1 r fds2 eff2 :
  has (pc_opts cfg) OPT_DEBUG = false ->
  (length (filter (fun e => e || has (pc_opts cfg) OPT_AUTO) (pc_enabled cfg)) <= 1)%nat ->
  parent_open cfg fds index name os = Some (fds1, eff1, true) -> rf_index r = index ->
  parent_close cfg fds1 r = (fds2, eff2) ->
  memberships [] (eff1 ++ eff2) = [].
Proof. exact (open_close_one cfg fds index name os fds1 eff1 r fds2 eff2). Qed.
Print Assumptions C41_memberships_partial.
Example C41_case :
  let cfg := mkPcfg 7 [false; true; false; false; false; false] false false in
  exists r eff, parent_open cfg [] 4 (bs "eth0") (t_os None) = Some ([r], eff, true)
    /\ rf_index r = 4
    /\ eff ++ snd (parent_close cfg [r] r) =
       [EOpen 4 (bs "eth0"); EMulti 4 1 (group_address 1); EMulti 4 2 (group_address 1); EClose 4].
Proof. cbv zeta. do 2 eexists. repeat split; vm_compute; reflexivity. Qed.

(** C55 is false: the name lookup fails before the operation is looked at. *)
Theorem C55_released_refuted :
  exists cfg d1 d2 os1 os2 index,
    os_name os2 = None /\ pr_op (req_mem d2) = 1 /\ pr_index (req_mem d2) = index
    /\ r_alive (parent_run cfg [] [PReq d1 os1; PReq d2 os2]) = true
    /\ map rf_index (r_fds (parent_run cfg [] [PReq d1 os1; PReq d2 os2])) = [index].
Proof.
  exists t_cfg, (t_req 0 4 0 []), (t_req 1 4 0 []), (t_os (Some (bs "eth0"))), (t_os None), 4.
  repeat split; vm_compute; reflexivity.
Qed.
Print Assumptions C55_released_refuted.
(** The socket is released if the interface still has its name when the close
    request is read, or when a transmission fails because the device is gone.
    Missing: a close request read after the interface disappeared. *)
Theorem C55_released_partial cfg es d os name :
  let fds := r_fds (parent_run cfg [] es) in
  bytes d -> request_size d -> os_name os = Some name -> pr_op (req_mem d) = 1 ->
  ~ In (pr_index (req_mem d)) (map rf_index (r_fds (parent_req cfg fds d os))).
Proof.
  intros fds Hb Hs Hn Ho. apply (req_close cfg fds d os name); try assumption.
  apply run_one_each. constructor.
Qed.
Print Assumptions C55_released_partial.
Theorem C55_send_failure_partial cfg es d os index p received f payload name :
  let fds := r_fds (parent_run cfg [] es) in
  bytes f -> carries d index p received f -> bytes d -> 0 <= p < 6 -> 60 <= zlen f <= 1518 ->
  proto_frame p f payload -> os_name os = Some name -> has (pc_opts cfg) OPT_DEBUG = false ->
  os_rawlen os = -1 -> os_gone os = true -> os_sock os <> SockFatal ->
  ~ In index (map rf_index (r_fds (parent_send cfg fds d os))).
Proof.
  intros fds. intros. apply (send_gone cfg fds d os index p received f payload name); try assumption.
  apply run_one_each. constructor.
Qed.
Print Assumptions C55_send_failure_partial.
Example C55_case :
  let os := t_os (Some (bs "eth0")) in
  let gone := mkPos (Some (bs "eth0")) SockFail (-1) true false [] 0 None [] None true in
  map rf_index (r_fds (parent_run t_cfg [] [PReq (t_req 0 4 0 []) os; PReq (t_req 1 4 0 []) os])) = []
  /\ map rf_index (r_fds (parent_run t_cfg [] [PReq (t_req 0 3 0 []) os; PSend t_dgram gone])) = [].
Proof. split; vm_compute; reflexivity. Qed.
