(** C83-C85: raw sockets and device names of the privileged process. *)
From Verif Require Import Base Types Tlv Checks Wire Bpf Spec SpecNet Lemmas Parent ParentProofs Cases2 Cases4 PropNet Psock SpecPsock PsockProofs.

(** C83, unless in debug mode or where a capture handle has no descriptor to wait
    for: after every history the capture handles held are those of the sockets in
    the table, one for each interface there and none for any other. *)
Theorem C83_handles_partial cfg es r cs :
  has (pc_opts cfg) OPT_DEBUG = false -> selectable es ->
  sock_run cfg [] es = (r, cs) -> r_alive r = true ->
  forall i, handles i cs = if in_dec Z.eq_dec i (map rf_index (r_fds r)) then 1 else 0.
Proof. exact (handles_sockets cfg es r cs). Qed.
Print Assumptions C83_handles_partial.
(** These histories are the ones of the other properties. *)
Theorem C83_histories cfg es fds :
  fst (sock_run cfg fds es) = parent_run cfg fds (map (fun x => with_pcap cfg (snd x) (fst x)) es).
Proof. exact (run_parent cfg es fds). Qed.
Print Assumptions C83_histories.

(** libpcap working, with descriptor [fd]; standard input duplicated as 7. *)
Definition s_pcap (fd : Z) : pcapos := mkPcap true true true true true true true true fd 7.
Definition s_os : pos := t_os (Some (bs "eth0")).
Definition s_broken : pcapos := mkPcap true true true true true false true true 9 7.
(** A socket opened by request, one by a frame; one closed; one whose filter is
    refused. *)
Definition s_events : list (pevent * pcapos) :=
  [(PReq (t_req 0 4 0 []) s_os, s_pcap 8); (PSend t_dgram s_os, s_pcap 9); (PReq (t_req 1 4 0 []) s_os, s_pcap 5);
   (PReq (t_req 0 6 0 []) s_os, s_broken)].
Example C83_case :
  has (pc_opts t_cfg) OPT_DEBUG = false /\ selectable s_events
  /\ r_alive (fst (sock_run t_cfg [] s_events)) = true
  /\ map rf_index (r_fds (fst (sock_run t_cfg [] s_events))) = [3]
  /\ map (fun i => handles i (snd (sock_run t_cfg [] s_events))) [3; 4; 6] = [1; 0; 0].
Proof.
  split; [reflexivity|]. split; [repeat constructor; cbn; lia|]. repeat split; vm_compute; reflexivity.
Qed.

(** C83 is false in debug mode: every opening duplicates standard input, closing
    does not give the duplicate back. *)
Definition s_debug : pcfg := mkPcfg (7 + OPT_DEBUG) [true; true; false; false; false; false] false false.
Theorem C83_debug_refuted :
  exists cfg i, forall n : nat, exists es r cs,
    sock_run cfg [] es = (r, cs) /\ r_alive r = true /\ r_fds r = [] /\ duplicates i cs = Z.of_nat n.
Proof.
  exists s_debug, 4. intros n.
  destruct (leak s_debug [(PReq (t_req 0 4 0 []) s_os, s_pcap 8); (PReq (t_req 1 4 0 []) s_os, s_pcap 8)] n 1
              (duplicates 4) (duplicates_app 4) eq_refl) as (es & r & cs & _ & A & B & C & D).
  - vm_compute. now repeat split.
  - exists es, r, cs. rewrite D. repeat split; try assumption. lia.
Qed.
Print Assumptions C83_debug_refuted.
(** C83 is false where libpcap has no descriptor to wait for: parent_open fails,
    nobody closes the handle, and every further attempt gets one more. *)
Theorem C83_unselectable_refuted :
  exists cfg i, has (pc_opts cfg) OPT_DEBUG = false /\ forall n : nat, exists es r cs,
    sock_run cfg [] es = (r, cs) /\ r_alive r = true /\ r_fds r = [] /\ handles i cs = Z.of_nat n.
Proof.
  exists t_cfg, 4. split; [reflexivity|]. intros n.
  destruct (leak t_cfg [(PReq (t_req 0 4 0 []) s_os, s_pcap (-1))] n 1
              (handles 4) (handles_app 4) eq_refl) as (es & r & cs & _ & A & B & C & D).
  - vm_compute. now repeat split.
  - exists es, r, cs. rewrite D. repeat split; try assumption. lia.
Qed.
Print Assumptions C83_unselectable_refuted.

(** C84: a socket not in the table before an event was set up during it: handle
    for the name of the interface, frames of up to 1518 bytes without delay, the
    filter of C16 (nothing passes unless the daemon receives), no blocking, only
    incoming frames; every call succeeded. *)
Theorem C84_set_up cfg fds e p s :
  has (pc_opts cfg) OPT_DEBUG = false ->
  let '(r, cs) := sock_step cfg fds e p in
  In s (r_fds r) -> ~ In s fds ->
  all_well p /\ rf_fd s = pp_fd p
  /\ exists name, os_name (match e with PReq _ os => os | PSend _ os => os end) = Some name /\ rf_name s = firstn 15 name
     /\ exists cs1 cs2, cs = cs1 ++ cs2
     /\ set_up (rf_index s) (rf_name s) (fun f => Z.testbit (pc_opts cfg) 2 = true /\ named_frame f) cs1.
Proof. exact (step_set_up cfg fds e p s). Qed.
Print Assumptions C84_set_up.
(** A set-up that fails ends the process or gives the handle back. *)
Theorem C84_failure opts index name p :
  has opts OPT_DEBUG = false ->
  let '(s, cs) := parent_socket opts index name p in
  s = SockFatal
  \/ (s = SockFail /\ (forall i, handles i cs = 0) /\ exists cs', cs = KCreate index name true :: cs' ++ [KClose index])
  \/ (s = SockFd (pp_fd p) /\ (forall i, handles i cs = if i =? index then 1 else 0)
      /\ all_well p /\ set_up index name (fun f => Z.testbit opts 2 = true /\ named_frame f) cs).
Proof. exact (socket_cases opts index name p). Qed.
Print Assumptions C84_failure.
Example C84_case :
  let x := sock_step t_cfg [] (PSend t_dgram s_os) (s_pcap 9) in
  In (mkRaw 3 (bs "eth0") 9 true) (r_fds (fst x))
  /\ snd x = [KCreate 3 (bs "eth0") true; KTimeout 0; KSnaplen 1518; KImmediate; KActivate; KFilter proto_filter;
              KNonblock; KIncoming]
  /\ snd (sock_step t_cfg [] (PSend t_dgram s_os) s_broken) =
     [KCreate 3 (bs "eth0") true; KTimeout 0; KSnaplen 1518; KImmediate; KActivate; KFilter proto_filter; KClose 3].
Proof. cbv zeta. split; [left; vm_compute; reflexivity|]. split; vm_compute; reflexivity. Qed.

(** C85: the answer to a request for the name of a device.  On USB: product and
    manufacturer, each the first line of its file, cut after 31 bytes, without
    white space at the end. *)
Theorem C85_usb_partial cfg fds d os dv name vl v pl p :
  bytes d -> request_size d -> os_name os = Some name -> pr_op (req_mem d) = 5 -> pc_pci cfg = true ->
  dv_pci dv = true -> dv_alloc dv = true -> on_bus dv (bs "usb") ->
  reads dv (bs "device/../manufacturer") vl -> reads dv (bs "device/../product") pl ->
  trimmed (firstn 31 vl) v -> trimmed (firstn 31 pl) p ->
  let t := p ++ bs " (" ++ v ++ bs ")" in
  r_eff (parent_req cfg fds d (with_device dv os)) = [EReply 5 (pr_index (req_mem d)) (zlen t) t].
Proof. exact (usb_reply cfg fds d os dv name vl v pl p). Qed.
Print Assumptions C85_usb_partial.
Definition s_cfg : pcfg := mkPcfg 7 [true; true; false; false; false; false] true false.
Ltac in_no := intros K; cbn in K; repeat (destruct K as [K|K]; [discriminate|]); exact K.
Ltac line := eexists [10]; split; [reflexivity|]; split; [right; now exists []|]; split; [discriminate|]; split; in_no.
(** On a machine without a PCI bus the card gets no name although both texts are
    there. *)
Theorem C85_no_pci_refuted :
  exists dv cfg d os,
    bytes d /\ request_size d /\ os_name os = Some (bs "eth0") /\ pr_op (req_mem d) = 5 /\ pc_pci cfg = true
    /\ on_bus dv (bs "usb") /\ reads dv (bs "device/../manufacturer") (bs "ACME")
    /\ reads dv (bs "device/../product") (bs "LAN")
    /\ r_eff (parent_req cfg [] d (with_device dv os)) = [EReply 5 3 0 []].
Proof.
  exists (mkDev false true (Some (bs "../bus/usb"))
            (fun path => if beq path (bs "device/../manufacturer") then Some (bs "ACME" ++ [10])
                         else if beq path (bs "device/../product") then Some (bs "LAN" ++ [10]) else None)
            (fun _ _ => [])), s_cfg, (t_req 5 3 0 []), s_os.
  split; [repeat constructor; unfold byte; lia|]. split; [split; vm_compute; (reflexivity || discriminate)|].
  split; [reflexivity|]. split; [vm_compute; reflexivity|]. split; [reflexivity|].
  split; [exists (bs "../bus"); split; [reflexivity|]; split; [vm_compute; discriminate|in_no]|].
  split; [line|]. split; [line|]. vm_compute; reflexivity.
Qed.
Print Assumptions C85_no_pci_refuted.
(** Elsewhere: the entry of the PCI table for exactly the two numbers the kernel
    shows. *)
Theorem C85_pci cfg fds d os dv name bus v n :
  bytes d -> request_size d -> os_name os = Some name -> pr_op (req_mem d) = 5 -> pc_pci cfg = true ->
  dv_pci dv = true -> dv_alloc dv = true -> on_bus dv bus -> bus <> bs "usb" ->
  0 <= v < 65536 -> 0 <= n < 65536 ->
  reads dv (bs "device/vendor") (kernel_hex v) -> reads dv (bs "device/device") (kernel_hex n) ->
  ~ In 0 (dv_lookup dv v n) -> zlen (dv_lookup dv v n) <= 511 ->
  let t := dv_lookup dv v n in
  r_eff (parent_req cfg fds d (with_device dv os)) = [EReply 5 (pr_index (req_mem d)) (zlen t) t].
Proof. exact (pci_reply cfg fds d os dv name bus v n). Qed.
Print Assumptions C85_pci.
(** Without a device: nothing. *)
Theorem C85_none cfg fds d os dv name :
  bytes d -> request_size d -> os_name os = Some name -> pr_op (req_mem d) = 5 -> pc_pci cfg = true ->
  dv_link dv = None ->
  r_eff (parent_req cfg fds d (with_device dv os)) = [EReply 5 (pr_index (req_mem d)) 0 []].
Proof. exact (none_reply cfg fds d os dv name). Qed.
Print Assumptions C85_none.
(** A USB stick with padded texts, a card on the PCI bus. *)
Definition s_usb : devos :=
  mkDev true true (Some (bs "../../../../../bus/usb"))
    (fun path => if beq path (bs "device/../manufacturer") then Some (bs "ACME Ltd  " ++ [10])
                 else if beq path (bs "device/../product") then Some (bs "AX88179 Gigabit Ethernet " ++ [10]) else None)
    (fun _ _ => []).
Definition s_card : devos :=
  mkDev true true (Some (bs "../../../bus/pci"))
    (fun path => if beq path (bs "device/vendor") then Some (bs "0x8086" ++ [10])
                 else if beq path (bs "device/device") then Some (bs "0x15bc" ++ [10]) else None)
    (fun v n => if (v =? 32902) && (n =? 5564) then bs "Intel Corporation Ethernet Connection (7) I219-V" else []).
Example C85_case :
  bytes (t_req 5 3 0 []) /\ request_size (t_req 5 3 0 []) /\ pr_op (req_mem (t_req 5 3 0 [])) = 5
  /\ on_bus s_usb (bs "usb") /\ reads s_usb (bs "device/../manufacturer") (bs "ACME Ltd  ")
  /\ reads s_usb (bs "device/../product") (bs "AX88179 Gigabit Ethernet ")
  /\ trimmed (firstn 31 (bs "ACME Ltd  ")) (bs "ACME Ltd")
  /\ r_eff (parent_req s_cfg [] (t_req 5 3 0 []) (with_device s_usb s_os)) =
     [EReply 5 3 35 (bs "AX88179 Gigabit Ethernet (ACME Ltd)")]
  /\ on_bus s_card (bs "pci") /\ reads s_card (bs "device/vendor") (kernel_hex 32902)
  /\ reads s_card (bs "device/device") (kernel_hex 5564)
  /\ r_eff (parent_req s_cfg [] (t_req 5 3 0 []) (with_device s_card s_os)) =
     [EReply 5 3 48 (bs "Intel Corporation Ethernet Connection (7) I219-V")].
Proof.
  split; [repeat constructor; unfold byte; lia|]. split; [split; vm_compute; (reflexivity || discriminate)|]. split; [vm_compute; reflexivity|].
  split; [exists (bs "../../../../../bus"); split; [reflexivity|]; split; [vm_compute; discriminate|in_no]|].
  split; [line|]. split; [line|].
  split. { exists [32; 32]. split; [reflexivity|]. split; [repeat constructor|].
           intros t' b H. change (bs "ACME Ltd") with (bs "ACME Lt" ++ [100]) in H. apply app_inj_tail in H as [_ <-].
           unfold white. lia. }
  split; [vm_compute; reflexivity|].
  split; [exists (bs "../../../bus"); split; [reflexivity|]; split; [vm_compute; discriminate|in_no]|].
  split; [line|]. split; [line|]. vm_compute; reflexivity.
Qed.
