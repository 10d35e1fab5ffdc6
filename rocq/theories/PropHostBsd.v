(** The parent and the system information on FreeBSD and OpenBSD: C108, C109, C110. *)
From Verif Require Import Base Types Tlv Wire Util Parent Mreq Netif Sysinfo Bsd HostBsd Spec SpecAdv SpecNetif SpecSend SpecSys SpecBsd SpecHostBsd Cases14.
From Verif Require Import Lemmas Cases8 SendProofs1 SysProofs1 HostBsdProofs1 HostBsdProofs2 HostBsdProofs3.

(** C108 on OpenBSD.  Whatever the child sends and the system answers: a group is
    joined once for each socket and protocol in use that has it, and as often as
    other programs joined it. *)
Theorem C108_openbsd cfg es name a have : length (pc_enabled cfg) = 6%nat -> 0 <= have ->
  joined OpenBSD name a have (br_eff (bsd_run cfg [] es))
  = have + sockets name (br_fds (bsd_run cfg [] es)) * (if receiving cfg then users cfg a else 0).
Proof. exact (open_run cfg es name a have). Qed.
Print Assumptions C108_openbsd.
(** C108 on FreeBSD, where nobody else joined the groups and interfaces keep their
    names.  Missing are groups other programs joined, see [C108_freebsd_refuted]. *)
Theorem C108_freebsd_partial cfg es nm name a : length (pc_enabled cfg) = 6%nat ->
  (forall i j, nm i = nm j -> i = j) -> Forall (event_named nm) es ->
  joined FreeBSD name a 0 (br_eff (bsd_run cfg [] es))
  = if receiving cfg && (0 <? users cfg a) && (0 <? sockets name (br_fds (bsd_run cfg [] es))) then 1 else 0.
Proof. exact (free_run cfg es nm name a). Qed.
Print Assumptions C108_freebsd_partial.
(** LLDP, CDP and EDP enabled: igb0 (1) and igb1 (2) are opened, igb0 twice; then
    igb1 is closed. *)
Definition o_os (name : option (list Z)) (written : Z) : pos :=
  mkPos name (SockFd 9) 100 false false [] written None [] None true.
Definition o_cfg (opts : Z) : pcfg := mkPcfg opts [true; true; true; false; false; false] false false.
Definition o_name (i : Z) : option (list Z) := if i =? 1 then Some (bs "igb0") else if i =? 2 then Some (bs "igb1") else None.
Definition o_req (op i : Z) : pevent := PReq (req_bytes op i [] 0 []) (o_os (o_name i) 0).
Definition o_events : list pevent := [o_req 0 1; o_req 0 2; o_req 0 1; o_req 0 3; o_req 1 2].
Definition o_groups (pf : platform) (opts : Z) (have : Z) (es : list pevent) : list (Z * Z * Z * Z) :=
  map (fun name => let j a := joined pf name a have (br_eff (bsd_run (o_cfg opts) [] es)) in
                   (j [1; 128; 194; 0; 0; 14], j [1; 0; 12; 204; 204; 204], j [0; 224; 43; 0; 0; 0], j [1; 224; 82; 204; 204; 204]))
    [bs "igb0"; bs "igb1"].
Example C108_case :
  o_groups OpenBSD 7 2 (firstn 4 o_events) = [(3, 3, 2, 2); (3, 3, 2, 2)]
  /\ o_groups OpenBSD 7 2 o_events = [(3, 3, 2, 2); (2, 2, 2, 2)]
  /\ o_groups OpenBSD 15 0 o_events = [(1, 2, 0, 1); (0, 0, 0, 0)] (* automatic mode: CDP in both versions *)
  /\ o_groups FreeBSD 15 0 o_events = [(1, 1, 0, 1); (0, 0, 0, 0)]
  /\ o_groups FreeBSD 3 0 (firstn 4 o_events) = [(0, 0, 0, 0); (0, 0, 0, 0)] (* only sending *)
  /\ map rf_name (br_fds (bsd_run (o_cfg 7) [] o_events)) = [bs "igb0"]
  /\ exists nm, (forall i j, nm i = nm j -> i = j) /\ Forall (event_named nm) o_events.
Proof.
  do 6 (split; [vm_compute; reflexivity|]).
  exists (fun i => if i =? 1 then bs "igb0" else if i =? 2 then bs "igb1" else [i]). split.
  - intros i j. destruct (i =? 1) eqn:I1, (i =? 2) eqn:I2, (j =? 1) eqn:J1, (j =? 2) eqn:J2; intros E; try discriminate E; try lia; now injection E.
  - repeat constructor; intros n; vm_compute; intros E; try discriminate E; now injection E as <-.
Qed.
(** On FreeBSD a group another program joined is left when the socket is closed. *)
Theorem C108_freebsd_refuted :
  exists cfg es name a, length (pc_enabled cfg) = 6%nat /\ br_fds (bsd_run cfg [] es) = []
  /\ joined FreeBSD name a 1 (br_eff (bsd_run cfg [] es)) = 0.
Proof.
  exists (o_cfg 7), [o_req 0 1; o_req 1 1], (bs "igb0"), [1; 128; 194; 0; 0; 14]. split; [reflexivity|]. split; vm_compute; reflexivity.
Qed.
Print Assumptions C108_freebsd_refuted.

(** C109.  The text of a request becomes the description of the interface, if the
    ioctl succeeds. *)
Theorem C109_description pf cfg fds i t os name old :
  0 <= i < 4294967296 -> ~ In 0 t -> zlen t <= 63 ->
  os_reply os = true -> os_name os = Some name -> zlen name <= 15 ->
  descr_after pf name old (br_eff (fst (bsd_exchange cfg fds (q_descr i t) os))) = if 0 <=? os_written os then t else old.
Proof. exact (b_descr_set pf cfg fds i t os name old). Qed.
Print Assumptions C109_description.
(** No request of the child ends the parent or the child. *)
Theorem C109_goes_on cfg fds q os :
  b_asked cfg q -> 0 <= rq_index q < 4294967296 -> os_sock os <> SockFatal -> os_reply os = true ->
  exists r a, bsd_exchange cfg fds q os = (r, DOk a) /\ br_alive r = true.
Proof. exact (b_asked_alive cfg fds q os). Qed.
Print Assumptions C109_goes_on.
Example C109_case :
  let after pf t w := descr_after pf (bs "igb0") (bs "old") (br_eff (fst (bsd_exchange (o_cfg 7) [] (q_descr 1 t) (o_os (o_name 1) w)))) in
  after FreeBSD (bs "switch1 port 7") 0 = bs "switch1 port 7" /\ after OpenBSD (bs "switch1 port 7") 0 = bs "switch1 port 7"
  /\ after FreeBSD [] 0 = [] /\ after OpenBSD [] 0 = [] /\ after OpenBSD (repeat 65 63) 0 = repeat 65 63
  /\ after FreeBSD (bs "switch1 port 7") (-1) = bs "old"
  /\ b_asked (o_cfg 7) (q_close preq0 2)
  (* a request of another kind would end it *)
  /\ br_alive (fst (bsd_exchange (o_cfg 7) [] (q_alias preq0 1) (o_os (o_name 1) 0))) = false.
Proof. cbv zeta. do 6 (split; [vm_compute; reflexivity|]). split; [apply b_asked_close, b_reused_new|vm_compute; reflexivity]. Qed.

(** C110.  Whatever refreshes found: name and description are those of the host. *)
Theorem C110_identity cfg pf b country location nfs si : b_host cfg pf b country location nfs si ->
  b_named b si /\ b_described pf b si /\ si_country si = country /\ si_location si = location.
Proof. exact (b_host_identity cfg pf b country location nfs si). Qed.
Print Assumptions C110_identity.
(** The inventory on FreeBSD. *)
Theorem C110_inventory_freebsd cfg b country location nfs si : b_host cfg FreeBSD b country location nfs si -> bsios_ok b ->
  b_inventoried FreeBSD b (si_hinv si).
Proof. exact (b_host_free cfg b country location nfs si). Qed.
Print Assumptions C110_inventory_freebsd.
(** The inventory on OpenBSD, if no text has more than 32 characters; see
    [C110_inventory_refuted]. *)
Theorem C110_inventory_openbsd_partial cfg b country location nfs si : b_host cfg OpenBSD b country location nfs si -> bsios_ok b ->
  short_texts b -> b_inventoried OpenBSD b (si_hinv si).
Proof. exact (b_host_open cfg b country location nfs si). Qed.
Print Assumptions C110_inventory_openbsd_partial.
(** The router capability is set if the host can forward, and enabled if it does. *)
Theorem C110_router cfg pf b country location nfs si : b_host cfg pf b country location nfs si ->
  (Z.testbit (si_cap si) 3 = true <-> bh_ip4 b <> None \/ bh_ip6 b <> None)
  /\ (Z.testbit (si_cap_active si) 3 = true <-> bh_ip4 b = Some 1 \/ bh_ip6 b = Some 1).
Proof. exact (b_host_router cfg pf b country location nfs si). Qed.
Print Assumptions C110_router.

Definition o_uts : uts := mkUts (bs "FreeBSD") (bs "fw") (bs "9.1-RELEASE") (bs "FreeBSD 9.1-RELEASE #0: Tue Dec 4") (bs "amd64").
Definition o_text (serial : list Z) (x : list Z) : option (list Z) :=
  if beq x (bs "smbios.system.serial") || beq x (bs "hw.serialno") then Some serial
  else if beq x (bs "smbios.system.maker") || beq x (bs "hw.vendor") then Some (bs "Example Computers")
  else if beq x (bs "smbios.bios.version") then Some (bs "F7")
  else None.
Definition o_sys (serial : list Z) (fits : bool) : bsios :=
  mkBsios o_uts (Some (bs "fw.example.org")) (o_text serial) fits (Some 0) (Some 1).
Lemma o_sys_ok serial fits : bytes serial -> ~ In 0 serial -> bsios_ok (o_sys serial fits).
Proof.
  intros B N. split.
  - repeat constructor; try (apply bytes_okb; reflexivity); vm_compute; intuition discriminate.
  - intros x v. cbn [bh_text o_sys]. unfold o_text.
    destruct (_ || _); [intros [= <-]; now split|]. destruct (_ || _); [intros [= <-]; split; [apply bytes_okb; reflexivity|vm_compute; intuition discriminate]|].
    destruct (beq x _); [|discriminate]. intros [= <-]. split; [apply bytes_okb; reflexivity|vm_compute; intuition discriminate].
Qed.
Definition o_boot : sysinfo := bsd_sysinfo FreeBSD (o_sys (repeat 65 40) true) (bs "NL") (bs "Delft").
Definition o_fetch := Eval vm_compute in bsd_fetch f_cfg FreeBSD f_os1 [] o_boot.
Definition o_si : sysinfo := Eval vm_compute in snd (fst o_fetch).
Example C110_case :
  b_host f_cfg FreeBSD (o_sys (repeat 65 40) true) (bs "NL") (bs "Delft") (snd (fst (fst o_fetch))) o_si
  /\ bsios_ok (o_sys (repeat 65 40) true) /\ zlen (snd (fst (fst o_fetch))) = 7
  /\ si_hostname o_si = bs "fw.example.org" /\ si_platform o_si = bs "FreeBSD 9.1-RELEASE amd64"
  /\ si_hinv o_si = mkHinv [] (bs "F7") (bs "9.1-RELEASE") (repeat 65 32) (bs "Example Computers") [] []
  /\ si_cap_active o_si = 14 (* host, router, bridge *).
Proof.
  split.
  - apply (bh_fetch f_cfg FreeBSD _ _ _ [] [] o_boot f_os1 (fst (fst (fst o_fetch))) _ _ (snd o_fetch)); [apply bh_start|reflexivity|exact f_os1_ok|].
    vm_compute. reflexivity.
  - split; [apply o_sys_ok; [apply bytes_okb; reflexivity|vm_compute; intuition discriminate]|]. repeat split; vm_compute; reflexivity.
Qed.
Example C110_openbsd_case :
  let b := o_sys (repeat 65 32) false in
  bsios_ok b /\ short_texts b
  /\ si_hinv (bsd_sysinfo OpenBSD b [] []) = mkHinv [] [] (bs "9.1-RELEASE") (repeat 65 32) (bs "Example Computers") [] [].
Proof.
  cbv zeta. split; [apply o_sys_ok; [apply bytes_okb; reflexivity|vm_compute; intuition discriminate]|]. split; [|vm_compute; reflexivity].
  intros x v [<-|[<-|[<-|[<-|[]]]]]; vm_compute; intros E; try discriminate E; injection E as <-; vm_compute; discriminate.
Qed.
(** On OpenBSD a serial number of 33 characters is missing, or followed by the
    manufacturer and longer than the 32 bytes a TLV may carry, depending on what
    sysctl(2) does with a text that does not fit. *)
Theorem C110_inventory_refuted :
  (exists b, bsios_ok b /\ bh_text b (bs "hw.serialno") = Some (repeat 65 33) /\ hi_serial (si_hinv (bsd_sysinfo OpenBSD b [] [])) = [])
  /\ exists b, bsios_ok b /\ bh_text b (bs "hw.serialno") = Some (repeat 65 33)
     /\ hi_serial (si_hinv (bsd_sysinfo OpenBSD b [] [])) = repeat 65 33 ++ bs "Example Computers".
Proof.
  split; [exists (o_sys (repeat 65 33) false)|exists (o_sys (repeat 65 33) true)];
    (split; [apply o_sys_ok; [apply bytes_okb; reflexivity|vm_compute; intuition discriminate]|]); split; vm_compute; reflexivity.
Qed.
Print Assumptions C110_inventory_refuted.
