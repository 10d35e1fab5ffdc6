(** The parent and the system information on FreeBSD and OpenBSD: vocabulary of C108
    to C110. *)
From Verif Require Import Base Types Tlv Wire Util Parent Mreq Netif Sysinfo Bsd HostBsd Spec SpecAdv SpecNetif SpecSend SpecSys SpecBsd.

(** ** Multicast groups *)
(** The group of a protocol: LLDP, CDP, EDP (whose address is not a group address),
    FDP, NDP, CDP version 1. *)
Definition group_of (p : Z) : option (list Z) :=
  nth (Z.to_nat p)
    [Some [1; 128; 194; 0; 0; 14]; Some [1; 0; 12; 204; 204; 204]; None;
     Some [1; 224; 82; 204; 204; 204]; Some [1; 0; 129; 0; 1; 0]; Some [1; 0; 12; 204; 204; 204]] None.
(** A protocol is in use if it is enabled, and in automatic mode. *)
Definition in_use (cfg : pcfg) (p : Z) : bool :=
  nth (Z.to_nat p) (pc_enabled cfg) false || Z.testbit (pc_opts cfg) 3.
(** Number of protocols in use that have the group [a]. *)
Definition users (cfg : pcfg) (a : list Z) : Z :=
  zlen (filter (fun p => in_use cfg p && match group_of p with Some g => beq g a | None => false end) [0; 1; 2; 3; 4; 5]).
(** The parent receives, and is not in debug mode. *)
Definition receiving (cfg : pcfg) : bool := Z.testbit (pc_opts cfg) 2 && negb (Z.testbit (pc_opts cfg) 6).
(** How often the group [a] is joined on the interface [name], where it was joined
    [have] times.  FreeBSD does not let a group be joined again that is joined
    already (EADDRINUSE); OpenBSD counts. *)
Fixpoint joined (pf : platform) (name a : list Z) (have : Z) (effs : list beff) : Z :=
  match effs with
  | [] => have
  | BMulti n g add :: effs' =>
      joined pf name a
        (if beq n name && beq g a then
           if add then (match pf with FreeBSD => if 0 <? have then have else have + 1 | OpenBSD => have + 1 end)
           else Z.max 0 (have - 1)
         else have) effs'
  | _ :: effs' => joined pf name a have effs'
  end.
(** The number of sockets opened for an interface. *)
Definition sockets (name : list Z) (fds : list rawfd) : Z := zlen (filter (fun r => beq (rf_name r) name) fds).
(** The interface a message is about has the name [nm] tells, if any. *)
Definition event_named (nm : Z -> list Z) (e : pevent) : Prop :=
  match e with
  | PReq d os => forall n, os_name os = Some n -> firstn 15 n = nm (pr_index (req_mem d))
  | PSend d os => forall n, os_name os = Some n -> firstn 15 n = nm (pm_index (msg_mem d))
  end.

(** ** Descriptions *)
(** The description the kernel keeps after SIOCSIFDESCR: FreeBSD copies the given
    number of bytes but the last one, OpenBSD a string in 64 bytes. *)
Definition kernel_descr (pf : platform) (old : list Z) (len : Z) (buf : list Z) : list Z :=
  match pf with
  | FreeBSD => before_nul (firstn (Z.to_nat (len - 1)) buf)
  | OpenBSD => if existsb (Z.eqb 0) (firstn 64 buf) then before_nul buf else old
  end.
Fixpoint descr_after (pf : platform) (name old : list Z) (effs : list beff) : list Z :=
  match effs with
  | [] => old
  | BDescr n len buf :: effs' => descr_after pf name (if beq n name then kernel_descr pf old len buf else old) effs'
  | _ :: effs' => descr_after pf name old effs'
  end.
(** The requests the child makes on BSD; netif_fetch uses one structure for all
    sockets it has closed. *)
Inductive b_reused (cfg : pcfg) : preq -> Prop :=
| b_reused_new : b_reused cfg preq0
| b_reused_close q i fds os r a : b_reused cfg q -> 0 <= i < 4294967296 ->
    bsd_exchange cfg fds (q_close q i) os = (r, DOk a) -> b_reused cfg a.
Inductive b_asked (cfg : pcfg) : preq -> Prop :=
| b_asked_open i : b_asked cfg (q_open i)
| b_asked_close q i : b_reused cfg q -> b_asked cfg (q_close q i)
| b_asked_descr opts n queue t : netif_descr opts n queue = Some t -> b_asked cfg (q_descr (nf_index n) t).

(** ** The host *)
(** What uname(2), the resolver and the kernel may answer. *)
Definition bsios_ok (b : bsios) : Prop :=
  let u := bh_uts b in
  Forall (fun s => bytes s /\ ~ In 0 s) [ut_sysname u; ut_nodename u; ut_release u; ut_version u; ut_machine u]
  /\ (forall x v, bh_text b x = Some v -> bytes v /\ ~ In 0 v).
(** The child from its start through refreshes with any answers. *)
Inductive b_host (cfg : ncfg) (pf : platform) (b : bsios) (country location : list Z) : list netif -> sysinfo -> Prop :=
| bh_start : b_host cfg pf b country location [] (bsd_sysinfo pf b country location)
| bh_fetch nfs nfs1 si o ret nfs' si' gone :
    b_host cfg pf b country location nfs si -> indices nfs1 = indices nfs -> b_ok o ->
    bsd_fetch cfg pf o nfs1 si = (ret, nfs', si', gone) -> b_host cfg pf b country location nfs' si'.
Definition b_named (b : bsios) (si : sysinfo) : Prop :=
  (exists h, bh_host b = Some h /\ h <> bs "localhost" /\ si_hostname si = firstn 255 h)
  \/ ((bh_host b = None \/ bh_host b = Some (bs "localhost")) /\ si_hostname si = firstn 255 (ut_nodename (bh_uts b))).
Definition b_described (pf : platform) (b : bsios) (si : sysinfo) : Prop :=
  let u := bh_uts b in
  si_uts_str si = firstn 255 (spaced match pf with
                                     | FreeBSD => [ut_version u; ut_machine u]
                                     | OpenBSD => [ut_sysname u; ut_release u; ut_version u; ut_machine u]
                                     end)
  /\ si_platform si = firstn 255 (spaced [ut_sysname u; ut_release u; ut_machine u]).
(** The text the kernel has, cut to 32 bytes. *)
Definition text32 (b : bsios) (x : list Z) : list Z := match bh_text b x with Some v => firstn 32 v | None => [] end.
Definition b_inventoried (pf : platform) (b : bsios) (h : hinv) : Prop :=
  match pf with
  | FreeBSD =>
      hi_hw h = text32 b (bs "smbios.system.version") /\ hi_fw h = text32 b (bs "smbios.bios.version")
      /\ hi_serial h = text32 b (bs "smbios.system.serial") /\ hi_manuf h = text32 b (bs "smbios.system.maker")
      /\ hi_model h = text32 b (bs "smbios.system.product")
  | OpenBSD =>
      hi_hw h = text32 b (bs "hw.version") /\ hi_fw h = []
      /\ hi_serial h = text32 b (bs "hw.serialno") /\ hi_manuf h = text32 b (bs "hw.vendor")
      /\ hi_model h = text32 b (bs "hw.product")
  end
  /\ hi_sw h = firstn 32 (ut_release (bh_uts b)) /\ hi_asset h = [].
Definition short_texts (b : bsios) : Prop :=
  forall x v, In x [bs "hw.version"; bs "hw.serialno"; bs "hw.vendor"; bs "hw.product"] -> bh_text b x = Some v -> zlen v <= 32.
