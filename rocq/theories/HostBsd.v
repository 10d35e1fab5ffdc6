(** The parent and the system information on FreeBSD and OpenBSD: the AF_LINK and
    SIOCGIFDESCR branches of /repo/src/parent.c, the sysctl and kenv branches of
    /repo/src/sysinfo.c. *)
From Verif Require Import Base Types Tlv Checks Wire Parent Mreq Netif Sysinfo Bsd.

(** ** The parent *)
(** Effects outside the process: those of [peff], SIOCADDMULTI or SIOCDELMULTI
    with a name and an address (parent.c 747-762), a successful SIOCSIFDESCR with
    name, length and buffer (518-527). *)
Inductive beff :=
| BSys (e : peff)
| BMulti (name addr : list Z) (add : bool)
| BDescr (name : list Z) (len : Z) (buf : list Z).
(** As [pres] (parent.c 192-261, 309-354). *)
Record bpres := mkBres { br_fds : list rawfd; br_eff : list beff; br_alive : bool }.

(** ETHER_IS_MULTICAST of net/ethernet.h and netinet/if_ether.h. *)
Definition is_multicast (a : list Z) : bool := Z.testbit (nth 0 a 0) 0.
(** The loop of parent_multi, parent.c 723-764 (AF_LINK branch).  A failing ioctl
    is only logged. *)
Fixpoint bsd_multi_loop (cfg : pcfg) (name : list Z) (p : Z) (en : list bool) (op : bool) : list beff :=
  match en with
  | [] => []
  | e :: en' =>
      let rest := bsd_multi_loop cfg name (p + 1) en' op in
      if negb e && negb (has (pc_opts cfg) OPT_AUTO) then rest
      else if negb (is_multicast (proto_dst p)) then rest
      else BMulti name (proto_dst p) op :: rest
  end.
(** parent_multi, parent.c 708-766; [name] is rfd->name. *)
Definition bsd_multi (cfg : pcfg) (name : list Z) (op : bool) : list beff :=
  if has (pc_opts cfg) OPT_DEBUG then [] else bsd_multi_loop cfg name 0 (pc_enabled cfg) op.

(** parent_open, parent.c 357-388, as [parent_open]. *)
Definition bsd_open (cfg : pcfg) (fds : list rawfd) (index : Z) (name : list Z) (os : pos)
  : option (list rawfd * list beff * bool) :=
  match os_sock os with
  | SockFatal => None
  | SockFail => Some (fds, [], false)
  | SockFd fd =>
      if fd <? 0 then Some (fds, [], false)
      else
        let pcap := negb (has (pc_opts cfg) OPT_DEBUG) in
        Some (fds ++ [mkRaw index (firstn 15 name) fd pcap],
              BSys (EOpen index name) ::
              (if negb (has (pc_opts cfg) OPT_RECV) || has (pc_opts cfg) OPT_DEBUG then []
               else bsd_multi cfg (firstn 15 name) true), true)
  end.
(** parent_close, parent.c 390-407. *)
Definition bsd_close (cfg : pcfg) (fds : list rawfd) (r : rawfd) : list rawfd * list beff :=
  (rfd_remove fds (rf_index r),
   (if has (pc_opts cfg) OPT_RECV && negb (has (pc_opts cfg) OPT_DEBUG)
    then bsd_multi cfg (rf_name r) false else [])
   ++ [BSys (EClose (rf_index r))]).

(** parent_send, parent.c 309-354. *)
Definition bsd_send (cfg : pcfg) (fds : list rawfd) (dgram : list Z) (os : pos) : bpres :=
  let len := Z.min (zlen dgram) PARENT_MSG_MAX in
  let m := msg_mem dgram in
  if negb (msg_size_ok len m) then mkBres fds [] true
  else match os_name os with
  | None => mkBres fds [] true
  | Some name =>
      if negb (60 <=? pm_len m) then mkBres fds [] false
      else if negb (pm_proto m <? PROTO_MAX) then mkBres fds [] false
      else match proto_check (pm_proto m) (pm_msg m) (pm_len m) with
      | DOk (Some _) =>
          let data := firstn (Z.to_nat (pm_len m)) (pm_msg m) in
          if has (pc_opts cfg) OPT_DEBUG then mkBres fds [BSys (EDump (pm_index m) data)] true
          else
            let opened :=
              match rfd_byindex fds (pm_index m) with
              | Some _ => Some (fds, [], true)
              | None => bsd_open cfg fds (pm_index m) name os
              end in
            match opened with
            | None => mkBres fds [] false
            | Some (fds1, eff1, false) => mkBres fds1 eff1 true
            | Some (fds1, eff1, true) =>
                match rfd_byindex fds1 (pm_index m) with
                | None => mkBres fds1 eff1 false
                | Some r =>
                    let eff2 := eff1 ++ [BSys (EFrame (rf_index r) (rf_fd r) data)] in
                    if (os_rawlen os =? -1) && os_gone os then
                      let '(fds3, eff3) := bsd_close cfg fds1 r in
                      mkBres fds3 (eff2 ++ eff3) true
                    else mkBres fds1 eff2 true
                end
            end
      | _ => mkBres fds [] false
      end
  end.

(** parent_check, parent.c 264-306, without sysfs, ethtool, libteam and libpci:
    [None] an assertion fires, else success. *)
Definition bsd_check (op len : Z) : option bool :=
  if negb (len <=? ETHER_MAX_LEN) then None
  else if negb (op <? PARENT_MAX) then None
  else if op =? PARENT_OPEN then Some true
  else if op =? PARENT_CLOSE then Some true
  else if op =? PARENT_DESCR then if len <=? IFDESCRSIZE then Some true else None
  else Some false.
(** parent_req, parent.c 192-261, and parent_descr, 510-529; the result of the
    ioctl with SIOCSIFDESCR is [os_written]. *)
Definition bsd_req (cfg : pcfg) (fds : list rawfd) (dgram : list Z) (os : pos) : bpres :=
  let len := Z.min (zlen dgram) PARENT_REQ_MAX in
  let m := req_mem dgram in
  let op := pr_op m in
  let index := pr_index m in
  let reply fds eff len buf :=
    mkBres fds (eff ++ [BSys (EReply op index len (firstn (Z.to_nat len) buf))]) (os_reply os) in
  if negb (req_size_ok len m) then mkBres fds [] false
  else match os_name os with
  | None => reply fds [] 0 (pr_buf m)
  | Some name =>
      match bsd_check op (pr_len m) with
      | Some true =>
          if op =? PARENT_OPEN then
            match rfd_byindex fds index with
            | Some _ => reply fds [] (pr_len m) (pr_buf m)
            | None =>
                match bsd_open cfg fds index name os with
                | None => mkBres fds [] false
                | Some (fds1, eff, _) => reply fds1 eff (pr_len m) (pr_buf m)
                end
            end
          else if op =? PARENT_CLOSE then
            match rfd_byindex fds index with
            | None => reply fds [] (pr_len m) (pr_buf m)
            | Some r => let '(fds1, eff) := bsd_close cfg fds r in reply fds1 eff (pr_len m) (pr_buf m)
            end
          else
            let buf := put0 (pr_buf m) IFDESCRSIZE in
            if 0 <=? os_written os then reply fds [BDescr (firstn 15 name) (pr_len m) buf] (pr_len m) buf
            else reply fds [] 0 buf
      | _ => mkBres fds [] false
      end
  end.

(** One event of the loop at parent.c 152, and a history, as [parent_step] and
    [parent_run]. *)
Definition bsd_step (cfg : pcfg) (fds : list rawfd) (e : pevent) : bpres :=
  match e with
  | PReq d os => bsd_req cfg fds d os
  | PSend d os => bsd_send cfg fds d os
  end.
(** event_dispatch at parent.c 152. *)
Fixpoint bsd_run (cfg : pcfg) (fds : list rawfd) (es : list pevent) : bpres :=
  match es with
  | [] => mkBres fds [] true
  | e :: es' =>
      let r := bsd_step cfg fds e in
      if br_alive r then
        let r' := bsd_run cfg (br_fds r) es' in
        mkBres (br_fds r') (br_eff r ++ br_eff r') (br_alive r')
      else r
  end.

(** The datagram the parent answers with, parent.c 257-260, as [parent_reply]. *)
Definition bsd_reply (d : list Z) (os : pos) (r : bpres) : option (list Z) :=
  if br_alive r then
    match rev (br_eff r) with
    | BSys (EReply op index len data) :: _ =>
        Some (req_bytes op index
                (match os_name os with Some n => n | None => cstr (slice (req_mem d) 8 16) end) len data)
    | _ => None
    end
  else None.
(** One exchange, util.c 284-299 with parent.c 192-261, as [exchange]. *)
Definition bsd_exchange (cfg : pcfg) (fds : list rawfd) (q : preq) (os : pos) : bpres * dres preq :=
  let d := mreq_out q in
  let r := bsd_req cfg fds d os in
  (r, my_mreq q (bsd_reply d os r)).

(** ** System information *)
(** What sysinfo.c asks of the system: uname(2) (129), gethostbyname(3) (172),
    the texts of HW_VERSION, HW_SERIALNO, HW_VENDOR and HW_PRODUCT (OpenBSD,
    190-213) or of the kernel environment (FreeBSD, 216-223), whether sysctl(2)
    stores what fits when a text is too long (as its manual says; the kernel
    of OpenBSD stores nothing), and the values of the forwarding switches
    (281-305), [None] if the call fails. *)
Record bsios := mkBsios { bh_uts : uts; bh_host : option (list Z); bh_text : list Z -> option (list Z);
                          bh_fits : bool; bh_ip4 : option Z; bh_ip6 : option Z }.

(** Names of the inventory in order of struct hinv (common.h 160-168), [None] for
    fields that are not asked for; the names for OpenBSD are those of
    sysctl(8). *)
Definition inv_names (pf : platform) : list (option (list Z)) :=
  match pf with
  | FreeBSD => [Some (bs "smbios.system.version"); Some (bs "smbios.bios.version"); None;
                Some (bs "smbios.system.serial"); Some (bs "smbios.system.maker"); Some (bs "smbios.system.product"); None]
  | OpenBSD => [Some (bs "hw.version"); None; None; Some (bs "hw.serialno"); Some (bs "hw.vendor"); Some (bs "hw.product"); None]
  end.
(** The bytes stored for a text: kenv(2) with a length of 32 cuts the string and its
    NUL (sysinfo.c 217-222); sysctl(2) with a length of 33 fails if these do not
    fit (193-212). *)
Definition inv_stored (pf : platform) (fits : bool) (v : list Z) : list Z :=
  match pf with
  | FreeBSD => firstn 32 (v ++ [0])
  | OpenBSD => if zlen v + 1 <=? 33 then v ++ [0] else if fits then firstn 33 v else []
  end.
(** A field of 33 bytes, zero before (main.c 64), behind the call. *)
Definition inv_field (pf : platform) (b : bsios) (name : option (list Z)) : list Z :=
  let w := match name with
           | Some x => match bh_text b x with Some v => inv_stored pf (bh_fits b) v | None => [] end
           | None => []
           end in
  w ++ zeros (33 - zlen w).
(** struct hinv, common.h 160-168, after sysinfo.c 179 and 190-223: sw_revision is
    the third field. *)
Definition inv_mem (pf : platform) (b : bsios) : list Z :=
  let rel := firstn 32 (ut_release (bh_uts b)) in
  concat (map (fun k => if Nat.eqb k 2 then rel ++ zeros (33 - zlen rel) else inv_field pf b (nth k (inv_names pf) None))
            (seq 0 7)).
(** The string that starts in the field [k]; strlen(3) does not stop at the end of
    the field (/repo/src/proto/lldp.c 340-423). *)
Definition inv_string (mem : list Z) (k : nat) : list Z := cstr (skipn (33 * k) mem).

(** sysinfo_forwarding, sysinfo.c 281-305: cap and cap_active. *)
Definition bsd_forwarding (b : bsios) (cap act : Z) : Z * Z :=
  let one v cap act :=
    match v with
    | Some n => if n =? 1 then (Z.lor cap CAP_ROUTER, Z.lor act CAP_ROUTER, true) else (Z.lor cap CAP_ROUTER, act, false)
    | None => (cap, act, false)
    end in
  let '(cap1, act1, done) := one (bh_ip4 b) cap act in
  if done then (cap1, act1)
  else let '(cap2, act2, _) := one (bh_ip6 b) cap1 act1 in (cap2, act2).

(** sysinfo_fetch, sysinfo.c 48-242, as [sysinfo_fetch]. *)
Definition bsd_sysinfo (pf : platform) (b : bsios) (country location : list Z) : sysinfo :=
  let u := bh_uts b in
  let uts_str := snprintf256 (match pf with
                   | FreeBSD => ut_version u ++ [32] ++ ut_machine u
                   | OpenBSD => ut_sysname u ++ [32] ++ ut_release u ++ [32] ++ ut_version u ++ [32] ++ ut_machine u
                   end) in
  let platform := snprintf256 (ut_sysname u ++ [32] ++ ut_release u ++ [32] ++ ut_machine u) in
  let hostname := firstn 255 (match bh_host b with
                    | Some h => if beq h (bs "localhost") then ut_nodename u else h
                    | None => ut_nodename u
                    end) in
  let mem := inv_mem pf b in
  let inv := mkHinv (inv_string mem 0) (inv_string mem 1) (inv_string mem 2) (inv_string mem 3) (inv_string mem 4)
               (inv_string mem 5) (inv_string mem 6) in
  let filled := existsb (fun x => negb (x =? 0)) mem in
  let med := Z.lor (Z.lor 1 (if (0 <? zlen country) && (0 <? zlen location) then 4 else 0))
               (if filled then 32 else 0) in
  let '(cap, act) := bsd_forwarding b CAP_HOST CAP_HOST in
  mkSysinfo uts_str (uts_rel (ut_release u)) platform hostname country location cap act med
    1 (repeat 0 6) 0 None inv.
