(** How the privileged process gets its raw sockets and device names,
    /repo/src/parent.c 551-705: the calls of libpcap, and the texts read for
    parent_device_id. *)
From Verif Require Import Base Types Tlv Checks Wire Bpf Parent.

(** Answers of libpcap, and of dup(2) in debug mode, to the calls of parent_socket
    (parent.c 627-705, HAVE_PCAP_CREATE and HAVE_PCAP_IMMEDIATE_MODE): true is
    success. *)
Record pcapos := mkPcap {
  pp_create : bool;      (* pcap_create, 638 *)
  pp_timeout : bool;     (* pcap_set_timeout, 642 *)
  pp_snaplen : bool;     (* pcap_set_snaplen, 645 *)
  pp_immediate : bool;   (* pcap_set_immediate_mode, 649 *)
  pp_activate : bool;    (* pcap_activate, 653 *)
  pp_filter : bool;      (* pcap_setfilter, 677 *)
  pp_nonblock : bool;    (* pcap_setnonblock, 682 *)
  pp_direction : bool;   (* pcap_setdirection, 687 *)
  pp_fd : Z;             (* pcap_get_selectable_fd, 700 *)
  pp_dup : Z             (* dup, 633 *)
}.
(** The calls of parent.c 633-703, and of 402-403, for the socket of an interface
    index; a call that fails is listed too, [KDup] and [KCreate] with their
    success. *)
Inductive pcall :=
| KDup (index : Z) (ok : bool)
| KCreate (index : Z) (name : list Z) (ok : bool)
| KTimeout (ms : Z) | KSnaplen (n : Z) | KImmediate | KActivate
| KFilter (prog : list bpf_insn) | KNonblock | KIncoming
| KClose (index : Z).

(** parent_socket, parent.c 627-705: the outcome and the calls made.  my_fatal
    (640-650) ends the process; a failure of 653-690 goes to 703. *)
Definition parent_socket (opts index : Z) (name : list Z) (p : pcapos) : sockres * list pcall :=
  if has opts OPT_DEBUG then (SockFd (pp_dup p), [KDup index (0 <=? pp_dup p)])
  else
    let c1 := [KCreate index name (pp_create p)] in
    if negb (pp_create p) then (SockFatal, c1)
    else let c2 := c1 ++ [KTimeout 0] in
    if negb (pp_timeout p) then (SockFatal, c2)
    else let c3 := c2 ++ [KSnaplen ETHER_MAX_LEN] in
    if negb (pp_snaplen p) then (SockFatal, c3)
    else let c4 := c3 ++ [KImmediate] in
    if negb (pp_immediate p) then (SockFatal, c4)
    else let c5 := c4 ++ [KActivate] in
    if negb (pp_activate p) then (SockFail, c5 ++ [KClose index])
    else let c6 := c5 ++ [KFilter (if has opts OPT_RECV then proto_filter else reject_filter)] in
    if negb (pp_filter p) then (SockFail, c6 ++ [KClose index])
    else let c7 := c6 ++ [KNonblock] in
    if negb (pp_nonblock p) then (SockFail, c7 ++ [KClose index])
    else let c8 := c7 ++ [KIncoming] in
    if negb (pp_direction p) then (SockFail, c8 ++ [KClose index])
    else (SockFd (pp_fd p), c8).

(** Answers for one event of the privileged process (parent.c 192-261, 309-354)
    with those of libpcap in place of the outcome of parent_socket. *)
Definition with_sock (s : sockres) (os : pos) : pos :=
  mkPos (os_name os) s (os_rawlen os) (os_gone os) (os_stat os) (os_alias os) (os_written os) (os_ethtool os)
    (os_device_id os) (os_team os) (os_reply os).
(** The same for the whole event, parent.c 192-261 and 309-354; the outcome does not
    depend on the interface. *)
Definition with_pcap (cfg : pcfg) (p : pcapos) (e : pevent) : pevent :=
  let s := fst (parent_socket (pc_opts cfg) 0 [] p) in
  match e with PReq d os => PReq d (with_sock s os) | PSend d os => PSend d (with_sock s os) end.
(** Whether an event gets to parent_open, with the index and name handed over:
    parent.c 192-216 (an open request without a socket), 309-331 (a frame without a
    socket). *)
Definition opens (cfg : pcfg) (fds : list rawfd) (e : pevent) : option (Z * list Z) :=
  match e with
  | PReq d os =>
      let m := req_mem d in
      if negb (req_size_ok (Z.min (zlen d) PARENT_REQ_MAX) m) then None
      else match os_name os with
      | None => None
      | Some name =>
          match parent_check cfg (pr_op m) (pr_len m) with
          | Some true =>
              if pr_op m =? PARENT_OPEN then
                match rfd_byindex fds (pr_index m) with Some _ => None | None => Some (pr_index m, name) end
              else None
          | _ => None
          end
      end
  | PSend d os =>
      let m := msg_mem d in
      if negb (msg_size_ok (Z.min (zlen d) PARENT_MSG_MAX) m) then None
      else match os_name os with
      | None => None
      | Some name =>
          if negb (60 <=? pm_len m) then None
          else if negb (pm_proto m <? PROTO_MAX) then None
          else match proto_check (pm_proto m) (pm_msg m) (pm_len m) with
          | DOk (Some _) =>
              if has (pc_opts cfg) OPT_DEBUG then None
              else match rfd_byindex fds (pm_index m) with Some _ => None | None => Some (pm_index m, name) end
          | _ => None
          end
      end
  end.
(** pcap_close in parent_close, parent.c 402-403: only if there is a handle, which
    parent_socket does not set in debug mode; the descriptor is not closed
    otherwise. *)
Definition close_calls (cfg : pcfg) (eff : list peff) : list pcall :=
  flat_map (fun x => match x with
                     | EClose i => if has (pc_opts cfg) OPT_DEBUG then [] else [KClose i]
                     | _ => []
                     end) eff.
(** One event, parent.c 192-261 and 309-354: the result and the calls. *)
Definition sock_step (cfg : pcfg) (fds : list rawfd) (e : pevent) (p : pcapos) : pres * list pcall :=
  let r := parent_step cfg fds (with_pcap cfg p e) in
  (r, match opens cfg fds e with
      | Some (index, name) => snd (parent_socket (pc_opts cfg) index (firstn 15 name) p)
      | None => []
      end ++ close_calls cfg (r_eff r)).
(** A history, event_dispatch at parent.c 152. *)
Fixpoint sock_run (cfg : pcfg) (fds : list rawfd) (es : list (pevent * pcapos)) : pres * list pcall :=
  match es with
  | [] => (mkRes fds [] true, [])
  | (e, p) :: es' =>
      let '(r, cs) := sock_step cfg fds e p in
      if r_alive r then
        let '(r', cs') := sock_run cfg (r_fds r) es' in
        (mkRes (r_fds r') (r_eff r ++ r_eff r') (r_alive r'), cs ++ cs')
      else (r, cs)
  end.

(** ** parent_device_id *)
(** What parent_device_id (parent.c 551-624) reads: /proc/bus/pci is there (561),
    pci_alloc works (565), the link /sys/class/net/NAME/device/subsystem (574), the
    files below /sys/class/net/NAME (581-613, [None]: cannot be opened), the entry of
    libpci's table for a vendor and a device number (620, [[]]: nothing written). *)
Record devos := mkDev {
  dv_pci : bool; dv_alloc : bool;
  dv_link : option (list Z);
  dv_file : list Z -> option (list Z);
  dv_lookup : Z -> Z -> list Z
}.
(** SYSFS_PCI_DEVICE, parent.c 65. *)
Definition SYSFS_PCI_DEVICE : list Z := bs "device/device".
Definition SYSFS_PCI_VENDOR : list Z := bs "device/vendor". (* parent.c 66 *)
Definition SYSFS_USB_DEVICE : list Z := bs "device/../product". (* parent.c 67 *)
Definition SYSFS_USB_VENDOR : list Z := bs "device/../manufacturer". (* parent.c 68 *)
(** read_line, util.c 229-243, with its result: [None] if nothing was read. *)
Definition dev_line (os : devos) (path : list Z) (size : Z) : option (list Z) :=
  match dv_file os path with
  | None => None
  | Some f => let l := read_line f size in if zlen l =? 0 then None else Some l
  end.
(** strrchr(sub_path, '/'), parent.c 576: the text from the last slash on. *)
Fixpoint from_slash (l : list Z) : option (list Z) :=
  match l with
  | [] => None
  | b :: l' => match from_slash l' with
               | Some r => Some r
               | None => if b =? 47 then Some l else None
               end
  end.
(** isspace(3) in the C locale, parent.c 593 and 596. *)
Definition isspace (b : Z) : bool := (b =? 32) || ((9 <=? b) && (b <=? 13)).
(** The loops of parent.c 592-597, the last byte first. *)
Fixpoint drop_spaces (l : list Z) : list Z :=
  match l with
  | b :: l' => if isspace b then drop_spaces l' else l
  | [] => []
  end.
Definition chop (l : list Z) : list Z := rev (drop_spaces (rev l)). (* parent.c 592-597 *)
(** Value of a hexadecimal digit, strtoul(3) as used at parent.c 610. *)
Definition hexval (b : Z) : option Z :=
  if (48 <=? b) && (b <=? 57) then Some (b - 48)
  else if (65 <=? b) && (b <=? 70) then Some (b - 55)
  else if (97 <=? b) && (b <=? 102) then Some (b - 87)
  else None.
(** The digits of strtoul(3), parent.c 610 and 617. *)
Fixpoint hexnum (acc : Z) (l : list Z) : Z :=
  match l with
  | b :: l' => match hexval b with Some v => hexnum (16 * acc + v) l' | None => acc end
  | [] => acc
  end.
(** "uint16_t = strtoul(id_str, NULL, 16)", parent.c 610 and 617: white space, a
    sign, "0x", digits.  At most 15 characters are read, so the value never gets
    beyond an unsigned long. *)
Definition hex16 (l : list Z) : Z :=
  let l := drop_spaces l in
  let '(neg, l) := match l with
                   | 45 :: l' => (true, l')
                   | 43 :: l' => (false, l')
                   | _ => (false, l)
                   end in
  let l := match l with
           | 48 :: x :: d :: l' =>
               if ((x =? 120) || (x =? 88)) && match hexval d with Some _ => true | None => false end
               then d :: l' else l
           | _ => l
           end in
  let v := hexnum 0 l in
  (if neg then - v else v) mod 65536.
(** parent_device_id, parent.c 551-624: the text left in the buffer, [[]] when the
    reply is empty.  The buffer holds 512 bytes; the two texts have at most 31 bytes
    each, pci_lookup_name writes at most 511. *)
Definition parent_device_id (os : devos) : list Z :=
  if negb (dv_pci os) then []
  else if negb (dv_alloc os) then []
  else match dv_link os with
  | None => []
  | Some link =>
      match from_slash (firstn 255 link) with
      | None => []
      | Some base =>
          if beq base (bs "/usb") then
            match dev_line os SYSFS_USB_VENDOR 32 with
            | None => []
            | Some v =>
                match dev_line os SYSFS_USB_DEVICE 32 with
                | None => []
                | Some d => chop d ++ bs " (" ++ chop v ++ bs ")"
                end
            end
          else
            match dev_line os SYSFS_PCI_VENDOR 16 with
            | None => []
            | Some v =>
                match dev_line os SYSFS_PCI_DEVICE 16 with
                | None => []
                | Some d => firstn 511 (cstr (dv_lookup os (hex16 v) (hex16 d)))
                end
            end
      end
  end.
(** The answers of parent.c 192-261 for one request with those of 551-624 in place of
    the text. *)
Definition with_device (dv : devos) (os : pos) : pos :=
  mkPos (os_name os) (os_sock os) (os_rawlen os) (os_gone os) (os_stat os) (os_alias os) (os_written os)
    (os_ethtool os) (parent_device_id dv) (os_team os) (os_reply os).
