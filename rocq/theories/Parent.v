(** The privileged process, /repo/src/parent.c: requests, transmission and
    reception, as functions of the bytes read, the answers of the operating
    system and the table of raw sockets. *)
From Verif Require Import Base Types Tlv Checks Wire.

(** Build and run-time configuration: the option word, the enabled flags of the
    protocol table in its order (struct proto, common.h 314-324), and whether
    libpci and libteam were found (configure.ac 132, 361).  sysfs and
    linux/ethtool.h are present (Linux). *)
Record pcfg := mkPcfg {
  pc_opts : Z;
  pc_enabled : list bool;
  pc_pci : bool;
  pc_team : bool
}.

(** struct rawfd, /repo/src/parent.h 29-39. *)
Record rawfd := mkRaw { rf_index : Z; rf_name : list Z; rf_fd : Z; rf_pcap : bool }.

(** Result of parent_socket: a descriptor, failure (return -1) or my_fatal. *)
Inductive sockres := SockFd (fd : Z) | SockFail | SockFatal.

(** Answers of the operating system to the calls of parent.c 192-766 during one call;
    every field is arbitrary. *)
Record pos := mkPos {
  os_name : option (list Z);          (* if_indextoname *)
  os_sock : sockres;                  (* parent_socket, its pcap calls *)
  os_rawlen : Z;                      (* write on the raw socket *)
  os_gone : bool;                     (* errno is ENODEV or EIO *)
  os_stat : bool;                     (* stat of a sysfs file succeeds *)
  os_alias : list Z;                  (* content of .../ifalias *)
  os_written : Z;                     (* write to .../ifalias *)
  os_ethtool : option (list Z);       (* SIOCETHTOOL *)
  os_device_id : list Z;              (* text found by parent_device_id *)
  os_team : option (list Z);          (* struct parent_team_info *)
  os_reply : bool                     (* write of the reply succeeds *)
}.

(** Effects outside the process: raw socket of an interface opened / closed,
    multicast membership changed (setsockopt operation 1 add, 2 drop), frame
    written to the raw socket of an interface, interface alias written, reply
    sent, packet dumped in debug mode. *)
Inductive peff :=
| EOpen (index : Z) (name : list Z)
| EClose (index : Z)
| EMulti (index op : Z) (addr : list Z)
| EFrame (index fd : Z) (data : list Z)
| EAlias (name data : list Z)
| EReply (op index len : Z) (data : list Z)
| EDump (index : Z) (data : list Z).

(** Result of handling one event (parent.c 192-261, 309-354): sockets, effects, and
    whether the process is
    still running (assert and my_fatal end it). *)
Record pres := mkRes { r_fds : list rawfd; r_eff : list peff; r_alive : bool }.

(** rfd_byindex, parent.h 67-76. *)
Definition rfd_byindex (fds : list rawfd) (i : Z) : option rawfd :=
  find (fun r => rf_index r =? i) fds.

(** PACKET_ADD_MEMBERSHIP and PACKET_DROP_MEMBERSHIP of linux/if_packet.h. *)
Definition PACKET_ADD_MEMBERSHIP := 1.
Definition PACKET_DROP_MEMBERSHIP := 2. (* linux/if_packet.h *)

(** The loop of parent_multi, parent.c 723-737 (AF_PACKET branch): [p] is the
    protocol number; [op] is reassigned in every round, as in the code.  A
    failing setsockopt is only logged. *)
Fixpoint multi_loop (cfg : pcfg) (index : Z) (p : Z) (en : list bool) (op : Z) : list peff :=
  match en with
  | [] => []
  | e :: en' =>
      if negb e && negb (has (pc_opts cfg) OPT_AUTO) then multi_loop cfg index (p + 1) en' op
      else
        let op := if negb (op =? 0) then PACKET_ADD_MEMBERSHIP else PACKET_DROP_MEMBERSHIP in
        EMulti index op (proto_dst p) :: multi_loop cfg index (p + 1) en' op
  end.
(** parent_multi, parent.c 708-766. *)
Definition parent_multi (cfg : pcfg) (index op : Z) : list peff :=
  if has (pc_opts cfg) OPT_DEBUG then []
  else multi_loop cfg index 0 (pc_enabled cfg) op.

(** parent_open, parent.c 357-388; parent_socket (627-705) is reduced to its
    outcome.  [None]: my_fatal; the boolean is "returned 0". *)
Definition parent_open (cfg : pcfg) (fds : list rawfd) (index : Z) (name : list Z) (os : pos)
  : option (list rawfd * list peff * bool) :=
  match os_sock os with
  | SockFatal => None
  | SockFail => Some (fds, [], false)
  | SockFd fd =>
      if fd <? 0 then Some (fds, [], false)
      else
        let pcap := negb (has (pc_opts cfg) OPT_DEBUG) in
        Some (fds ++ [mkRaw index (firstn 15 name) fd pcap],
              EOpen index name ::
              (if negb (has (pc_opts cfg) OPT_RECV) || has (pc_opts cfg) OPT_DEBUG then []
               else parent_multi cfg index 1), true)
  end.

(** parent_close, parent.c 390-407, for the first socket of the index. *)
Fixpoint rfd_remove (fds : list rawfd) (i : Z) : list rawfd :=
  match fds with
  | [] => []
  | r :: fds' => if rf_index r =? i then fds' else r :: rfd_remove fds' i
  end.
(** parent_close, /repo/src/parent.c 390-407. *)
Definition parent_close (cfg : pcfg) (fds : list rawfd) (r : rawfd) : list rawfd * list peff :=
  (rfd_remove fds (rf_index r),
   (if has (pc_opts cfg) OPT_RECV && negb (has (pc_opts cfg) OPT_DEBUG)
    then parent_multi cfg (rf_index r) 0 else [])
   ++ [EClose (rf_index r)]).

(** parent_send, parent.c 309-354. [dgram] is the datagram read. *)
Definition parent_send (cfg : pcfg) (fds : list rawfd) (dgram : list Z) (os : pos) : pres :=
  let len := Z.min (zlen dgram) PARENT_MSG_MAX in
  let m := msg_mem dgram in
  if negb (msg_size_ok len m) then mkRes fds [] true
  else match os_name os with
  | None => mkRes fds [] true
  | Some name =>
      if negb (60 <=? pm_len m) then mkRes fds [] false
      else if negb (pm_proto m <? PROTO_MAX) then mkRes fds [] false
      else match proto_check (pm_proto m) (pm_msg m) (pm_len m) with
      | DOk (Some _) =>
          let data := firstn (Z.to_nat (pm_len m)) (pm_msg m) in
          if has (pc_opts cfg) OPT_DEBUG then mkRes fds [EDump (pm_index m) data] true
          else
            let opened :=
              match rfd_byindex fds (pm_index m) with
              | Some _ => Some (fds, [], true)
              | None => parent_open cfg fds (pm_index m) name os
              end in
            match opened with
            | None => mkRes fds [] false
            | Some (fds1, eff1, false) => mkRes fds1 eff1 true
            | Some (fds1, eff1, true) =>
                match rfd_byindex fds1 (pm_index m) with
                | None => mkRes fds1 eff1 false
                | Some r =>
                    let eff2 := eff1 ++ [EFrame (rf_index r) (rf_fd r) data] in
                    if (os_rawlen os =? -1) && os_gone os then
                      let '(fds3, eff3) := parent_close cfg fds1 r in
                      mkRes fds3 (eff2 ++ eff3) true
                    else mkRes fds1 eff2 true
                end
            end
      | _ => mkRes fds [] false
      end
  end.

(** Sizes of struct ethtool_cmd, struct ethtool_drvinfo and struct
    parent_team_info. *)
Definition ETHTOOL_CMD_SIZE := 44.
Definition ETHTOOL_DRVINFO_SIZE := 196. (* sizeof(struct ethtool_drvinfo) *)
Definition TEAM_INFO_SIZE := 136. (* sizeof(struct team_info) *)

(** parent_check, parent.c 264-306: [None] an assertion fires, else success. *)
Definition parent_check (cfg : pcfg) (op len : Z) : option bool :=
  if negb (len <=? ETHER_MAX_LEN) then None
  else if negb (op <? PARENT_MAX) then None
  else if op =? PARENT_OPEN then Some true
  else if op =? PARENT_CLOSE then Some true
  else if op =? PARENT_ETHTOOL_GSET then if len =? ETHTOOL_CMD_SIZE then Some true else None
  else if op =? PARENT_ETHTOOL_GDRV then if len =? ETHTOOL_DRVINFO_SIZE then Some true else None
  else if op =? PARENT_TEAMNL then Some (pc_team cfg)
  else if op =? PARENT_DESCR then if len <=? IFDESCRSIZE then Some true else None
  else if op =? PARENT_ALIAS then Some true
  else if op =? PARENT_DEVICE then Some true
  else if op =? PARENT_DEVICE_ID then Some (pc_pci cfg)
  else Some false.

(** The line read by read_line, /repo/src/util.c 229-243: fgets of at most
    [n - 1] bytes, cut at the newline. *)
Fixpoint upto_nl (l : list Z) : list Z :=
  match l with
  | [] => []
  | b :: l' => if b =? 10 then [] else b :: upto_nl l'
  end.
(** read_line, /repo/src/util.c 229-243. *)
Definition read_line (file : list Z) (n : Z) : list Z :=
  cstr (upto_nl (firstn (Z.to_nat (n - 1)) file)).

(** A buffer with a NUL stored at position [n]; "mreq->buf[IFDESCRSIZE] = 0",
    parent.c 496. *)
Definition put0 (buf : list Z) (n : Z) : list Z :=
  firstn (Z.to_nat n) buf ++ [0] ++ skipn (Z.to_nat n + 1) buf.
(** Text stored at the start of a buffer, NUL terminated (read_line at parent.c
    507; parent_device_id, 551-624). *)
Definition put_str (s buf : list Z) : list Z := s ++ [0] ++ skipn (length s + 1) buf.
(** The replies with a payload: new length, new buffer, effects.
    parent_descr (parent.c 490-532, sysfs branch), write_line (util.c 246-257),
    parent_ethtool (410-439), parent_device (535-547), parent_device_id
    (551-624, the lookup is [os_device_id]), parent_libteam (443-487, the query
    is [os_team]; the buffer keeps its content when it fails).  write(2) returns
    at most the number of bytes given to it. *)
Definition req_answer (cfg : pcfg) (op : Z) (name buf : list Z) (os : pos)
  : Z * list Z * list peff :=
  if (op =? PARENT_DESCR) || (op =? PARENT_ALIAS) then
    let buf := put0 buf IFDESCRSIZE in
    if negb (os_stat os) then (0, buf, [])
    else if op =? PARENT_DESCR then
      let n := Z.min (os_written os) (zlen (cstr buf)) in
      (if 0 <? n then n else 0, buf, [EAlias name (cstr buf)])
    else
      let line := read_line (os_alias os) IFDESCRSIZE in
      (zlen line, put_str line buf, [])
  else if (op =? PARENT_ETHTOOL_GSET) || (op =? PARENT_ETHTOOL_GDRV) then
    match os_ethtool os with
    | None => (0, buf, [])
    | Some d =>
        let n := if op =? PARENT_ETHTOOL_GSET then ETHTOOL_CMD_SIZE else ETHTOOL_DRVINFO_SIZE in
        (n, firstn (Z.to_nat n) (d ++ zeros n) ++ skipn (Z.to_nat n) buf, [])
    end
  else if op =? PARENT_DEVICE then (if os_stat os then 1 else 0, buf, [])
  else if op =? PARENT_DEVICE_ID then
    let s := firstn 511 (cstr (os_device_id os)) in (zlen s, put_str s buf, [])
  else
    match os_team os with
    | None => (TEAM_INFO_SIZE, buf, [])
    | Some d => (TEAM_INFO_SIZE, firstn 136 (d ++ zeros 136) ++ skipn 136 buf, [])
    end.

(** parent_req, parent.c 192-261. *)
Definition parent_req (cfg : pcfg) (fds : list rawfd) (dgram : list Z) (os : pos) : pres :=
  let len := Z.min (zlen dgram) PARENT_REQ_MAX in
  let m := req_mem dgram in
  let op := pr_op m in
  let index := pr_index m in
  let reply fds eff len buf :=
    mkRes fds (eff ++ [EReply op index len (firstn (Z.to_nat len) buf)]) (os_reply os) in
  if negb (req_size_ok len m) then mkRes fds [] false
  else match os_name os with
  | None => reply fds [] 0 (pr_buf m)
  | Some name =>
      match parent_check cfg op (pr_len m) with
      | Some true =>
          if op =? PARENT_OPEN then
            match rfd_byindex fds index with
            | Some _ => reply fds [] (pr_len m) (pr_buf m)
            | None =>
                match parent_open cfg fds index name os with
                | None => mkRes fds [] false
                | Some (fds1, eff, _) => reply fds1 eff (pr_len m) (pr_buf m)
                end
            end
          else if op =? PARENT_CLOSE then
            match rfd_byindex fds index with
            | None => reply fds [] (pr_len m) (pr_buf m)
            | Some r => let '(fds1, eff) := parent_close cfg fds r in reply fds1 eff (pr_len m) (pr_buf m)
            end
          else
            let '(n, buf, eff) := req_answer cfg op name (pr_buf m) os in reply fds eff n buf
      | _ => mkRes fds [] false
      end
  end.

(** The protocol whose group address is the destination, parent.c 794-801; the
    first match in the table, so never CDP version 1. *)
Definition recv_proto (data : list Z) : option Z :=
  find (fun p => beq (proto_dst p) (firstn 6 data)) [0; 1; 2; 3; 4; 5].

(** One round of the loop of parent_recv, parent.c 779-820: the bytes captured
    by pcap are copied (at most 1518), small frames are skipped ([RSkip]), a
    frame for an unknown group address ends the loop ([RStop]), any other is
    written to the child. *)
Inductive recvres := RSkip | RStop | RForward (dgram : list Z).
(** One packet, parent.c 769-821. *)
Definition parent_recv_one (index : Z) (captured : list Z) : recvres :=
  let data := firstn 1518 captured in
  if zlen data <? 60 then RSkip
  else match recv_proto data with
  | None => RStop
  | Some p => RForward (msg_bytes index [] p 0 (zlen data) data)
  end.
(** parent_recv, parent.c 769-821: the messages written to the child for the packets that
    pcap_next delivers one after the other. *)
Fixpoint parent_recv (index : Z) (captured : list (list Z)) : list (list Z) :=
  match captured with
  | [] => []
  | c :: captured' =>
      match parent_recv_one index c with
      | RSkip => parent_recv index captured'
      | RStop => []
      | RForward d => d :: parent_recv index captured'
      end
  end.

(** One event of the parent's loop (parent.c 129-134): a datagram from the child
    on the request or on the message socket. *)
Inductive pevent := PReq (dgram : list Z) (os : pos) | PSend (dgram : list Z) (os : pos).
(** One event of the loop at parent.c 152. *)
Definition parent_step (cfg : pcfg) (fds : list rawfd) (e : pevent) : pres :=
  match e with
  | PReq d os => parent_req cfg fds d os
  | PSend d os => parent_send cfg fds d os
  end.
(** A history, event_dispatch at parent.c 152: effects of all events until the
    process ends. *)
Fixpoint parent_run (cfg : pcfg) (fds : list rawfd) (es : list pevent) : pres :=
  match es with
  | [] => mkRes fds [] true
  | e :: es' =>
      let r := parent_step cfg fds e in
      if r_alive r then
        let r' := parent_run cfg (r_fds r) es' in
        mkRes (r_fds r') (r_eff r ++ r_eff r') (r_alive r')
      else r
  end.
