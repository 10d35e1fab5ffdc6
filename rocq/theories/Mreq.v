(** The requests of the unprivileged process to the privileged one: my_mreq,
    /repo/src/util.c 284-299, and its callers. *)
From Verif Require Import Base Types Tlv Checks Wire Parent Netif.

(** struct parent_req, common.h 234-240: op, index, name, len, the 512 bytes of
    buf. *)
Record preq := mkPreq { rq_op : Z; rq_index : Z; rq_name : list Z; rq_len : Z; rq_buf : list Z }.
(** "struct parent_req mreq = {}" (netif.c 83, netif_linux.c 93, 147, 189, 207, 371,
    child.c 233) and my_malloc (util.c 430), and the memset of util.c 293. *)
Definition preq0 : preq := mkPreq 0 0 [] 0 (zeros 512).

(** The bytes written, util.c 289: PARENT_REQ_LEN(mreq->len) bytes of the
    structure. *)
Definition mreq_out (q : preq) : list Z := req_bytes (rq_op q) (rq_index q) (rq_name q) (rq_len q) (rq_buf q).
(** The structure behind the read of util.c 294 into cleared memory. *)
Definition mreq_in (d : list Z) : preq :=
  let m := req_mem d in mkPreq (pr_op m) (pr_index m) (cstr (slice m 8 16)) (pr_len m) (pr_buf m).
(** my_mreq, util.c 284-299, [reply] the datagram that comes back, [None] when
    the parent is gone.  A negative length or a missing or malformed reply is
    my_fatal; a length above 512 has write(2) read behind the structure.  The
    write itself is taken to be complete (a local socket). *)
Definition my_mreq (q : preq) (reply : option (list Z)) : dres preq :=
  if rq_len q <? 0 then DAbort
  else if 512 <? rq_len q then DUB
  else match reply with
  | None => DAbort
  | Some d =>
      let m := req_mem d in
      if negb (req_size_ok (Z.min (zlen d) PARENT_REQ_MAX) m) then DAbort else DOk (mreq_in d)
  end.

(** The datagram the parent answers with, parent.c 257-260: the structure it read,
    with the name of if_indextoname (204) and the new length and buffer; nothing
    arrives when the parent ended. *)
Definition parent_reply (d : list Z) (os : pos) (r : pres) : option (list Z) :=
  if r_alive r then
    match rev (r_eff r) with
    | EReply op index len data :: _ =>
        Some (req_bytes op index
                (match os_name os with Some n => n | None => cstr (slice (req_mem d) 8 16) end) len data)
    | _ => None
    end
  else None.

(** One exchange: util.c 284-299 with parent.c 192-261 between the write and the
    read.  The parent as it is behind it, and what the caller has. *)
Definition exchange (cfg : pcfg) (fds : list rawfd) (q : preq) (os : pos) : pres * dres preq :=
  let d := mreq_out q in
  let r := parent_req cfg fds d os in
  (r, my_mreq q (parent_reply d os r)).

(** The requests.  child.c 233-235. *)
Definition q_open (i : Z) : preq := mkPreq PARENT_OPEN i [] 0 (zeros 512).
(** netif.c 243-244; one structure is used again and again (netif.c 83): name,
    length and buffer are those of the previous answer. *)
Definition q_close (prev : preq) (i : Z) : preq :=
  mkPreq PARENT_CLOSE i (rq_name prev) (rq_len prev) (rq_buf prev).
(** netif.c 214-215, the same structure. *)
Definition q_alias (prev : preq) (i : Z) : preq :=
  mkPreq PARENT_ALIAS i (rq_name prev) (rq_len prev) (rq_buf prev).
(** netif_linux.c 95-96. *)
Definition q_device (i : Z) : preq := mkPreq PARENT_DEVICE i [] 0 (zeros 512).
(** netif_linux.c 152-154. *)
Definition q_driver (i : Z) : preq := mkPreq PARENT_ETHTOOL_GDRV i [] ETHTOOL_DRVINFO_SIZE (zeros 512).
(** netif_linux.c 395-397. *)
Definition q_settings (i : Z) : preq := mkPreq PARENT_ETHTOOL_GSET i [] ETHTOOL_CMD_SIZE (zeros 512).
(** netif_linux.c 191-192. *)
Definition q_device_id (i : Z) : preq := mkPreq PARENT_DEVICE_ID i [] 0 (zeros 512).
(** netif_linux.c 210-211. *)
Definition q_team (i : Z) : preq := mkPreq PARENT_TEAMNL i [] 0 (zeros 512).
(** util.c 429-434; strlen(descr) + 1 bytes are copied. *)
Definition q_descr (i : Z) (text : list Z) : preq :=
  mkPreq PARENT_DESCR i [] (zlen text + 1) (text ++ zeros (512 - zlen text)).

(** What the callers take from the answer.  netif.c 217-218: the description,
    unset when nothing came back. *)
Definition a_alias (a : preq) : list Z := if rq_len a =? 0 then [] else firstn 63 (cstr (rq_buf a)).
(** netif_linux.c 98-99. *)
Definition a_device (a : preq) : bool := negb (rq_len a =? 0).
(** netif_linux.c 156-162: driver is at offset 4 of struct ethtool_drvinfo, 32
    bytes. *)
Definition a_driver (a : preq) : option (list Z) :=
  if negb (rq_len a =? ETHTOOL_DRVINFO_SIZE) then None else Some (cstr (slice (rq_buf a) 4 32)).
(** netif_linux.c 194-197, before the copy into device_name. *)
Definition a_device_id (a : preq) : list Z := if rq_len a =? 0 then [] else cstr (rq_buf a).
(** netif_linux.c 399-403: supported, advertising, speed, duplex, port and autoneg
    of struct ethtool_cmd are at offsets 4, 8, 12, 14, 15 and 18. *)
Definition a_settings (a : preq) : option ecmd :=
  if negb (rq_len a =? ETHTOOL_CMD_SIZE) then None
  else
    let b := rq_buf a in
    Some (mkEcmd (unle (slice b 4 4)) (unle (slice b 8 4)) (unle (slice b 12 2)) (nth 14 b 0) (nth 15 b 0)
            (nth 18 b 0)).
(** netif_linux.c 213-220: mode, cnt, netifs and netif_active of struct
    parent_team_info (common.h 243-248) are at offsets 0, 1, 4 and 132.  A reply
    longer than the structure is copied over what follows it; more than 32 members
    are read from behind the array (222). *)
Definition a_team (a : preq) : dres (option (Z * list Z * Z)) :=
  if rq_len a =? 0 then DOk None
  else if negb (0 <=? rq_len a) || (TEAM_INFO_SIZE <? rq_len a) then DUB
  else
    let b := firstn (Z.to_nat (rq_len a)) (rq_buf a) ++ zeros (TEAM_INFO_SIZE - rq_len a) in
    if 32 <? nth 1 b 0 then DUB
    else
    DOk (Some (nth 0 b 0,
               map (fun k => unle (slice b (4 + 4 * Z.of_nat k) 4)) (seq 0 (Z.to_nat (nth 1 b 0))),
               unle (slice b 132 4))).

(** The loop of netif.c 116-234 as far as the parent is asked for the alias
    (214-218), for the interfaces in the given order, with the state of the
    operating system at each request.  The result lists the descriptions; the
    structure is handed on. *)
Fixpoint ask_aliases (cfg : pcfg) (fds : list rawfd) (q : preq) (l : list (Z * pos))
  : dres (list (list Z) * preq) :=
  match l with
  | [] => DOk ([], q)
  | (i, os) :: l' =>
      let '(r, x) := exchange cfg fds (q_alias q i) os in
      let* a := x in
      let* rest := ask_aliases cfg (r_fds r) a l' in
      DOk (a_alias a :: fst rest, snd rest)
  end.
(** The loop of netif.c 236-251 as far as the parent is asked to close sockets
    (243-245): the sockets it is left with. *)
Fixpoint ask_close (cfg : pcfg) (fds : list rawfd) (q : preq) (l : list (Z * pos)) : dres (list rawfd) :=
  match l with
  | [] => DOk fds
  | (i, os) :: l' =>
      let '(r, x) := exchange cfg fds (q_close q i) os in
      let* a := x in ask_close cfg (r_fds r) a l'
  end.
