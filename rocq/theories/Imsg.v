(** The imsg message library, /repo/src/compat/imsg.c and imsg-buffer.c, on a
    little endian machine, over a stream socket that passes descriptors.
    Allocation does not fail. *)
From Verif Require Import Base.

(** Little endian fields of struct imsg_hdr, /repo/src/compat/imsg.h 65-71. *)
Definition le16 (v : Z) : list Z := [v mod 256; (v / 256) mod 256].
(** The same with 32 bits. *)
Definition le32 (v : Z) : list Z := [v mod 256; (v / 256) mod 256; (v / 65536) mod 256; (v / 16777216) mod 256].
(** Reading such a field. *)
Definition dle16 (l : list Z) : Z := match l with [a; b] => a + 256 * b | _ => 0 end.
(** Reading such a field. *)
Definition dle32 (l : list Z) : Z := match l with [a; b; c; d] => a + 256 * (b + 256 * (c + 256 * d)) | _ => 0 end.
Definition IMSG_HEADER_SIZE := 16. (* compat/imsg.h 25 *)
Definition MAX_IMSGSIZE := 16384. (* compat/imsg.h 26 *)
Definition IBUF_READ_SIZE := 65535. (* compat/imsg.h 24 *)

(** struct ibuf, imsg.h 28-36: the bytes written (up to wpos), size, max, rpos, fd. *)
Record ibuf := mkIbuf { b_data : list Z; b_size : Z; b_max : Z; b_rpos : Z; b_fd : Z }.
(** ibuf_open, /repo/src/compat/imsg-buffer.c 39-54. *)
Definition ibuf_open (len : Z) : ibuf := mkIbuf [] len len 0 (-1).
(** ibuf_dynamic, imsg-buffer.c 56-71. *)
Definition ibuf_dynamic (len max : Z) : option ibuf :=
  if max <? len then None
  else let b := ibuf_open len in
       Some (if max >? 0 then mkIbuf (b_data b) (b_size b) max (b_rpos b) (b_fd b) else b).
(** ibuf_add with ibuf_realloc, imsg-buffer.c 73-103. *)
Definition ibuf_add (b : ibuf) (data : list Z) : option ibuf :=
  let '(mkIbuf d size max rpos fd) := b in
  let w := zlen d + zlen data in
  if w >? size then if w >? max then None else Some (mkIbuf (d ++ data) w max rpos fd)
  else Some (mkIbuf (d ++ data) size max rpos fd).
(** imsg_add, /repo/src/compat/imsg.c 270-279: the length is a u_int16_t, so only
    the bytes within it are added; [None]: -1, the buffer is freed. *)
Definition imsg_add (b : ibuf) (data : list Z) (datalen : Z) : option ibuf :=
  let datalen := datalen mod 65536 in
  if negb (datalen =? 0) then ibuf_add b (firstn (Z.to_nat datalen) data) else Some b.
(** imsg_create, imsg.c 243-268; len is not set in the header yet (0 here). *)
Definition imsg_create (own type peerid pid datalen : Z) : option ibuf :=
  let datalen := (datalen mod 65536 + IMSG_HEADER_SIZE) mod 65536 in
  if datalen >? MAX_IMSGSIZE then None
  else
    let pid := if pid =? 0 then own else pid in
    let? b := ibuf_dynamic datalen MAX_IMSGSIZE in
    imsg_add b (le32 type ++ le16 0 ++ le16 0 ++ le32 peerid ++ le32 pid) IMSG_HEADER_SIZE.
(** imsg_close, imsg.c 281-295: flags and len go into the header. *)
Definition imsg_close (b : ibuf) : ibuf :=
  let '(mkIbuf d size max rpos fd) := b in
  mkIbuf (firstn 4 d ++ le16 (zlen d mod 65536) ++ le16 (if fd =? -1 then 0 else 1) ++ skipn 8 d) size max rpos fd.
(** imsg_compose, imsg.c 199-216: the buffer that is put at the end of the queue. *)
Definition imsg_compose (own type peerid pid fd : Z) (data : list Z) (datalen : Z) : option ibuf :=
  let? b := imsg_create own type peerid pid datalen in
  let? b := imsg_add b data datalen in
  let '(mkIbuf d size max rpos _) := b in
  Some (imsg_close (mkIbuf d size max rpos fd)).
(** The loop of imsg_composev, imsg.c 231-233. *)
Fixpoint add_all (b : ibuf) (iov : list (list Z)) : option ibuf :=
  match iov with
  | [] => Some b
  | v :: iov' => let? b := imsg_add b v (zlen v) in add_all b iov'
  end.
(** imsg_composev, imsg.c 218-240. *)
Definition imsg_composev (own type peerid pid fd : Z) (iov : list (list Z)) : option ibuf :=
  let datalen := fold_right (fun v n => zlen v + n) 0 iov in
  let? b := imsg_create own type peerid pid datalen in
  let? b := add_all b iov in
  let '(mkIbuf d size max rpos _) := b in
  Some (imsg_close (mkIbuf d size max rpos fd)).

(** The socket (sendmsg at imsg-buffer.c 266, recvmsg at imsg.c 115): bytes in
    transit, some with a descriptor.  A descriptor arrives
    together with the first byte of the sendmsg it was passed to. *)
Definition stream := list (Z * option Z).
(** The descriptors in it, in order. Helper without a counterpart in the C code. *)
Definition passed (s : stream) : list Z := flat_map (fun '(_, t) => match t with Some f => [f] | None => [] end) s.
(** The bytes of a buffer still to be sent, imsg-buffer.c 244-245. *)
Definition unsent (b : ibuf) : list Z := skipn (Z.to_nat (b_rpos b)) (b_data b).
(** The buffers one sendmsg offers: up to IOV_MAX, ending with the first that
    has a descriptor, imsg-buffer.c 241-249. *)
Fixpoint gather (room : nat) (q : list ibuf) : list ibuf :=
  match room, q with
  | O, _ | _, [] => []
  | S r, b :: q' => if negb (b_fd b =? -1) then [b] else b :: gather r q'
  end.
Definition IOV_MAX : nat := 1024. (* limits.h, imsg-buffer.c 228 *)
(** msgbuf_drain, imsg-buffer.c 198-214. *)
Fixpoint msgbuf_drain (q : list ibuf) (n : Z) : list ibuf :=
  match q with
  | [] => []
  | b :: q' =>
      if n >? 0 then
        if b_rpos b + n >=? zlen (b_data b) then msgbuf_drain q' (n - (zlen (b_data b) - b_rpos b))
        else mkIbuf (b_data b) (b_size b) (b_max b) (b_rpos b + n) (b_fd b) :: q'
      else q
  end.
(** buf->fd = -1 for the buffer at position [i], imsg-buffer.c 283-286. *)
Fixpoint clear_fd (i : nat) (q : list ibuf) : list ibuf :=
  match i, q with
  | _, [] => []
  | O, b :: q' => mkIbuf (b_data b) (b_size b) (b_max b) (b_rpos b) (-1) :: q'
  | S i', b :: q' => b :: clear_fd i' q'
  end.
(** The bytes accepted by sendmsg, imsg-buffer.c 266, with the descriptor on the first. *)
Definition tag (fd : option Z) (l : list Z) : stream :=
  match l with [] => [] | b :: l' => (b, fd) :: map (fun x => (x, None)) l' end.
(** msgbuf_write, imsg-buffer.c 225-291, when sendmsg accepts [n] of the bytes
    offered; [None] if it cannot. *)
Definition msgbuf_write (q : list ibuf) (n : Z) : option (list ibuf * stream) :=
  let g := gather IOV_MAX q in
  let bytes := flat_map unsent g in
  if (0 <? n) && (n <=? zlen bytes) then
    let fd := match rev g with b :: _ => if b_fd b =? -1 then None else Some (b_fd b) | [] => None end in
    let q' := match fd with Some _ => clear_fd (length g - 1) q | None => q end in
    Some (msgbuf_drain q' n, tag fd (firstn (Z.to_nat n) bytes))
  else None.

(** struct imsgbuf of the receiver, imsg.h 55-61: bytes and descriptors read. *)
Record reader := mkReader { r_buf : list Z; r_fds : list Z }.
(** imsg_read, imsg.c 81-157, when recvmsg returns [n] of the bytes in transit;
    it returns at most the room in the buffer and at most one descriptor. *)
Definition imsg_read (r : reader) (s : stream) (n : Z) : option (reader * stream) :=
  let p := firstn (Z.to_nat n) s in
  if (0 <? n) && (n <=? zlen s) && (n <=? IBUF_READ_SIZE - zlen (r_buf r)) && (zlen (passed p) <=? 1) then
    Some (mkReader (r_buf r ++ map fst p) (r_fds r ++ passed p), skipn (Z.to_nat n) s)
  else None.
(** A message, struct imsg, imsg.h 73-77: type, peerid, pid, fd (-1: none), data. *)
Record imsg := mkImsg { i_type : Z; i_peerid : Z; i_pid : Z; i_fd : Z; i_data : list Z }.
(** imsg_get, imsg.c 159-197. *)
Inductive got := GotNone | GotBad | Got (m : imsg).
(** imsg_get with imsg_get_fd, imsg.c 159-197, 303-317. *)
Definition imsg_get (r : reader) : reader * got :=
  let b := r_buf r in
  if IMSG_HEADER_SIZE >? zlen b then (r, GotNone)
  else
    let len := dle16 (slice b 4 2) in
    let flags := dle16 (slice b 6 2) in
    if (len <? IMSG_HEADER_SIZE) || (len >? MAX_IMSGSIZE) then (r, GotBad)
    else if len >? zlen b then (r, GotNone)
    else
      let '(fd, fds) := if has flags 1 then match r_fds r with [] => (-1, []) | f :: fs => (f, fs) end
                        else (-1, r_fds r) in
      (mkReader (skipn (Z.to_nat len) b) fds,
       Got (mkImsg (dle32 (slice b 0 4)) (dle32 (slice b 8 4)) (dle32 (slice b 12 4)) fd
              (slice b 16 (len - IMSG_HEADER_SIZE)))).

(** A sender, the socket and a receiver (no counterpart in the C code); what happens
    in which order and how
    much sendmsg and recvmsg take is arbitrary. *)
Inductive op :=
| Compose (type peerid pid fd : Z) (data : list Z)
| Write (n : Z)
| Read (n : Z)
| Get.
(** The queue of the sender, the socket, the receiver, what was composed and what was
    got. Helper without a counterpart in the C code. *)
Record system := mkSys {
  y_queue : list ibuf; y_stream : stream; y_reader : reader;
  y_taken : list imsg;      (* accepted by imsg_compose *)
  y_out : list got          (* returned by imsg_get *)
}.
(** Nothing sent yet: imsg_init, imsg.c 70-79. *)
Definition sys0 : system := mkSys [] [] (mkReader [] []) [] [].
(** One call of the library. Helper without a counterpart in the C code. *)
Definition sys_step (own : Z) (y : system) (o : op) : system :=
  let '(mkSys q s r t out) := y in
  match o with
  | Compose type peerid pid fd data =>
      match imsg_compose own type peerid pid fd data (zlen data) with
      | Some b => mkSys (q ++ [b]) s r (t ++ [mkImsg type peerid (if pid =? 0 then own else pid) fd data]) out
      | None => y
      end
  | Write n => match msgbuf_write q n with Some (q', s') => mkSys q' (s ++ s') r t out | None => y end
  | Read n => match imsg_read r s n with Some (r', s') => mkSys q s' r' t out | None => y end
  | Get => let '(r', g) := imsg_get r in mkSys q s r' t (out ++ [g])
  end.
(** A history of calls. Helper without a counterpart in the C code. *)
Definition sys_run (own : Z) (ops : list op) : system := fold_left (sys_step own) ops sys0.
