(** Layout of the two structures passed between the processes, on x86-64
    (little endian, natural alignment). *)
From Verif Require Import Base Types Tlv.

(** Little endian numbers in memory; helper. *)
Fixpoint le (n : nat) (v : Z) : list Z :=
  match n with
  | O => []
  | S k => v mod 256 :: le k (v / 256)
  end.
(** The number with these bytes. Helper without a counterpart in the C code. *)
Fixpoint unle (l : list Z) : Z :=
  match l with
  | [] => 0
  | b :: l' => b + 256 * unle l'
  end.
(** A signed 64-bit field (ssize_t, time_t). *)
Definition sgn64 (v : Z) : Z := if v <? 9223372036854775808 then v else v - 18446744073709551616.
(** memset to zero. Helper without a counterpart in the C code. *)
Definition zeros (n : Z) : list Z := repeat 0 (Z.to_nat n).

(** struct parent_msg, /repo/src/common.h 279-295, up to [decode]: index at 0,
    name at 4, proto at 20, received at 24, len at 32, msg at 40. *)
Definition PARENT_MSG_MIN := 40.
Definition PARENT_MSG_MAX := 1558. (* common.h 300 *)
(** The structure after "= {}" and a read(2) of at most PARENT_MSG_MAX bytes of
    a datagram: the bytes read, then zeros (parent.c 310-315, child.c 299-307);
    a longer datagram is cut. *)
Definition msg_mem (dgram : list Z) : list Z :=
  firstn 1558 dgram ++ zeros (1558 - zlen dgram).
(** The fields index, name, proto, received, len and msg of struct parent_msg,
    common.h 280-286, at their offsets. *)
Definition pm_index (m : list Z) : Z := unle (slice m 0 4).
(** Field name. *)
Definition pm_name (m : list Z) : list Z := cstr (slice m 4 16).
(** Field proto. *)
Definition pm_proto (m : list Z) : Z := nth 20 m 0.
(** Field received. *)
Definition pm_received (m : list Z) : Z := sgn64 (unle (slice m 24 8)).
(** Field len. *)
Definition pm_len (m : list Z) : Z := sgn64 (unle (slice m 32 8)).
(** Field msg. *)
Definition pm_msg (m : list Z) : list Z := slice m 40 1518.
(** The structure as written to a socket with PARENT_MSG_LEN(len) bytes, name
    and received as given (child.c 222-276, parent.c 779-811); padding is
    zero. *)
Definition msg_bytes (index : Z) (name : list Z) (proto received len : Z) (data : list Z) : list Z :=
  le 4 index ++ firstn 16 (name ++ zeros 16) ++ [proto; 0; 0; 0] ++ le 8 received ++ le 8 len
    ++ firstn (Z.to_nat len) data.
(** "len < PARENT_MSG_MIN || len != PARENT_MSG_LEN(m.len)" is false: both sides
    are converted to size_t (common.h 299-302). *)
Definition msg_size_ok (len : Z) (m : list Z) : bool :=
  (PARENT_MSG_MIN <=? len) && (len =? (PARENT_MSG_MIN + pm_len m) mod 18446744073709551616).

(** struct parent_req, common.h 234-240: op at 0, index at 4, name at 8, len at
    24, buf at 32. *)
Definition PARENT_REQ_MIN := 32.
Definition PARENT_REQ_MAX := 544. (* common.h 251 *)
(** The structure after a read(2) of at most PARENT_REQ_MAX bytes: the bytes read,
    then zeros (parent.c 192-201). *)
Definition req_mem (dgram : list Z) : list Z :=
  firstn 544 dgram ++ zeros (544 - zlen dgram).
(** The fields op, index, len and buf of struct parent_req, common.h 234-240, at
    their offsets. *)
Definition pr_op (m : list Z) : Z := nth 0 m 0.
(** Field index. *)
Definition pr_index (m : list Z) : Z := unle (slice m 4 4).
(** Field len. *)
Definition pr_len (m : list Z) : Z := sgn64 (unle (slice m 24 8)).
(** Field buf. *)
Definition pr_buf (m : list Z) : list Z := slice m 32 512.
(** A request as written by my_mreq, util.c 284-299. *)
Definition req_bytes (op index : Z) (name : list Z) (len : Z) (buf : list Z) : list Z :=
  [op; 0; 0; 0] ++ le 4 index ++ firstn 16 (name ++ zeros 16) ++ le 8 len
    ++ firstn (Z.to_nat len) buf.
(** The size check at parent.c 201, util.c 290 and 295. *)
Definition req_size_ok (len : Z) (m : list Z) : bool :=
  (PARENT_REQ_MIN <=? len) && (len =? (PARENT_REQ_MIN + pr_len m) mod 18446744073709551616).

(** Operations, common.h 303-312. *)
Definition PARENT_OPEN := 0.
Definition PARENT_CLOSE := 1. (* common.h 304 *)
Definition PARENT_DESCR := 2. (* common.h 305 *)
Definition PARENT_ALIAS := 3. (* common.h 306 *)
Definition PARENT_DEVICE := 4. (* common.h 307 *)
Definition PARENT_DEVICE_ID := 5. (* common.h 308 *)
Definition PARENT_ETHTOOL_GSET := 6. (* common.h 309 *)
Definition PARENT_ETHTOOL_GDRV := 7. (* common.h 310 *)
Definition PARENT_TEAMNL := 8. (* common.h 311 *)
Definition PARENT_MAX := 9. (* common.h 312 *)
