(** The message being decoded (struct parent_msg, /repo/src/common.h 279-295)
    as seen by the protocol decoders. *)
From Verif Require Import Base Tlv.

(** Read-only part: the 1518-byte buffer [msg], the frame length, the decode
    mode, the interface name, the receive time and the clock used for the
    printed hold time. *)
Record dctx := mkCtx {
  d_buf : list Z;
  d_len : Z;
  d_mode : Z;
  d_name : list Z;
  d_received : Z;
  d_now : Z
}.

(** Part written by the decoders (common.h 287-293): peer[], ttl, proto, and what is
    printed on
    stdout (one byte list per printf). *)
Record dst := mkDst {
  s_peer : peers;
  s_ttl : Z;
  s_proto : Z;
  s_out : list (list Z)
}.

(** Assignments to the fields peer, ttl and proto, common.h 279-295. *)
Definition set_peer (s : dst) (p : peers) : dst :=
  mkDst p (s_ttl s) (s_proto s) (s_out s).
(** As above. *)
Definition set_ttl (s : dst) (t : Z) : dst :=
  mkDst (s_peer s) t (s_proto s) (s_out s).
(** As above. *)
Definition set_proto (s : dst) (p : Z) : dst :=
  mkDst (s_peer s) (s_ttl s) p (s_out s).
(** printf(3). *)
Definition print (s : dst) (l : list Z) : dst :=
  mkDst (s_peer s) (s_ttl s) (s_proto s) (s_out s ++ [l]).
(** PEER_STR on a slot of the message (common.h 266). *)
Definition peer_str (s : dst) (i : Z) (v : list Z) : dst :=
  set_peer s (PEER_STR (s_peer s) i v).

(** "length -= VOIDP_DIFF(pos, packet)" on a size_t, tlv.h 37, cdp.c 126 and others. *)
Definition szsub (a b : Z) : Z := (a - b) mod 18446744073709551616.

(** "if print printf(...) else PEER_STR(...)", the pattern used by the TLV
    handlers (e.g. /repo/src/proto/cdp.c 489-495). *)
Definition show_or_store (c : dctx) (s : dst) (line : list Z) (slot : Z) (v : list Z) : dst :=
  if d_mode c =? DECODE_PRINT then print s line else peer_str s slot v.

(** holdtime = ttl - (now - received) stored in a uint16_t
    (/repo/src/proto/cdp.c 473, lldp.c 751). *)
Definition holdtime (c : dctx) (s : dst) : Z :=
  (s_ttl s - (d_now c - d_received c)) mod 65536.

(** Splitting at newlines with strsep(3), /repo/src/proto/cdp.c 540,
    lldp.c 733: always at least one token. *)
Fixpoint strsep_nl (l : list Z) (cur : list Z) : list (list Z) :=
  match l with
  | [] => [rev cur]
  | b :: l' => if b =? 10 then rev cur :: strsep_nl l' [] else strsep_nl l' (b :: cur)
  end.
(** The common body of cdp_descr_print (cdp.c 537-544) and lldp_descr_print
    (lldp.c 730-737). *)
Definition descr_print (s : dst) (label v : list Z) : dst :=
  if existsb (fun b => b =? 10) v
  then fold_left (fun s t => print s (bs "  " ++ t ++ [10])) (strsep_nl v [])
         (print s (label ++ bs ":" ++ [10]))
  else print s (label ++ bs ": " ++ v ++ [10]).
