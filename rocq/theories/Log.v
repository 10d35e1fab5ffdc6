(** What the child logs about neighbours without -v: the messages of priority CRIT of
    child_queue and child_expire in /repo/src/child.c, and __my_log and my_vlog of
    /repo/src/util.c.  Messages of other priorities are left out. *)
From Verif Require Import Base Types Tlv Checks Msg Protos Wire Util Child.

(** The three my_log(CRIT, ...): child.c 382-383, 429-430, 406-407, with their
    arguments. *)
Inductive lmsg :=
| LNew (host : list Z) (proto : Z) (ifname : list Z)
| LGone (host : list Z) (proto : Z)
| LOn (proto : Z) (ifname : list Z).

(** protos[].name, /repo/src/main.h 24-38. *)
Definition proto_name (p : Z) : list Z :=
  nth (Z.to_nat p) [bs "LLDP"; bs "CDP"; bs "EDP"; bs "FDP"; bs "NDP"; bs "CDP1"] [].
(** vfprintf(3) for formats with "%s" only, util.c 46; [None]: another conversion or
    too few arguments. *)
Fixpoint vfmt (fmt : list Z) (args : list (list Z)) : option (list Z) :=
  match fmt with
  | [] => Some []
  | 37 :: 115 :: fmt' =>
      match args with
      | a :: args' => let? r := vfmt fmt' args' in Some (a ++ r)
      | [] => None
      end
  | 37 :: _ => None
  | x :: fmt' => let? r := vfmt fmt' args in Some (x :: r)
  end.
(** Format and arguments, child.c 382-383, 429-430, 406-407. *)
Definition lmsg_call (m : lmsg) : list Z * list (list Z) :=
  match m with
  | LNew h p i => (bs "new peer %s (%s) on interface %s", [h; proto_name p; i])
  | LGone h p => (bs "removing peer %s (%s)", [h; proto_name p])
  | LOn p i => (bs "enabling %s on interface %s", [proto_name p; i])
  end.
(** __func__ of the caller, util.h 32-37. *)
Definition lmsg_func (m : lmsg) : list Z :=
  match m with LGone _ _ => bs "child_expire" | _ => bs "child_queue" end.
(** __my_log and my_vlog with "err" zero and without OPT_DAEMON, util.c 33-64: the
    bytes written to stderr; [level] is loglevel, CRIT is 0 and DEBUG is 3. *)
Definition my_log (level : Z) (m : lmsg) : option (list Z) :=
  if level <? 0 then Some []
  else
    let '(fmt, args) := lmsg_call m in
    let? t := vfmt fmt args in
    Some ((if level =? 3 then lmsg_func m ++ bs ": " else []) ++ t ++ [10]).
(** All of them, in order.  Helper without a counterpart in the C code. *)
Fixpoint log_bytes (level : Z) (l : list lmsg) : option (list Z) :=
  match l with
  | [] => Some []
  | m :: l' =>
      let? a := my_log level m in
      let? b := log_bytes level l' in
      Some (a ++ b)
  end.

(** msg->peer[PEER_HOSTNAME], child.c 380, 427. *)
Definition hostname (e : entry) : option (list Z) := nth (Z.to_nat PEER_HOSTNAME) (q_peer e) None.
(** child_expire, child.c 411-439: the loop with its log message. *)
Definition expire_log (now : Z) (q : list entry) : list lmsg :=
  if now =? -1 then []
  else flat_map (fun e => if keeps now e then []
                          else match hostname e with Some h => [LGone h (q_proto e)] | None => [] end) q.
(** child_queue, child.c 298-409, following [child_queue]. *)
Definition queue_log (opts : Z) (c : child) (dgram : list Z) (now now2 : Z) : list lmsg :=
  let m := msg_mem dgram in
  if negb (msg_size_ok (Z.min (zlen dgram) PARENT_MSG_MAX) m) then []
  else if now =? -1 then []
  else if negb (pm_proto m <? PROTO_MAX) then []
  else if negb (pm_len m <=? ETHER_MAX_LEN) then []
  else match netif_byindex (c_nfs c) (pm_index m) with
  | None => []
  | Some sub =>
      match netif_byaddr (c_nfs c) (slice (pm_msg m) 6 6) with
      | Some _ => []
      | None =>
          let ctx := mkCtx (pm_msg m) (pm_len m) DECODE_STR (nf_name sub) (pm_received m) now in
          match proto_decode (pm_proto m) ctx (mkDst no_peers 0 (pm_proto m) []) with
          | DOk (n, s) =>
              if n =? 0 then []
              else
                let received := if s_ttl s =? 0 then pm_received m else now in
                let new := mkEnt 0 (pm_index m) (nf_name sub) (s_proto s) received (pm_len m)
                             (pm_msg m) (s_ttl s) (s_peer s) 0 in
                let top := top_of (c_nfs c) sub in
                let l1 :=
                  match fst (queue_find (q_index new) (q_proto new) (slice (q_msg new) 0 12) (c_queue c) None) with
                  | Some _ => []
                  | None => match hostname new with Some h => [LNew h (q_proto new) (nf_name top)] | None => [] end
                  end in
                if s_ttl s =? 0 then l1 ++ expire_log now2 (fst (queue_put new (c_queue c) (c_next c)))
                else if negb (has opts OPT_AUTO) || has (nf_protos top) (Z.shiftl 1 (s_proto s)) then l1
                else if has opts OPT_ARGV && (nf_argv sub =? 0) && (nf_argv top =? 0) then l1
                else l1 ++ [LOn (s_proto s) (nf_name top)]
          | _ => []
          end
      end
  end.
(** The messages of one event of the loop, child.c 124-157. *)
Definition log_step (opts : Z) (c : child) (e : cevent) : list lmsg :=
  match e with
  | CRecv d now now2 => queue_log opts c d now now2
  | CTick now => expire_log now (c_queue c)
  | _ => []
  end.
(** The log of a history, event_dispatch at child.c 157. *)
Fixpoint log_run (opts : Z) (c : child) (es : list cevent) : list lmsg :=
  match es with
  | [] => []
  | e :: es' =>
      log_step opts c e ++ match child_step opts c e with DOk (c', _) => log_run opts c' es' | _ => [] end
  end.

(** loglevel, an int8_t (util.c 28), after [n] times "loglevel++" (main.c 145): the
    conversion to int8_t wraps around (implementation-defined; so with gcc and
    clang). *)
Definition loglevel (n : Z) : Z := (n + 128) mod 256 - 128.
