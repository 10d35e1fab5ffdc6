(** The unprivileged process, /repo/src/child.c: neighbour table and client
    sessions, one function per event handler. *)
From Verif Require Import Base Types Tlv Checks Msg Protos Wire Util.

(** struct child_session, /repo/src/child.h 32-35: the entry it waits on is the
    identity of the allocation pointed to. *)
Record session := mkSess { ss_id : Z; ss_msg : option Z }.

(** The globals netifs and mqueue (child.c 44-46), the sessions known to the
    event library, and the next allocation identity. *)
Record child := mkChild {
  c_nfs : list netif;
  c_queue : list entry;
  c_sess : list session;
  c_next : Z
}.
(** Another list of interfaces. Helper without a counterpart in the C code. *)
Definition set_nfs (c : child) (nfs : list netif) : child :=
  mkChild nfs (c_queue c) (c_sess c) (c_next c).

(** Effects: an interface description requested from the parent (util.c 431-439)
    and the bytes of a table entry written to a client (child.c 510). *)
Inductive ceff :=
| CDescr (index : Z) (text : list Z)
| CSent (sid : Z) (bytes : list Z).

(** The first PARENT_MSG_MAX bytes of a table entry, as written to a client
    (child.c 510); padding is zero. *)
Definition entry_bytes (e : entry) : list Z :=
  le 4 (q_index e) ++ firstn 16 (q_name e ++ zeros 16) ++ [q_proto e; 0; 0; 0]
    ++ le 8 (q_received e) ++ le 8 (q_len e) ++ q_msg e.

(** The parent interface, or the interface itself (child.c 339-343, 443-447). *)
Definition top_of (nfs : list netif) (n : netif) : netif :=
  match nf_parent n with
  | Some p => match netif_byindex nfs p with Some m => m | None => n end
  | None => n
  end.

(** "netif_descr(subif, &mqueue)" and its request, child.c 393-394, 458, util.c
    374-440. *)
Definition descr_eff (opts : Z) (n : netif) (q : list entry) : list ceff :=
  match netif_descr opts n q with
  | Some t => [CDescr (nf_index n) t]
  | None => []
  end.

(** An entry stays, child.c 422-425: its time is not over, or it is locked. *)
Definition keeps (now : Z) (e : entry) : bool :=
  (now <=? q_received e + q_ttl e) || negb (q_lock e =? 0).
(** The removal loop, child.c 421-439, marking the interfaces. *)
Fixpoint expire_loop (now : Z) (q : list entry) (nfs : list netif) : list entry * list netif :=
  match q with
  | [] => ([], nfs)
  | e :: q' =>
      if keeps now e then
        let '(r, nfs') := expire_loop now q' nfs in (e :: r, nfs')
      else expire_loop now q' (nf_assign (set_update 1) (q_index e) nfs)
  end.
(** The update loop, child.c 442-461; the list elements are visited by index. *)
Definition update_one (opts : Z) (q : list entry) (st : list netif * list ceff) (i : Z)
  : list netif * list ceff :=
  let '(nfs, eff) := st in
  match netif_byindex nfs i with
  | None => st
  | Some sub =>
      if nf_update sub =? 0 then st
      else
        let top := top_of nfs sub in
        let nfs1 := if has opts OPT_AUTO
                    then nf_assign (set_protos (netif_protos top nfs q)) (nf_index top) nfs
                    else nfs in
        let eff1 := if has opts OPT_IFDESCR then descr_eff opts sub q else [] in
        (nf_assign (set_update 0) i nfs1, eff ++ eff1)
  end.
(** The whole loop. *)
Definition update_loop (opts : Z) (q : list entry) (nfs : list netif) : list netif * list ceff :=
  fold_left (update_one opts q) (map nf_index nfs) (nfs, []).

(** child_expire, child.c 411-462; [now] is time(2), -1 on failure. *)
Definition child_expire (opts now : Z) (c : child) : child * list ceff :=
  if now =? -1 then (c, [])
  else
    let '(q, nfs) := expire_loop now (c_queue c) (c_nfs c) in
    let '(nfs', eff) := update_loop opts q nfs in
    (mkChild nfs' q (c_sess c) (c_next c), eff).

(** The search loop of child_queue, child.c 345-362: the matching entry and the
    last entry of the same peer before it. *)
Fixpoint queue_find (index proto : Z) (hdr : list Z) (q : list entry) (peer : option Z)
  : option Z * option Z :=
  match q with
  | [] => (None, peer)
  | e :: q' =>
      if negb (index =? q_index e) then queue_find index proto hdr q' peer
      else
        let peer := if beq (slice hdr 6 6) (q_src e) then Some (q_id e) else peer in
        if negb (proto =? q_proto e) then queue_find index proto hdr q' peer
        else if negb (beq hdr (slice (q_msg e) 0 12)) then queue_find index proto hdr q' peer
        else (Some (q_id e), peer)
  end.
(** memcpy over an existing entry (the allocation keeps its identity, the lock
    is overwritten), child.c 367-368; TAILQ_INSERT_AFTER and _TAIL, 375-378. *)
Definition with_id (i : Z) (e : entry) : entry :=
  mkEnt i (q_index e) (q_name e) (q_proto e) (q_received e) (q_len e) (q_msg e)
    (q_ttl e) (q_peer e) (q_lock e).
(** memcpy over the entry, child.c 366-368. *)
Definition queue_replace (i : Z) (new : entry) (q : list entry) : list entry :=
  map (fun e => if q_id e =? i then with_id i new else e) q.
(** TAILQ_INSERT_AFTER, child.c 376. *)
Fixpoint insert_after (i : Z) (new : entry) (q : list entry) : list entry :=
  match q with
  | [] => []
  | e :: q' => if q_id e =? i then e :: new :: q' else e :: insert_after i new q'
  end.
(** The table with a received message in it, child.c 345-384. *)
Definition queue_put (new : entry) (q : list entry) (fresh : Z) : list entry * Z :=
  match queue_find (q_index new) (q_proto new) (slice (q_msg new) 0 12) q None with
  | (Some i, _) => (queue_replace i new q, fresh)
  | (None, Some i) => (insert_after i (with_id fresh new) q, fresh + 1)
  | (None, None) => (q ++ [with_id fresh new], fresh + 1)
  end.

(** child_queue, child.c 298-409.  [dgram] is the datagram read, [now] and
    [now2] are the two results of time(2) (the second one in child_expire). *)
Definition child_queue (opts : Z) (c : child) (dgram : list Z) (now now2 : Z)
  : dres (child * list ceff) :=
  let len := Z.min (zlen dgram) PARENT_MSG_MAX in
  let m := msg_mem dgram in
  if negb (msg_size_ok len m) then DOk (c, [])
  else if now =? -1 then DOk (c, [])
  else if negb (pm_proto m <? PROTO_MAX) then DAbort
  else if negb (pm_len m <=? ETHER_MAX_LEN) then DAbort
  else match netif_byindex (c_nfs c) (pm_index m) with
  | None => DOk (c, [])
  | Some sub =>
      match netif_byaddr (c_nfs c) (slice (pm_msg m) 6 6) with
      | Some _ => DOk (c, [])
      | None =>
          let ctx := mkCtx (pm_msg m) (pm_len m) DECODE_STR (nf_name sub) (pm_received m) now in
          match proto_decode (pm_proto m) ctx (mkDst no_peers 0 (pm_proto m) []) with
          | DFail => DOk (c, [])
          | DAbort => DAbort
          | DUB => DUB
          | DLoop => DLoop
          | DOk (n, s) =>
              if n =? 0 then DOk (c, [])
              else
                let received := if s_ttl s =? 0 then pm_received m else now in
                let new := mkEnt 0 (pm_index m) (nf_name sub) (s_proto s) received (pm_len m)
                             (pm_msg m) (s_ttl s) (s_peer s) 0 in
                let '(q, fresh) := queue_put new (c_queue c) (c_next c) in
                let c1 := mkChild (c_nfs c) q (c_sess c) fresh in
                if s_ttl s =? 0 then DOk (child_expire opts now2 c1)
                else
                  let eff := if has opts OPT_IFDESCR then descr_eff opts sub q else [] in
                  let top := top_of (c_nfs c) sub in
                  if negb (has opts OPT_AUTO) || has (nf_protos top) (Z.shiftl 1 (s_proto s))
                  then DOk (c1, eff)
                  else if has opts OPT_ARGV && (nf_argv sub =? 0) && (nf_argv top =? 0)
                  then DOk (c1, eff)
                  else
                    DOk (set_nfs c1
                      (nf_assign (set_protos (Z.lor (nf_protos top) (Z.shiftl 1 (s_proto s)) mod 256))
                         (nf_index top) (c_nfs c)), eff)
          end
      end
  end.

(** child_cli_accept, child.c 475-494: a new session not yet reading anything. *)
Definition child_cli_accept (c : child) (sid : Z) : child :=
  mkChild (c_nfs c) (c_queue c) (c_sess c ++ [mkSess sid None]) (c_next c).

(** Outcome of one write(2) to a client: done, would block, failed. *)
Inductive wres := WOk | WAgain | WErr.
(** msg->lock++ and msg->lock-- on a uint8_t, child.c 507, 521. *)
Definition add_lock (i d : Z) (q : list entry) : list entry :=
  map (fun e => if q_id e =? i
                then mkEnt (q_id e) (q_index e) (q_name e) (q_proto e) (q_received e) (q_len e)
                       (q_msg e) (q_ttl e) (q_peer e) ((q_lock e + d) mod 256)
                else e) q.
(** TAILQ_NEXT from an entry on, child.c 510.  The entries from the one pointed to
    on; [None] if it is not in the table
    (it was freed). *)
Fixpoint queue_from (i : Z) (q : list entry) : option (list entry) :=
  match q with
  | [] => None
  | e :: q' => if q_id e =? i then Some q else queue_from i q'
  end.
(** The write loop, child.c 509-524: what was sent, and the entry to wait on
    ([None]: the session ends).  [ws] are the results of the writes; when it is
    used up the writes succeed. *)
Fixpoint write_loop (sid : Z) (q : list entry) (ws : list wres) : list ceff * option Z :=
  match q with
  | [] => ([], None)
  | e :: q' =>
      match ws with
      | WAgain :: _ => ([], Some (q_id e))
      | WErr :: _ => ([], None)
      | _ => let '(eff, r) := write_loop sid q' (tl ws) in (CSent sid (entry_bytes e) :: eff, r)
      end
  end.
(** The session is freed, child.c 526-529. *)
Definition drop_sess (sid : Z) (l : list session) : list session :=
  filter (fun s => negb (ss_id s =? sid)) l.
(** The session waits at an entry, child.c 518-523. *)
Definition wait_sess (sid i : Z) (l : list session) : list session :=
  map (fun s => if ss_id s =? sid then mkSess sid (Some i) else s) l.
(** child_cli_write, child.c 496-530.  [timeout]: called with EV_TIMEOUT. *)
Definition child_cli_write (c : child) (sid : Z) (timeout : bool) (ws : list wres)
  : dres (child * list ceff) :=
  match find (fun s => ss_id s =? sid) (c_sess c) with
  | None => DOk (c, [])
  | Some s =>
      if timeout then DOk (mkChild (c_nfs c) (c_queue c) (drop_sess sid (c_sess c)) (c_next c), [])
      else
        let start :=
          match ss_msg s with
          | None => DOk (c_queue c, c_queue c)
          | Some i =>
              let q1 := add_lock i (-1) (c_queue c) in
              match queue_from i q1 with
              | None => DUB
              | Some l => DOk (q1, l)
              end
          end in
        let* (q1, l) := start in
        let '(eff, r) := write_loop sid l ws in
        match r with
        | Some i => DOk (mkChild (c_nfs c) (add_lock i 1 q1) (wait_sess sid i (c_sess c)) (c_next c), eff)
        | None => DOk (mkChild (c_nfs c) q1 (drop_sess sid (c_sess c)) (c_next c), eff)
        end
  end.

(** Events: a datagram from the parent, the expiry run of the periodic
    child_send (child.c 286-291), the interface table refetched (child_send,
    190; its content is arbitrary here), a client connecting (with a session
    not in use), a client socket ready for writing, a client socket timing
    out. *)
Inductive cevent :=
| CRecv (dgram : list Z) (now now2 : Z)
| CTick (now : Z)
| CFetch (nfs : list netif)
| CAccept (sid : Z)
| CReady (sid : Z) (ws : list wres)
| CTimeout (sid : Z).
(** One event of the loop, child.c 124-157. *)
Definition child_step (opts : Z) (c : child) (e : cevent) : dres (child * list ceff) :=
  match e with
  | CRecv d now now2 => child_queue opts c d now now2
  | CTick now => DOk (child_expire opts now c)
  | CFetch nfs => DOk (set_nfs c nfs, [])
  | CAccept sid =>
      if existsb (fun s => ss_id s =? sid) (c_sess c) then DOk (c, [])
      else DOk (child_cli_accept c sid, [])
  | CReady sid ws => child_cli_write c sid false ws
  | CTimeout sid => child_cli_write c sid true []
  end.
(** The state after "TAILQ_INIT(&netifs); TAILQ_INIT(&mqueue)", child.c 67-68. *)
Definition child_start : child := mkChild [] [] [] 0.
(** A history from a state, event_dispatch at child.c 157: final state and all
    effects in order. *)
Fixpoint child_run (opts : Z) (c : child) (es : list cevent) : dres (child * list ceff) :=
  match es with
  | [] => DOk (c, [])
  | e :: es' =>
      let* (c1, eff1) := child_step opts c e in
      let* (c2, eff2) := child_run opts c1 es' in
      DOk (c2, eff1 ++ eff2)
  end.
