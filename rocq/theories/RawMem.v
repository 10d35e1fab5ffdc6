(** The raw sockets of the privileged process with their memory and their events,
    /repo/src/parent.c 192-407 and 769-821. *)
From Verif Require Import Base Types Tlv Checks Wire Parent.

(** The blocks allocated for sockets that were not freed, with their content; the list
    rawfds (parent.c 72, a TAILQ, see C111); the events registered with libevent for
    parent_recv, each with its descriptor and its argument (parent.c 382-384); and the
    number of the next block, so that no number is used twice. *)
Record rst := mkRst {
  rs_mem : list (Z * rawfd);
  rs_list : list Z;
  rs_events : list (Z * Z);
  rs_next : Z
}.
(** The start, TAILQ_INIT at parent.c 92. *)
Definition raw_start : rst := mkRst [] [] [] 0.
(** Reading a block through a pointer; [DUB] if it is not allocated.  Helper without a
    counterpart in the C code. *)
Definition deref (st : rst) (p : Z) : dres rawfd :=
  match find (fun x => fst x =? p) (rs_mem st) with Some x => DOk (snd x) | None => DUB end.
(** my_malloc at parent.c 362: a block of zeroes. *)
Definition raw_malloc (st : rst) : Z * rst :=
  (rs_next st, mkRst (rs_mem st ++ [(rs_next st, mkRaw 0 [] 0 false)]) (rs_list st) (rs_events st) (rs_next st + 1)).
(** Writing a block through a pointer, parent.c 364-367. *)
Definition raw_put (p : Z) (r : rawfd) (st : rst) : dres rst :=
  let* _ := deref st p in
  DOk (mkRst (map (fun x => if fst x =? p then (p, r) else x) (rs_mem st)) (rs_list st) (rs_events st) (rs_next st)).
(** free(3), parent.c 370 and 404. *)
Definition raw_free (p : Z) (st : rst) : dres rst :=
  let* _ := deref st p in
  DOk (mkRst (filter (fun x => negb (fst x =? p)) (rs_mem st)) (rs_list st) (rs_events st) (rs_next st)).
(** Touching all blocks of a list, as TAILQ_INSERT_TAIL and TAILQ_REMOVE do with the
    neighbours of an element (here: with all elements, which is more).  Helper, as above. *)
Fixpoint touch (st : rst) (l : list Z) : dres unit :=
  match l with
  | [] => DOk tt
  | p :: l' => let* _ := deref st p in touch st l'
  end.
(** TAILQ_INSERT_TAIL, parent.c 374. *)
Definition raw_insert (p : Z) (st : rst) : dres rst :=
  let* _ := touch st (rs_list st ++ [p]) in
  DOk (mkRst (rs_mem st) (rs_list st ++ [p]) (rs_events st) (rs_next st)).
(** TAILQ_REMOVE, parent.c 401: undefined for an element that is not in the list. *)
Definition raw_remove (p : Z) (st : rst) : dres rst :=
  if existsb (Z.eqb p) (rs_list st) then
    let* _ := touch st (rs_list st) in
    DOk (mkRst (rs_mem st) (filter (fun x => negb (x =? p)) (rs_list st)) (rs_events st) (rs_next st))
  else DUB.
(** event_set and event_add, parent.c 382-384: adding an event that is registered already
    is undefined (event_set overwrites it). *)
Definition event_add (fd p : Z) (st : rst) : dres rst :=
  if existsb (fun x => snd x =? p) (rs_events st) then DUB
  else DOk (mkRst (rs_mem st) (rs_list st) (rs_events st ++ [(fd, p)]) (rs_next st)).
(** event_del, parent.c 397: undefined for an event never set. *)
Definition event_del (p : Z) (st : rst) : dres rst :=
  if existsb (fun x => snd x =? p) (rs_events st) then
    DOk (mkRst (rs_mem st) (rs_list st) (filter (fun x => negb (snd x =? p)) (rs_events st)) (rs_next st))
  else DUB.

(** rfd_byindex, parent.h 67-76. *)
Fixpoint raw_walk (st : rst) (l : list Z) (index : Z) : dres (option Z) :=
  match l with
  | [] => DOk None
  | p :: l' => let* r := deref st p in if rf_index r =? index then DOk (Some p) else raw_walk st l' index
  end.
(** As above, from the head of the list. *)
Definition raw_byindex (st : rst) (index : Z) : dres (option Z) := raw_walk st (rs_list st) index.

(** parent_open, parent.c 357-388; the outcome of parent_socket (627-705) is that of
    Parent.v.  [None]: my_fatal; the boolean is "returned 0". *)
Definition raw_open (cfg : pcfg) (st : rst) (index : Z) (name : list Z) (os : pos)
  : dres (option (rst * list peff * bool)) :=
  let '(p, st) := raw_malloc st in
  let* st := raw_put p (mkRaw index (firstn 15 name) 0 false) st in
  match os_sock os with
  | SockFatal => DOk None
  | SockFail => let* st := raw_free p st in DOk (Some (st, [], false))
  | SockFd fd =>
      let pcap := negb (has (pc_opts cfg) OPT_DEBUG) in
      let* st := raw_put p (mkRaw index (firstn 15 name) fd pcap) st in
      if fd <? 0 then let* st := raw_free p st in DOk (Some (st, [], false))
      else
        let* st := raw_insert p st in
        if negb (has (pc_opts cfg) OPT_RECV) || has (pc_opts cfg) OPT_DEBUG then
          DOk (Some (st, [EOpen index name], true))
        else
          let* r := deref st p in
          let multi := parent_multi cfg (rf_index r) 1 in
          let* st := event_add (rf_fd r) p st in
          DOk (Some (st, EOpen index name :: multi, true))
  end.

(** parent_close, parent.c 390-407. *)
Definition raw_close (cfg : pcfg) (st : rst) (p : Z) : dres (rst * list peff) :=
  let* r := deref st p in
  let* x := (if has (pc_opts cfg) OPT_RECV && negb (has (pc_opts cfg) OPT_DEBUG) then
               let* st := event_del p st in DOk (st, parent_multi cfg (rf_index r) 0)
             else DOk (st, [])) in
  let* st := raw_remove p (fst x) in
  let* _ := deref st p in
  let* st := raw_free p st in
  DOk (st, snd x ++ [EClose (rf_index r)]).

(** parent_send, parent.c 309-354. *)
Definition raw_send (cfg : pcfg) (st : rst) (dgram : list Z) (os : pos) : dres (rst * list peff * bool) :=
  let len := Z.min (zlen dgram) PARENT_MSG_MAX in
  let m := msg_mem dgram in
  if negb (msg_size_ok len m) then DOk (st, [], true)
  else match os_name os with
  | None => DOk (st, [], true)
  | Some name =>
      if negb (60 <=? pm_len m) then DOk (st, [], false)
      else if negb (pm_proto m <? PROTO_MAX) then DOk (st, [], false)
      else match proto_check (pm_proto m) (pm_msg m) (pm_len m) with
      | DOk (Some _) =>
          let data := firstn (Z.to_nat (pm_len m)) (pm_msg m) in
          if has (pc_opts cfg) OPT_DEBUG then DOk (st, [EDump (pm_index m) data], true)
          else
            let* found := raw_byindex st (pm_index m) in
            let* opened := match found with
                           | Some _ => DOk (Some (st, [], true))
                           | None => raw_open cfg st (pm_index m) name os
                           end in
            match opened with
            | None => DOk (st, [], false)
            | Some (st1, eff1, false) => DOk (st1, eff1, true)
            | Some (st1, eff1, true) =>
                let* found := raw_byindex st1 (pm_index m) in
                match found with
                | None => DOk (st1, eff1, false)
                | Some p =>
                    let* r := deref st1 p in
                    let eff2 := eff1 ++ [EFrame (rf_index r) (rf_fd r) data] in
                    if (os_rawlen os =? -1) && os_gone os then
                      let* (st3, eff3) := raw_close cfg st1 p in DOk (st3, eff2 ++ eff3, true)
                    else DOk (st1, eff2, true)
                end
            end
      | _ => DOk (st, [], false)
      end
  end.

(** parent_req, parent.c 192-261. *)
Definition raw_req (cfg : pcfg) (st : rst) (dgram : list Z) (os : pos) : dres (rst * list peff * bool) :=
  let len := Z.min (zlen dgram) PARENT_REQ_MAX in
  let m := req_mem dgram in
  let op := pr_op m in
  let index := pr_index m in
  let reply st eff len buf :=
    DOk (st, eff ++ [EReply op index len (firstn (Z.to_nat len) buf)], os_reply os) in
  if negb (req_size_ok len m) then DOk (st, [], false)
  else match os_name os with
  | None => reply st [] 0 (pr_buf m)
  | Some name =>
      match parent_check cfg op (pr_len m) with
      | Some true =>
          if op =? PARENT_OPEN then
            let* found := raw_byindex st index in
            match found with
            | Some _ => reply st [] (pr_len m) (pr_buf m)
            | None =>
                let* opened := raw_open cfg st index name os in
                match opened with
                | None => DOk (st, [], false)
                | Some (st1, eff, _) => reply st1 eff (pr_len m) (pr_buf m)
                end
            end
          else if op =? PARENT_CLOSE then
            let* found := raw_byindex st index in
            match found with
            | None => reply st [] (pr_len m) (pr_buf m)
            | Some p => let* (st1, eff) := raw_close cfg st p in reply st1 eff (pr_len m) (pr_buf m)
            end
          else
            let '(n, buf, eff) := req_answer cfg op name (pr_buf m) os in reply st eff n buf
      | _ => DOk (st, [], false)
      end
  end.

(** parent_recv with the argument it was registered with, parent.c 769-821: the messages
    for the child.  The assertion at 781 ends the process, as does a write that fails
    (816-817, [ok] is false). *)
Definition raw_recv (st : rst) (p : Z) (captured : list (list Z)) (ok : bool) : dres (rst * list (list Z) * bool) :=
  let* r := deref st p in
  if negb (rf_pcap r) then DOk (st, [], false)
  else let msgs := parent_recv (rf_index r) captured in
       DOk (st, msgs, ok || match msgs with [] => true | _ => false end).

(** What the loop serves (event_dispatch, parent.c 152): a datagram of the child, or the
    [k]-th registered event with the packets pcap_next has for it. *)
Inductive revent :=
| RChild (e : pevent)
| RPackets (k : nat) (captured : list (list Z)) (ok : bool).
(** One of them, parent.c 129-134 and 382-384: new state, effects, messages for the child,
    and whether the process goes on.  There is no [k]-th event if fewer are registered. *)
Definition raw_step (cfg : pcfg) (st : rst) (e : revent) : dres (rst * list peff * list (list Z) * bool) :=
  match e with
  | RChild (PReq d os) => let* x := raw_req cfg st d os in DOk (fst (fst x), snd (fst x), [], snd x)
  | RChild (PSend d os) => let* x := raw_send cfg st d os in DOk (fst (fst x), snd (fst x), [], snd x)
  | RPackets k captured ok =>
      match nth_error (rs_events st) k with
      | None => DOk (st, [], [], true)
      | Some x => let* y := raw_recv st (snd x) captured ok in DOk (fst (fst y), [], snd (fst y), snd y)
      end
  end.
(** A history, event_dispatch at parent.c 152, until the process ends. *)
Fixpoint raw_run (cfg : pcfg) (st : rst) (es : list revent) : dres (rst * list peff * list (list Z) * bool) :=
  match es with
  | [] => DOk (st, [], [], true)
  | e :: es' =>
      let* (st1, eff1, msgs1, alive) := raw_step cfg st e in
      if alive then
        let* (st2, eff2, msgs2, alive2) := raw_run cfg st1 es' in
        DOk (st2, eff1 ++ eff2, msgs1 ++ msgs2, alive2)
      else DOk (st1, eff1, msgs1, false)
  end.
(** rfd_closeall, parent.h 78-85: TAILQ_FOREACH_SAFE reads the successor before
    parent_close, which takes out no other element. *)
Fixpoint raw_closeall (cfg : pcfg) (st : rst) (l : list Z) : dres (rst * list peff) :=
  match l with
  | [] => DOk (st, [])
  | p :: l' =>
      let* _ := deref st p in
      let* (st1, eff1) := raw_close cfg st p in
      let* (st2, eff2) := raw_closeall cfg st1 l' in
      DOk (st2, eff1 ++ eff2)
  end.
(** The sockets given back at the end, parent.c 179. *)
Definition raw_quit (cfg : pcfg) (st : rst) : dres (rst * list peff) := raw_closeall cfg st (rs_list st).
