(** Link events, child_link of /repo/src/child.c 592-637: the netlink messages
    of libmnl (Linux) and the routing socket (BSD). *)
From Verif Require Import Base Types Tlv Util Child Netif Imsg Send Bsd.

(** mnl_socket_recvfrom(nl, buf, sizeof(buf)), child.c 599, with the datagram [d]
    next in the socket: the buffer and the size; [None] is a result <= 0 (an empty
    datagram, or ENOSPC for one that does not fit, which is gone then). *)
Definition nl_recv (buf d : list Z) : option (list Z * Z) :=
  if (0 <? zlen d) && (zlen d <=? zlen buf) then Some (d ++ skipn (length d) buf, zlen d) else None.

(** What child_link_cb (child.c 574-590) reads of a message: ifi_type, ifi_flags
    and ifi_index of the struct ifinfomsg at [p]. *)
Definition nl_ifinfo (buf : list Z) (p : Z) : dres (Z * Z * Z) :=
  let* b := rdn buf p 16 in
  DOk (dle16 (slice b 2 2), dle32 (slice b 8 4), dle32 (slice b 4 4)).

(** mnl_cb_run(buf, ret, 0, 0, child_link_cb, msgfd), child.c 600, as documented for
    libmnl: the messages the callback is called for (it always returns
    MNL_CB_OK, child.c 589) and the result.  [p] is the current header, [len]
    what is left.  Control messages: NLMSG_ERROR gives -1, NLMSG_DONE stops with
    0, others are skipped. *)
Fixpoint nl_run (fuel : nat) (buf : list Z) (p len : Z) : dres (list (Z * Z * Z) * Z) :=
  match fuel with
  | O => DLoop
  | S fuel' =>
      if len <? 16 then DOk ([], 1)
      else
        let* h := rdn buf p 16 in
        let mlen := dle32 (slice h 0 4) in
        let mtype := dle16 (slice h 4 2) in
        let next := (mlen + 3) / 4 * 4 in
        if (mlen <? 16) || (len <? mlen) then DOk ([], 1)
        else if has (dle16 (slice h 6 2)) 16 then DOk ([], -1)
        else if mtype =? 2 then DOk ([], -1)
        else if mtype =? 3 then DOk ([], 0)
        else if mtype <? 16 then nl_run fuel' buf (p + next) (len - next)
        else
          let* m := nl_ifinfo buf (p + 16) in
          let* (ms, ret) := nl_run fuel' buf (p + next) (len - next) in
          DOk (m :: ms, ret)
  end.

(** The loop of child_link, child.c 599-603, with the datagrams [ds] in the socket:
    the calls of child_link_cb, and the datagrams still in the socket. *)
Fixpoint nl_loop (buf : list Z) (ds : list (list Z)) : dres (list (Z * Z * Z) * list (list Z)) :=
  match ds with
  | [] => DOk ([], [])
  | d :: ds' =>
      match nl_recv buf d with
      | None => DOk ([], ds')
      | Some (buf', n) =>
          let* (ms, ret) := nl_run (S (length d)) buf' 0 n in
          if ret <=? 0 then DOk (ms, ds')
          else
            let* (ms', rest) := nl_loop buf' ds' in
            DOk (ms ++ ms', rest)
      end
  end.

(** The calls of child_link_cb (child.c 574-590), one after the other; [world] tells
    the answers of the system and the time during each. *)
Fixpoint link_cbs (cfg : scfg) (world : nat -> nos * Z) (k : nat) (ms : list (Z * Z * Z)) (st : sstate)
  : sstate * list (list seff) :=
  match ms with
  | [] => (st, [])
  | (hatype, flags, index) :: ms' =>
      let '(st1, eff) := child_link cfg (fst (world k)) hatype flags index (snd (world k)) st in
      let '(st2, effs) := link_cbs cfg world (S k) ms' st1 in
      (st2, eff :: effs)
  end.
(** child_link, child.c 592-606: the new state, the effects of each callback and
    the datagrams left for the next event.  The buffer [buf] is uninitialised. *)
Definition link_event (cfg : scfg) (world : nat -> nos * Z) (buf : list Z) (ds : list (list Z)) (st : sstate)
  : dres (sstate * list (list seff) * list (list Z)) :=
  let* (ms, rest) := nl_loop buf ds in
  let '(st', effs) := link_cbs cfg world 0 ms st in
  DOk (st', effs, rest).

(** Sizes and offsets of struct rt_msghdr and struct if_msghdr (net/route.h and
    net/if.h of the system), for child.c 610-635. *)
Record rt_layout := mkLay {
  rl_rt : Z;      (* sizeof(struct rt_msghdr) *)
  rl_if : Z;      (* sizeof(struct if_msghdr) *)
  rl_version : Z; (* rtm_version, 1 byte *)
  rl_type : Z;    (* rtm_type, 1 byte *)
  rl_index : Z;   (* ifm_index, 2 bytes *)
  rl_flags : Z;   (* ifm_flags, 4 bytes *)
  rl_iftype : Z;  (* ifm_data.ifi_type, 1 byte *)
  rl_state : Z    (* ifm_data.ifi_link_state, 1 byte *)
}.
(** RTM_VERSION, RTM_IFINFO (net/route.h), used at child.c 619-620. *)
Definition RTM_VERSION := 5.
Definition RTM_IFINFO := 14. (* net/route.h, child.c 620 *)
(** LINK_STATE_UP (net/if.h), used at child.c 34. *)
Definition link_state_up (pf : platform) : Z := match pf with FreeBSD => 2 | OpenBSD => 4 end.
(** LINK_STATE_IS_UP, child.c 33-34; LINK_STATE_UNKNOWN is 0. *)
Definition link_state_is_up (pf : platform) (s : Z) : bool := (link_state_up pf <=? s) || (s =? 0).

(** child_link on BSD, child.c 610-635: the interface child_send is called for.
    [got] is what read(2) stored, [None] a failing call; its result -1 is
    compared as an unsigned number. *)
Definition bsd_link (pf : platform) (lay : rt_layout) (got : option (list Z)) : dres (option Z) :=
  let d := match got with Some d => firstn 2048 d | None => [] end in
  let len := match got with Some _ => zlen d | None => 18446744073709551615 end in
  let msg := d ++ repeat 0 (2048 - length d) in
  if len <? rl_rt lay then DOk None
  else
    let* version := rdn msg (rl_version lay) 1 in
    let* type := rdn msg (rl_type lay) 1 in
    if negb (nth 0 version 0 =? RTM_VERSION) || negb (nth 0 type 0 =? RTM_IFINFO) then DOk None
    else
      let* ifm := rdn msg 0 (rl_if lay) in
      let* iftype := rdn ifm (rl_iftype lay) 1 in
      if negb (nth 0 iftype 0 =? IFT_ETHER) then DOk None
      else
        let* flags := rdn ifm (rl_flags lay) 4 in
        if negb (Z.land (dle32 flags) 65 =? 65) then DOk None
        else
          let* state := rdn ifm (rl_state lay) 1 in
          if negb (link_state_is_up pf (nth 0 state 0)) then DOk None
          else
            let* index := rdn ifm (rl_index lay) 2 in
            DOk (Some (dle16 index)).
