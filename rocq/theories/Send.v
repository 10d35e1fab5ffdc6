(** Advertisement runs, child_send of /repo/src/child.c, and the link events
    that trigger them. *)
From Verif Require Import Base Types Tlv Protos Wire Util Child Netif.

(** NETIF_INDEX_MAX, /repo/src/common.h 111. *)
Definition NETIF_INDEX_MAX := 4294967295.

(** The globals used: netifs, mqueue and sessions (child.c 44-46), sysinfo, and
    the sequence counter of edp_packet (/repo/src/proto/edp.c 38). *)
Record sstate := mkSt { st_child : child; st_si : sysinfo; st_edp : Z }.

(** What a run asks of the parent: to open or close a raw socket (my_mreq,
    child.c 231-237, netif.c 243-245), to transmit a frame (child.c 278), and the
    descriptions of child_expire. *)
Inductive seff :=
| SOpen (index : Z)
| SClose (index : Z)
| SFrame (index proto : Z) (frame : list Z)
| SChild (e : ceff).
(** The datagram written for a frame, child.c 227-229, 260-261, 278. *)
Definition frame_dgram (index proto : Z) (frame : list Z) : list Z :=
  msg_bytes index [] proto 0 (zlen frame) frame.

(** Configuration: that of netif_fetch, the excluded interfaces (-x), and
    protos[p].enabled (/repo/src/main.h 24-38). *)
Record scfg := mkScfg { sc_net : ncfg; sc_excl : list (list Z); sc_enabled : Z -> bool }.
(** options, main.c 84-191. *)
Definition sc_opts (cfg : scfg) : Z := nc_opts (sc_net cfg).

(** "skip special interfaces" and "skip excluded interfaces", child.c 190-200 and
    215-225. *)
Definition send_skip (cfg : scfg) (n : netif) : bool :=
  (nf_type n <? NETIF_REGULAR)
  || ((nf_type n =? NETIF_WIRELESS) && negb (has (sc_opts cfg) OPT_WIRELESS))
  || ((nf_type n =? NETIF_TAP) && negb (has (sc_opts cfg) OPT_TAP))
  || netif_excluded n (sc_excl cfg).

(** memset(msg.msg + ETHER_ADDR_LEN, 0, ETHER_ADDR_LEN), child.c 273. *)
Definition blank_src (f : list Z) : list Z := firstn 6 f ++ repeat 0 6 ++ skipn 12 f.

(** One protocol, child.c 249-281; a failing write(2) ends the process and is
    not modelled.  [top] is "netif", [sub] is "subif". *)
Definition send_proto (cfg : scfg) (nfs : list netif) (si : sysinfo) (top sub : netif)
  (st : Z * list seff) (p : Z) : Z * list seff :=
  let '(edp, eff) := st in
  if negb (sc_enabled cfg p) && negb (has (nf_protos top) (Z.shiftl 1 p)) then st
  else
    let deref o := match o with Some i => netif_byindex nfs i | None => None end in
    let edp' := if p =? PROTO_EDP then (edp + 1) mod 65536 else edp in
    match proto_build p (sc_opts cfg) edp sub (deref (nf_parent sub)) (deref (si_mnetif si)) nfs si with
    | None => (edp', eff)
    | Some f =>
        let f' := if (nf_bonding_mode top =? NETIF_BONDING_FAILOVER)
                     && negb (nf_child sub =? NETIF_CHILD_ACTIVE)
                  then blank_src f else f in
        (edp', eff ++ [SFrame (nf_index sub) p f'])
    end.

(** One interface, child.c 206-281: table, sequence counter, effects. *)
Definition send_sub (cfg : scfg) (os : nos) (si : sysinfo) (index top : Z)
  (st : list netif * Z * list seff) (i : Z) : list netif * Z * list seff :=
  let '(nfs, edp, eff) := st in
  if negb (index =? NETIF_INDEX_MAX) && negb (index =? i) then st
  else match netif_byindex nfs i with
  | None => st
  | Some sub0 =>
      let ev := if index =? NETIF_INDEX_MAX then 0 else (nf_link_event sub0 + 1) mod 256 in
      let nfs1 := nf_assign (set_link_event ev) i nfs in
      if send_skip cfg sub0 then (nfs1, edp, eff)
      else
        let eff1 := if has (sc_opts cfg) OPT_RECV && (nf_protos sub0 =? 0) then [SOpen i] else [] in
        let nfs2 := nf_assign (netif_media os) i nfs1 in
        if negb (has (sc_opts cfg) OPT_SEND) then (nfs2, edp, eff ++ eff1)
        else match netif_byindex nfs2 i, netif_byindex nfs2 top with
        | Some sub, Some t =>
            let '(edp', eff2) := fold_left (send_proto cfg nfs2 si t sub) [0; 1; 2; 3; 4; 5] (edp, []) in
            (nfs2, edp', eff ++ eff1 ++ eff2)
        | _, _ => (nfs2, edp, eff ++ eff1)
        end
  end.

(** One selected interface with its members, child.c 188-282. *)
Definition send_top (cfg : scfg) (os : nos) (si : sysinfo) (index : Z) (nfs0 : list netif)
  (st : list netif * Z * list seff) (n : netif) : list netif * Z * list seff :=
  if send_skip cfg n then st
  else fold_left (send_sub cfg os si index (nf_index n)) (map nf_index (subif_each n nfs0)) st.

(** The loops over the interfaces, child.c 188-283.  What is visited is
    determined beforehand: the loop changes link_event and the media fields only,
    which the iterators and the skip conditions do not read. *)
Definition send_loop (cfg : scfg) (os : nos) (index : Z) (nfs : list netif) (si : sysinfo) (edp : Z)
  : list netif * Z * list seff :=
  fold_left (send_top cfg os si index nfs) (netif_each (sc_opts cfg) nfs) (nfs, edp, []).

(** child_send, child.c 163-296, without rescheduling the event.  [index] is
    args->index, [timeout] "event == EV_TIMEOUT", [now] the time(2) of
    child_expire. *)
Definition child_send (cfg : scfg) (os : nos) (index : Z) (timeout : bool) (now : Z) (st : sstate)
  : sstate * list seff :=
  let c := st_child st in
  let flapping := negb (index =? NETIF_INDEX_MAX)
                  && match netif_byindex (c_nfs c) index with
                     | Some n => 3 <? nf_link_event n
                     | None => false
                     end in
  let '(st1, eff1) :=
    if flapping then (st, [])
    else
      let '(count, nfs, si, gone) := netif_fetch (sc_net cfg) os (c_nfs c) (st_si st) in
      let closes := map SClose gone in
      if count =? 0 then (mkSt (set_nfs c nfs) si (st_edp st), closes)
      else if negb (index =? NETIF_INDEX_MAX)
              && match netif_byindex nfs index with Some _ => false | None => true end
      then (mkSt (set_nfs c nfs) si (st_edp st), closes)
      else
        let '(nfs', edp, eff) := send_loop cfg os index nfs si (st_edp st) in
        (mkSt (set_nfs c nfs') si edp, closes ++ eff) in
  if timeout && has (sc_opts cfg) OPT_RECV then
    let '(c', eff2) := child_expire (sc_opts cfg) now (st_child st1) in
    (mkSt c' (st_si st1) (st_edp st1), eff1 ++ map SChild eff2)
  else (st1, eff1).

(** IFF_RUNNING | IFF_LOWER_UP (linux/if.h). *)
Definition LINK_FLAGS := 65600.
(** child_link_cb, child.c 574-590, for one netlink message: ifi_type, ifi_flags,
    ifi_index. *)
Definition child_link (cfg : scfg) (os : nos) (hatype flags index now : Z) (st : sstate)
  : sstate * list seff :=
  if negb (hatype =? ARPHRD_ETHER) then (st, [])
  else if negb (Z.land flags LINK_FLAGS =? LINK_FLAGS) then (st, [])
  else child_send cfg os (index mod 4294967296) false now st.

(** The event loop, child.c 124-157: a periodic run, a link message, or one of
    the events of Child.v (there the table is not replaced as a whole). *)
Inductive sevent :=
| EvRun (os : nos) (now : Z)
| EvLink (os : nos) (hatype flags index now : Z)
| EvChild (e : cevent).
(** One event of that loop. *)
Definition send_step (cfg : scfg) (st : sstate) (e : sevent) : dres (sstate * list seff) :=
  match e with
  | EvRun os now => DOk (child_send cfg os NETIF_INDEX_MAX true now st)
  | EvLink os hatype flags index now => DOk (child_link cfg os hatype flags index now st)
  | EvChild (CFetch _) | EvChild (CTick _) => DOk (st, [])
  | EvChild e =>
      let* (c, eff) := child_step (sc_opts cfg) (st_child st) e in
      DOk (mkSt c (st_si st) (st_edp st), map SChild eff)
  end.
(** A history, event_dispatch at child.c 157: the state at the end and the effects of
    each event. *)
Fixpoint send_run (cfg : scfg) (st : sstate) (es : list sevent) : dres (sstate * list (list seff)) :=
  match es with
  | [] => DOk (st, [])
  | e :: es' =>
      let* (st1, eff1) := send_step cfg st e in
      let* (st2, effs) := send_run cfg st1 es' in
      DOk (st2, eff1 :: effs)
  end.
