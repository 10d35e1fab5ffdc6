(** The transmit timer: child_send of /repo/src/child.c with its rescheduling, and
    the loop of libevent calling it. *)
From Verif Require Import Base Types Tlv Protos Wire Util Child Netif Send.

(** SLEEPTIME, /repo/src/common.h 96. *)
Definition SLEEPTIME := 30.

(** child_send down to the label "out", child.c 163-284: the new state, what is
    asked of the parent, and whether the label is reached (a "return" before it
    would not).  All early exits, 171-172, 179-180 and 183-186, are "goto out". *)
Definition send_body (cfg : scfg) (os : nos) (index : Z) (st : sstate) : sstate * list seff * bool :=
  let c := st_child st in
  let linkif := netif_byindex (c_nfs c) index in
  if negb (index =? NETIF_INDEX_MAX)
     && match linkif with Some n => 3 <? nf_link_event n | None => false end
  then (st, [], true)
  else
    let '(count, nfs, si, gone) := netif_fetch (sc_net cfg) os (c_nfs c) (st_si st) in
    let closes := map SClose gone in
    let st1 := mkSt (set_nfs c nfs) si (st_edp st) in
    if count =? 0 then (st1, closes, true)
    else if negb (index =? NETIF_INDEX_MAX)
            && match netif_byindex nfs index with Some _ => false | None => true end
    then (st1, closes, true)
    else
      let '(nfs', edp, eff) := send_loop cfg os index nfs si (st_edp st) in
      (mkSt (set_nfs c nfs') si edp, closes ++ eff, true).
(** child_send, child.c 163-296.  The last component is the time passed to
    event_add, [None] if event_add is not called. *)
Definition child_send_timed (cfg : scfg) (os : nos) (index : Z) (timeout : bool) (now : Z) (st : sstate)
  : sstate * list seff * option Z :=
  let '(st1, eff1, out) := send_body cfg os index st in
  if negb out then (st1, eff1, None)
  else if negb timeout then (st1, eff1, None)
  else
    let '(st2, eff2) :=
      if has (sc_opts cfg) OPT_RECV then
        let '(c', eff) := child_expire (sc_opts cfg) now (st_child st1) in
        (mkSt c' (st_si st1) (st_edp st1), map SChild eff)
      else (st1, []) in
    (st2, eff1 ++ eff2, Some SLEEPTIME).

(** The child with its transmit event "args.event" (child.c 54, 121): the time at
    which it is to fire, [None] while it is not pending. *)
Record tstate := mkTst { tt_st : sstate; tt_due : option Z }.
(** event_add with a timeout, from child.c 294-295, at time [t]; an event that is
    not added keeps its schedule. *)
Definition rearm (t : Z) (due after : option Z) : option Z :=
  match after with Some s => Some (t + s) | None => due end.
(** The first run, "child_send(msgfd, EV_TIMEOUT, &args)" of child.c 122; nothing
    is pending before. *)
Definition timed_boot (cfg : scfg) (t : Z) (os : nos) (now : Z) (st : sstate) : tstate * list seff :=
  let '(st', eff, after) := child_send_timed cfg os NETIF_INDEX_MAX true now st in
  (mkTst st' (rearm t None after), eff).
(** One event of event_dispatch, child.c 157, at time [t].  The transmit event
    fires when it is due, not before ([DFail]: this cannot happen); it is then no
    longer pending (event(3), no EV_PERSIST in child.c 121). *)
Definition timed_step (cfg : scfg) (t : Z) (ts : tstate) (e : sevent) : dres (tstate * list seff) :=
  match e with
  | EvRun os now =>
      match tt_due ts with
      | None => DFail
      | Some d =>
          if t <? d then DFail
          else
            let '(st', eff, after) := child_send_timed cfg os NETIF_INDEX_MAX true now (tt_st ts) in
            DOk (mkTst st' (rearm t None after), eff)
      end
  | EvLink os hatype flags index now =>
      if negb (hatype =? ARPHRD_ETHER) then DOk (ts, [])
      else if negb (Z.land flags LINK_FLAGS =? LINK_FLAGS) then DOk (ts, [])
      else
        let '(st', eff, after) := child_send_timed cfg os (index mod 4294967296) false now (tt_st ts) in
        DOk (mkTst st' (rearm t (tt_due ts) after), eff)
  | EvChild _ =>
      let* (st', eff) := send_step cfg (tt_st ts) e in
      DOk (mkTst st' (tt_due ts), eff)
  end.
(** A history of events with the time of each, child.c 157. *)
Fixpoint timed_run (cfg : scfg) (ts : tstate) (h : list (Z * sevent)) : dres (tstate * list (list seff)) :=
  match h with
  | [] => DOk (ts, [])
  | (t, e) :: h' =>
      let* (ts1, eff1) := timed_step cfg t ts e in
      let* (ts2, effs) := timed_run cfg ts1 h' in
      DOk (ts2, eff1 :: effs)
  end.
