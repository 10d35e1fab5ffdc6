(** The timers of client sessions, /repo/src/child.c 475-531. *)
From Verif Require Import Base Types Tlv Wire Util Child.

(** tv_sec of child_cli_accept and child_cli_write, child.c 480, 500. *)
Definition CLI_TIMEOUT := 1.

(** child_cli_write, child.c 498-531, as [child_cli_write], with the time passed to
    event_add (523); [None]: the session is freed (527-530). *)
Definition cli_write_timed (c : child) (sid : Z) (timeout : bool) (ws : list wres)
  : dres (child * list ceff * option Z) :=
  match find (fun s => ss_id s =? sid) (c_sess c) with
  | None => DOk (c, [], None)
  | Some s =>
      if timeout then DOk (mkChild (c_nfs c) (c_queue c) (drop_sess sid (c_sess c)) (c_next c), [], None)
      else
        let start :=
          match ss_msg s with
          | None => DOk (c_queue c, c_queue c)
          | Some i =>
              let q1 := add_lock i (-1) (c_queue c) in
              match queue_from i q1 with
              | None => DUB
              | Some l => DOk (q1, l)
              end
          end in
        let* (q1, l) := start in
        let '(eff, r) := write_loop sid l ws in
        match r with
        | Some i => DOk (mkChild (c_nfs c) (add_lock i 1 q1) (wait_sess sid i (c_sess c)) (c_next c), eff, Some CLI_TIMEOUT)
        | None => DOk (mkChild (c_nfs c) q1 (drop_sess sid (c_sess c)) (c_next c), eff, None)
        end
  end.

(** The child and the session events pending in libevent: session and time. *)
Record cstate := mkCst { cs_child : child; cs_due : list (Z * Z) }.
(** The event is no longer pending: it fired (no EV_PERSIST, child.c 494, 522), or
    event_del (528). *)
Definition undue (sid : Z) (l : list (Z * Z)) : list (Z * Z) := filter (fun x => negb (fst x =? sid)) l.
(** event_add with a timeout at time [t], child.c 495, 523. *)
Definition add_due (sid t : Z) (after : option Z) (l : list (Z * Z)) : list (Z * Z) :=
  match after with Some s => l ++ [(sid, t + s)] | None => l end.
(** When it is due. *)
Definition due_of (sid : Z) (l : list (Z * Z)) : option Z :=
  option_map snd (find (fun x => fst x =? sid) l).
(** One event of event_dispatch, child.c 157, at time [t].  libevent calls
    child_cli_write for a pending event only, with EV_TIMEOUT only when its time
    has come, and accept(2) gives a descriptor not in use ([DFail]: this cannot
    happen). *)
Definition sess_step (opts t : Z) (s : cstate) (e : cevent) : dres (cstate * list ceff) :=
  let c := cs_child s in
  match e with
  | CAccept sid =>
      if existsb (fun s => ss_id s =? sid) (c_sess c) then DFail
      else DOk (mkCst (child_cli_accept c sid) (add_due sid t (Some CLI_TIMEOUT) (cs_due s)), [])
  | CReady sid ws =>
      match due_of sid (cs_due s) with
      | None => DFail
      | Some _ =>
          let* (c', eff, after) := cli_write_timed c sid false ws in
          DOk (mkCst c' (add_due sid t after (undue sid (cs_due s))), eff)
      end
  | CTimeout sid =>
      match due_of sid (cs_due s) with
      | None => DFail
      | Some d =>
          if t <? d then DFail
          else
            let* (c', eff, after) := cli_write_timed c sid true [] in
            DOk (mkCst c' (add_due sid t after (undue sid (cs_due s))), eff)
      end
  | _ =>
      let* (c', eff) := child_step opts c e in
      DOk (mkCst c' (cs_due s), eff)
  end.
(** A history with the time of each event, child.c 157. *)
Fixpoint sess_run (opts : Z) (s : cstate) (h : list (Z * cevent)) : dres (cstate * list ceff) :=
  match h with
  | [] => DOk (s, [])
  | (t, e) :: h' =>
      let* (s1, eff1) := sess_step opts t s e in
      let* (s2, eff2) := sess_run opts s1 h' in
      DOk (s2, eff1 ++ eff2)
  end.
(** As [child_start], child.c 67-68; no session. *)
Definition sess_start : cstate := mkCst child_start [].
