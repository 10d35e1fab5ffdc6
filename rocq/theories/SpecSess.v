(** Clients that do not read: vocabulary of C122. *)
From Verif Require Import Base Types Wire Util Child SessTimer SpecTimer.

(** The session is open. *)
Definition open (s : cstate) (sid : Z) : Prop := In sid (map ss_id (c_sess (cs_child s))).
(** The event is a sign of life of the client [sid]: it connects, or its socket takes
    data. *)
Definition sign (sid : Z) (e : cevent) : bool :=
  match e with CAccept i => i =? sid | CReady i _ => i =? sid | _ => false end.
(** The client's last sign of life in a history. *)
Definition last_sign (sid : Z) (h : list (Z * cevent)) : option Z :=
  fold_left (fun a x => if sign sid (snd x) then Some (fst x) else a) h None.
(** The history of a daemon that serves its timers at most [late] seconds late: no
    event happens while a timer is due for longer. *)
Fixpoint served (opts late : Z) (s : cstate) (h : list (Z * cevent)) : Prop :=
  match h with
  | [] => True
  | (t, e) :: h' =>
      (forall sid d, due_of sid (cs_due s) = Some d -> t <= d + late)
      /\ (forall s' eff, sess_step opts t s e = DOk (s', eff) -> served opts late s' h')
  end.
