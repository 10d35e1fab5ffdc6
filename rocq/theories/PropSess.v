(** Clients that do not read: C122. *)
From Verif Require Import Base Types Tlv Wire Parent Util Child SessTimer SpecTimer SpecSess Cases2 Cases3 Cases4 SessProofs.

(** C122.  Between events there is exactly one timer for each open session, due one
    second after the last sign of life of its client. *)
Theorem C122_timer opts h s eff sid : sess_run opts sess_start h = DOk (s, eff) ->
  (open s sid -> exists a, last_sign sid h = Some a /\ due_of sid (cs_due s) = Some (a + 1))
  /\ (~ open s sid -> due_of sid (cs_due s) = None).
Proof. exact (pending opts h s eff sid). Qed.
Print Assumptions C122_timer.
(** So if timers are served at most [late] seconds late, a session is open at any
    event only if its client gave a sign of life at most a second and that delay
    before. *)
Theorem C122_dropped opts late h t e s eff sid : 0 <= late -> sess_run opts sess_start (h ++ [(t, e)]) = DOk (s, eff) ->
  served opts late sess_start (h ++ [(t, e)]) -> open s sid ->
  exists a, last_sign sid (h ++ [(t, e)]) = Some a /\ t <= a + 1 + late.
Proof. exact (dropped_in_time opts late h t e s eff sid). Qed.
Print Assumptions C122_dropped.
(** A session that times out is closed, and not sooner. *)
Theorem C122_not_sooner opts h t sid s eff : sess_run opts sess_start (h ++ [(t, CTimeout sid)]) = DOk (s, eff) ->
  ~ open s sid /\ exists a, last_sign sid h = Some a /\ a + 1 <= t.
Proof. exact (not_before opts h t sid s eff). Qed.
Print Assumptions C122_not_sooner.
(** Otherwise the events do what they do without timers; [DFail] are histories that
    the event loop does not have. *)
Theorem C122_same opts h : match sess_run opts sess_start h with
  | DOk (s, eff) => child_run opts child_start (map snd h) = DOk (cs_child s, eff)
  | DFail => True
  | DAbort => child_run opts child_start (map snd h) = DAbort
  | DUB => child_run opts child_start (map snd h) = DUB
  | DLoop => child_run opts child_start (map snd h) = DLoop
  end.
Proof. exact (same opts h sess_start). Qed.
Print Assumptions C122_same.

(** Two switches; a client stops reading after the first one, another one reads
    everything in two goes, the first one is dropped. *)
Definition i_h : list (Z * cevent) :=
  [(5, CFetch u_nfs); (6, CRecv (u_in 1 (u_sw 1 120)) 100 100); (7, CRecv (u_in 1 (u_sw 2 120)) 101 101);
   (10, CAccept 7); (10, CReady 7 [WOk; WAgain]); (11, CAccept 8); (11, CReady 8 [WAgain]); (11, CTimeout 7); (12, CReady 8 [])].
Definition i_state (n : nat) : option (list Z * list (Z * Z)) :=
  match sess_run 4 sess_start (firstn n i_h) with DOk (s, _) => Some (map ss_id (c_sess (cs_child s)), cs_due s) | _ => None end.
(** A test for [served]. *)
Fixpoint i_served (late : Z) (s : cstate) (h : list (Z * cevent)) : bool :=
  match h with
  | [] => true
  | (t, e) :: h' => forallb (fun x => t <=? snd x + late) (cs_due s)
      && match sess_step 4 t s e with DOk (s', _) => i_served late s' h' | _ => true end
  end.
Lemma i_served_ok late : forall h s, i_served late s h = true -> served 4 late s h.
Proof.
  induction h as [|[t e] h IH]; intros s H; cbn [served i_served] in *; [exact I|]. apply andb_true_iff in H as [H1 H2]. split.
  - intros sid d D. unfold due_of in D. destruct (find _ _) as [x|] eqn:F; [|discriminate]. injection D as <-.
    apply find_some in F as [F _]. rewrite forallb_forall in H1. apply H1 in F. lia.
  - intros s' eff E. rewrite E in H2. now apply IH.
Qed.
Example C122_case :
  i_state 5 = Some ([7], [(7, 11)]) /\ i_state 7 = Some ([7; 8], [(7, 11); (8, 12)]) /\ i_state 8 = Some ([8], [(8, 12)])
  /\ i_state 9 = Some ([], []) /\ served 4 0 sess_start i_h /\ last_sign 7 i_h = Some 10
  /\ sess_run 4 sess_start (firstn 5 i_h ++ [(10, CTimeout 7)]) = DFail.
Proof.
  split; [vm_compute; reflexivity|]. split; [vm_compute; reflexivity|]. split; [vm_compute; reflexivity|]. split; [vm_compute; reflexivity|].
  split; [apply i_served_ok; vm_compute; reflexivity|]. split; vm_compute; reflexivity.
Qed.
