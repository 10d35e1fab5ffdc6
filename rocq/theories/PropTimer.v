(** Advertising goes on: C115. *)
From Verif Require Import Base Types Tlv Wire Util Child Netif Send Timer Spec SpecSend SpecTimer Lemmas Cases4 Cases6 SendProofs6 TimerProofs.

(** C115.  Started at time [t0], the child runs through any history of events: runs
    without interfaces, link messages, frames, clients.  The transmit timer is
    then pending, for 30 seconds after the last periodic run. *)
Theorem C115_pending cfg t0 os now st ts0 eff0 h ts effs :
  timed_boot cfg t0 os now st = (ts0, eff0) -> timed_run cfg ts0 h = DOk (ts, effs) ->
  tt_due ts = Some (last (rounds h) t0 + 30).
Proof.
  intros B H. exact (run_due cfg h ts0 ts effs t0 (proj2 (boot_send _ _ _ _ _ _ _ B)) H).
Qed.
Print Assumptions C115_pending.
(** When it is due it fires, whatever the system answers then, and is scheduled
    again; before, it does not. *)
Theorem C115_fires cfg t0 os now st ts0 eff0 h ts effs t os' now' :
  timed_boot cfg t0 os now st = (ts0, eff0) -> timed_run cfg ts0 h = DOk (ts, effs) ->
  (last (rounds h) t0 + 30 <= t ->
   exists ts' eff, timed_step cfg t ts (EvRun os' now') = DOk (ts', eff)
   /\ child_send cfg os' NETIF_INDEX_MAX true now' (tt_st ts) = (tt_st ts', eff) /\ tt_due ts' = Some (t + 30))
  /\ (t < last (rounds h) t0 + 30 -> timed_step cfg t ts (EvRun os' now') = DFail).
Proof.
  intros B H. pose proof (C115_pending cfg t0 os now st ts0 eff0 h ts effs B H) as D.
  split; intros L; [exact (step_fires cfg ts _ t os' now' D L)|exact (step_early cfg ts _ t os' now' D L)].
Qed.
Print Assumptions C115_fires.
(** So periodic runs are at least 30 seconds apart. *)
Theorem C115_spaced cfg t0 os now st ts0 eff0 h ts effs :
  timed_boot cfg t0 os now st = (ts0, eff0) -> timed_run cfg ts0 h = DOk (ts, effs) -> spaced 30 (t0 :: rounds h).
Proof.
  intros B H. exact (run_spaced cfg h ts0 ts effs t0 (proj2 (boot_send _ _ _ _ _ _ _ B)) H).
Qed.
Print Assumptions C115_spaced.
(** And if the timer is served at most [late] seconds after it is due, then at the
    time of any event the last periodic run is at most 30 + [late] seconds ago. *)
Theorem C115_goes_on cfg t0 os now st ts0 eff0 h1 t e h2 ts effs late :
  timed_boot cfg t0 os now st = (ts0, eff0) -> timed_run cfg ts0 (h1 ++ (t, e) :: h2) = DOk (ts, effs) ->
  forward t0 (map fst (h1 ++ (t, e) :: h2)) -> prompt cfg late ts0 (h1 ++ (t, e) :: h2) ->
  exists r, In r (t0 :: rounds h1) /\ r <= t <= r + 30 + late.
Proof.
  intros B H F P. exists (last (rounds h1) t0).
  exact (run_gaps cfg late h1 t e h2 ts0 ts effs t0 t0 (proj2 (boot_send _ _ _ _ _ _ _ B)) (Z.le_refl t0) H F P).
Qed.
Print Assumptions C115_goes_on.
(** The events do what they do without the timer (C09, C36, C37, C54). *)
Theorem C115_events cfg t0 os now st ts0 eff0 h ts effs :
  timed_boot cfg t0 os now st = (ts0, eff0) -> timed_run cfg ts0 h = DOk (ts, effs) ->
  send_run cfg st (EvRun os now :: map snd h) = DOk (tt_st ts, eff0 :: effs).
Proof.
  intros B H. destruct (boot_send _ _ _ _ _ _ _ B) as [B1 _]. cbn [send_run send_step]. rewrite B1. cbn [dbind].
  now rewrite (run_send cfg h ts0 ts effs H).
Qed.
Print Assumptions C115_events.

(** A host whose interfaces are gone at the second run and back, with a flapping
    link, at the third. *)
Definition r_none : nos := w_os [] false.
Definition r_hist : list (Z * sevent) :=
  [(1003, w_up w_os2 1); (1030, EvRun r_none 5030); (1040, w_up r_none 2); (1041, EvChild (CTimeout 3)); (1061, EvRun w_os2 5061);
   (1063, w_up w_os2 1); (1092, EvRun w_os2 5092)].
Definition r_boot : tstate * list seff := Eval vm_compute in timed_boot w_cfg 1000 w_os2 5000 w_st0.
Fixpoint r_prompt (late : Z) (ts : tstate) (h : list (Z * sevent)) : bool :=
  match h with
  | [] => true
  | (t, e) :: h' =>
      match tt_due ts with Some d => t <=? d + late | None => true end
      && match timed_step w_cfg t ts e with DOk (ts', _) => r_prompt late ts' h' | _ => true end
  end.
Lemma r_prompt_ok late : forall h ts, r_prompt late ts h = true -> prompt w_cfg late ts h.
Proof.
  induction h as [|[t e] h IH]; intros ts H; [exact I|]. cbn [r_prompt prompt] in *. apply andb_true_iff in H as [H1 H2]. split.
  - intros d E. rewrite E in H1. lia.
  - intros ts' eff E. rewrite E in H2. now apply IH.
Qed.
Lemma r_run h k : match timed_run w_cfg (fst r_boot) h with DOk (_, effs) => map (fun x => zlen (frames x)) effs = k | _ => False end ->
  exists ts effs, timed_run w_cfg (fst r_boot) h = DOk (ts, effs) /\ map (fun x => zlen (frames x)) effs = k.
Proof. destruct (timed_run w_cfg (fst r_boot) h) as [[ts effs]| | | |]; try contradiction. eauto. Qed.
Example C115_case :
  timed_boot w_cfg 1000 w_os2 5000 w_st0 = (fst r_boot, snd r_boot)
  /\ (exists ts effs, timed_run w_cfg (fst r_boot) r_hist = DOk (ts, effs)
      /\ map (fun x => zlen (frames x)) effs = [1; 0; 0; 0; 2; 1; 2])
  /\ rounds r_hist = [1030; 1061; 1092] /\ forward 1000 (map fst r_hist) /\ prompt w_cfg 1 (fst r_boot) r_hist.
Proof.
  split; [vm_compute; reflexivity|]. split; [apply r_run; vm_compute; reflexivity|]. split; [reflexivity|].
  split; [cbn; lia|]. apply r_prompt_ok. vm_compute. reflexivity.
Qed.
