(** C137.  Stopping the daemon: what its neighbours learn of it. *)
From Verif Require Import Base Types Tlv Msg Protos Bpf Wire Parent Util Child Netif Sysinfo Send Timer Spec SpecAdv SpecRound SpecNet SpecChild SpecSend SpecSys
  SpecE2E SpecHold SpecTimer SpecListed Cases2 Cases3 Cases4 Cases6 Cases7 PropSys PropE2E PropTimer PropHold
  Lemmas DecProofs ChildProofs2 SendProofs6 HoldProofs HoldProofs2 HoldProofs3 GoneProofs.

(** Whatever a daemon sends at any time of its life, another daemon in any state takes
    it as an advertisement to be kept for 180 seconds, never as a shutdown.  EDP (2) is
    left out: C17 shows that it is never received. *)
Theorem C137_never_a_shutdown cfg os country location st e st' eff i p f index d c now now2 :
  running_on cfg os country location st -> event_ok e -> send_step cfg st e = DOk (st', eff) -> In (SFrame i p f) eff -> p <> 2 ->
  0 <= index < 4294967296 -> parent_recv index [f] = [d] ->
  netif_byindex (c_nfs c) index <> None -> netif_byaddr (c_nfs c) (firstn 6 (skipn 6 f)) = None ->
  exists en, news c (CRecv d now now2) en /\ who en = (index, p, firstn 12 f) /\ q_ttl en = 180
  /\ forall x, news c (CRecv d now now2) x -> q_ttl x = 180.
Proof. exact (never_zero cfg os country location st e st' eff i p f index d c now now2). Qed.
Print Assumptions C137_never_a_shutdown.
(** So after its last frame, received at time [a], it stays listed until 180 seconds are
    over, and is gone with the first clean-up thereafter. *)
Theorem C137_lingers cfg os country location st e st' eff i p f index d opts es1 c1 eff1 a a2 es2 c eff2 :
  running_on cfg os country location st -> event_ok e -> send_step cfg st e = DOk (st', eff) -> In (SFrame i p f) eff -> p <> 2 ->
  0 <= index < 4294967296 -> parent_recv index [f] = [d] ->
  reached opts es1 c1 eff1 -> netif_byindex (c_nfs c1) index <> None -> netif_byaddr (c_nfs c1) (firstn 6 (skipn 6 f)) = None ->
  reached opts (es1 ++ CRecv d a a2 :: es2) c eff2 -> Forall ordinary (es1 ++ CRecv d a a2 :: es2) ->
  unheard opts (es1 ++ [CRecv d a a2]) es2 (index, p, firstn 12 f) ->
  ((forall t, cleaned opts (es1 ++ [CRecv d a a2]) es2 t -> t <= a + 180) ->
     exists x, In x (c_queue c) /\ who x = (index, p, firstn 12 f) /\ q_received x = a)
  /\ (forall t, Forall unblocked (es1 ++ CRecv d a a2 :: es2) -> cleaned opts (es1 ++ [CRecv d a a2]) es2 t -> a + 180 < t ->
     forall x, In x (c_queue c) -> who x <> (index, p, firstn 12 f)).
Proof. exact (lingers cfg os country location st e st' eff i p f index d opts es1 c1 eff1 a a2 es2 c eff2). Qed.
Print Assumptions C137_lingers.

(** The frame of PropHold, heard at 1001; the daemon is stopped at 1002. *)
Definition gn_es1 : list cevent := [CFetch u_nfs; CRecv (u_in 1 x_sw2) 990 990].
Definition gn_e : cevent := CRecv z_d 1001 1001.
Lemma gn_ticks l : Forall (fun e => exists t, e = CTick t) l -> forall opts es1 k, unheard opts es1 l k.
Proof.
  intros F opts es1 k a e b c eff x E _ N. assert (K : In e l) by (rewrite E; apply in_or_app; right; now left).
  apply (proj1 (Forall_forall _ _) F) in K as (t & ->). destruct N as (? & ? & ? & ? & ? & ? & ? & ? & ? & ? & K & _). discriminate.
Qed.
Lemma gn_clean l : Forall (fun e => exists t, e = CTick t) l -> forall opts es1 t, cleaned opts es1 l t -> In (CTick t) l.
Proof.
  intros F opts es1 t (a & e & b & c & eff & E & _ & K). assert (Ie : In e l) by (rewrite E; apply in_or_app; right; now left).
  destruct K as [->|(d & now & en & -> & _)]; [exact Ie|]. apply (proj1 (Forall_forall _ _) F) in Ie as (u & K). discriminate.
Qed.
Lemma gn_sent : exists st' eff, send_step w_cfg y_st (EvRun w_os2 1000) = DOk (st', eff) /\ In (SFrame 1 0 b_f) eff.
Proof. do 2 eexists. split; [vm_compute; reflexivity|]. cbn [In]. auto 20. Qed.
Example C137_case :
  running_on w_cfg y_os (bs "NL") (bs "attic") y_st /\ event_ok (EvRun w_os2 1000)
  /\ (exists st' eff, send_step w_cfg y_st (EvRun w_os2 1000) = DOk (st', eff) /\ In (SFrame 1 0 b_f) eff)
  /\ parent_recv 3 [b_f] = [z_d]
  /\ netif_byindex (c_nfs (z_child gn_es1)) 3 <> None /\ netif_byaddr (c_nfs (z_child gn_es1)) (firstn 6 (skipn 6 b_f)) = None
  /\ (exists eff, reached 4 gn_es1 (z_child gn_es1) eff)
  /\ (exists eff, reached 4 (gn_es1 ++ gn_e :: [CTick 1150; CTick 1181]) (z_child (gn_es1 ++ gn_e :: [CTick 1150; CTick 1181])) eff)
  /\ Forall ordinary (gn_es1 ++ gn_e :: [CTick 1150; CTick 1181; CTick 1182])
  /\ Forall unblocked (gn_es1 ++ gn_e :: [CTick 1150; CTick 1181; CTick 1182])
  /\ unheard 4 (gn_es1 ++ [gn_e]) [CTick 1150; CTick 1181; CTick 1182] (3, 0, firstn 12 b_f)
  /\ (forall t, cleaned 4 (gn_es1 ++ [gn_e]) [CTick 1150; CTick 1181] t -> t <= 1001 + 180)
  /\ map who (c_queue (z_child (gn_es1 ++ gn_e :: [CTick 1150; CTick 1181]))) = [(3, 0, firstn 12 b_f)]
  /\ c_queue (z_child (gn_es1 ++ gn_e :: [CTick 1150; CTick 1181; CTick 1182])) = [].
Proof.
  split; [exact y_on|]. split; [apply w_os_ok; repeat constructor; lia|]. split; [exact gn_sent|]. split; [vm_compute; reflexivity|].
  split; [vm_compute; discriminate|]. split; [vm_compute; reflexivity|]. split; [apply z_reached; vm_compute; reflexivity|].
  split; [apply z_reached; vm_compute; reflexivity|].
  split. { unfold gn_es1, gn_e. cbn [app]. b_all ltac:(first [exact I|eapply b_ordinary; [first [exact b_other|exact b_box]|lia|lia]|cbn; lia]). }
  split. { unfold gn_es1, gn_e. cbn [app]. b_all ltac:(exact I). }
  split. { apply gn_ticks. repeat constructor; eexists; reflexivity. }
  split. { intros t K. apply gn_clean in K; [|repeat constructor; eexists; reflexivity]. destruct K as [K|[K|[]]]; injection K as <-; lia. }
  split; vm_compute; reflexivity.
Qed.
(** Hence neighbours are not told that a daemon stops: with one that sent a single frame
    and nothing else ever, another one lists it three minutes later still. *)
Theorem C137_told_at_once_refuted :
  exists cfg os country location st e st' eff i p f index d opts es1 a es2 c eff2,
  running_on cfg os country location st /\ event_ok e /\ send_step cfg st e = DOk (st', eff) /\ In (SFrame i p f) eff
  /\ parent_recv index [f] = [d]
  /\ Forall ordinary (es1 ++ CRecv d a a :: es2) /\ Forall unblocked (es1 ++ CRecv d a a :: es2)
  /\ unheard opts (es1 ++ [CRecv d a a]) es2 (index, p, firstn 12 f)
  /\ In (CTick (a + 180)) es2 /\ reached opts (es1 ++ CRecv d a a :: es2) c eff2
  /\ In (index, p, firstn 12 f) (map who (c_queue c)).
Proof.
  destruct gn_sent as (st' & eff & S1 & S2). destruct C137_case as (A1 & A2 & _ & A4 & _ & _ & _ & (eff2 & A8) & A9 & A10 & A11 & _ & A13 & _).
  exists w_cfg, y_os, (bs "NL"), (bs "attic"), y_st, (EvRun w_os2 1000), st', eff, 1, 0, b_f, 3, z_d, 4, gn_es1, 1001, [CTick 1150; CTick 1181].
  exists (z_child (gn_es1 ++ gn_e :: [CTick 1150; CTick 1181])), eff2.
  split; [exact A1|]. split; [exact A2|]. split; [exact S1|]. split; [exact S2|]. split; [exact A4|].
  split. { change (gn_es1 ++ gn_e :: [CTick 1150; CTick 1181; CTick 1182]) with ((gn_es1 ++ gn_e :: [CTick 1150; CTick 1181]) ++ [CTick 1182]) in A9. now apply Forall_app in A9 as [A9 _]. }
  split. { change (gn_es1 ++ gn_e :: [CTick 1150; CTick 1181; CTick 1182]) with ((gn_es1 ++ gn_e :: [CTick 1150; CTick 1181]) ++ [CTick 1182]) in A10. now apply Forall_app in A10 as [A10 _]. }
  split. { apply gn_ticks. repeat constructor; eexists; reflexivity. }
  split; [right; left; reflexivity|]. split; [exact A8|]. rewrite A13. now left.
Qed.
Print Assumptions C137_told_at_once_refuted.
