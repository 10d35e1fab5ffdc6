(** What clients have to do with each other: C135. *)
From Verif Require Import Base Types Tlv Checks Wire Protos Util Child Netif Parent Sysinfo Send SpecSend SpecFlow SpecPeers
  Cases Cases2 Cases3 Cases4 Cases6 Conformance PeersProofs.

(** C135, for other clients that take all they are sent at once.  Two histories that
    agree in everything but other clients: the child does the same, among it what it
    writes to client [k], and in the end has the same interfaces and neighbours.
    Missing are other clients that keep the daemon waiting. *)
Theorem C135_peers_partial cfg k es es' st st' z z' effs effs' :
  alike_for k st st' -> others_idle k st -> others_idle k st' ->
  others_keep_up k es -> others_keep_up k es' -> without_others k es = without_others k es' ->
  send_run cfg st es = DOk (z, effs) -> send_run cfg st' es' = DOk (z', effs') ->
  but_for_others k effs = but_for_others k effs' /\ sent_to k effs = sent_to k effs' /\ alike_for k z z'.
Proof. exact (peers_sent cfg k es es' st st' z z' effs effs'). Qed.
Print Assumptions C135_peers_partial.
(** Client 8 is slow; in the second history clients 7 and 9 are served while it
    waits. *)
Definition pe_heard : list sevent := [EvChild (CRecv (u_in 1 c_cdp) 1000 1000); EvChild (CAccept 8); EvChild (CReady 8 [WAgain])].
Definition pe_end (es : list sevent) : sstate := match send_run w_cfg w_st1 es with DOk (z, _) => z | _ => w_st1 end.
Definition pe_eff (es : list sevent) : list (list seff) := match send_run w_cfg w_st1 es with DOk (_, x) => x | _ => [] end.
Lemma pe_ok es : match send_run w_cfg w_st1 es with DOk _ => true | _ => false end = true -> send_run w_cfg w_st1 es = DOk (pe_end es, pe_eff es).
Proof. unfold pe_end, pe_eff. destruct (send_run w_cfg w_st1 es) as [[z x]| | | |]; (reflexivity || discriminate). Qed.
Definition pe_es : list sevent := pe_heard ++ [EvRun w_osb 1030; EvChild (CReady 8 [])].
Definition pe_es' : list sevent :=
  [EvChild (CAccept 7)] ++ pe_heard ++ [EvChild (CReady 7 [WOk]); EvChild (CAccept 9); EvRun w_osb 1030; EvChild (CTimeout 9); EvChild (CReady 8 [])].
Example C135_case :
  alike_for 8 w_st1 w_st1 /\ others_idle 8 w_st1 /\ others_keep_up 8 pe_es /\ others_keep_up 8 pe_es'
  /\ without_others 8 pe_es = without_others 8 pe_es'
  /\ send_run w_cfg w_st1 pe_es = DOk (pe_end pe_es, pe_eff pe_es) /\ send_run w_cfg w_st1 pe_es' = DOk (pe_end pe_es', pe_eff pe_es')
  /\ map zlen (sent_to 8 (pe_eff pe_es)) = [1558] /\ map zlen (sent_to 7 (pe_eff pe_es')) = [1558].
Proof.
  split; [now repeat split|]. split; [intros s []|].
  split. { intros j ws H J. cbn in H. repeat (destruct H as [H|H]; [try discriminate H; injection H as <- <-; now contradiction J|]). destruct H. }
  split. { intros j ws H J. cbn in H. repeat (destruct H as [H|H]; [try discriminate H; injection H as <- <-; try (now contradiction J); intros [X|[]]; discriminate X|]). destruct H. }
  split; [reflexivity|]. split; [apply pe_ok; vm_compute; reflexivity|]. split; [apply pe_ok; vm_compute; reflexivity|]. split; vm_compute; reflexivity.
Qed.

(** What is missing in C129, for clients that keep up: with -a, too, the frames sent
    and the neighbours known are the same with any clients. *)
Theorem C129_clients_partial cfg es es' st z z' effs effs' :
  (forall s, In s (c_sess (st_child st)) -> ss_msg s = None) ->
  (forall j ws, In (EvChild (CReady j ws)) (es ++ es') -> ~ In WAgain ws) ->
  filter (fun e => negb (from_client e)) es = filter (fun e => negb (from_client e)) es' ->
  send_run cfg st es = DOk (z, effs) -> send_run cfg st es' = DOk (z', effs') ->
  outgoing effs = outgoing effs' /\ c_queue (st_child z) = c_queue (st_child z').
Proof. exact (no_clients cfg es es' st z z' effs effs'). Qed.
Print Assumptions C129_clients_partial.
Definition pe_quiet : list sevent := [EvChild (CRecv (u_in 1 c_cdp) 1000 1000); EvRun w_osb 1030].
Definition pe_busy : list sevent := [EvChild (CRecv (u_in 1 c_cdp) 1000 1000); EvChild (CAccept 7); EvChild (CReady 7 [WOk]); EvRun w_osb 1030].
Example C129_clients_case :
  c_sess (st_child w_st1) = [] /\ filter (fun e => negb (from_client e)) pe_quiet = filter (fun e => negb (from_client e)) pe_busy
  /\ send_run w_cfg w_st1 pe_quiet = DOk (pe_end pe_quiet, pe_eff pe_quiet) /\ send_run w_cfg w_st1 pe_busy = DOk (pe_end pe_busy, pe_eff pe_busy)
  /\ (forall j ws, In (EvChild (CReady j ws)) (pe_quiet ++ pe_busy) -> ~ In WAgain ws)
  /\ map (fun d => snd (fst d)) (frames (outgoing (pe_eff pe_busy))) = [0; 1; 0; 0] /\ map zlen (sent_to 7 (pe_eff pe_busy)) = [1558].
Proof.
  split; [reflexivity|]. split; [reflexivity|]. split; [apply pe_ok; vm_compute; reflexivity|]. split; [apply pe_ok; vm_compute; reflexivity|].
  split; [|split; vm_compute; reflexivity].
  intros j ws H. cbn in H. repeat (destruct H as [H|H]; [try discriminate H; injection H as <- <-; intros [X|[]]; discriminate X|]). destruct H.
Qed.

(** C135 is false of clients that do not read: after one was dropped, another is shown
    a neighbour hours after it went away. *)
Definition pe_later (slow : list sevent) : list sevent :=
  [EvChild (CRecv (u_in 1 c_cdp) 1000 1000)] ++ slow ++ [EvRun w_osb 9000; EvChild (CAccept 8); EvChild (CReady 8 [])].
Definition pe_slow : list sevent := [EvChild (CAccept 7); EvChild (CReady 7 [WAgain]); EvChild (CTimeout 7)].
Theorem C135_slow_client_refuted :
  exists cfg k st es es' z z' effs effs', running cfg st /\ c_sess (st_child st) = []
  /\ without_others k es = without_others k es'
  /\ send_run cfg st es = DOk (z, effs) /\ send_run cfg st es' = DOk (z', effs')
  /\ sent_to k effs = [] /\ sent_to k effs' <> [].
Proof.
  exists w_cfg, 8, w_st1, (pe_later []), (pe_later pe_slow), (pe_end (pe_later [])), (pe_end (pe_later pe_slow)), (pe_eff (pe_later [])), (pe_eff (pe_later pe_slow)).
  split; [exact w_st1_running|]. split; [reflexivity|]. split; [reflexivity|]. split; [apply pe_ok; vm_compute; reflexivity|].
  split; [apply pe_ok; vm_compute; reflexivity|]. split; [vm_compute; reflexivity|vm_compute; discriminate].
Qed.
Print Assumptions C135_slow_client_refuted.
