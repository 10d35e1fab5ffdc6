(** Advertisements repeat: C130. *)
From Verif Require Import Base Types Tlv Checks Wire Protos Util Child Netif Parent Sysinfo Send SpecSend SpecNetif SpecFlow SpecRepeat
  Cases Cases2 Cases3 Cases4 Cases6 Conformance RepeatProofs4 PropFlow.

(** C130.  As long as the kernel answers the same, every later periodic run sends what
    the first one sent for the protocols enabled on the command line: the same frames on
    the same interfaces in the same order, byte for byte, but for the checksum and the
    sequence number of EDP; whatever link messages, frames of neighbours and clients come
    in between.  And no interface is given up. *)
Theorem C130_repeat cfg os t t' st st1 st2 st3 first effs again es :
  running cfg st -> steady os es ->
  send_step cfg st (EvRun os t) = DOk (st1, first) ->
  send_run cfg st1 es = DOk (st2, effs) ->
  send_step cfg st2 (EvRun os t') = DOk (st3, again) ->
  Forall2 same_frame (configured cfg [first]) (configured cfg [again]) /\ closed effs = [] /\ closed [again] = [].
Proof. exact (repeat_running cfg os t t' st st1 st2 st3 first effs again es). Qed.
Print Assumptions C130_repeat.

(** Such a history: LLDP and EDP enabled, and between the two runs a CDP neighbour is
    heard, a link comes up and a client connects.  Both runs send on three interfaces; the
    EDP frames differ in checksum and sequence number; the CDP frame of the later run is
    not of a configured protocol. *)
Definition rp_cfg : scfg := mkScfg (mkNcfg 14 [] None (repeat 0 4) (repeat 0 16)) [] (fun p => (p =? 0) || (p =? 2)).
Definition rp_between : list sevent :=
  fl_heard ++ [EvLink w_osb 1 65600 1 1005] ++ fl_client ++ [EvRun w_osb 1010].
Lemma rp_step st e : match send_step rp_cfg st e with DOk _ => true | _ => false end = true ->
  send_step rp_cfg st e = DOk (match send_step rp_cfg st e with DOk x => x | _ => (st, []) end).
Proof. now destruct (send_step rp_cfg st e). Qed.
Lemma rp_run st es : match send_run rp_cfg st es with DOk _ => true | _ => false end = true ->
  send_run rp_cfg st es = DOk (match send_run rp_cfg st es with DOk x => x | _ => (st, []) end).
Proof. now destruct (send_run rp_cfg st es). Qed.
Example C130_case : exists st1 first st2 effs st3 again,
  running rp_cfg w_st0 /\ steady w_osb rp_between
  /\ send_step rp_cfg w_st0 (EvRun w_osb 1000) = DOk (st1, first)
  /\ send_run rp_cfg st1 rp_between = DOk (st2, effs)
  /\ send_step rp_cfg st2 (EvRun w_osb 1040) = DOk (st3, again)
  /\ map (fun d => fst d) (configured rp_cfg [first]) = map (fun d => fst d) (configured rp_cfg [again])
  /\ map (fun d => snd (fst d)) (configured rp_cfg [again]) = [0; 2; 0; 2; 0; 2]
  /\ map (fun d => snd (fst d)) (frames again) = [0; 1; 2; 0; 2; 0; 2]
  /\ map (fun d => firstn 4 (skipn 26 (snd d))) (configured rp_cfg [first])
     <> map (fun d => firstn 4 (skipn 26 (snd d))) (configured rp_cfg [again]).
Proof.
  set (x1 := match send_step rp_cfg w_st0 (EvRun w_osb 1000) with DOk x => x | _ => (w_st0, []) end).
  set (x2 := match send_run rp_cfg (fst x1) rp_between with DOk x => x | _ => (fst x1, []) end).
  set (x3 := match send_step rp_cfg (fst x2) (EvRun w_osb 1040) with DOk x => x | _ => (fst x2, []) end).
  exists (fst x1), (snd x1), (fst x2), (snd x2), (fst x3), (snd x3).
  split; [exact (w_boot rp_cfg)|].
  split. { intros h Hh. cbn in Hh. destruct Hh as [<-|[<-|[]]]; [right; now exists 1, 65600, 1|now left]. }
  split; [rewrite <- surjective_pairing; apply rp_step; vm_compute; reflexivity|].
  split; [rewrite <- surjective_pairing; apply rp_run; vm_compute; reflexivity|].
  split; [rewrite <- surjective_pairing; apply rp_step; vm_compute; reflexivity|].
  split; [vm_compute; reflexivity|]. split; [vm_compute; reflexivity|]. split; [vm_compute; reflexivity|]. vm_compute. discriminate.
Qed.
