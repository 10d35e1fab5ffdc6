(** What neighbours and clients have influence on: C129. *)
From Verif Require Import Base Types Tlv Checks Wire Protos Util Child Netif Parent Sysinfo Send SpecSend SpecFlow
  Cases Cases2 Cases3 Cases4 Cases6 Conformance FlowProofs2.

(** C129.  Two histories of the child in which the machine does the same, but other
    frames are received, other clients connect and read, and the clock shows other
    times: the frames sent of the protocols enabled on the command line are the same,
    byte for byte and in the same order, and so are the interfaces given up. *)
Theorem C129_configured cfg es es' st st' z z' effs effs' :
  alike st st' -> host_parts es = host_parts es' ->
  send_run cfg st es = DOk (z, effs) -> send_run cfg st' es' = DOk (z', effs') ->
  configured cfg effs = configured cfg effs' /\ closed effs = closed effs'.
Proof. exact (flow_configured cfg es es' st st' z z' effs effs'). Qed.
Print Assumptions C129_configured.
(** Without -a (bit 3 of the options) this holds of all frames and of the sockets
    opened, too.  Missing is that with -a they depend on the frames received only, not
    on clients. *)
Theorem C129_outgoing_partial cfg es es' st st' z z' effs effs' :
  opt cfg 3 = false -> alike st st' -> host_parts es = host_parts es' ->
  send_run cfg st es = DOk (z, effs) -> send_run cfg st' es' = DOk (z', effs') ->
  outgoing effs = outgoing effs'.
Proof. exact (flow_outgoing cfg es es' st st' z z' effs effs'). Qed.
Print Assumptions C129_outgoing_partial.

(** That is false: with -a a client that connects, does not read and is dropped keeps
    the daemon sending CDP long after its only CDP neighbour was last heard. *)
Definition fl_heard : list sevent := [EvChild (CRecv (u_in 1 c_cdp) 1000 1000)].
Definition fl_later : list sevent := [EvRun w_osb 9000; EvRun w_osb 9030].
Definition fl_client : list sevent := [EvChild (CAccept 7); EvChild (CReady 7 [WAgain]); EvChild (CTimeout 7)].
Definition fl_end (cfg : scfg) (es : list sevent) : sstate := match send_run cfg w_st1 es with DOk (z, _) => z | _ => w_st1 end.
Definition fl_eff (cfg : scfg) (es : list sevent) : list (list seff) := match send_run cfg w_st1 es with DOk (_, x) => x | _ => [] end.
Lemma fl_ok cfg es : match send_run cfg w_st1 es with DOk _ => true | _ => false end = true ->
  send_run cfg w_st1 es = DOk (fl_end cfg es, fl_eff cfg es).
Proof. unfold fl_end, fl_eff. destruct (send_run cfg w_st1 es) as [[z x]| | | |]; (reflexivity || discriminate). Qed.
Lemma fl_differ x y p : map (fun d => snd (fst d)) (frames (outgoing x)) = p ->
  map (fun d => snd (fst d)) (frames (outgoing y)) <> p -> outgoing x <> outgoing y.
Proof. intros H1 H2 E. apply H2. now rewrite <- E. Qed.
Theorem C129_clients_refuted : exists cfg st es es' z z' effs effs',
  running cfg st /\ filter (fun e => negb (from_client e)) es = filter (fun e => negb (from_client e)) es'
  /\ send_run cfg st es = DOk (z, effs) /\ send_run cfg st es' = DOk (z', effs')
  /\ outgoing effs <> outgoing effs'.
Proof.
  exists w_cfg, w_st1, (fl_heard ++ fl_later), (fl_heard ++ fl_client ++ fl_later),
    (fl_end w_cfg (fl_heard ++ fl_later)), (fl_end w_cfg (fl_heard ++ fl_client ++ fl_later)),
    (fl_eff w_cfg (fl_heard ++ fl_later)), (fl_eff w_cfg (fl_heard ++ fl_client ++ fl_later)).
  split; [exact w_st1_running|]. split; [reflexivity|]. split; [apply fl_ok; vm_compute; reflexivity|].
  split; [apply fl_ok; vm_compute; reflexivity|]. apply (fl_differ _ _ [0; 1; 0; 0; 0; 0; 0]); [vm_compute; reflexivity|vm_compute; discriminate].
Qed.
Print Assumptions C129_clients_refuted.

(** Two histories as in the theorems: one hears a CDP neighbour and has a client.  With
    -a the protocols sent are others, those of LLDP are not; without it nothing is. *)
Definition fl_cfg (opts : Z) : scfg := mkScfg (mkNcfg opts [] None (repeat 0 4) (repeat 0 16)) [] (fun p => p =? 0).
Example C129_case :
  let es := fl_later in let es' := fl_heard ++ [EvRun w_osb 1010] ++ fl_client ++ [EvRun w_osb 1020] in
  alike w_st1 w_st1 /\ host_parts es = host_parts es' /\ opt (fl_cfg 6) 3 = false
  /\ send_run w_cfg w_st1 es = DOk (fl_end w_cfg es, fl_eff w_cfg es)
  /\ send_run w_cfg w_st1 es' = DOk (fl_end w_cfg es', fl_eff w_cfg es')
  /\ send_run (fl_cfg 6) w_st1 es = DOk (fl_end (fl_cfg 6) es, fl_eff (fl_cfg 6) es)
  /\ send_run (fl_cfg 6) w_st1 es' = DOk (fl_end (fl_cfg 6) es', fl_eff (fl_cfg 6) es')
  /\ map (fun d => snd (fst d)) (frames (outgoing (fl_eff w_cfg es))) = [0; 0; 0; 0; 0; 0]
  /\ map (fun d => snd (fst d)) (frames (outgoing (fl_eff w_cfg es'))) = [0; 1; 0; 0; 0; 1; 0; 0]
  /\ map (fun d => snd (fst d)) (configured w_cfg (fl_eff w_cfg es')) = [0; 0; 0; 0; 0; 0]
  /\ zlen (c_queue (st_child (fl_end (fl_cfg 6) es'))) = 1 /\ zlen (outgoing (fl_eff (fl_cfg 6) es')) = 12.
Proof.
  cbv zeta. split; [now repeat split|]. split; [reflexivity|]. split; [reflexivity|].
  do 4 (split; [apply fl_ok; vm_compute; reflexivity|]). vm_compute. repeat split; reflexivity.
Qed.
