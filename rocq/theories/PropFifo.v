(** What crosses between the two processes: C126. *)
From Verif Require Import Base Types Tlv Checks Wire Parent Netif Mreq Util Child Send Ipc SpecIpc SpecSend SpecOnce SpecJoint SpecFifo
  Cases Cases2 Cases3 Cases6 Conformance SendProofs6 PropNet PropJoint PropIpc IpcProofs FifoProofs FifoProofs2 FifoRun.

(** C126.  However the two processes run and whatever the sockets hold: each answer the
    child reads is the one the privileged process gave to this very request. *)
Theorem C126_answers room starts cfg t es s : isteps room starts cfg (ipc_start t) es s ->
  (length (answers es) <= length (requests es) <= S (length (answers es)))%nat
  /\ exists rest, (length rest <= 1)%nat
     /\ served es = combine (requests es) (map Some (answers es)) ++ rest.
Proof. exact (own_answers room starts cfg t es s). Qed.
Print Assumptions C126_answers.
(** Frames to be sent, and messages with received frames, get to the other process
    unchanged, once and in order; nothing is missing but what is under way. *)
Theorem C126_order room starts cfg t es s : isteps room starts cfg (ipc_start t) es s ->
  put es = acted_on es ++ i_out s /\ due es = taken es ++ i_in s ++ to_hand_over s.
Proof. exact (in_order room starts cfg t es s). Qed.
Print Assumptions C126_order.
(** The privileged process does what it does when its requests and frames come one after
    the other: its sockets, its end, and every answer are those of such a history. *)
Theorem C126_parent room starts cfg t es s : isteps room starts cfg (ipc_start t) es s ->
  let r := parent_run cfg [] (parent_saw es) in
  i_fds s = r_fds r /\ (i_parent s = PEnd <-> r_alive r = false)
  /\ forall es1 d os a es2, es = es1 ++ IServe d os a :: es2 ->
       a = parent_reply d os (parent_req cfg (r_fds (parent_run cfg [] (parent_saw es1))) d os).
Proof. exact (as_alone room starts cfg t es s). Qed.
Print Assumptions C126_parent.
(** Put together with C118: take any history of the child, performed while the privileged
    process runs.  Neither ends, and what gets on the wire is what was to be advertised, each frame once at
    most and in order; if the interfaces exist and sockets can be had, nothing is missing
    when the child is back in its loop and its frames have been read. *)
Theorem C126_wire room starts cfg st evs st' effs pcfg t es s :
  running cfg st -> Forall event_ok evs -> send_run cfg st evs = DOk (st', effs) ->
  isteps room starts pcfg (ipc_start t) es s -> t :: begun es = map tree_of effs -> Forall able (parent_saw es) ->
  let wire := on_wire (r_eff (parent_run pcfg [] (parent_saw es))) in
  both_live s /\ some_of wire (map target (advertised effs))
  /\ (has (pc_opts pcfg) OPT_DEBUG = false -> (forall d os, In (PSend d os) (parent_saw es) -> workable os) ->
      exists rest, map target (advertised effs) = wire ++ rest /\ (i_child s = Run TLoop -> i_out s = [] -> rest = [])).
Proof. exact (wire_at_once room starts cfg st evs st' effs pcfg t es s). Qed.
Print Assumptions C126_wire.
(** The host with the bond: two runs of child_send, six requests and six frames, while a CDP
    packet comes in on eth0 and is handed over between the requests. *)
Definition ff_run : list turn := [XChild; XServe e_os; XParent; XChild; XChild].
Definition ff_turns : list turn :=
  [XChild; XServe e_os; XParent; XCapture [c_cdp; c_cdp]; XChild; XChild; XParent; XChild; XParent; XParent; XServe e_os; XParent; XChild; XChild; XSend e_os]
  ++ ff_run ++ [XBegin (tree_of (nth 1 e_effs []))] ++ ff_run ++ [XSend e_os; XSend e_os] ++ ff_run ++ [XSend e_os] ++ ff_run ++ [XSend e_os].
Definition ff_seen (es : list ievent) (s : ipc) : bool :=
  match i_child s, i_parent s with Run TLoop, PIdle => true | _, _ => false end
  && (zlen (requests es) =? 6) && (zlen (answers es) =? 6) && (zlen (put es) =? 6) && (zlen (acted_on es) =? 5) && (zlen (i_out s) =? 1)
  && (zlen (due es) =? 2) && (zlen (i_in s) =? 2) && (zlen (i_fds s) =? 3)
  && beq (map fst (on_wire (r_eff (parent_run ip_cfg [] (parent_saw es))))) [1; 2; 3; 1; 2].
Example C126_case :
  running w_cfg w_st1 /\ Forall event_ok [w_run; w_run] /\ send_run w_cfg w_st1 [w_run; w_run] = DOk (e_st, e_effs)
  /\ has (pc_opts ip_cfg) OPT_DEBUG = false
  /\ exists es s, isteps ip_room (fun t => In t (map tree_of e_effs)) ip_cfg (ipc_start (tree_of (nth 0 e_effs []))) es s
     /\ tree_of (nth 0 e_effs []) :: begun es = map tree_of e_effs /\ Forall able (parent_saw es)
     /\ (forall d os, In (PSend d os) (parent_saw es) -> workable os) /\ ff_seen es s = true.
Proof.
  split; [exact w_st1_running|]. split; [repeat (apply Forall_cons; [exact w_run_ok|]); apply Forall_nil|].
  split; [vm_compute; reflexivity|]. split; [reflexivity|].
  apply (turns_all ip_room (fun t => In t (map tree_of e_effs)) ip_cfg (tree_of (nth 0 e_effs [])) ff_turns e_effs e_os ff_seen).
  - vm_compute. reflexivity.
  - repeat (apply Forall_cons; [exact I || (right; left; reflexivity)|]). apply Forall_nil.
  - repeat (apply Forall_cons; [exact I || reflexivity|]). apply Forall_nil.
  - reflexivity.
  - reflexivity.
  - exact e_workable.
Qed.
