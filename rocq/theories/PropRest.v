(** When nothing comes from outside any more: C127. *)
From Verif Require Import Base Types Tlv Checks Wire Parent Netif Mreq Util Child Send Ipc SpecIpc SpecSend SpecOnce SpecJoint SpecFifo SpecRest
  Cases Cases2 Cases3 Cases6 Conformance SendProofs6 PropNet PropJoint PropIpc PropFifo RestProofs FifoRun RestRun.

(** C127.  Between them the two processes do not go on for ever: if they run for ever,
    events and packets come again and again. *)
Theorem C127_comes_to_rest room starts cfg (f : nat -> ipc) (es : nat -> ievent) :
  (forall n, istep room starts cfg (f n) (es n) (f (S n))) -> forall m, exists n, (m <= n)%nat /\ outside (es n).
Proof. exact (again_outside room starts cfg f es). Qed.
Print Assumptions C127_comes_to_rest.
(** From every state they can go on until only such an event makes them do anything. *)
Theorem C127_settles room starts cfg s : (exists t, starts t) ->
  exists es s', isteps room starts cfg s es s' /\ Forall (fun e => ~ outside e) es /\ settled room starts cfg s'.
Proof. exact (fun St => gets_settled room starts cfg St s). Qed.
Print Assumptions C127_settles.
(** And when they are there, in whatever way, and the frames received fit into the socket
    to the child: both are in their loops, every request has its answer, every frame put
    was acted on and every message due was read. *)
Theorem C127_delivered room starts cfg t es s n es' s' :
  takes_one room -> (exists t, starts t) -> holds room n -> isteps room starts cfg (ipc_start t) es s -> (pending s <= n)%nat ->
  isteps room starts cfg s es' s' -> Forall (fun e => ~ outside e) es' -> settled room starts cfg s' -> both_live s' ->
  let all := es ++ es' in
  at_rest s' /\ put all = acted_on all /\ due all = taken all
  /\ length (answers all) = length (requests all) /\ served all = combine (requests all) (map Some (answers all)).
Proof. exact (delivered room starts cfg t es s n es' s'). Qed.
Print Assumptions C127_delivered.
(** So the wire has got all that any history of child_send had to advertise. *)
Theorem C127_wire room starts cfg st evs st' effs pcfg t es s n :
  takes_one room -> (exists t, starts t) -> holds room n ->
  running cfg st -> Forall event_ok evs -> send_run cfg st evs = DOk (st', effs) ->
  isteps room starts pcfg (ipc_start t) es s -> t :: begun es = map tree_of effs -> Forall able (parent_saw es) ->
  has (pc_opts pcfg) OPT_DEBUG = false -> (forall d os, In (PSend d os) (parent_saw es) -> workable os) ->
  (pending s <= n)%nat -> settled room starts pcfg s ->
  on_wire (r_eff (parent_run pcfg [] (parent_saw es))) = map target (advertised effs).
Proof. exact (wire_all room starts cfg st evs st' effs pcfg t es s n). Qed.
Print Assumptions C127_wire.

(** The first run on the host with the bond.  Two CDP packets come when its first request
    has been answered; then nothing more. *)
Definition rr_first : list turn := [XChild; XServe e_os; XParent; XCapture [c_cdp; c_cdp]].
Definition rr_then : list turn :=
  [XChild; XChild; XParent; XChild; XParent; XParent; XServe e_os; XParent; XChild; XChild; XSend e_os] ++ ff_run ++ [XSend e_os; XSend e_os; XTake TLoop; XTake TLoop].
Definition rr_starts (t : ctree) : Prop := In t (TLoop :: map tree_of e_effs).
Example C127_case :
  takes_one ip_room /\ holds ip_room 10 /\ (exists t, rr_starts t)
  /\ exists es s es' s', isteps ip_room rr_starts ip_cfg (ipc_start (tree_of ip_eff)) es s /\ (pending s <= 10)%nat
     /\ isteps ip_room rr_starts ip_cfg s es' s' /\ Forall (fun e => ~ outside e) es' /\ settled ip_room rr_starts ip_cfg s' /\ both_live s'
     /\ ((zlen (i_out s) =? 0) && (Z.of_nat (pending s) =? 2) && (zlen (taken es') =? 2) && (zlen (acted_on es') =? 3) && (zlen (answers es') =? 3)) = true.
Proof.
  split; [intros d; reflexivity|]. split; [intros q d H; unfold ip_room, zlen; apply Z.ltb_lt; lia|]. split; [exists TLoop; now left|].
  apply (turns_rest ip_room rr_starts ip_cfg (tree_of ip_eff) rr_first rr_then 10).
  - vm_compute. reflexivity.
  - repeat (apply Forall_cons; [exact I || (left; reflexivity)|]). apply Forall_nil.
  - reflexivity.
Qed.
(** Two runs, all six frames. *)
Definition rr_all : list turn :=
  ff_run ++ [XSend e_os] ++ ff_run ++ ff_run ++ [XBegin (tree_of (nth 1 e_effs [])); XSend e_os] ++ ff_run ++ ff_run ++ ff_run ++ [XSend e_os; XSend e_os; XSend e_os; XSend e_os].
Example C127_wire_case :
  running w_cfg w_st1 /\ Forall event_ok [w_run; w_run] /\ send_run w_cfg w_st1 [w_run; w_run] = DOk (e_st, e_effs)
  /\ has (pc_opts ip_cfg) OPT_DEBUG = false
  /\ exists es s, isteps ip_room rr_starts ip_cfg (ipc_start (tree_of (nth 0 e_effs []))) es s
     /\ tree_of (nth 0 e_effs []) :: begun es = map tree_of e_effs /\ Forall able (parent_saw es)
     /\ (forall d os, In (PSend d os) (parent_saw es) -> workable os) /\ (pending s <= 10)%nat /\ settled ip_room rr_starts ip_cfg s
     /\ beq (map fst (on_wire (r_eff (parent_run ip_cfg [] (parent_saw es))))) [1; 2; 3; 1; 2; 3] = true.
Proof.
  split; [exact w_st1_running|]. split; [repeat (apply Forall_cons; [exact w_run_ok|]); apply Forall_nil|].
  split; [vm_compute; reflexivity|]. split; [reflexivity|].
  apply (turns_wire ip_room rr_starts ip_cfg (tree_of (nth 0 e_effs [])) rr_all e_effs e_os 10
           (fun es s => beq (map fst (on_wire (r_eff (parent_run ip_cfg [] (parent_saw es))))) [1; 2; 3; 1; 2; 3])).
  - vm_compute. reflexivity.
  - repeat (apply Forall_cons; [exact I || (right; right; left; reflexivity)|]). apply Forall_nil.
  - repeat (apply Forall_cons; [exact I || reflexivity|]). apply Forall_nil.
  - reflexivity.
  - reflexivity.
  - exact e_workable.
Qed.
(** A run without end: a timer again and again. *)
Example C127_forever_case : forall n : nat,
  istep ip_room rr_starts ip_cfg ((fun _ => ipc_start TLoop) n) ((fun _ => IBegin TLoop) n) ((fun _ => ipc_start TLoop) (S n)).
Proof. intros n. apply c_event. now left. Qed.
