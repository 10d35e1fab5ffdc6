(** The two processes together: C118 and C119. *)
From Verif Require Import Base Types Wire Util Child Parent Netif Mreq Send Spec SpecNet SpecNetif SpecMreq SpecSend SpecOnce SpecJoint
  Lemmas Cases2 Cases3 Cases4 Cases6 Conformance SendProofs6 PropNet PropSend JointProofs JointProofs2.

(** C118.  Take any history of the advertising process, and any history of the
    privileged one in which the frames of the former arrive in order, mixed in any
    way with its requests, whatever the operating system answers.  The privileged
    process lives, what it gives to the kernel is what was to be advertised, each
    frame once at most, in order and unchanged and on its own interface; and if
    the interfaces exist and sockets can be had, nothing is missing but what it has
    not read yet. *)
Theorem C118_wire cfg st es st' effs pcfg fds pes rest :
  running cfg st -> Forall event_ok es -> send_run cfg st es = DOk (st', effs) ->
  handles pcfg (advertised effs) pes rest ->
  let r := parent_run pcfg fds pes in
  r_alive r = true
  /\ some_of (on_wire (r_eff r)) (map target (advertised effs))
  /\ (has (pc_opts pcfg) OPT_DEBUG = false -> (forall d os, In (PSend d os) pes -> workable os) ->
      map target (advertised effs) = on_wire (r_eff r) ++ map target rest).
Proof. exact (wire cfg st es st' effs pcfg fds pes rest). Qed.
Print Assumptions C118_wire.
(** Two runs on the host with the bond, six frames; the first comes before eth0 has
    a socket, a request to open it follows, and two have not been read. *)
Definition e_effs : list (list seff) := Eval vm_compute in
  match send_run w_cfg w_st1 [w_run; w_run] with DOk (_, e) => e | _ => [] end.
Definition e_st : sstate := Eval vm_compute in match send_run w_cfg w_st1 [w_run; w_run] with DOk (s, _) => s | _ => w_st1 end.
Definition e_all : list (Z * Z * list Z) := Eval vm_compute in advertised e_effs.
Definition e_os : pos := t_os (Some (bs "eth0")).
Definition e_send (x : Z * Z * list Z) : pevent := PSend (frame_dgram (fst (fst x)) (snd (fst x)) (snd x)) e_os.
Definition e_pes : list pevent :=
  match e_all with a :: b :: c :: d :: _ => [e_send a; PReq (mreq_out (q_open 1)) e_os; e_send b; e_send c; e_send d] | _ => [] end.
Definition e_rest : list (Z * Z * list Z) := skipn 4 e_all.
Lemma e_workable : workable e_os.
Proof. split; [discriminate|]. exists 9. split; [reflexivity|lia]. Qed.
Lemma e_handles : handles t_cfg (advertised e_effs) e_pes e_rest.
Proof.
  split.
  - exists (firstn 4 e_all). split; [symmetry; exact (firstn_skipn 4 e_all)|]. reflexivity.
  - apply Forall_cons; [discriminate|]. apply Forall_cons.
    { split; [discriminate|]. split; [reflexivity|]. exists (q_open 1). split; [constructor|]. split; [cbn; lia|reflexivity]. }
    repeat (apply Forall_cons; [discriminate|]). apply Forall_nil.
Qed.
Example C118_case :
  running w_cfg w_st1 /\ Forall event_ok [w_run; w_run]
  /\ send_run w_cfg w_st1 [w_run; w_run] = DOk (e_st, e_effs)
  /\ handles t_cfg (advertised e_effs) e_pes e_rest
  /\ has (pc_opts t_cfg) OPT_DEBUG = false /\ (forall d os, In (PSend d os) e_pes -> workable os)
  /\ map fst e_all = [(1, 0); (2, 0); (3, 0); (1, 0); (2, 0); (3, 0)]
  /\ map fst (on_wire (r_eff (parent_run t_cfg [] e_pes))) = [1; 2; 3; 1].
Proof.
  split; [exact w_st1_running|]. split; [repeat (apply Forall_cons; [exact w_run_ok|]); apply Forall_nil|].
  split; [vm_compute; reflexivity|]. split; [exact e_handles|]. split; [reflexivity|]. split.
  - intros d os H. assert (E : os = e_os).
    { destruct H as [H|[H|[H|[H|[H|[]]]]]]; try discriminate H; apply (f_equal (fun e => match e with PSend _ o => o | PReq _ o => o end)) in H; symmetry; exact H. }
    rewrite E. exact e_workable.
  - split; vm_compute; reflexivity.
Qed.

(** C119.  A periodic run that gets the interface list asks for a raw socket on
    every interface to listen on, and closes only those of interfaces that are
    gone; once such a request is answered by a privileged process that can open
    sockets, it has a socket for the interface, until it is told to close it or a
    frame cannot be sent because the interface is gone. *)
Theorem C119_listening cfg os now st nfs si :
  running cfg st -> os_ok os -> refresh cfg os st nfs si -> consistent os nfs ->
  let eff := snd (child_send cfg os NETIF_INDEX_MAX true now st) in
  opens eff = listened cfg os nfs
  /\ (forall i, In i (closes eff) <-> In i (indices (table st)) /\ ~ usable os i)
  /\ (forall i, In i (listened cfg os nfs) -> ~ In i (closes eff)
      /\ forall pcfg fds pes1 pos pes2, workable pos -> Forall (fun e => ~ loses i e) pes2 ->
         let r := parent_run pcfg fds (pes1 ++ PReq (mreq_out (q_open i)) pos :: pes2) in
         r_alive r = true -> listens (r_fds r) i).
Proof. exact (listening cfg os now st nfs si). Qed.
Print Assumptions C119_listening.
(** On the host with the bond: eth0 and the members, but eth0 no more once CDP was
    heard there; after the requests come four frames. *)
Definition e_tab : list netif := Eval vm_compute in fst (w_next w_cfg w_osb w_st1).
Definition e_si : sysinfo := Eval vm_compute in snd (w_next w_cfg w_osb w_st1).
Definition e_tab0 : list netif := Eval vm_compute in
  fst (w_next w_cfg w_osb (w_after w_cfg w_st1 (EvChild (CRecv (u_in 1 c_cdp) 1005 1005)))).
Definition e_open (i : Z) : pevent := PReq (mreq_out (q_open i)) e_os.
Example C119_case :
  running w_cfg w_st1 /\ os_ok w_osb /\ refresh w_cfg w_osb w_st1 e_tab e_si /\ consistent w_osb e_tab
  /\ listened w_cfg w_osb e_tab = [1; 2; 3] /\ listened w_cfg w_osb e_tab0 = [2; 3]
  /\ workable e_os /\ Forall (fun e => ~ loses 2 e) (e_open 3 :: e_pes)
  /\ r_alive (parent_run t_cfg [] ([e_open 1] ++ e_open 2 :: e_open 3 :: e_pes)) = true.
Proof.
  split; [exact w_st1_running|]. split; [exact w_run_ok|]. split; [exists 4, []; split; [vm_compute; reflexivity|discriminate]|].
  split; [apply w_consistent; vm_compute; reflexivity|]. split; [vm_compute; reflexivity|]. split; [vm_compute; reflexivity|].
  split; [exact e_workable|]. split; [|vm_compute; reflexivity].
  assert (S : forall x, ~ loses 2 (e_send x)) by (intros x (_ & _ & H); discriminate H).
  apply Forall_cons; [intros (_ & H); vm_compute in H; discriminate H|].
  apply Forall_cons; [apply S|]. apply Forall_cons; [intros (_ & H); vm_compute in H; discriminate H|].
  repeat (apply Forall_cons; [apply S|]). apply Forall_nil.
Qed.
