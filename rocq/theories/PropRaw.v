(** The raw sockets in memory: C124. *)
From Verif Require Import Base Types Tlv Checks Wire Parent RawMem SpecRaw Cases Cases2 Cases3 PropNet RawProofs.

(** C124: no history of requests, frames and packets touches a socket that was freed, frees
    one twice or takes an event away that is not there. *)
Theorem C124_safe cfg es : exists st eff msgs alive, raw_run cfg raw_start es = DOk (st, eff, msgs, alive).
Proof. exact (raw_safe cfg es). Qed.
Print Assumptions C124_safe.
(** Every block in use is in the list, once. *)
Theorem C124_owned cfg st : lives cfg st ->
  NoDup (map fst (rs_mem st)) /\ rs_list st = map fst (rs_mem st) /\ exists fds, sockets_are st fds.
Proof. exact (raw_owned cfg st). Qed.
Print Assumptions C124_owned.
(** What a datagram of the child does through the pointers is what it does to the plain
    list of sockets, which the other theorems on the privileged process speak of. *)
Theorem C124_refines cfg st fds e : lives cfg st -> sockets_are st fds ->
  exists st', raw_step cfg st (RChild e) = DOk (st', r_eff (parent_step cfg fds e), [], r_alive (parent_step cfg fds e))
  /\ sockets_are st' (r_fds (parent_step cfg fds e)).
Proof. exact (raw_refines cfg st fds e). Qed.
Print Assumptions C124_refines.
(** The loop waits for each socket of the list once, with its descriptor, and for nothing
    else. *)
Theorem C124_events cfg st : lives cfg st ->
  NoDup (map snd (rs_events st))
  /\ forall fd p, In (fd, p) (rs_events st) <-> reads cfg /\ exists r, In p (rs_list st) /\ at_ptr st p r /\ rf_fd r = fd.
Proof. exact (raw_events cfg st). Qed.
Print Assumptions C124_events.
(** Packets of any socket reach the child under the index of that socket's interface. *)
Theorem C124_heard cfg st fds i r captured ok : lives cfg st -> sockets_are st fds -> reads cfg -> nth_error fds i = Some r ->
  exists alive, raw_step cfg st (RPackets i captured ok) = DOk (st, [], parent_recv (rf_index r) captured, alive)
  /\ (ok = true -> alive = true).
Proof. exact (raw_heard cfg st fds i r captured ok). Qed.
Print Assumptions C124_heard.
(** At the end each socket is closed once and nothing is kept. *)
Theorem C124_quits cfg st fds : lives cfg st -> sockets_are st fds ->
  exists n eff, raw_quit cfg st = DOk (mkRst [] [] [] n, eff) /\ closed_in eff = map rf_index fds.
Proof. exact (raw_quits_closed cfg st fds). Qed.
Print Assumptions C124_quits.

(** Sockets for interfaces 4, 3 and 6; that of 3 is closed between packets of the
    others; one cannot be opened.  Then those left receive, and all is closed. *)
Definition ra_os (fd : Z) : pos := mkPos (Some (bs "eth0")) (SockFd fd) 100 false true [] 5 None [] None true.
Definition ra_no : pos := mkPos (Some (bs "eth0")) SockFail 100 false true [] 5 None [] None true.
Definition ra_es : list revent :=
  [RChild (PReq (t_req 0 4 0 []) (ra_os 8)); RChild (PSend t_dgram (ra_os 9)); RChild (PReq (t_req 0 6 0 []) (ra_os 10));
   RPackets 1 [c_cdp] true; RChild (PReq (t_req 1 3 0 []) (ra_os 0)); RChild (PReq (t_req 0 7 0 []) ra_no);
   RPackets 1 [c_cdp] true].
Definition ra_st : rst := mkRst [(0, mkRaw 4 (bs "eth0") 8 true); (2, mkRaw 6 (bs "eth0") 10 true)] [0; 2] [(8, 0); (10, 2)] 4.
Example C124_case : lives t_cfg ra_st /\ sockets_are ra_st [mkRaw 4 (bs "eth0") 8 true; mkRaw 6 (bs "eth0") 10 true] /\ reads t_cfg
  /\ (exists eff, raw_run t_cfg raw_start ra_es = DOk (ra_st, eff, parent_recv 3 [c_cdp] ++ parent_recv 6 [c_cdp], true))
  /\ (exists eff, raw_quit t_cfg ra_st = DOk (mkRst [] [] [] 4, eff) /\ In (EClose 4) eff /\ In (EClose 6) eff).
Proof.
  assert (R : exists eff, raw_run t_cfg raw_start ra_es = DOk (ra_st, eff, parent_recv 3 [c_cdp] ++ parent_recv 6 [c_cdp], true)).
  { eexists. vm_compute. reflexivity. }
  split; [destruct R as [eff R]; now exists ra_es, eff, (parent_recv 3 [c_cdp] ++ parent_recv 6 [c_cdp])|].
  split; [repeat (apply Forall2_cons; [vm_compute; tauto|]); apply Forall2_nil|]. split; [split; vm_compute; reflexivity|].
  split; [exact R|]. eexists. split; [vm_compute; reflexivity|]. cbn. tauto.
Qed.
(** The model tells a wrong order apart: a socket freed while the loop still waits for it
    is read after it was freed. *)
Example C124_stale :
  raw_step t_cfg (mkRst [] [] [(8, 0)] 4) (RPackets 0 [c_cdp] true) = DUB
  /\ raw_step t_cfg (mkRst [(0, mkRaw 4 (bs "eth0") 8 true)] [0; 2] [(8, 0)] 4) (RChild (PReq (t_req 1 3 0 []) (ra_os 0))) = DUB.
Proof. split; vm_compute; reflexivity. Qed.
