(** The interfaces in memory: C114. *)
From Verif Require Import Base Types Tlv Util Netif Child NetMem SpecNetif SpecNetMem SpecWalk Cases5.
From Verif Require Import NetMemProofs3.

(** C114.  A refresh of a sound table touches no block that is not in use and leaves a
    sound table again.  Reading pointers as the interfaces they refer to, it does what
    the refresh without pointers does. *)
Theorem C114_refresh cfg os st : sound st ->
  exists ret st' gone, m_fetch cfg os st = Some (ret, st', gone) /\ sound st'
    /\ netif_fetch cfg os (table_of st) (sysinfo_of st) = (ret, table_of st', sysinfo_of st', gone).
Proof. exact (fetch_ok cfg os st). Qed.
Print Assumptions C114_refresh.
(** After any history there is one block for each interface listed and no other, and
    each pointer refers to a listed interface; *)
Theorem C114_history cfg oss st : visited cfg oss st -> sound st.
Proof. exact (visited_sound cfg oss st). Qed.
Print Assumptions C114_history.
(** and the next refresh succeeds, whatever the operating system answers. *)
Theorem C114_goes_on cfg oss st os : visited cfg oss st ->
  exists ret st' gone, m_fetch cfg os st = Some (ret, st', gone) /\ visited cfg (oss ++ [os]) st'.
Proof. exact (visited_goes_on cfg oss st os). Qed.
Print Assumptions C114_goes_on.
(** The loops over the interfaces, *)
Theorem C114_iteration opts st k : sound st ->
  m_iter opts None (ns_list st) (ns_mem st)
  = Some (match netif_iter opts None (table_of st) with Some j => nth_error (ns_list st) j | None => None end)
  /\ forall a, nth_error (ns_list st) k = Some a ->
     m_iter opts (Some a) (ns_list st) (ns_mem st)
     = Some (match netif_iter opts (Some k) (table_of st) with Some j => nth_error (ns_list st) j | None => None end).
Proof. intros H. split; [exact (iter_first opts st H)|]. intros a. exact (iter_next opts st k a H). Qed.
Print Assumptions C114_iteration.
(** each call in a loop over members, *)
Theorem C114_members st a n k : sound st -> ns_mem st a = Some n ->
  exists r, m_call k a (ns_mem st) = Some r /\
    match r with
    | Some s => exists ns, ns_mem st s = Some ns /\ call k (shown (ns_mem st) n) (table_of st) = Some (shown (ns_mem st) ns)
    | None => call k (shown (ns_mem st) n) (table_of st) = None
    end.
Proof. intros H1 H2. exact (subif_ok st a n H1 H2 k). Qed.
Print Assumptions C114_members.
(** and the parent of a member: all touch only blocks in use and find what the functions
    without pointers find. *)
Theorem C114_parent st a n : sound st -> ns_mem st a = Some n ->
  exists t nt, m_top a (ns_mem st) = Some t /\ ns_mem st t = Some nt
    /\ top_of (table_of st) (shown (ns_mem st) n) = shown (ns_mem st) nt.
Proof. exact (top_ok st a n). Qed.
Print Assumptions C114_parent.

(** The host of C47: six interfaces are found, then the second member of bond0 (at 102)
    vanishes, is freed, and comes back at another address. *)
Definition a_start : nst := mkNst [] (fun _ => None) 100 (set_mnetif None v_si).
Definition a_next (os : nos) (st : nst) : nst :=
  match m_fetch v_cfg os st with Some (_, st', _) => st' | None => st end.
Definition a_st1 := a_next v_os1 a_start.
Definition a_st2 := a_next v_os2 a_st1.
Definition a_st3 := a_next v_os1 a_st2.
Definition a_ptrs (f : netif -> option Z) (st : nst) : list (option Z) := map f (blocks (ns_list st) (ns_mem st)).
Lemma a_step os st : (match m_fetch v_cfg os st with Some _ => true | None => false end) = true ->
  exists ret gone, m_fetch v_cfg os st = Some (ret, a_next os st, gone).
Proof. unfold a_next. destruct (m_fetch v_cfg os st) as [[[ret st'] gone]|]; [|discriminate]. intros _. now exists ret, gone. Qed.
Lemma a_visited : visited v_cfg [v_os1; v_os2; v_os1] a_st3.
Proof.
  destruct (a_step v_os1 a_start) as (r1 & g1 & E1); [vm_compute; reflexivity|].
  destruct (a_step v_os2 a_st1) as (r2 & g2 & E2); [vm_compute; reflexivity|].
  destruct (a_step v_os1 a_st2) as (r3 & g3 & E3); [vm_compute; reflexivity|].
  refine (vis_fetch _ [v_os1; v_os2] _ _ _ _ _ _ E3). refine (vis_fetch _ [v_os1] _ _ _ _ _ _ E2).
  refine (vis_fetch _ [] _ _ _ _ _ _ E1). apply vis_start. reflexivity.
Qed.
Example C114_case :
  visited v_cfg [v_os1; v_os2; v_os1] a_st3 /\ sound a_st3
  /\ ns_list a_st1 = [100; 101; 102; 103; 104; 105]
  /\ a_ptrs nf_parent a_st1 = [Some 105; Some 103; Some 103; None; None; None]
  /\ a_ptrs nf_subif a_st1 = [None; Some 102; None; Some 101; None; Some 100]
  /\ si_mnetif (ns_si a_st1) = Some 103
  /\ ns_list a_st2 = [100; 101; 103; 104; 105]
  /\ a_ptrs nf_subif a_st2 = [None; None; Some 101; None; Some 100]
  /\ option_map nf_index (ns_mem a_st2 102) = None
  /\ ns_list a_st3 = [100; 101; 103; 104; 105; 106]
  /\ a_ptrs nf_subif a_st3 = [None; Some 106; Some 101; None; Some 100; None]
  /\ map (fun k => m_call k 103 (ns_mem a_st3)) [0; 1; 2]%nat = [Some (Some 101); Some (Some 106); Some None]
  /\ m_top 106 (ns_mem a_st3) = Some 103
  /\ m_iter 0 None (ns_list a_st3) (ns_mem a_st3) = Some (Some 103)
  /\ map nf_subif (table_of a_st3) = [None; Some 3; Some 2; None; Some 1; None].
Proof.
  split; [exact a_visited|]. split; [exact (C114_history _ _ _ a_visited)|]. vm_compute. repeat split.
Qed.
