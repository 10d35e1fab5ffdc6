(** LLDP frames from FreeBSD and OpenBSD follow the standards: C139. *)
From Verif Require Import Base Types Tlv Wire Util Child Netif Sysinfo Send Bsd HostBsd BsdSend
  Spec SpecAdv SpecNetif SpecSend SpecSys SpecMtu SpecTags SpecStd SpecBsd SpecHostBsd SpecBsdSend
  Cases14 Cases15 PropTags PropBsdSend PropBsdE2E BsdStdProofs.

(** C139.  Whatever the machine, the configuration, the neighbours and the clients: the
    TLVs of every LLDP frame sent follow the rules of the standards (those of C131). *)
Theorem C139_standard cfg pf st e st' eff i f :
  b_running cfg pf st -> b_event_ok e -> bc_step cfg pf st e = DOk (st', eff) -> In (SFrame i 0 f) eff ->
  exists tlvs, lldp_tlvs f tlvs /\ conforming tlvs /\ (NoDup (map nf_name (table st')) -> NoDup (vlan_names tlvs)).
Proof. exact (b_std_sent cfg pf st e st' eff i f). Qed.
Print Assumptions C139_standard.

(** igb0 of C138, a member of lagg0. *)
Definition bt_t : list tlv := Eval vm_compute in n_lldp be_frame.
Example C139_case :
  b_running bd_cfg FreeBSD bd_st0 /\ b_event_ok (BRun f_os1 100) /\ bc_step bd_cfg FreeBSD bd_st0 (BRun f_os1 100) = DOk be_run
  /\ In (SFrame 1 0 be_frame) (snd be_run)
  /\ lldp_tlvs be_frame bt_t /\ NoDup (map nf_name (table (fst be_run)))
  /\ map fst bt_t = [1; 2; 3; 5; 6; 7; 8; 8; 127; 127; 127; 127; 127; 127; 127; 0]
  /\ map kind_of (values 127 bt_t)
     = [[0; 18; 15; 1]; [0; 18; 15; 3]; [0; 18; 15; 4]; [0; 18; 187; 1]; [0; 18; 187; 3]; [0; 18; 187; 7]; [0; 18; 187; 9]].
Proof.
  split; [apply bd_boot|]. split; [exact f_os1_ok|]. split; [vm_compute; reflexivity|]. split; [vm_compute; auto 20|].
  split; [apply n_lldp_ok; vm_compute; reflexivity|]. split; [vm_compute; repeat (constructor; [cbn; intuition discriminate|]); constructor|].
  split; vm_compute; reflexivity.
Qed.
