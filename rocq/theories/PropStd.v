(** LLDP frames follow the standards: C131. *)
From Verif Require Import Base Types Tlv Checks Wire Protos Util Child Netif Parent Sysinfo Send Spec SpecSend SpecMtu SpecTags SpecStd
  Cases Cases2 Cases3 Cases4 Cases6 Conformance StdProofs Cases15 PropTags.

(** C131.  Whatever the machine, the configuration, the neighbours and the clients: the
    TLVs of every LLDP frame sent follow the rules of the standards. *)
Theorem C131_standard cfg st e st' eff i f :
  running cfg st -> event_ok e -> send_step cfg st e = DOk (st', eff) -> In (SFrame i 0 f) eff ->
  exists tlvs, lldp_tlvs f tlvs /\ conforming tlvs /\ (NoDup (map nf_name (table st')) -> NoDup (vlan_names tlvs)).
Proof. exact (std_sent cfg st e st' eff i f). Qed.
Print Assumptions C131_standard.

(** eth0 of C104: a port of a bridge with a VLAN. *)
Definition sd_st : sstate := Eval vm_compute in w_after n_cfg w_st0 (EvRun (n_os [1] false) 1000).
Lemma sd_step cfg os t st : send_step cfg st (EvRun os t) = DOk (fst (child_send cfg os 4294967295 true t st), snd (child_send cfg os 4294967295 true t st)).
Proof. cbn [send_step]. now destruct (child_send _ _ _ _ _ _). Qed.
Example C131_case :
  running n_cfg w_st0 /\ event_ok (EvRun (n_os [1] false) 1000)
  /\ (exists eff, send_step n_cfg w_st0 (EvRun (n_os [1] false) 1000) = DOk (sd_st, eff) /\ In (SFrame 1 0 n_f1) eff)
  /\ lldp_tlvs n_f1 n_t1 /\ NoDup (map nf_name (table sd_st))
  /\ map fst n_t1 = [1; 2; 3; 4; 5; 6; 7; 8; 127; 127; 127; 127; 127; 127; 0]
  /\ map kind_of (values 127 n_t1) = [[0; 128; 194; 3]; [0; 18; 15; 1]; [0; 18; 15; 4]; [0; 18; 187; 1]; [0; 18; 187; 3]; [0; 18; 187; 7]].
Proof.
  split; [apply w_boot|]. split; [apply n_os_ok|].
  split. { exists (snd (child_send n_cfg (n_os [1] false) 4294967295 true 1000 w_st0)). split; [|exact n_in1].
           replace sd_st with (fst (child_send n_cfg (n_os [1] false) 4294967295 true 1000 w_st0)) by (vm_compute; reflexivity).
           apply sd_step. }
  split; [exact n_t1_ok|]. split; [vm_compute; repeat (constructor; [cbn; intuition discriminate|]); constructor|].
  split; vm_compute; reflexivity.
Qed.
(** What is not a conforming list: no end, a TLV twice, an enabled capability that is not
    there. *)
Example C131_wrong :
  let a := [(1, [4; 2; 0; 0; 0; 0; 1]); (2, 5 :: bs "eth0"); (3, U16 180)] in
  ~ conforming a /\ ~ conforming (a ++ [(5, bs "a"); (5, bs "b"); (0, [])]) /\ ~ conforming (a ++ [(7, [0; 4; 0; 16]); (0, [])]).
Proof.
  cbv zeta. split; [|split]; intros H.
  - destruct (std_order _ H) as (c & p & t & o & E & _). apply (f_equal (@rev tlv)) in E. rewrite !rev_app_distr in E. discriminate E.
  - pose proof (std_once _ H 5 ltac:(cbn; tauto)) as K. vm_compute in K. now apply K.
  - destruct (std_caps _ H [0; 4; 0; 16] ltac:(now left)) as (c & x & E & C1 & C2 & C3 & _).
    unfold U16 in E. cbn [app] in E. injection E as E1 E2 E3 E4.
    assert (c = 4) by lia. assert (x = 16) by lia. subst. pose proof (C3 4 eq_refl) as C. discriminate C.
Qed.
