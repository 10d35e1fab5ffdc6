(** Sequence numbers of EDP frames: C132. *)
From Verif Require Import Base Types Tlv Wire Protos Util Child Netif Parent Sysinfo Send Spec SpecSend SpecSeq
  Cases Cases2 Cases3 Cases4 Cases6 SeqProofs PropRepeat.

(** C132.  Whatever happens: each EDP frame sent has a higher sequence number than all EDP
    frames before it, modulo 65536, on whichever interface they went; the daemon remembers
    where it is. *)
Theorem C132_numbers cfg st es st' effs :
  running cfg st -> Forall event_ok es -> send_run cfg st es = DOk (st', effs) ->
  exists m, growing (st_edp st) (edp_numbers effs) m /\ st_edp st' = m mod 65536.
Proof. intros R F H. exact (run_growing cfg es st st' effs (st_edp st) R F H (running_edp cfg st R)). Qed.
Print Assumptions C132_numbers.

(** They follow one another without gaps while the host never has more than 37 VLAN
    interfaces.  Missing: any number of them, see below. *)
Theorem C132_consecutive_partial cfg st es st' effs :
  running cfg st -> Forall event_ok es -> send_run cfg st es = DOk (st', effs) ->
  (forall a b st1 effs1, es = a ++ b -> send_run cfg st a = DOk (st1, effs1) -> vlan_count st1 <= 37) ->
  exists m, consecutive (st_edp st) (edp_numbers effs) m /\ st_edp st' = m mod 65536.
Proof. intros R F H V. exact (run_consecutive cfg es st st' effs (st_edp st) R F H V (running_edp cfg st R)). Qed.
Print Assumptions C132_consecutive_partial.

(** Two runs on the host with a bond, with a neighbour between them: the first run takes
    the numbers 0 to 2, the second 3 to 5. *)
Definition sq_events : list sevent := [EvRun w_osb 1000; w_heard; EvRun w_osb 1030].
Lemma sq_ok es : In es [[]; [EvRun w_osb 1000]; [EvRun w_osb 1000; w_heard]; sq_events] ->
  exists st' effs, send_run rp_cfg w_st0 es = DOk (st', effs) /\ vlan_count st' = 0.
Proof.
  intros H. assert (K : match send_run rp_cfg w_st0 es with DOk (s, _) => vlan_count s =? 0 | _ => false end = true).
  { destruct H as [<-|[<-|[<-|[<-|[]]]]]; vm_compute; reflexivity. }
  clear H. destruct (send_run rp_cfg w_st0 es) as [[s x]| | | |]; try discriminate. exists s, x. split; [reflexivity|]. now apply Z.eqb_eq.
Qed.
Lemma sq_prefix a b : sq_events = a ++ b -> In a [[]; [EvRun w_osb 1000]; [EvRun w_osb 1000; w_heard]; sq_events].
Proof.
  unfold sq_events. generalize (EvRun w_osb 1000) (EvRun w_osb 1030) w_heard. intros x z y E.
  destruct a as [|a1 [|a2 [|a3 [|a4 a]]]]; cbn [app] in E; [now left| | | |]; injection E; intros; subst; cbn; try tauto. discriminate.
Qed.
Example C132_case : exists st' effs,
  running rp_cfg w_st0 /\ Forall event_ok sq_events /\ send_run rp_cfg w_st0 sq_events = DOk (st', effs)
  /\ (forall a b st1 effs1, sq_events = a ++ b -> send_run rp_cfg w_st0 a = DOk (st1, effs1) -> vlan_count st1 <= 37)
  /\ edp_numbers effs = [0; 1; 2; 3; 4; 5] /\ st_edp w_st0 = 0 /\ st_edp st' = 6.
Proof.
  set (x := match send_run rp_cfg w_st0 sq_events with DOk x => x | _ => (w_st0, []) end). exists (fst x), (snd x).
  split; [apply w_boot|]. split; [constructor; [exact w_run_ok|constructor; [exact I|constructor; [exact w_run_ok|constructor]]]|].
  split; [rewrite <- surjective_pairing; apply rp_run; vm_compute; reflexivity|].
  split. { intros a b st1 effs1 E H. apply sq_prefix, sq_ok in E as (s & y & E & V). rewrite H in E. injection E as -> _. lia. }
  split; [vm_compute; reflexivity|]. split; vm_compute; reflexivity.
Qed.
(** Numbers that grow past 65535, and numbers that do not grow. *)
Example C132_wrap : growing 65534 [65534; 0; 1] 65540 /\ ~ (exists m, m < 65536 /\ growing 5 [7; 7] m).
Proof.
  split.
  - apply (grow_next _ 65534); [lia|]. apply (grow_next _ 65536); [lia|]. apply (grow_next _ 65537); [lia|]. apply grow_end. lia.
  - intros (m & M & H). inversion H as [|? k ? ? K1 G E1 E2]; subst. inversion G as [|? k' ? ? K2 G' E1' E2']; subst.
    inversion G'; subst. pose proof (Z.div_mod k 65536). pose proof (Z.div_mod k' 65536). lia.
Qed.

(** The numbers are not always consecutive: on a host with 80 VLANs on its first
    interface the EDP frame of that interface does not fit Ethernet and is not sent, but
    takes a number; the frames of the other interface then have the numbers 1, 3, 5, …  A
    receiver that counts lost frames sees half of them lost. *)
Definition sq_name (i : Z) : list Z := if i <? 10 then w_name i else [118; 65 + (i - 10) / 10; 48 + (i - 10) mod 10].
Definition sq_index : list Z := 1 :: 2 :: map (fun k => 10 + Z.of_nat k) (seq 0 80).
Definition sq_os : nos :=
  mkNos (Some (map (fun i => mkIfa (sq_name i) (Some (SALink 1 i [2; 0; 0; 0; 0; i]))) sq_index))
    (fun _ => Some 4163) (fun _ => false) (fun i => i <=? 3) (fun _ => None)
    (fun x => if hd 0 x =? 118 then Some (bs "eth0") else None) (fun x => Some 7) (fun _ => []) (fun _ => [])
    (fun _ => None) (fun _ _ => None) (fun _ => None) (fun _ => None) (fun _ => Some 1500) (fun _ => None).
Definition sq_okb (ia : ifaddr) : bool :=
  forallb (fun b => (0 <? b) && (b <? 256)) (ia_name ia) && (0 <? zlen (ia_name ia)) && (zlen (ia_name ia) <? 16)
  && match ia_addr ia with Some (SALink _ i hw) => (0 <=? i) && (i <? 4294967296) && forallb (fun b => (0 <=? b) && (b <? 256)) hw && (zlen hw =? 6) | _ => false end.
Lemma sq_okb_ok ia : sq_okb ia = true -> ifaddr_ok ia.
Proof.
  unfold sq_okb, ifaddr_ok. intros H. apply andb_true_iff in H as [H H4]. apply andb_true_iff in H as [H H3]. apply andb_true_iff in H as [H1 H2].
  rewrite forallb_forall in H1. split; [|split].
  - split; [apply Forall_forall; intros x Hx; apply H1 in Hx; unfold byte; lia|]. split; [intros K; apply H1 in K; lia|lia].
  - intros E. rewrite E in H2. discriminate.
  - destruct (ia_addr ia) as [[t i hw| | |]|]; try exact I; try discriminate. rewrite !andb_true_iff in H4. destruct H4 as [[[A B] C] D].
    split; [lia|]. split; [|lia]. rewrite forallb_forall in C. apply Forall_forall. intros x Hx. apply C in Hx. unfold byte. lia.
Qed.
Lemma sq_os_ok : os_ok sq_os.
Proof.
  split; [|split; intros; constructor]. intros ias E. injection E as <-. apply Forall_forall. intros ia H. apply sq_okb_ok. revert ia H.
  apply forallb_forall. vm_compute. reflexivity.
Qed.
Lemma sq_gap : ~ exists n m, consecutive n [1; 3] m.
Proof.
  assert (C : forall n l m, consecutive n l m -> forall a b r, l = a :: b :: r -> b = (a + 1) mod 65536).
  { intros n l m H. destruct H as [n|n l m H]; intros a b r E; [discriminate|]. remember (n + 1) as k eqn:K. destruct H as [k|k l m H]; [discriminate|].
    injection E as <- <- _. rewrite K. now rewrite Zplus_mod_idemp_l. }
  intros (n & m & H). specialize (C _ _ _ H 1 3 [] eq_refl). discriminate C.
Qed.
Theorem C132_consecutive_refuted : exists cfg st es st' effs,
  running cfg st /\ Forall event_ok es /\ send_run cfg st es = DOk (st', effs)
  /\ edp_numbers effs = [1; 3] /\ ~ exists n m, consecutive n (edp_numbers effs) m.
Proof.
  set (es := [EvRun sq_os 1000; EvRun sq_os 1030]).
  set (x := match send_run rp_cfg w_st0 es with DOk x => x | _ => (w_st0, []) end). exists rp_cfg, w_st0, es, (fst x), (snd x).
  assert (N : edp_numbers (snd x) = [1; 3]) by (vm_compute; reflexivity).
  split; [apply w_boot|]. split; [constructor; [exact sq_os_ok|constructor; [exact sq_os_ok|constructor]]|].
  split; [rewrite <- surjective_pairing; apply rp_run; vm_compute; reflexivity|]. split; [exact N|]. rewrite N. exact sq_gap.
Qed.
Print Assumptions C132_consecutive_refuted.
