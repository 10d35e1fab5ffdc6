(** Advertisement runs: C09, C36, C37 and C54. *)
From Verif Require Import Base Tlv Types Msg Protos Wire Util Child Netif Parent Sysinfo Send Spec SpecRound SpecNet SpecChild SpecAdv SpecNetif SpecSend
  Lemmas Cases2 Cases3 Cases4 Cases6 Conformance SendProofs6 SendProofs7.

(** C09.  Whatever happened since the daemon started, no frame the child sends on
    any event ends the privileged process, which transmits it as it is if it can
    get a socket for the interface. *)
Theorem C09_sending_is_safe cfg st e st' eff i p f pcfg fds pos :
  running cfg st -> event_ok e -> send_step cfg st e = DOk (st', eff) -> In (SFrame i p f) eff ->
  os_sock pos <> SockFatal ->
  r_alive (parent_send pcfg fds (frame_dgram i p f) pos) = true
  /\ (has (pc_opts pcfg) OPT_DEBUG = false -> os_name pos <> None ->
      (exists r, rfd_byindex fds i = Some r) \/ (exists fd, os_sock pos = SockFd fd /\ 0 <= fd) ->
      exists fd, In (EFrame i fd f) (r_eff (parent_send pcfg fds (frame_dgram i p f) pos))).
Proof. exact (sending_safe cfg st e st' eff i p f pcfg fds pos). Qed.
Print Assumptions C09_sending_is_safe.
(** The run on the host with the bond: eth0 and both members send, the backup with
    a blank source address. *)
Definition w_frames : list (Z * Z * list Z) := Eval vm_compute in frames (w_eff w_cfg w_st1 w_run).
Definition w_backup : list Z := Eval vm_compute in snd (nth 2 w_frames (0, 0, [])).
Lemma w_frames_eq : frames (w_eff w_cfg w_st1 w_run) = w_frames. Proof. vm_compute. reflexivity. Qed.
Example C09_case :
  running w_cfg w_st1 /\ event_ok w_run
  /\ send_step w_cfg w_st1 w_run = DOk (w_after w_cfg w_st1 w_run, w_eff w_cfg w_st1 w_run)
  /\ In (SFrame 3 0 w_backup) (w_eff w_cfg w_st1 w_run)
  /\ map fst w_frames = [(1, 0); (2, 0); (3, 0)] /\ firstn 12 (skipn 6 w_backup) = repeat 0 6 ++ [136; 204; 2; 7; 4; 2].
Proof.
  split; [exact w_st1_running|]. split; [exact w_run_ok|]. split; [apply w_step; vm_compute; reflexivity|].
  split; [apply (proj2 (in_frames 3 0 w_backup _)); rewrite w_frames_eq; right; right; left; reflexivity|].
  split; vm_compute; reflexivity.
Qed.

(** C37, for a run that gets the interface list and a consistent kernel.  The
    frames of a periodic run are exactly those due, in order. *)
Theorem C37_frames_partial cfg os now st nfs si :
  running cfg st -> os_ok os -> refresh cfg os st nfs si -> consistent os nfs ->
  frames (snd (child_send cfg os NETIF_INDEX_MAX true now st))
  = if opt cfg 1 then frames_due cfg os nfs si (st_edp st) (due cfg os nfs) else [].
Proof. exact (periodic_frames cfg os now st nfs si). Qed.
Print Assumptions C37_frames_partial.
(** So a frame of protocol [p] is sent on interface [i] if and only if sending is
    on and [i] is, or belongs to, a selected interface, both are eligible, and the
    protocol is enabled globally or for the selected interface. *)
Theorem C37_sent_iff_partial cfg os now st nfs si i p :
  running cfg st -> os_ok os -> refresh cfg os st nfs si -> consistent os nfs ->
  ((exists f, In (SFrame i p f) (snd (child_send cfg os NETIF_INDEX_MAX true now st)))
   <-> opt cfg 1 = true /\ exists top sub,
        In top nfs /\ selected cfg top = true /\ eligible cfg top = true
        /\ In sub (stands_for os nfs top) /\ eligible cfg sub = true /\ nf_index sub = i
        /\ In p [0; 1; 2; 3; 4; 5] /\ enabled cfg top p = true
        /\ zlen (frame_due cfg os nfs si 0 (top, sub, p)) <= 1518).
Proof. exact (periodic_iff cfg os now st nfs si i p). Qed.
Print Assumptions C37_sent_iff_partial.
(** A run caused by a link event sends what is due on this interface. *)
Theorem C37_link_event_partial cfg os flags index now st nfs si :
  running cfg st -> os_ok os -> refresh cfg os st nfs si -> consistent os nfs ->
  Z.testbit flags 6 = true -> Z.testbit flags 16 = true -> 0 <= index < 4294967295 ->
  (forall n, In n (table st) -> nf_index n = index -> nf_link_event n <= 3) -> In index (indices nfs) ->
  frames (snd (child_link cfg os 1 flags index now st))
  = if opt cfg 1
    then frames_due cfg os nfs si (st_edp st) (filter (fun d => nf_index (snd (fst d)) =? index) (due cfg os nfs))
    else [].
Proof. exact (link_frames cfg os flags index now st nfs si). Qed.
Print Assumptions C37_link_event_partial.
(** After CDP was heard on eth1, CDP is due on both members of the bond. *)
Definition w_tab2 : list netif := Eval vm_compute in fst (w_next w_cfg w_osb w_st2).
Definition w_si2 : sysinfo := Eval vm_compute in snd (w_next w_cfg w_osb w_st2).
Lemma w_heard_good : w_good w_cfg w_st1 w_heard = true. Proof. vm_compute. reflexivity. Qed.
Lemma w_st2_running : running w_cfg w_st2.
Proof.
  replace w_st2 with (w_after w_cfg w_st1 w_heard) by (vm_compute; reflexivity).
  apply w_running; [exact w_st1_running|exact I|exact w_heard_good].
Qed.
Lemma w_refresh2 : refresh w_cfg w_osb w_st2 w_tab2 w_si2.
Proof. exists 4, []. split; [vm_compute; reflexivity|discriminate]. Qed.
Lemma w_consistent2 : consistent w_osb w_tab2. Proof. apply w_consistent. vm_compute. reflexivity. Qed.
Example C37_case :
  running w_cfg w_st2 /\ os_ok w_osb /\ refresh w_cfg w_osb w_st2 w_tab2 w_si2 /\ consistent w_osb w_tab2
  /\ map (fun d => (nf_index (fst (fst d)), nf_index (snd (fst d)), snd d)) (due w_cfg w_osb w_tab2)
     = [(1, 1, 0); (4, 2, 0); (4, 2, 1); (4, 3, 0); (4, 3, 1)]
  /\ map fst (frames (snd (child_link w_cfg w_osb 1 69699 2 1010 w_st2))) = [(2, 0); (2, 1)]
  /\ (forall n, In n (table w_st2) -> nf_index n = 2 -> nf_link_event n <= 3) /\ In 2 (indices w_tab2).
Proof.
  split; [exact w_st2_running|]. split; [exact w_run_ok|]. split; [exact w_refresh2|]. split; [exact w_consistent2|].
  split; [vm_compute; reflexivity|]. split; [vm_compute; reflexivity|]. split.
  - assert (E : map nf_link_event (table w_st2) = [0; 0; 0; 0]) by (vm_compute; reflexivity).
    intros n Hn _. apply (in_map nf_link_event) in Hn. rewrite E in Hn. cbn in Hn. lia.
  - vm_compute. tauto.
Qed.
(** A run that does not get there sends nothing. *)
Theorem C37_no_interfaces cfg os index timeout now st nfs si gone :
  running cfg st -> os_ok os -> netif_fetch (sc_net cfg) os (table st) (st_si st) = (0, nfs, si, gone) ->
  frames (snd (child_send cfg os index timeout now st)) = [].
Proof. exact (no_refresh_no_frames cfg os index timeout now st nfs si gone). Qed.
Print Assumptions C37_no_interfaces.
(** C37 is false where interfaces are listed and one of them is missing: then
    the others are silent too.  Here eth0 is listed and usable, LLDP is enabled,
    and the listed eth7 is not there. *)
Definition w_miss : scfg := w_list [bs "eth0"; bs "eth7"].
Theorem C37_listed_missing_refuted :
  exists cfg st os nfs n, running cfg st /\ os_ok os
  /\ (exists ret si gone, netif_fetch (sc_net cfg) os (table st) (st_si st) = (ret, nfs, si, gone)) /\ consistent os nfs
  /\ opt cfg 1 = true /\ In n nfs /\ In (nf_name n) (nc_ifl (sc_net cfg)) /\ eligible cfg n = true /\ nf_type n = 0
  /\ sc_enabled cfg 0 = true
  /\ forall now, frames (snd (child_send cfg os NETIF_INDEX_MAX true now st)) = [].
Proof.
  assert (E : exists nfs si, netif_fetch (sc_net w_miss) w_os2 (table w_st0) (st_si w_st0) = (0, nfs, si, [])
    /\ exists n, In n nfs /\ nf_name n = bs "eth0" /\ nf_type n = 0).
  { do 2 eexists. split; [vm_compute; reflexivity|]. eexists. split; [left; reflexivity|split; reflexivity]. }
  destruct E as (nfs & si & E & n & N1 & N2 & N3).
  assert (O : os_ok w_os2) by (apply w_os_ok; repeat constructor; lia).
  exists w_miss, w_st0, w_os2, nfs, n. split; [apply w_boot|]. split; [exact O|]. split; [eauto|]. split.
  { split.
    - replace (flat_map _ _) with (@nil Z); [constructor|]. generalize nfs at 1. clear. intros t. induction nfs as [|m l IH]; [reflexivity|].
      cbn [flat_map]. rewrite <- IH. unfold reported. cbn. destruct (_ =? 12); [reflexivity|]. destruct (_ =? 13); [reflexivity|]. now destruct (_ =? 11).
    - intros p ports active _ _ H. discriminate H. }
  split; [reflexivity|]. split; [assumption|]. split; [rewrite N2; now left|].
  split; [unfold eligible; rewrite N3; reflexivity|]. split; [assumption|]. split; [reflexivity|].
  intros now. exact (no_refresh_no_frames _ _ _ _ _ _ _ _ _ (w_boot w_miss) O E).
Qed.
Print Assumptions C37_listed_missing_refuted.

(** C36, for an interface that stays usable: between two periodic runs it sends on
    at most four events, whatever else happens. *)
Theorem C36_flapping_partial cfg i st es st' effs :
  running cfg st -> Forall (steady i) es -> send_run cfg st es = DOk (st', effs) ->
  zlen (filter (sends i) effs) <= 4.
Proof.
  intros R S H. pose proof (flap_bound cfg i es st st' effs R S H). pose proof (le_range _ i (running_fine _ _ R)). lia.
Qed.
Print Assumptions C36_flapping_partial.
(** Seven link events of eth0 with others in between: four are answered. *)
Definition w_flaps : list sevent :=
  [w_up w_os2 1; w_up w_os2 2; w_up w_os2 1; w_up w_os2 1; w_up w_os2 1; w_up w_os2 1; w_up w_os2 2; w_up w_os2 1; w_up w_os2 1].
Definition w_sent (cfg : scfg) (i : Z) (es : list sevent) : list bool :=
  match send_run cfg w_st0 es with DOk (_, effs) => map (sends i) effs | _ => [] end.
Example C36_case : Forall (steady 1) w_flaps
  /\ w_sent w_cfg 1 w_flaps = [true; false; true; true; true; false; false; false; false].
Proof. split; [|vm_compute; reflexivity]. repeat (constructor; [apply w_steady; cbn; tauto|]). constructor. Qed.
(** C36 is false for one that goes away and comes back: when another interface
    changes meanwhile, the count starts again. *)
Definition w_flaps2 : list sevent :=
  [w_up w_os2 1; w_up w_os2 1; w_up w_os2 1; w_up w_os2 1; w_up w_os1 2; w_up w_os2 1; w_up w_os2 1; w_up w_os2 1; w_up w_os2 1].
Theorem C36_flapping_refuted :
  exists cfg i st es st' effs, running cfg st
  /\ Forall (fun e => event_ok e /\ forall os now, e <> EvRun os now) es
  /\ send_run cfg st es = DOk (st', effs) /\ zlen (filter (sends i) effs) = 8.
Proof.
  destruct (w_count w_cfg 1 w_st0 w_flaps2 8 ltac:(vm_compute; reflexivity)) as (st' & effs & R & K).
  exists w_cfg, 1, w_st0, w_flaps2, st', effs. split; [apply w_boot|]. split; [|split; [exact R|exact K]].
  repeat (constructor; [split; [apply w_os_ok; repeat constructor; lia|discriminate]|]). constructor.
Qed.
Print Assumptions C36_flapping_refuted.

(** C54, where the interface (or the aggregate it belongs to) is selected as a
    whole: a protocol heard on interface [index] is sent there in the next run. *)
Theorem C54_heard_is_sent_partial cfg st d index p f now now2 sub top proto ttl attrs st1 eff1 os nfs si now3 top' sub' :
  running cfg st -> opt cfg 1 = true -> opt cfg 3 = true -> (opt cfg 5 = true -> nf_argv sub <> 0 \/ nf_argv top <> 0) ->
  uplink (table st) sub top -> bytes f -> carries d index p 0 f -> 0 <= p < 6 -> 60 <= zlen f <= 1518 -> now <> -1 ->
  netif_byindex (table st) index = Some sub -> netif_byaddr (table st) (firstn 6 (skipn 6 f)) = None ->
  SpecChild.advert p f proto ttl attrs -> ttl <> 0 ->
  send_step cfg st (EvChild (CRecv d now now2)) = DOk (st1, eff1) ->
  os_ok os -> refresh cfg os st1 nfs si -> consistent os nfs ->
  In top' nfs -> nf_index top' = nf_index top -> selected cfg top' = true -> eligible cfg top' = true ->
  In sub' (stands_for os nfs top') -> nf_index sub' = index -> eligible cfg sub' = true ->
  zlen (frame_due cfg os nfs si 0 (top', sub', proto)) <= 1518 ->
  exists f', In (SFrame index proto f') (snd (child_send cfg os NETIF_INDEX_MAX true now3 st1)).
Proof. exact (heard_sent cfg st d index p f now now2 sub top proto ttl attrs st1 eff1 os nfs si now3 top' sub'). Qed.
Print Assumptions C54_heard_is_sent_partial.
Definition w_none : netif := fresh_netif 0 [] 0 [] 0 0 0 [].
Definition w_bond1 : netif := Eval vm_compute in nth 3 (table w_st1) w_none.
Definition w_eth1 : netif := Eval vm_compute in nth 1 (table w_st1) w_none.
Definition w_bond2 : netif := Eval vm_compute in nth 3 w_tab2 w_none.
Definition w_eth2 : netif := Eval vm_compute in nth 1 w_tab2 w_none.
Lemma w_cdp_advert : exists attrs, SpecChild.advert 1 c_cdp 1 180 attrs.
Proof.
  apply (w_advert 1 c_cdp (skipn 22 c_cdp)); [is_bytes|split; vm_compute; discriminate|lia| |vm_compute; reflexivity].
  exact c_cdp_frame.
Qed.
Lemma w_st2_eq : w_after w_cfg w_st1 w_heard = w_st2. Proof. vm_compute. reflexivity. Qed.
Example C54_case : opt w_cfg 1 = true /\ opt w_cfg 3 = true /\ opt w_cfg 5 = false
  /\ uplink (table w_st1) w_eth1 w_bond1 /\ carries w_dgram 2 1 0 c_cdp
  /\ netif_byindex (table w_st1) 2 = Some w_eth1 /\ netif_byaddr (table w_st1) (firstn 6 (skipn 6 c_cdp)) = None
  /\ send_step w_cfg w_st1 w_heard = DOk (w_st2, w_eff w_cfg w_st1 w_heard)
  /\ In w_bond2 w_tab2 /\ nf_index w_bond2 = nf_index w_bond1 /\ selected w_cfg w_bond2 = true /\ eligible w_cfg w_bond2 = true
  /\ In w_eth2 (stands_for w_osb w_tab2 w_bond2) /\ nf_index w_eth2 = 2 /\ eligible w_cfg w_eth2 = true
  /\ zlen (frame_due w_cfg w_osb w_tab2 w_si2 0 (w_bond2, w_eth2, 1)) <= 1518.
Proof.
  split; [reflexivity|]. split; [reflexivity|]. split; [reflexivity|].
  split; [right; exists 4; split; vm_compute; reflexivity|]. split; [repeat split; vm_compute; reflexivity|].
  split; [vm_compute; reflexivity|]. split; [vm_compute; reflexivity|].
  split; [rewrite (w_step _ _ _ w_heard_good); rewrite w_st2_eq; reflexivity|].
  split; [vm_compute; tauto|]. split; [reflexivity|]. split; [reflexivity|]. split; [vm_compute; reflexivity|].
  split; [vm_compute; tauto|]. split; [reflexivity|]. split; [vm_compute; reflexivity|]. vm_compute. discriminate.
Qed.
(** C54 is false for a member of an aggregate that is listed itself: the protocol
    is enabled on the aggregate, which is not selected. *)
Definition w_tabl : list netif := Eval vm_compute in fst (w_next w_cfgl w_osb w_stl2).
Definition w_sil : sysinfo := Eval vm_compute in snd (w_next w_cfgl w_osb w_stl2).
Definition w_ethl : netif := Eval vm_compute in nth 1 (table w_stl) w_none.
Definition w_ethl2 : netif := Eval vm_compute in nth 1 w_tabl w_none.
Theorem C54_listed_member_refuted :
  exists cfg st d index f now now2 sub proto ttl attrs st1 eff1 os nfs si n,
    running cfg st /\ opt cfg 1 = true /\ opt cfg 3 = true /\ opt cfg 5 = true
    /\ netif_byindex (table st) index = Some sub /\ In (nf_name sub) (nc_ifl (sc_net cfg)) /\ nf_argv sub <> 0
    /\ bytes f /\ carries d index 1 0 f /\ SpecChild.advert 1 f proto ttl attrs /\ ttl <> 0 /\ now <> -1
    /\ send_step cfg st (EvChild (CRecv d now now2)) = DOk (st1, eff1)
    /\ os_ok os /\ refresh cfg os st1 nfs si /\ consistent os nfs
    /\ In n nfs /\ nf_index n = index /\ nf_argv n <> 0 /\ eligible cfg n = true
    /\ forall f' now3, ~ In (SFrame index proto f') (snd (child_send cfg os NETIF_INDEX_MAX true now3 st1)).
Proof.
  destruct w_cdp_advert as [attrs A].
  assert (G : w_good w_cfgl w_stl w_heard = true) by (vm_compute; reflexivity).
  assert (S : send_step w_cfgl w_stl w_heard = DOk (w_stl2, w_eff w_cfgl w_stl w_heard)).
  { rewrite (w_step _ _ _ G). assert (E : w_after w_cfgl w_stl w_heard = w_stl2) by (vm_compute; reflexivity). rewrite E. reflexivity. }
  assert (R : running w_cfgl w_stl2) by exact (run_event _ _ w_heard _ _ w_stl_running I S).
  assert (F : refresh w_cfgl w_osb w_stl2 w_tabl w_sil) by (exists 1, []; split; [vm_compute; reflexivity|discriminate]).
  assert (C : consistent w_osb w_tabl) by (apply w_consistent; vm_compute; reflexivity).
  exists w_cfgl, w_stl, w_dgram, 2, c_cdp, 1005, 1005, w_ethl, 1, 180, attrs, w_stl2, (w_eff w_cfgl w_stl w_heard), w_osb, w_tabl, w_sil, w_ethl2.
  split; [exact w_stl_running|]. split; [reflexivity|]. split; [reflexivity|]. split; [reflexivity|].
  split; [vm_compute; reflexivity|]. split; [vm_compute; tauto|]. split; [vm_compute; discriminate|].
  split; [is_bytes|]. split; [repeat split; vm_compute; reflexivity|]. split; [exact A|]. split; [discriminate|]. split; [discriminate|].
  split; [exact S|]. split; [exact w_run_ok|]. split; [exact F|]. split; [exact C|].
  split; [vm_compute; tauto|]. split; [reflexivity|]. split; [vm_compute; discriminate|]. split; [vm_compute; reflexivity|].
  intros f' now3 K. apply (proj1 (in_frames _ _ _ _)) in K. rewrite (periodic_frames w_cfgl w_osb now3 w_stl2 w_tabl w_sil R w_run_ok F C) in K.
  assert (X : map fst (if opt w_cfgl 1 then frames_due w_cfgl w_osb w_tabl w_sil (st_edp w_stl2) (due w_cfgl w_osb w_tabl) else []) = [(2, 0)]) by (vm_compute; reflexivity).
  apply (in_map fst) in K. rewrite X in K. destruct K as [K|[]]. discriminate K.
Qed.
Print Assumptions C54_listed_member_refuted.
