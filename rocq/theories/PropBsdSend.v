(** Advertisement runs on FreeBSD and OpenBSD: C134. *)
From Verif Require Import Base Tlv Types Msg Protos Wire Util Child Netif Parent Sysinfo Send Bsd HostBsd BsdSend
  Spec SpecRound SpecNet SpecChild SpecAdv SpecNetif SpecSend SpecSys SpecBsd SpecHostBsd SpecBsdSend
  Lemmas Conformance Cases5 Cases8 Cases14 VisProps SendProofs6 BsdSendProofs1 BsdSendProofs2 BsdSendProofs3.

(** C134.  The frames of a periodic run that gets the interface list of a consistent
    kernel are exactly those due, in order. *)
Theorem C134_frames cfg pf b now st nfs si :
  b_running cfg pf st -> b_ok b -> b_refresh cfg pf b st nfs si -> b_consistent b nfs ->
  frames (snd (bc_send cfg pf b NETIF_INDEX_MAX true now st))
  = if opt cfg 1 then b_frames_due cfg b nfs si (st_edp st) (b_due cfg b nfs) else [].
Proof. exact (b_periodic_frames cfg pf b now st nfs si). Qed.
Print Assumptions C134_frames.
(** The FreeBSD host: igb0 and igb1 send for lagg0 and em0 for bridge0,
    LLDP and EDP each. *)
Definition bd_cfg : scfg := mkScfg (mkNcfg 14 [] (Some (bs "lagg0")) (repeat 0 4) (repeat 0 16)) [] (fun p => (p =? 0) || (p =? 2)).
Definition bd_sys : bsios :=
  mkBsios (mkUts (bs "FreeBSD") (bs "fw") (bs "9.1-RELEASE") (bs "FreeBSD 9.1-RELEASE #0: Tue Dec 4") (bs "amd64"))
    (Some (bs "fw.example.org")) (fun x => if beq x (bs "smbios.system.maker") then Some (bs "Example Computers") else None) true (Some 0) (Some 1).
Lemma bd_sys_ok : b_boot_ok FreeBSD bd_sys.
Proof.
  split; [|split; [|split; [|split; [|split; [|split; [|split; [|split]]]]]]].
  - repeat apply Forall_cons; try apply Forall_nil; (split; [split; [apply bytes_okb; reflexivity|split; [vm_compute; intuition discriminate|now vm_compute]]|discriminate]).
  - apply bytes_okb. reflexivity.
  - vm_compute. intuition discriminate.
  - discriminate.
  - intros _. exists (bs " 9.1-RELEASE #0: Tue Dec 4"). reflexivity.
  - split; [apply bytes_okb; reflexivity|split; [vm_compute; intuition discriminate|now vm_compute]].
  - intros h [= <-]. split; [apply bytes_okb; reflexivity|vm_compute; intuition discriminate].
  - intros x v. cbn [bh_text bd_sys]. destruct (beq x _); [|discriminate]. intros [= <-]. split; [apply bytes_okb; reflexivity|vm_compute; intuition discriminate].
  - discriminate.
Qed.
Definition bd_st0 : sstate := Eval vm_compute in mkSt child_start (bsd_sysinfo FreeBSD bd_sys (bs "NL") (bs "attic")) 0.
Lemma bd_boot cfg : b_running cfg FreeBSD bd_st0.
Proof.
  assert (E : bd_st0 = mkSt child_start (bsd_sysinfo FreeBSD bd_sys (bs "NL") (bs "attic")) 0) by (vm_compute; reflexivity).
  rewrite E. apply brun_boot; [exact bd_sys_ok| |]; (split; [apply bytes_okb; reflexivity|split; [vm_compute; intuition discriminate|now vm_compute]]).
Qed.
Definition bd_fetch (st : sstate) : Z * list netif * sysinfo * list Z := bsd_fetch (sc_net bd_cfg) FreeBSD f_os1 (table st) (st_si st).
Definition bd_tab : list netif := Eval vm_compute in snd (fst (fst (bd_fetch bd_st0))).
Definition bd_si : sysinfo := Eval vm_compute in snd (fst (bd_fetch bd_st0)).
Lemma bd_refresh : b_refresh bd_cfg FreeBSD f_os1 bd_st0 bd_tab bd_si.
Proof. eexists _, _. split; [vm_compute; reflexivity|discriminate]. Qed.
Lemma bd_consistent : b_consistent f_os1 bd_tab.
Proof.
  unfold b_consistent. assert (E : flat_map (fun p => map fst (b_reported f_os1 bd_tab p)) bd_tab = [2; 1; 5]) by (vm_compute; reflexivity).
  rewrite E. repeat constructor; cbn; intuition lia.
Qed.
Example C134_case :
  b_running bd_cfg FreeBSD bd_st0 /\ b_ok f_os1 /\ b_refresh bd_cfg FreeBSD f_os1 bd_st0 bd_tab bd_si /\ b_consistent f_os1 bd_tab
  /\ map (fun d => (nf_index (fst (fst d)), nf_index (snd (fst d)), snd d)) (b_due bd_cfg f_os1 bd_tab)
     = [(3, 2, 0); (3, 2, 2); (3, 1, 0); (3, 1, 2); (4, 5, 0); (4, 5, 2)]
  /\ map fst (frames (snd (bc_send bd_cfg FreeBSD f_os1 NETIF_INDEX_MAX true 1000 bd_st0)))
     = [(2, 0); (2, 2); (1, 0); (1, 2); (5, 0); (5, 2)].
Proof.
  split; [apply bd_boot|]. split; [exact f_os1_ok|]. split; [exact bd_refresh|]. split; [exact bd_consistent|].
  split; vm_compute; reflexivity.
Qed.

(** A run that gets no interface list, or lacks one of those listed, sends nothing. *)
Theorem C134_no_interfaces cfg pf b index timeout now st nfs si gone :
  b_running cfg pf st -> b_ok b -> bsd_fetch (sc_net cfg) pf b (table st) (st_si st) = (0, nfs, si, gone) ->
  frames (snd (bc_send cfg pf b index timeout now st)) = [].
Proof. exact (b_no_refresh cfg pf b index timeout now st nfs si gone). Qed.
Print Assumptions C134_no_interfaces.
Example C134_no_interfaces_case :
  b_ok (f_os [] f_text) /\ bsd_fetch (sc_net bd_cfg) FreeBSD (f_os [] f_text) (table bd_st0) (st_si bd_st0) = (0, [], st_si bd_st0, []).
Proof. split; [apply f_ok; [vm_compute; reflexivity|vm_compute; reflexivity|apply f_text_ok|apply f_text_ok]|vm_compute; reflexivity]. Qed.

(** After a routing message that an Ethernet interface is up, the frames due on this
    interface are sent. *)
Theorem C134_link_event_partial cfg pf b m now st nfs si :
  b_running cfg pf st -> b_ok b -> b_refresh cfg pf b st nfs si -> b_consistent b nfs ->
  rt_whole pf m -> rm_iftype m = 6 -> rt_up pf m -> 0 <= rm_index m < 65536 ->
  (forall n, In n (table st) -> nf_index n = rm_index m -> nf_link_event n <= 3) -> In (rm_index m) (indices nfs) ->
  frames (snd (bc_link cfg pf b m now st))
  = if opt cfg 1
    then b_frames_due cfg b nfs si (st_edp st) (filter (fun d => nf_index (snd (fst d)) =? rm_index m) (b_due cfg b nfs))
    else [].
Proof. exact (b_link_frames cfg pf b m now st nfs si). Qed.
Print Assumptions C134_link_event_partial.
Definition bd_msg (i ty : Z) : rtmsg := mkRtm 168 5 14 ty 34883 2 i.
Lemma bd_msg_up i ty : rt_whole FreeBSD (bd_msg i ty) /\ rt_up FreeBSD (bd_msg i ty).
Proof. split; [split; [cbn; lia|now split]|]. split; [reflexivity|]. split; [reflexivity|]. right. cbn. lia. Qed.
Example C134_link_event_case :
  rt_whole FreeBSD (bd_msg 5 6) /\ rt_up FreeBSD (bd_msg 5 6) /\ In 5 (indices bd_tab) /\ table bd_st0 = []
  /\ map fst (frames (snd (bc_link bd_cfg FreeBSD f_os1 (bd_msg 5 6) 1010 bd_st0))) = [(5, 0); (5, 2)].
Proof.
  split; [apply bd_msg_up|]. split; [apply bd_msg_up|]. split; [vm_compute; tauto|]. split; vm_compute; reflexivity.
Qed.
(** Any other message, such as one that the link is down, changes and sends nothing. *)
Theorem C134_link_quiet cfg pf b m now st :
  ~ (rt_whole pf m /\ rt_up pf m) -> 0 <= rm_len m <= 2048 -> 0 <= rm_state m -> bc_link cfg pf b m now st = (st, []).
Proof. exact (b_link_quiet cfg pf b m now st). Qed.
Print Assumptions C134_link_quiet.
(** Link down on FreeBSD; not running; the end of an OpenBSD message is missing. *)
Example C134_link_quiet_case :
  ~ (rt_whole FreeBSD (mkRtm 168 5 14 6 34883 1 5) /\ rt_up FreeBSD (mkRtm 168 5 14 6 34883 1 5))
  /\ ~ (rt_whole OpenBSD (mkRtm 168 5 14 6 34819 4 5) /\ rt_up OpenBSD (mkRtm 168 5 14 6 34819 4 5))
  /\ ~ (rt_whole OpenBSD (mkRtm 95 5 14 6 34883 4 5) /\ rt_up OpenBSD (mkRtm 95 5 14 6 34883 4 5)).
Proof.
  split; [|split].
  - intros [_ (_ & _ & [H|H])]; cbn in H; lia.
  - intros [_ (_ & H & _)]. discriminate H.
  - intros [[H _] _]. cbn in H. lia.
Qed.
(** C134 is false for members of a lagg(4): while it is one, the kernel gives the
    interface another type (161), messages about which are ignored.  The frames due
    on it wait for the next periodic run. *)
Theorem C134_lagg_member_refuted :
  exists cfg pf b m st nfs si, b_running cfg pf st /\ b_ok b /\ b_refresh cfg pf b st nfs si /\ b_consistent b nfs
  /\ rt_whole pf m /\ rt_up pf m /\ table st = [] /\ opt cfg 1 = true
  /\ (exists n, In n nfs /\ nf_index n = rm_index m /\ rm_iftype m = bo_iftype b (nf_name n)
        /\ zlen (b_frames_due cfg b nfs si (st_edp st) (filter (fun d => nf_index (snd (fst d)) =? rm_index m) (b_due cfg b nfs))) = 2)
  /\ forall now, frames (snd (bc_link cfg pf b m now st)) = [].
Proof.
  exists bd_cfg, FreeBSD, f_os1, (bd_msg 1 161), bd_st0, bd_tab, bd_si.
  split; [apply bd_boot|]. split; [exact f_os1_ok|]. split; [exact bd_refresh|]. split; [exact bd_consistent|].
  split; [apply bd_msg_up|]. split; [apply bd_msg_up|]. split; [reflexivity|]. split; [reflexivity|]. split.
  - eexists. split; [left; reflexivity|]. split; [reflexivity|]. split; vm_compute; reflexivity.
  - intros now. rewrite b_link_other by discriminate. reflexivity.
Qed.
Print Assumptions C134_lagg_member_refuted.

(** Whatever happened since the daemon started, no frame the child sends on any
    event ends the privileged process, which transmits it as it is if it can open
    a bpf device for the interface. *)
Theorem C134_sending_is_safe cfg pf st e st' eff i p f pcfg fds pos :
  b_running cfg pf st -> b_event_ok e -> bc_step cfg pf st e = DOk (st', eff) -> In (SFrame i p f) eff ->
  os_sock pos <> SockFatal ->
  br_alive (bsd_send pcfg fds (frame_dgram i p f) pos) = true
  /\ (has (pc_opts pcfg) OPT_DEBUG = false -> os_name pos <> None ->
      (exists r, rfd_byindex fds i = Some r) \/ (exists fd, os_sock pos = SockFd fd /\ 0 <= fd) ->
      exists fd, In (BSys (EFrame i fd f)) (br_eff (bsd_send pcfg fds (frame_dgram i p f) pos))).
Proof. exact (b_sending_safe cfg pf st e st' eff i p f pcfg fds pos). Qed.
Print Assumptions C134_sending_is_safe.
Definition bd_step (st : sstate) (e : bevent) : sstate * list seff :=
  match bc_step bd_cfg FreeBSD st e with DOk x => x | _ => (st, []) end.
Definition bd_pos : pos := mkPos (Some (bs "em0")) (SockFd 9) 100 false false [] 0 None [] None true.
Definition bd_pcfg : pcfg := mkPcfg 6 (repeat true 6) false false.
Definition bd_link : bevent := BLink f_os1 (bd_msg 5 6) 1010.
Definition bd_lldp : list Z := Eval vm_compute in snd (nth 0 (frames (snd (bd_step bd_st0 bd_link))) (0, 0, [])).
Example C134_sending_is_safe_case :
  b_event_ok bd_link /\ bc_step bd_cfg FreeBSD bd_st0 bd_link = DOk (bd_step bd_st0 bd_link)
  /\ In (SFrame 5 0 bd_lldp) (snd (bd_step bd_st0 bd_link)) /\ firstn 14 bd_lldp = [1; 128; 194; 0; 0; 14; 2; 0; 0; 0; 0; 5; 136; 204]
  /\ exists fd, In (BSys (EFrame 5 fd bd_lldp)) (br_eff (bsd_send bd_pcfg [] (frame_dgram 5 0 bd_lldp) bd_pos)).
Proof.
  split; [split; [exact f_os1_ok|cbn; lia]|]. split; [vm_compute; reflexivity|].
  split; [apply (proj2 (in_frames 5 0 bd_lldp _)); vm_compute; left; reflexivity|]. split; [reflexivity|].
  exists 9. vm_compute. tauto.
Qed.
