(** A daemon on FreeBSD or OpenBSD and one that hears it: C138. *)
From Verif Require Import Base Types Tlv Bpf Wire Parent Util Child Netif Sysinfo Send Cli Bsd HostBsd BsdSend
  Spec SpecAdv SpecRound SpecNet SpecChild SpecSend SpecSys SpecCli SpecE2E SpecBsd SpecHostBsd SpecBsdSend SpecBsdE2E
  Cases2 Cases3 Cases4 Cases6 Cases7 Cases8 Cases14 PropSys PropE2E PropBsdSend.
From Verif Require Import Lemmas Conformance VisProps BsdSendProofs2 BsdE2EProofs.

(** C138.  A frame that a daemon on FreeBSD or OpenBSD sends on an interface, in
    whatever state it got into, makes an entry in the table of any daemon that
    receives it, on whatever system: with the protocol, the host name and the
    interface name of the sender, and 180 seconds to live.  Entries about other
    neighbours stay.  EDP (2) is left out: C17 shows that it is never received. *)
Theorem C138_neighbour_listed cfg pf o country location st e st' eff i p f opts es c eff0 index sub now now2 :
  b_running_on cfg pf o country location st -> b_event_ok e -> bc_step cfg pf st e = DOk (st', eff) ->
  In (SFrame i p f) eff -> p <> 2 ->
  Z.testbit opts 2 = true -> reached opts es c eff0 -> 0 <= index < 4294967296 ->
  netif_byindex (c_nfs c) index = Some sub -> netif_byaddr (c_nfs c) (firstn 6 (skipn 6 f)) = None -> now <> -1 ->
  exists c', hears opts c index f now now2 c'
  /\ (exists port en, In port (table st') /\ nf_index port = i /\ b_named o (st_si st')
      /\ In en (c_queue c') /\ q_index en = index /\ q_name en = nf_name sub /\ q_proto en = p
      /\ q_received en = now /\ q_ttl en = 180
      /\ (source en = nf_hwaddr port \/ source en = repeat 0 6)
      /\ nth 0 (q_peer en) None = told p (si_hostname (st_si st'))
      /\ nth 1 (q_peer en) None = told p (nf_name port))
  /\ (forall en, who en <> (index, p, firstn 12 f) -> In en (c_queue c') <-> In en (c_queue c)).
Proof.
  intros H1 H2 H3 H4 H5 H6 H7 H8 H9 H10 H11.
  destruct (b_neighbour_listed cfg pf o country location st e st' eff i p f opts es c eff0 index sub now now2 H1 H2 H3 H4 H5 H6 H7 H8 H9 H10 H11)
    as (c' & A & _ & B). now exists c'.
Qed.
Print Assumptions C138_neighbour_listed.
(** Within these 180 seconds the client of that other daemon shows the sender, with
    the time that is left, unless an expired entry before it disturbs the client
    (see C44). *)
Theorem C138_neighbour_shown_partial cfg pf o country location st e st' eff i p f opts es c eff0 index sub now now2 c' t ifindex ws :
  b_running_on cfg pf o country location st -> b_event_ok e -> bc_step cfg pf st e = DOk (st', eff) ->
  In (SFrame i p f) eff -> p <> 2 ->
  Z.testbit opts 2 = true -> reached opts es c eff0 -> Forall daemon_event es -> 0 <= index < 4294967296 ->
  netif_byindex (c_nfs c) index = Some sub -> netif_byaddr (c_nfs c) (firstn 6 (skipn 6 f)) = None ->
  hears opts c index f now now2 c' ->
  0 <= now <= t -> t <= now + 180 -> t < 9223372036854775808 ->
  (forall en, In en (c_queue c') -> q_received en <= t) -> undisturbed (fun _ => true) (fresh t) (c_queue c') ->
  exists items text, cli_main [] [] ifindex t ws (map entry_bytes (c_queue c')) = Some (DOk (map OShow items, text))
  /\ exists x port, In x items /\ In port (table st') /\ nf_index port = i
     /\ sh_index x = index /\ sh_name x = nf_name sub /\ sh_proto x = p /\ sh_hold x = 180 - (t - now)
     /\ nth 0 (sh_peer x) None = told p (si_hostname (st_si st')) /\ nth 1 (sh_peer x) None = told p (nf_name port).
Proof. exact (b_neighbour_shown cfg pf o country location st e st' eff i p f opts es c eff0 index sub now now2 c' t ifindex ws). Qed.
Print Assumptions C138_neighbour_shown_partial.

(** The FreeBSD host of C134 sends on igb0, a member of lagg0; the daemon of C81,
    that knows a switch on its first interface, hears it on its third, and a minute
    later shows both. *)
Lemma be_on cfg : b_running_on cfg FreeBSD bd_sys (bs "NL") (bs "attic") bd_st0.
Proof.
  assert (E : bd_st0 = mkSt child_start (bsd_sysinfo FreeBSD bd_sys (bs "NL") (bs "attic")) 0) by (vm_compute; reflexivity).
  rewrite E. apply bon_boot; [exact bd_sys_ok| |]; (split; [apply bytes_okb; reflexivity|split; [vm_compute; intuition discriminate|now vm_compute]]).
Qed.
Definition be_run : sstate * list seff := Eval vm_compute in bc_send bd_cfg FreeBSD f_os1 NETIF_INDEX_MAX true 100 bd_st0.
Definition be_frame : list Z := Eval vm_compute in match frames (snd be_run) with [_; _; (_, f); _; _; _] => f | _ => [] end.
Definition be_d : list Z := Eval vm_compute in hd [] (parent_recv 3 [be_frame]).
Definition be_c : child := Eval vm_compute in z_child (z_es ++ [CRecv be_d 110 110]).
Lemma be_hears : match parent_recv 3 [be_frame] with [d] => match child_queue 4 z_c d 110 110 with DOk (x, _) => x = be_c | _ => False end | _ => False end ->
  socket_filter 4 be_frame = true -> hears 4 z_c 3 be_frame 110 110 be_c.
Proof.
  intros H F. split; [exact F|]. destruct (parent_recv 3 [be_frame]) as [|d [|]]; try contradiction.
  exists d. destruct (child_queue 4 z_c d 110 110) as [[x eff]| | | |] eqn:E; try contradiction. subst x. exists eff. now split.
Qed.
Example C138_case :
  b_running_on bd_cfg FreeBSD bd_sys (bs "NL") (bs "attic") bd_st0
  /\ b_event_ok (BRun f_os1 100) /\ bc_step bd_cfg FreeBSD bd_st0 (BRun f_os1 100) = DOk be_run
  /\ In (SFrame 1 0 be_frame) (snd be_run)
  /\ (exists eff, reached 4 z_es z_c eff) /\ Forall daemon_event z_es
  /\ option_map nf_name (netif_byindex (c_nfs z_c) 3) = Some (bs "eth1")
  /\ netif_byaddr (c_nfs z_c) (firstn 6 (skipn 6 be_frame)) = None
  /\ hears 4 z_c 3 be_frame 110 110 be_c
  /\ (forall en, In en (c_queue be_c) -> q_received en <= 170)
  /\ undisturbed (fun _ => true) (fresh 170) (c_queue be_c)
  /\ x_out (cli_main [] [] x_ifindex 170 None (map entry_bytes (c_queue be_c)))
     = [(1, 0, Some (bs "sw2.example.org"), Some (bs "Ethernet1/7"), 51);
        (3, 0, Some (bs "fw.example.org"), Some (bs "igb0"), 120)].
Proof.
  split; [apply be_on|]. split; [exact f_os1_ok|]. split; [vm_compute; reflexivity|]. split; [vm_compute; auto 20|].
  split; [apply z_reached; vm_compute; reflexivity|]. split; [constructor; [exact x_fetch|constructor; [exact x_sw2_ev|constructor]]|].
  split; [vm_compute; reflexivity|]. split; [vm_compute; reflexivity|].
  split; [apply be_hears; vm_compute; reflexivity|]. split; [apply x_before; vm_compute; reflexivity|].
  split; [apply x_calm; vm_compute; reflexivity|]. vm_compute. reflexivity.
Qed.
