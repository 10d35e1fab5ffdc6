(** Two daemons on one wire: C81, C82. *)
From Verif Require Import Base Types Tlv Bpf Wire Parent Util Child Netif Sysinfo Send Cli Spec SpecAdv SpecRound SpecNet SpecChild SpecSend SpecSys SpecCli SpecE2E
  Cases2 Cases3 Cases4 Cases6 Cases7 PropSys.
From Verif Require Import Lemmas SendProofs6 E2EProofs.

(** C81.  A frame that a daemon sends on an interface, in whatever state it got
    into, passes the filter of any other daemon that receives, is handed over and
    makes an entry in its table: with the protocol, the host name and the
    interface name of the sender, and 180 seconds to live.  Entries about other
    neighbours stay.  EDP (2) is left out: C17 shows that it is never received. *)
Theorem C81_neighbour_listed cfg os country location st e st' eff i p f opts es c eff0 index sub now now2 :
  running_on cfg os country location st -> event_ok e -> send_step cfg st e = DOk (st', eff) ->
  In (SFrame i p f) eff -> p <> 2 ->
  Z.testbit opts 2 = true -> reached opts es c eff0 -> 0 <= index < 4294967296 ->
  netif_byindex (c_nfs c) index = Some sub -> netif_byaddr (c_nfs c) (firstn 6 (skipn 6 f)) = None -> now <> -1 ->
  exists c', hears opts c index f now now2 c'
  /\ (exists port en, In port (table st') /\ nf_index port = i /\ named os (st_si st')
      /\ In en (c_queue c') /\ q_index en = index /\ q_name en = nf_name sub /\ q_proto en = p
      /\ q_received en = now /\ q_ttl en = 180
      /\ (source en = nf_hwaddr port \/ source en = repeat 0 6)
      /\ nth 0 (q_peer en) None = told p (si_hostname (st_si st'))
      /\ nth 1 (q_peer en) None = told p (nf_name port))
  /\ (forall en, who en <> (index, p, firstn 12 f) -> In en (c_queue c') <-> In en (c_queue c)).
Proof.
  intros H1 H2 H3 H4 H5 H6 H7 H8 H9 H10 H11.
  destruct (neighbour_listed cfg os country location st e st' eff i p f opts es c eff0 index sub now now2 H1 H2 H3 H4 H5 H6 H7 H8 H9 H10 H11)
    as (c' & A & _ & B). now exists c'.
Qed.
Print Assumptions C81_neighbour_listed.
(** C82.  Within these 180 seconds the client of that other daemon shows the sender,
    with the time that is left, unless an expired entry before it disturbs the
    client (see C44). *)
Theorem C82_neighbour_shown_partial cfg os country location st e st' eff i p f opts es c eff0 index sub now now2 c' t ifindex ws :
  running_on cfg os country location st -> event_ok e -> send_step cfg st e = DOk (st', eff) ->
  In (SFrame i p f) eff -> p <> 2 ->
  Z.testbit opts 2 = true -> reached opts es c eff0 -> Forall daemon_event es -> 0 <= index < 4294967296 ->
  netif_byindex (c_nfs c) index = Some sub -> netif_byaddr (c_nfs c) (firstn 6 (skipn 6 f)) = None ->
  hears opts c index f now now2 c' ->
  0 <= now <= t -> t <= now + 180 -> t < 9223372036854775808 ->
  (forall en, In en (c_queue c') -> q_received en <= t) -> undisturbed (fun _ => true) (fresh t) (c_queue c') ->
  exists items text, cli_main [] [] ifindex t ws (map entry_bytes (c_queue c')) = Some (DOk (map OShow items, text))
  /\ exists x port, In x items /\ In port (table st') /\ nf_index port = i
     /\ sh_index x = index /\ sh_name x = nf_name sub /\ sh_proto x = p /\ sh_hold x = 180 - (t - now)
     /\ nth 0 (sh_peer x) None = told p (si_hostname (st_si st')) /\ nth 1 (sh_peer x) None = told p (nf_name port).
Proof. exact (neighbour_shown cfg os country location st e st' eff i p f opts es c eff0 index sub now now2 c' t ifindex ws). Qed.
Print Assumptions C82_neighbour_shown_partial.

(** The host of C70 sends on eth0; a daemon that knows a switch on its first
    interface hears it on its third, and a minute later shows both. *)
Definition z_run (e : sevent) : sstate * list seff := match send_step w_cfg y_st e with DOk r => r | _ => (y_st, []) end.
Definition z_st : sstate := Eval vm_compute in fst (z_run (EvRun w_os2 100)).
Definition z_es : list cevent := [CFetch u_nfs; CRecv (u_in 1 x_sw2) 101 101].
Definition z_child (es : list cevent) : child := match child_run 4 child_start es with DOk (c, _) => c | _ => child_start end.
Definition z_c : child := Eval vm_compute in z_child z_es.
Definition z_d : list Z := Eval vm_compute in hd [] (parent_recv 3 [snd y_frame]).
Definition z_c' : child := Eval vm_compute in z_child (z_es ++ [CRecv z_d 110 110]).
Lemma z_reached es c : match child_run 4 child_start es with DOk (x, _) => x = c | _ => False end -> exists eff, reached 4 es c eff.
Proof. unfold reached. destruct (child_run 4 child_start es) as [[x eff]| | | |]; try contradiction. intros ->. now exists eff. Qed.
Lemma z_hears : match parent_recv 3 [snd y_frame] with [d] => match child_queue 4 z_c d 110 110 with DOk (x, _) => x = z_c' | _ => False end | _ => False end ->
  socket_filter 4 (snd y_frame) = true -> hears 4 z_c 3 (snd y_frame) 110 110 z_c'.
Proof.
  intros H F. split; [exact F|]. destruct (parent_recv 3 [snd y_frame]) as [|d [|]]; try contradiction.
  exists d. destruct (child_queue 4 z_c d 110 110) as [[x eff]| | | |] eqn:E; try contradiction. subst x. exists eff. now split.
Qed.
Example C81_case :
  event_ok (EvRun w_os2 100) /\ send_step w_cfg y_st (EvRun w_os2 100) = DOk (z_st, y_eff)
  /\ In (SFrame 1 0 (snd y_frame)) y_eff
  /\ (exists eff, reached 4 z_es z_c eff) /\ Forall daemon_event z_es
  /\ option_map nf_name (netif_byindex (c_nfs z_c) 3) = Some (bs "eth1")
  /\ netif_byaddr (c_nfs z_c) (firstn 6 (skipn 6 (snd y_frame))) = None
  /\ hears 4 z_c 3 (snd y_frame) 110 110 z_c'
  /\ (forall en, In en (c_queue z_c') -> q_received en <= 170)
  /\ undisturbed (fun _ => true) (fresh 170) (c_queue z_c')
  /\ x_out (cli_main [] [] x_ifindex 170 None (map entry_bytes (c_queue z_c')))
     = [(1, 0, Some (bs "sw2.example.org"), Some (bs "Ethernet1/7"), 51);
        (3, 0, Some (bs "box.example.org"), Some (bs "eth0"), 120)].
Proof.
  split; [apply w_os_ok; repeat constructor; lia|]. split; [vm_compute; reflexivity|]. split; [vm_compute; auto 20|].
  split; [apply z_reached; vm_compute; reflexivity|]. split; [constructor; [exact x_fetch|constructor; [exact x_sw2_ev|constructor]]|].
  split; [vm_compute; reflexivity|]. split; [vm_compute; reflexivity|].
  split; [apply z_hears; vm_compute; reflexivity|]. split; [apply x_before; vm_compute; reflexivity|].
  split; [apply x_calm; vm_compute; reflexivity|]. vm_compute. reflexivity.
Qed.
