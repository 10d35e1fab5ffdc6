(** Link events: C107. *)
From Verif Require Import Base Types Tlv Wire Util Child Netif Sysinfo Send Bsd Link Spec SpecNetif SpecSend SpecLink Cases6.
From Verif Require Import Lemmas SendProofs6 LinkProofs LinkProofs2.

(** C107, for datagrams that fit the buffer.  Whatever is in the socket is read to
    the end, and each message is handled once, in order, as an event of C36 and
    C37: one that says that an Ethernet interface is running starts a run for
    this interface, others do nothing. *)
Theorem C107_link_messages_partial cfg world buf dss st :
  Forall (fun ms => ms <> [] /\ Forall link_ok ms /\ zlen (datagram ms) <= zlen buf) dss ->
  exists st' effs, link_event cfg world buf (map datagram dss) st = DOk (st', effs, [])
    /\ send_run cfg st (link_events world 0 (concat dss)) = DOk (st', effs)
    /\ Forall2 answered (concat dss) effs.
Proof. exact (link_messages cfg world buf dss st). Qed.
Print Assumptions C107_link_messages_partial.
(** Two datagrams: eth0 is running and eth1 went down; then a loopback interface
    and eth1 running.  Frames are sent on eth0 for the first message and on eth1
    for the last. *)
Definition l_msg (type index flags : Z) (attrs : list Z) : linkmsg := mkLink 16 0 0 0 type index flags 4294967295 attrs.
Definition l_queue : list (list linkmsg) :=
  [[l_msg 1 1 69699 (bs "eth0"); l_msg 1 2 4099 (bs "attributes")]; [l_msg 772 3 65609 []; l_msg 1 2 69699 [7]]].
Definition l_world (k : nat) : nos * Z := (w_os2, 1000).
Definition l_sent (buf : list Z) (ds : list (list Z)) : list (list (Z * Z)) :=
  match link_event w_cfg l_world buf ds w_st0 with
  | DOk (_, effs, _) => map (fun e => map fst (frames e)) effs
  | _ => []
  end.
Lemma l_ok t i f a : 0 <= t < 65536 -> 0 < i < 100 -> 0 <= f < 4294967296 -> zlen a < 10000 -> link_ok (l_msg t i f a).
Proof. intros. unfold link_ok, l_msg; cbn. repeat split; try lia; now left. Qed.
Example C107_case :
  Forall (fun ms => ms <> [] /\ Forall link_ok ms /\ zlen (datagram ms) <= zlen (repeat 0 4096)) l_queue
  /\ l_sent (repeat 0 4096) (map datagram l_queue) = [[(1, 0)]; []; []; [(2, 0)]].
Proof.
  split; [|vm_compute; reflexivity].
  repeat (constructor; [split; [discriminate|split; [repeat (constructor; [apply l_ok; try lia; now vm_compute|]); constructor|now vm_compute]]|]). constructor.
Qed.

(** C107 is false of a datagram that does not fit: it is lost, and the interface
    that is up now stays silent until the next periodic run. *)
Definition l_large : linkmsg := l_msg 1 1 69699 (repeat 0 4096).
Theorem C107_large_refuted :
  exists cfg world buf m st st' effs, zlen buf = 4096 /\ link_ok m /\ link_up m = true
  /\ send_run cfg st (link_events world 0 [m]) = DOk (st', effs) /\ Forall (fun eff => frames eff <> []) effs /\ effs <> []
  /\ link_event cfg world buf [datagram [m]] st = DOk (st, [], []).
Proof.
  assert (E : exists st' eff, send_run w_cfg w_st0 (link_events l_world 0 [l_large]) = DOk (st', [eff]) /\ map fst (frames eff) = [(1, 0)]).
  { do 2 eexists. split; vm_compute; reflexivity. }
  destruct E as (st' & eff & E & F). exists w_cfg, l_world, (repeat 0 4096), l_large, w_st0, st', [eff].
  split; [now vm_compute|]. split; [apply l_ok; try lia; now vm_compute|]. split; [reflexivity|]. split; [exact E|].
  split; [constructor; [intros X; rewrite X in F; discriminate F|constructor]|]. split; [discriminate|]. vm_compute. reflexivity.
Qed.
Print Assumptions C107_large_refuted.

(** Whatever bytes arrive, reading stays within the buffer and ends, if there are 16
    bytes behind them. *)
Theorem C107_buffer_partial buf ds :
  Forall (fun d => zlen d + 16 <= zlen buf) ds -> exists ms rest, nl_loop buf ds = DOk (ms, rest).
Proof. exact (loop_ok ds buf). Qed.
Print Assumptions C107_buffer_partial.
(** Without, a message that ends behind its header makes the child read outside of
    the buffer. *)
Definition l_short : list Z := LE 4 16 ++ LE 2 16 ++ [0; 0] ++ LE 4 0 ++ LE 4 0.
Theorem C107_buffer_refuted :
  exists buf d, zlen buf = 4096 /\ zlen d = 4096 /\ nl_loop buf [d] = DUB.
Proof.
  exists (repeat 0 4096), (datagram [l_msg 1 1 0 (repeat 0 4048)] ++ l_short).
  split; [now vm_compute|]. split; now vm_compute.
Qed.
Print Assumptions C107_buffer_refuted.
Example C107_buffer_case :
  zlen l_short + 16 <= zlen (repeat 0 4096) /\ nl_loop (repeat 0 4096) [l_short; [1; 2; 3]; datagram [l_msg 1 1 69699 []]] = DOk ([(0, 0, 0); (1, 69699, 1)], []).
Proof. split; [now vm_compute|]. vm_compute. reflexivity. Qed.

(** On BSD, a message that is complete makes child_send run for its interface if and
    only if it says that an Ethernet interface is up and running with a link. *)
Theorem C107_bsd pf lay d :
  layout_ok lay -> rl_rt lay <= zlen d -> rl_if lay <= zlen d -> zlen d <= 2048 ->
  bsd_link pf lay (Some d) = DOk (if route_up pf lay d then Some (number 2 d (rl_index lay)) else None).
Proof. exact (bsd_link_eq pf lay d). Qed.
Print Assumptions C107_bsd.
(** Whatever is read, nothing outside of the message is touched; nothing happens if
    reading fails. *)
Theorem C107_bsd_safe pf lay got :
  layout_ok lay -> (exists r, bsd_link pf lay got = DOk r) /\ bsd_link pf lay None = DOk None.
Proof. exact (fun H => conj (bsd_link_ok pf lay got H) (bsd_link_none pf lay H)). Qed.
Print Assumptions C107_bsd_safe.
(** The structures of FreeBSD on amd64: em0 (index 2) up and running with a link,
    and without. *)
Definition l_lay : rt_layout := mkLay 152 168 2 3 12 8 16 20.
Definition l_route (state : Z) : list Z :=
  [168; 0; 5; 14; 16; 0; 0; 0] ++ LE 4 34883 ++ [2; 0; 0; 0; 6; 0; 6; 14; state] ++ repeat 0 147.
Example C107_bsd_case :
  layout_ok l_lay /\ zlen (l_route 2) = 168
  /\ bsd_link FreeBSD l_lay (Some (l_route 2)) = DOk (Some 2) /\ bsd_link FreeBSD l_lay (Some (l_route 1)) = DOk None.
Proof. split; [unfold layout_ok; cbn; lia|]. split; [reflexivity|]. split; vm_compute; reflexivity. Qed.
