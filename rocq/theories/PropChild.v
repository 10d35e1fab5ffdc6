(** The neighbour table, descriptions and client sessions: C24 to C35. *)
From Verif Require Import Base Types Tlv Msg Protos Parent Wire Util Child
  Spec SpecAdv SpecRound SpecNet SpecChild Cases2 Cases3 Cases4.
From Verif Require Import Lemmas VisProps NetProofs ChildProofs ChildProofs2 ChildProofs3 ChildProofs4 ChildProofs5 ChildProofs6 ChildProofs7.

(** C24: the abbreviation is the short form, and every name has exactly one. *)
Theorem C24_abbreviation s r : portname_abbr s = r <-> short_port s r.
Proof. exact (abbr_iff s r). Qed.
Print Assumptions C24_abbreviation.
Theorem C24_never_longer s : zlen (portname_abbr s) <= zlen s.
Proof. exact (abbr_length s). Qed.
Print Assumptions C24_never_longer.
Example C24_case :
  portname_abbr (bs "GigabitEthernet1/2") = bs "Gi1/2" /\ portname_abbr (bs "ETHernet3") = bs "ETH3"
  /\ portname_abbr (bs "xGigabitEthernet1") = bs "xGigabitEthernet1" /\ portname_abbr (bs "FastEthernet") = bs "Fa".
Proof. repeat split. Qed.

(** C25. *)
Theorem C25_one_entry_each opts es c eff : reached opts es c eff -> NoDup (map who (c_queue c)).
Proof. intros H. exact (t_who _ _ (reached_ok opts es c eff H)). Qed.
Print Assumptions C25_one_entry_each.
(** Two neighbours on one interface, one of them twice, one also elsewhere. *)
Definition u_events : list cevent :=
  [CFetch u_nfs; CRecv (u_in 1 (u_sw 1 120)) 100 100; CRecv (u_in 3 (u_sw 1 120)) 101 101;
   CRecv (u_in 1 (u_sw 2 90)) 102 102; CRecv (u_in 1 (u_sw 1 120)) 103 103].
Definition u_state : child :=
  match child_run 2060 child_start u_events with DOk (c, _) => c | _ => child_start end.
Example C25_case :
  (exists eff, reached 2060 u_events u_state eff)
  /\ map (fun e => (q_index e, source e, q_received e)) (c_queue u_state)
     = [(1, u_src 1, 103); (3, u_src 1, 101); (1, u_src 2, 102)].
Proof. split; [eexists|]; vm_compute; reflexivity. Qed.

(** C26 is false: a neighbour with the source address 00:00:00:00:00:00 heard
    first on an interface is not counted. *)
Definition u_zero : list Z := u_frame (repeat 0 6) 120 (bs "zero") (bs "p1").
Theorem C26_peers_refuted :
  exists opts es c eff, reached opts es c eff
    /\ distinct (sources 1 (c_queue c)) 1 /\ ds_peers (descr_scan opts 1 (c_queue c)) = 0.
Proof.
  exists 4, [CFetch u_nfs; CRecv (u_in 1 u_zero) 100 100]. do 2 eexists.
  split; [vm_compute; reflexivity|]. split; [|vm_compute; reflexivity].
  exists [repeat 0 6%nat]. split; [constructor; [easy|constructor]|]. split; [|reflexivity]. intros x. reflexivity.
Qed.
Print Assumptions C26_peers_refuted.
(** Otherwise it holds.  Missing: the all-zero source address in first place, and
    more than 65535 neighbours (the counter has 16 bits). *)
Theorem C26_peers_partial opts es c eff i n :
  reached opts es c eff ->
  hd_error (sources i (c_queue c)) <> Some [0; 0; 0; 0; 0; 0] -> distinct (sources i (c_queue c)) n ->
  ds_peers (descr_scan opts i (c_queue c)) = n mod 65536.
Proof. intros H. apply peers_count. exact (t_grouped _ _ (reached_ok opts es c eff H)). Qed.
Print Assumptions C26_peers_partial.
Example C26_case :
  hd_error (sources 1 (c_queue u_state)) = Some (u_src 1) /\ distinct (sources 1 (c_queue u_state)) 2
  /\ ds_peers (descr_scan 4 1 (c_queue u_state)) = 2.
Proof.
  split; [vm_compute; reflexivity|]. split; [|vm_compute; reflexivity].
  exists [u_src 1; u_src 2]. split; [|split; [|reflexivity]].
  - constructor; [intros [K|[]]; discriminate|]. constructor; [easy|constructor].
  - intros x. vm_compute. tauto.
Qed.

(** C27.  [d] is the datagram of the parent for the frame [f]; [who] of an entry
    are interface, protocol and the two addresses. *)
Theorem C27_latest_advertisement opts es c eff0 d index p received f now now2 sub proto ttl attrs c' eff :
  reached opts es c eff0 ->
  bytes f -> carries d index p received f -> 0 <= p < 6 -> 60 <= zlen f <= 1518 -> now <> -1 ->
  netif_byindex (c_nfs c) index = Some sub -> netif_byaddr (c_nfs c) (firstn 6 (skipn 6 f)) = None ->
  advert p f proto ttl attrs -> ttl <> 0 ->
  child_queue opts c d now now2 = DOk (c', eff) ->
  (exists e, In e (c_queue c') /\ q_index e = index /\ q_proto e = proto /\ q_name e = nf_name sub
     /\ q_received e = now /\ q_len e = zlen f /\ q_msg e = f ++ repeat 0 (Z.to_nat (1518 - zlen f))
     /\ q_ttl e = ttl /\ q_peer e = report attrs)
  /\ (forall e, who e <> (index, proto, firstn 12 f) -> In e (c_queue c') <-> In e (c_queue c)).
Proof.
  intros H. exact (rcv_table opts c d index p received f now now2 sub proto ttl attrs c' eff (reached_ok opts es c eff0 H)).
Qed.
Print Assumptions C27_latest_advertisement.
(** A third neighbour on the bond member. *)
Lemma u_sw_frame k ttl : 0 <= k < 256 -> 0 <= ttl < 256 -> proto_frame 0 (u_sw k ttl) (skipn 14 (u_sw k ttl)).
Proof.
  intros Hk Ht. apply (t_lldp (u_sw k ttl)); reflexivity.
Qed.
Example C27_case :
  let f := u_sw 5 30 in
  bytes f /\ carries (u_in 3 f) 3 0 0 f /\ 60 <= zlen f <= 1518
  /\ netif_byindex (c_nfs u_state) 3 <> None /\ netif_byaddr (c_nfs u_state) (firstn 6 (skipn 6 f)) = None
  /\ (exists attrs, advert 0 f 0 30 attrs /\ nth 0 (report attrs) None = Some (bs "sw.example.org"))
  /\ match child_queue 2060 u_state (u_in 3 f) 110 110 with
     | DOk (c', _) => map (fun e => (q_index e, source e, q_received e, q_ttl e)) (c_queue c')
          = [(1, u_src 1, 103, 120); (3, u_src 1, 101, 120); (1, u_src 2, 102, 90); (3, u_src 5, 110, 30)]
     | _ => False end.
Proof.
  cbv zeta. split; [is_bytes|]. split; [repeat split; vm_compute; reflexivity|].
  split; [split; vm_compute; discriminate|]. split; [vm_compute; discriminate|]. split; [vm_compute; reflexivity|]. split.
  - edestruct (u_advert 0 (u_sw 5 30)) as (attrs & A & R);
      [is_bytes|split; vm_compute; discriminate|lia|apply u_sw_frame; lia|vm_compute; reflexivity|].
    exists attrs. split; [exact A|]. now rewrite R.
  - vm_compute. reflexivity.
Qed.

(** C28 in terms of the lock counter of the entries: [stays] is "not over yet, or
    locked". *)
Theorem C28_expiry_counter opts now c :
  now <> -1 -> c_queue (fst (child_expire opts now c)) = filter (stays now) (c_queue c).
Proof. intros H. exact (proj1 (child_expire_queue opts now c H)). Qed.
Print Assumptions C28_expiry_counter.
(** In terms of client sessions C28 is false: an entry over for a long time and
    held by no session stays (the session it was locked by timed out). *)
Definition u_expel : list cevent :=
  [CFetch u_nfs; CRecv (u_in 1 (u_sw 1 120)) 100 100; CAccept 7; CReady 7 [WAgain]; CTimeout 7].
Theorem C28_expiry_refuted :
  exists opts es c eff e now, reached opts es c eff /\ In e (c_queue c)
    /\ q_received e + q_ttl e < now /\ ~ held c e
    /\ In e (c_queue (fst (child_expire opts now c))).
Proof.
  exists 4, u_expel. do 2 eexists. exists (hd (mkEnt 0 0 [] 0 0 0 [] 0 [] 0) (match child_run 4 child_start u_expel with DOk (c, _) => c_queue c | _ => [] end)), 1000.
  split; [vm_compute; reflexivity|]. split; [vm_compute; now left|]. split; [vm_compute; reflexivity|].
  split; [intros (s & [] & _)|vm_compute; now left].
Qed.
Print Assumptions C28_expiry_refuted.
(** It holds in calm states without time-outs of waiting sessions.  Missing:
    time-outs, refreshed entries a session waits on, more than 255 sessions. *)
Theorem C28_expiry_partial opts now c :
  calm opts c 0 -> now <> -1 ->
  exists keep, (forall e, In e (c_queue c) -> (keep e = true <-> now <= q_received e + q_ttl e \/ held c e))
  /\ c_queue (fst (child_expire opts now c)) = filter keep (c_queue c).
Proof.
  intros Hc Hn. exists (stays now). split; [|exact (proj1 (child_expire_queue opts now c Hn))].
  intros e He. exact (calm_stays opts c e now Hc He).
Qed.
Print Assumptions C28_expiry_partial.
(** A calm state with a waiting session: its entry survives, the other one goes. *)
Ltac u_recv k :=
  exists 1, 0, (u_sw k 120), (skipn 14 (u_sw k 120)); split; [is_bytes|];
  split; [split; vm_compute; (reflexivity || discriminate)|]; split; [clear; lia|];
  split; [repeat split; vm_compute; reflexivity|]; split; [apply u_sw_frame; clear; lia|].
Definition u_w2 : child := u_next 4 (u_next 4 child_start (CFetch u_nfs)) (CRecv (u_in 1 (u_sw 1 120)) 100 100).
Definition u_w3 : child := u_next 4 u_w2 (CRecv (u_in 1 (u_sw 2 120)) 101 101).
Definition u_wait : child := u_next 4 (u_next 4 u_w3 (CAccept 7)) (CReady 7 [WOk; WAgain]).
Lemma u_none c x : c_sess c = [] -> ~ held c x.
Proof. intros H (s & Hs & _). now rewrite H in Hs. Qed.
Lemma u_wait_calm : calm 4 u_wait 0.
Proof.
  assert (E1 : c_sess (u_next 4 child_start (CFetch u_nfs)) = []) by (vm_compute; reflexivity).
  assert (E2 : c_sess u_w2 = []) by (vm_compute; reflexivity).
  assert (C2 : calm 4 u_w2 0).
  { apply (u_calm 4 (u_next 4 child_start (CFetch u_nfs)) 0 (CRecv (u_in 1 (u_sw 1 120)) 100 100)); [| |vm_compute; reflexivity].
    - apply (u_calm 4 child_start 0 (CFetch u_nfs)); [apply calm_start|exact I|vm_compute; reflexivity].
    - u_recv 1. intros x _ Hx. now apply u_none in Hx. }
  assert (C3 : calm 4 u_w3 0).
  { apply (u_calm 4 u_w2 0 (CRecv (u_in 1 (u_sw 2 120)) 101 101)); [exact C2| |vm_compute; reflexivity].
    u_recv 2. intros x _ Hx. now apply u_none in Hx. }
  apply (u_calm 4 (u_next 4 u_w3 (CAccept 7)) 0 (CReady 7 [WOk; WAgain])); [|exact I|vm_compute; reflexivity].
  apply (u_calm 4 u_w3 0 (CAccept 7)); [exact C3|exact I|vm_compute; reflexivity].
Qed.
Example C28_case :
  calm 4 u_wait 0 /\ map source (c_queue u_wait) = [u_src 1; u_src 2]
  /\ map source (c_queue (fst (child_expire 4 1000 u_wait))) = [u_src 2].
Proof. split; [exact u_wait_calm|]. split; vm_compute; reflexivity. Qed.

(** C29.  Even an entry a session reads is removed (its counter is reset, see
    C33); the rest of the table is as after an expiry run at [now2]. *)
Theorem C29_shutdown opts es c eff0 d index p f now now2 sub proto attrs c' eff :
  reached opts es c eff0 ->
  bytes f -> carries d index p 0 f -> 0 <= p < 6 -> 60 <= zlen f <= 1518 -> now <> -1 -> 0 < now2 ->
  netif_byindex (c_nfs c) index = Some sub -> netif_byaddr (c_nfs c) (firstn 6 (skipn 6 f)) = None ->
  advert p f proto 0 attrs ->
  child_queue opts c d now now2 = DOk (c', eff) ->
  (forall e, In e (c_queue c') -> who e <> (index, proto, firstn 12 f))
  /\ (forall e, who e <> (index, proto, firstn 12 f) -> In e (c_queue c') <-> In e (c_queue c) /\ stays now2 e = true).
Proof.
  intros H. exact (rcv_shutdown opts c d index p f now now2 sub proto attrs c' eff (reached_ok opts es c eff0 H)).
Qed.
Print Assumptions C29_shutdown.
Example C29_case :
  (exists attrs, advert 0 (u_sw 1 0) 0 0 attrs)
  /\ match child_queue 2060 u_state (u_in 1 (u_sw 1 0)) 104 104 with
     | DOk (c', eff) => map (fun e => (q_index e, source e)) (c_queue c') = [(3, u_src 1); (1, u_src 2)]
         /\ eff = [CDescr 1 (bs "connected to sw (Gi0/1)")]
     | _ => False end.
Proof.
  split; [|vm_compute; split; reflexivity].
  edestruct (u_advert 0 (u_sw 1 0)) as (attrs & A & R);
    [is_bytes|split; vm_compute; discriminate|lia|apply u_sw_frame; lia|vm_compute; reflexivity|].
  exists attrs. exact A.
Qed.

(** C30: the state is unchanged and nothing is written or requested. *)
Theorem C30_ignored opts c d index p received f payload now now2 :
  bytes f -> carries d index p received f -> 0 <= p < 6 -> 60 <= zlen f < 1518 -> proto_frame p f payload ->
  (forall n, In n (c_nfs c) -> nf_index n <> index)
  \/ (exists n, In n (c_nfs c) /\ nf_hwaddr n = firstn 6 (skipn 6 f))
  \/ (forall proto ttl attrs, ~ advert p f proto ttl attrs) ->
  child_queue opts c d now now2 = DOk (c, []).
Proof. exact (rcv_ignored opts c d index p received f payload now now2). Qed.
Print Assumptions C30_ignored.
(** Unknown interface 9; own address of bond0; a truncated TLV. *)
Example C30_case :
  let own := u_frame [2; 16; 0; 0; 0; 2] 120 (bs "me") (bs "p") in
  let bad := firstn 60 (u_sw 1 120) in
  map (fun x => child_queue 2060 u_state (u_in (fst x) (snd x)) 110 110) [(9, u_sw 1 120); (1, own); (1, bad)]
  = repeat (DOk (u_state, [])) 3
  /\ lldp_frame bad (skipn 14 bad) /\ carries (u_in 1 bad) 1 0 0 bad
  /\ (exists n, In n (c_nfs u_state) /\ nf_hwaddr n = firstn 6 (skipn 6 own)).
Proof.
  cbv zeta. split; [vm_compute; reflexivity|]. split; [apply t_lldp; reflexivity|].
  split; [repeat split; vm_compute; reflexivity|].
  eexists. split; [vm_compute; right; left; reflexivity|]. reflexivity.
Qed.

(** C31: bit [p] of [nf_protos] enables protocol [p]; bit 3 of the options is
    OPT_AUTO, bit 5 OPT_ARGV (interfaces listed on the command line).
    After an expiry run that removed an entry heard on [sub]: *)
Theorem C31_expiry_updates opts now c c' eff e sub top ms :
  now <> -1 -> Z.testbit opts 3 = true -> NoDup (map nf_index (c_nfs c)) ->
  child_expire opts now c = (c', eff) ->
  In e (c_queue c) -> ~ In e (c_queue c') -> netif_byindex (c_nfs c) (q_index e) = Some sub ->
  uplink (c_nfs c) sub top -> counted (c_nfs c) top ms ->
  exists top', netif_byindex (c_nfs c') (nf_index top) = Some top' /\ fixed top' = fixed top
  /\ forall p, 0 <= p < 8 -> (Z.testbit (nf_protos top') p = true <-> heard ms (c_queue c') p).
Proof. exact (expire_protos opts now c c' eff e sub top ms). Qed.
Print Assumptions C31_expiry_updates.
(** After a frame: *)
Theorem C31_frame_enables opts c d index p f now now2 sub proto ttl attrs c' eff top :
  Z.testbit opts 3 = true -> (Z.testbit opts 5 = true -> nf_argv sub <> 0 \/ nf_argv top <> 0) ->
  NoDup (map nf_index (c_nfs c)) -> uplink (c_nfs c) sub top ->
  bytes f -> carries d index p 0 f -> 0 <= p < 6 -> 60 <= zlen f <= 1518 -> now <> -1 ->
  netif_byindex (c_nfs c) index = Some sub -> netif_byaddr (c_nfs c) (firstn 6 (skipn 6 f)) = None ->
  advert p f proto ttl attrs -> ttl <> 0 -> child_queue opts c d now now2 = DOk (c', eff) ->
  exists top', netif_byindex (c_nfs c') (nf_index top) = Some top' /\ fixed top' = fixed top
  /\ forall k, 0 <= k < 8 -> Z.testbit (nf_protos top') k = Z.testbit (nf_protos top) k || (k =? proto).
Proof. exact (frame_enables opts c d index p f now now2 sub proto ttl attrs c' eff top). Qed.
Print Assumptions C31_frame_enables.
(** So after any history over a fixed interface table the enabled protocols are
    exactly the ones heard. *)
Theorem C31_enabled_exactly_heard opts nfs es c eff n ms p :
  Z.testbit opts 3 = true -> Z.testbit opts 5 = false -> wired nfs -> Forall (stable_event nfs) es ->
  reached opts (CFetch nfs :: es) c eff ->
  In n nfs -> nf_parent n = None -> counted nfs n ms -> 0 <= p < 8 ->
  exists n', netif_byindex (c_nfs c) (nf_index n) = Some n' /\ fixed n' = fixed n
  /\ (Z.testbit (nf_protos n') p = true <-> heard ms (c_queue c) p).
Proof. exact (auto_exact opts nfs es c eff n ms p). Qed.
Print Assumptions C31_enabled_exactly_heard.
(** The bond gets LLDP from its member and loses it again. *)
Lemma u_chain : member_chain u_nfs (Some 3) [u_slave].
Proof. apply (chain_next u_nfs 3 u_slave); [cbn; tauto|reflexivity|apply chain_end]. Qed.
Lemma u_counted : counted u_nfs u_bond [u_slave].
Proof.
  right. split; [reflexivity|]. split; [exact u_chain|]. split; [constructor; [easy|constructor]|].
  intros m [<-|[]]. discriminate.
Qed.
Lemma u_wired : wired u_nfs.
Proof.
  split; [repeat constructor; cbn; intuition lia|]. split; [|split].
  - intros n [<-|[<-|[<-|[]]]]; now split.
  - intros n [<-|[<-|[<-|[]]]] H; try discriminate.
    + exists [u_eth]. split; [left; split; [cbn; lia|reflexivity]|]. intros m [<-|[]]. left. now split.
    + exists [u_slave]. split; [exact u_counted|]. intros m [<-|[]]. right. exists 2. now split.
  - intros n i [<-|[<-|[<-|[]]]] H; try discriminate. injection H as <-. exists u_bond, [u_slave].
    split; [reflexivity|]. split; [reflexivity|]. split; [exact u_counted|now left].
Qed.
Example C31_case :
  wired u_nfs /\ counted u_nfs u_bond [u_slave] /\ Forall (stable_event u_nfs) [CRecv (u_in 3 (u_sw 1 120)) 100 100; CTick 300]
  /\ map nf_protos (c_nfs u_state) = [1; 1; 0]
  /\ map nf_protos (c_nfs (fst (child_expire 2060 222 u_state))) = [1; 0; 0].
Proof.
  split; [exact u_wired|]. split; [exact u_counted|]. split; [|split; vm_compute; reflexivity].
  constructor; [|constructor; [exact I|constructor]]. split; [lia|]. exists 3, 0, (u_sw 1 120), (skipn 14 (u_sw 1 120)).
  split; [is_bytes|]. split; [split; vm_compute; discriminate|]. split; [lia|].
  split; [repeat split; vm_compute; reflexivity|]. split; [apply u_sw_frame; lia|].
  intros n [<-|[<-|[<-|[]]]] H; try discriminate; cbn; lia.
Qed.

(** C32: what is written is the right text for the table at that moment (bit 11
    of the options is OPT_IFDESCR) and differs from the description in the
    interface table.  Missing: an all-zero source address heard first on an
    interface, 65536 and more neighbours (see C26), and that the description in
    the interface table is only as fresh as the last refetch (below). *)
Theorem C32_written_partial opts es c eff0 e c' eff i t n :
  reached opts es c eff0 -> NoDup (map nf_index (c_nfs c)) -> child_step opts c e = DOk (c', eff) ->
  In (CDescr i t) eff ->
  hd_error (sources i (c_queue c')) <> Some [0; 0; 0; 0; 0; 0] -> distinct (sources i (c_queue c')) n -> n < 65536 ->
  describes opts i (c_queue c') t /\ zlen t <= 63
  /\ exists m, In m (c_nfs c) /\ nf_index m = i /\ t <> nf_description m.
Proof. exact (step_describes opts es c eff0 e c' eff i t n). Qed.
Print Assumptions C32_written_partial.
(** After every valid frame the right text is written or was already set. *)
Theorem C32_frame_partial opts es c eff0 d index p f now now2 sub proto ttl attrs c' eff n :
  reached opts es c eff0 -> Z.testbit opts 11 = true ->
  bytes f -> carries d index p 0 f -> 0 <= p < 6 -> 60 <= zlen f <= 1518 -> now <> -1 ->
  netif_byindex (c_nfs c) index = Some sub -> netif_byaddr (c_nfs c) (firstn 6 (skipn 6 f)) = None ->
  advert p f proto ttl attrs -> ttl <> 0 -> child_queue opts c d now now2 = DOk (c', eff) ->
  hd_error (sources index (c_queue c')) <> Some [0; 0; 0; 0; 0; 0] -> distinct (sources index (c_queue c')) n -> n < 65536 ->
  exists t, describes opts index (c_queue c') t
  /\ (eff = [CDescr index t] \/ eff = [] /\ t = nf_description sub).
Proof. exact (frame_describes opts es c eff0 d index p f now now2 sub proto ttl attrs c' eff n). Qed.
Print Assumptions C32_frame_partial.
(** And after every removal. *)
Theorem C32_expiry_partial opts es c eff0 now c' eff e sub n :
  reached opts es c eff0 -> Z.testbit opts 11 = true -> now <> -1 -> NoDup (map nf_index (c_nfs c)) ->
  child_expire opts now c = (c', eff) -> In e (c_queue c) -> ~ In e (c_queue c') ->
  netif_byindex (c_nfs c) (q_index e) = Some sub ->
  hd_error (sources (q_index e) (c_queue c')) <> Some [0; 0; 0; 0; 0; 0] ->
  distinct (sources (q_index e) (c_queue c')) n -> n < 65536 ->
  exists t, describes opts (q_index e) (c_queue c') t
  /\ (In (CDescr (q_index e) t) eff \/ t = nf_description sub).
Proof. exact (expiry_describes opts es c eff0 now c' eff e sub n). Qed.
Print Assumptions C32_expiry_partial.
(** "Only written when it changes" is false: the copy in the interface table is
    not updated by the write, so a refreshed neighbour is written again. *)
Definition u_conn : list Z := bs "connected to sw (Gi0/1)".
Theorem C32_rewritten_refuted :
  exists opts es c eff, reached opts es c eff /\ length (filter (fun e => match e with CFetch _ => true | _ => false end) es) = 1%nat
    /\ eff = [CDescr 1 u_conn; CDescr 1 u_conn].
Proof.
  exists 2060, [CFetch u_nfs; CRecv (u_in 1 (u_sw 1 120)) 100 100; CRecv (u_in 1 (u_sw 1 120)) 130 130]. do 2 eexists.
  split; [vm_compute; reflexivity|]. split; reflexivity.
Qed.
Print Assumptions C32_rewritten_refuted.
(** "Empty when no neighbour is heard" is false for the same reason: the text of
    a neighbour that leaves before the next refetch stays. *)
Theorem C32_cleared_refuted :
  exists opts es c eff, reached opts es c eff /\ sources 1 (c_queue c) = [] /\ eff = [CDescr 1 u_conn].
Proof.
  exists 2060, [CFetch u_nfs; CRecv (u_in 1 (u_sw 1 120)) 100 100; CRecv (u_in 1 (u_sw 1 0)) 110 110]. do 2 eexists.
  split; [vm_compute; reflexivity|]. split; reflexivity.
Qed.
Print Assumptions C32_cleared_refuted.
Example C32_case :
  describes 2060 3 (c_queue u_state) u_conn
  /\ (exists eff, child_run 2060 child_start u_events = DOk (u_state, eff)
       /\ eff = [CDescr 1 u_conn; CDescr 3 u_conn; CDescr 1 (bs "connected to 2 peers"); CDescr 1 (bs "connected to 2 peers")]).
Proof.
  split; [|eexists; split; [vm_compute; reflexivity|reflexivity]].
  unfold describes. cbv zeta. exists 1. split.
  - exists [u_src 1]. split; [constructor; [easy|constructor]|]. split; [|reflexivity]. intros x. vm_compute. tauto.
  - split; [discriminate|]. split; [|lia]. intros _.
    assert (E1 : first_attr 0 3 (c_queue u_state) = Some (bs "sw.example.org")) by (vm_compute; reflexivity).
    assert (E2 : first_attr 1 3 (c_queue u_state) = Some (bs "GigabitEthernet0/1")) by (vm_compute; reflexivity).
    rewrite E1. change (if Z.testbit 2060 12 then 2%nat else 1%nat) with 1%nat. rewrite E2.
    exists (bs "sw"), (bs "Gi0/1"). split; [|split; [|reflexivity]].
    + split; [cbn; intuition lia|]. right. now exists (bs "example.org").
    + apply C24_abbreviation. reflexivity.
Qed.

(** C33 is false: a refreshed entry forgets that a session waits on it, expires,
    and the session goes on reading freed memory. *)
Theorem C33_never_freed_refuted :
  exists opts es c eff s, reached opts es c eff /\ In s (c_sess c)
    /\ (exists i, ss_msg s = Some i /\ ~ In i (map q_id (c_queue c)))
    /\ child_step opts c (CReady (ss_id s) []) = DUB.
Proof.
  exists 4, [CFetch u_nfs; CRecv (u_in 1 (u_sw 1 120)) 100 100; CAccept 7; CReady 7 [WAgain];
             CRecv (u_in 1 (u_sw 1 120)) 110 110; CTick 1000]. do 2 eexists. exists (mkSess 7 (Some 0)).
  split; [vm_compute; reflexivity|]. split; [vm_compute; now left|].
  split; [exists 0; split; [reflexivity|vm_compute; tauto]|vm_compute; reflexivity].
Qed.
Print Assumptions C33_never_freed_refuted.
(** It holds as long as no frame overwrites an entry a session waits on, and at
    most 255 sessions are there or were thrown out while waiting ([t]).
    Missing: such frames and more sessions (the counter has eight bits). *)
Theorem C33_never_freed_partial opts c t :
  calm opts c t ->
  (forall s i, In s (c_sess c) -> ss_msg s = Some i -> exists e, In e (c_queue c) /\ q_id e = i)
  /\ (forall e, considerate c e -> exists c' eff, child_step opts c e = DOk (c', eff)).
Proof.
  intros H. split; [intros s i; exact (calm_held opts c t s i H)|intros e; exact (calm_safe opts c t e H)].
Qed.
Print Assumptions C33_never_freed_partial.
Example C33_case :
  calm 4 u_wait 0 /\ In (mkSess 7 (Some 1)) (c_sess u_wait) /\ considerate u_wait (CRecv (u_in 1 (u_sw 1 120)) 110 110).
Proof.
  split; [exact u_wait_calm|]. split; [vm_compute; now left|]. u_recv 1.
  assert (E : c_sess u_wait = [mkSess 7 (Some 1)]) by (vm_compute; reflexivity).
  assert (F : map (fun e => (q_id e, firstn 12 (q_msg e))) (c_queue u_wait)
    = [(0, [1; 128; 194; 0; 0; 14] ++ u_src 1); (1, [1; 128; 194; 0; 0; 14] ++ u_src 2)]) by (vm_compute; reflexivity).
  intros x Hx (s & Hs & Hh) _. rewrite E in Hs. destruct Hs as [<-|[]]. unfold holds in Hh. injection Hh as Hh.
  apply (in_map (fun e => (q_id e, firstn 12 (q_msg e)))) in Hx. rewrite F in Hx. cbv beta in Hx. rewrite <- Hh in Hx.
  destruct Hx as [Hx|[Hx|[]]]; [discriminate Hx|]. pose proof (f_equal snd Hx) as G. cbn [snd] in G. rewrite <- G. vm_compute. discriminate.
Qed.

(** C34 is false: a session that times out leaves its entry locked for ever (see
    also C28), here with no session left at all. *)
Theorem C34_released_refuted :
  exists opts es c eff, reached opts es c eff /\ c_sess c = [] /\ map q_lock (c_queue c) = [1].
Proof.
  exists 4, u_expel. do 2 eexists. split; [vm_compute; reflexivity|]. split; reflexivity.
Qed.
Print Assumptions C34_released_refuted.
(** A refresh while a session waits has the same effect when the session ends
    regularly: the counter wraps around to 255. *)
Theorem C34_wrap_refuted :
  exists opts es c eff, reached opts es c eff /\ c_sess c = [] /\ map q_lock (c_queue c) = [255].
Proof.
  exists 4, [CFetch u_nfs; CRecv (u_in 1 (u_sw 1 120)) 100 100; CAccept 7; CReady 7 [WAgain];
             CRecv (u_in 1 (u_sw 1 120)) 110 110; CReady 7 []].
  do 2 eexists. split; [vm_compute; reflexivity|]. split; reflexivity.
Qed.
Print Assumptions C34_wrap_refuted.
(** Without time-outs of waiting sessions and without such refreshes an entry is
    locked only while a session waits on it.  Missing: the two cases above, more
    than 255 sessions. *)
Theorem C34_released_partial opts c e :
  calm opts c 0 -> In e (c_queue c) -> (q_lock e <> 0 <-> held c e).
Proof. exact (calm_exact opts c e). Qed.
Print Assumptions C34_released_partial.
Example C34_case :
  calm 4 u_wait 0 /\ map q_lock (c_queue u_wait) = [0; 1]
  /\ match child_step 4 u_wait (CReady 7 []) with DOk (c, _) => map q_lock (c_queue c) = [0; 0] /\ c_sess c = [] | _ => False end.
Proof. split; [exact u_wait_calm|]. split; [vm_compute; reflexivity|]. vm_compute. split; reflexivity. Qed.

(** C35.  Session [sid] starts in [c]; then events of client sessions happen in
    any order (writes blocked any number of times). *)
Theorem C35_all_entries_in_order opts es0 c eff0 sid es c' eff :
  reached opts es0 c eff0 -> ~ In sid (map ss_id (c_sess c)) ->
  Forall session_event es -> ~ In (CAccept sid) es ->
  child_run opts c (CAccept sid :: es) = DOk (c', eff) ->
  (exists k, sent_to sid eff = firstn k (map entry_bytes (c_queue c)))
  /\ (~ In sid (map ss_id (c_sess c')) -> ~ Exists (breaks sid) es ->
      sent_to sid eff = map entry_bytes (c_queue c)).
Proof.
  intros H. exact (session_sent opts c _ sid es c' eff (reached_ok opts es0 c eff0 H)).
Qed.
Print Assumptions C35_all_entries_in_order.
(** Two interleaved sessions, both blocked in between. *)
Definition u_two : list cevent :=
  [CReady 7 [WOk; WAgain]; CAccept 8; CReady 8 [WAgain]; CReady 7 [WAgain]; CReady 7 [WOk; WAgain]; CReady 8 []; CReady 7 []].
Example C35_case :
  Forall session_event u_two /\ ~ In (CAccept 7) u_two /\ ~ Exists (breaks 7) u_two
  /\ match child_run 2060 u_state (CAccept 7 :: u_two) with
     | DOk (c', eff) => c_sess c' = [] /\ length (sent_to 7 eff) = 3%nat
         /\ map (firstn 12) (sent_to 7 eff) = map (fun e => firstn 12 (entry_bytes e)) (c_queue u_state)
     | _ => False end.
Proof.
  split; [repeat constructor|]. split; [cbn; intuition discriminate|]. split.
  - intros H. unfold u_two in H. repeat (apply Exists_cons in H as [H|H]; [cbn in H; intuition discriminate|]). now apply Exists_nil in H.
  - vm_compute. repeat split.
Qed.
