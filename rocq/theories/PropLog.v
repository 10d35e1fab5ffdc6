(** C136.  The log tells of neighbours coming and going. *)
From Verif Require Import Base Types Tlv Checks Msg Protos Wire Util Child Log Spec SpecAdv SpecRound SpecNet SpecNetif SpecNetif2 SpecChild SpecHold SpecLog.
From Verif Require Import DecProofs HoldProofs LogProofs LogProofs2 Cases2 Cases3 Cases4 PropChild.
From Coq Require Import Lia.

(** In any state the daemon can get into, "new peer" is logged for an event exactly
    when it is an advertisement of a neighbour that is not in the table, giving a
    host name; with its protocol and the interface or, for a member, its aggregate. *)
Theorem C136_new opts es c eff e c' eff' : reached opts es c eff -> ordinary e -> child_step opts c e = DOk (c', eff') ->
  (forall h p i, In (LNew h p i) (log_step opts c e) -> exists en, news c e en)
  /\ (forall en n top h p i, news c e en -> netif_byindex (c_nfs c) (q_index en) = Some n -> uplink (c_nfs c) n top ->
      In (LNew h p i) (log_step opts c e) <->
      (forall x, In x (c_queue c) -> who x <> who en) /\ nth 0 (q_peer en) None = Some h /\ p = q_proto en /\ i = nf_name top).
Proof. exact (new_exact opts es c eff e c' eff'). Qed.
Print Assumptions C136_new.
(** "removing peer" is logged exactly for the neighbours that leave the table, with the
    name they are listed under, and for one that shuts down, with the name given in
    its last advertisement. *)
Theorem C136_gone opts es c eff e c' eff' h p : reached opts es c eff -> ordinary e -> child_step opts c e = DOk (c', eff') ->
  In (LGone h p) (log_step opts c e) <->
    (exists x, In x (c_queue c) /\ (forall y, In y (c_queue c') -> who y <> who x) /\ (forall en, news c e en -> who en <> who x)
       /\ nth 0 (q_peer x) None = Some h /\ p = q_proto x)
    \/ (exists en, news c e en /\ q_ttl en = 0 /\ nth 0 (q_peer en) None = Some h /\ p = q_proto en).
Proof. exact (gone_exact opts es c eff e c' eff' h p). Qed.
Print Assumptions C136_gone.
(** "enabling" is logged exactly when a protocol is enabled on an interface. *)
Theorem C136_enabling opts es c eff e c' eff' : reached opts es c eff -> ordinary e -> child_step opts c e = DOk (c', eff') ->
  (forall p i, In (LOn p i) (log_step opts c e) -> exists en, news c e en)
  /\ (forall en n top p i, news c e en -> netif_byindex (c_nfs c) (q_index en) = Some n -> uplink (c_nfs c) n top ->
      In (LOn p i) (log_step opts c e) <->
      q_ttl en <> 0 /\ p = q_proto en /\ i = nf_name top /\ enables opts p n top).
Proof. exact (on_exact opts es c eff e c' eff'). Qed.
Print Assumptions C136_enabling.
(** If every neighbour keeps to one name, the log of a history of any length accounts
    for the table: "new peer" is there once more than "removing peer" for every
    neighbour listed.  Missing: neighbours whose frames differ in the name, see the
    refutations. *)
Theorem C136_balance_partial opts es c eff name h p : Forall ordinary es -> one_name name es -> reached opts es c eff ->
  said_new h p (log_run opts child_start es) = said_gone h p (log_run opts child_start es) + listed h p (c_queue c).
Proof. intros O One R. exact (proj2 (run_balance name h p opts es O One c eff R)). Qed.
Print Assumptions C136_balance_partial.
(** The text written to the terminal (-f, and not at the debug level 3): one line for
    every message, if names are free of line feeds.  Missing: names with line feeds. *)
Theorem C136_lines_partial n opts es c eff : 0 <= n <= 127 -> n <> 3 -> Forall ordinary es -> reached opts es c eff ->
  Forall plain (log_run opts child_start es) ->
  exists t, log_bytes (loglevel n) (log_run opts child_start es) = Some t /\ lines t (map text (log_run opts child_start es)).
Proof.
  intros H H3 O R. unfold loglevel. rewrite Z.mod_small by lia. apply log_lines; [exact (proj2 (run_ranged opts es O c eff R))|lia|lia].
Qed.
Print Assumptions C136_lines_partial.

(** Two switches on eth0 and a third on a member of bond0; the first shuts down, giving
    its name, the others time out. *)
Definition lg_events : list cevent :=
  [CFetch u_nfs; CRecv (u_in 1 (u_sw 1 120)) 100 100; CRecv (u_in 1 (u_sw 2 90)) 101 101;
   CRecv (u_in 1 (u_sw 1 120)) 130 130; CRecv (u_in 3 (u_sw 3 60)) 131 131; CRecv (u_in 1 (u_sw 1 0)) 140 140].
Definition lg_state : child := match child_run 8 child_start lg_events with DOk (c, _) => c | _ => child_start end.
Definition lg_name : list Z := bs "sw.example.org".
Lemma lg_reached : exists eff, reached 8 lg_events lg_state eff.
Proof. eexists. vm_compute. reflexivity. Qed.
Ltac lg_recv f :=
  split; [lia|split; [lia|]]; do 2 eexists; exists f, (skipn 14 f);
  split; [is_bytes|split; [split; vm_compute; discriminate|split; [split; [reflexivity|vm_compute; reflexivity]|
  split; [repeat split; vm_compute; reflexivity|apply (t_lldp f); reflexivity]]]].
Example C136_case_log : log_run 8 child_start lg_events
  = [LNew lg_name 0 (bs "eth0"); LOn 0 (bs "eth0"); LNew lg_name 0 (bs "eth0"); LNew lg_name 0 (bs "bond0"); LOn 0 (bs "bond0"); LGone lg_name 0].
Proof. vm_compute. reflexivity. Qed.
Example C136_case_text : log_bytes (loglevel 1) (log_run 8 child_start lg_events ++ log_step 8 lg_state (CTick 1000))
  = Some (flat_map (fun s => s ++ [10])
     [bs "new peer sw.example.org (LLDP) on interface eth0"; bs "enabling LLDP on interface eth0";
      bs "new peer sw.example.org (LLDP) on interface eth0"; bs "new peer sw.example.org (LLDP) on interface bond0";
      bs "enabling LLDP on interface bond0"; bs "removing peer sw.example.org (LLDP)";
      bs "removing peer sw.example.org (LLDP)"; bs "removing peer sw.example.org (LLDP)"]).
Proof. vm_compute. reflexivity. Qed.
Lemma lg_ordinary : Forall ordinary lg_events.
Proof.
  repeat apply Forall_cons; [exact Logic.I|lg_recv (u_sw 1 120)|lg_recv (u_sw 2 90)|lg_recv (u_sw 1 120)|lg_recv (u_sw 3 60)|lg_recv (u_sw 1 0)|constructor].
Qed.
Lemma lg_sw c i k ttl now now2 en : 0 <= k < 256 -> 0 <= ttl < 256 -> bytes (u_sw k ttl) -> 60 <= zlen (u_sw k ttl) <= 1518 ->
  carries (u_in i (u_sw k ttl)) i 0 0 (u_sw k ttl) ->
  (exists n s, proto_decode 0 (t_ctx 0 1 (u_sw k ttl)) (mkDst no_peers 0 0 []) = DOk (n, s) /\ nth 0 (s_peer s) None = Some lg_name) ->
  news c (CRecv (u_in i (u_sw k ttl)) now now2) en -> nth 0 (q_peer en) None = Some lg_name.
Proof.
  intros Hk Ht Hb Hl Hc (n & s & Hd & Hs) Nw.
  destruct (u_advert 0 (u_sw k ttl) _ n s Hb Hl ltac:(lia) (u_sw_frame k ttl Hk Ht) Hd) as (attrs & Ad & Rp).
  apply (news_peer _ _ _ _ _ _ _ _ _ _ _ Nw Hc Hb Hl Ad). now rewrite Rp.
Qed.
Ltac lg_one K := apply lg_sw in K; [exact K|lia|lia|is_bytes|split; vm_compute; discriminate|repeat split; vm_compute; reflexivity|
  do 2 eexists; split; [vm_compute; reflexivity|reflexivity]].
Example C136_case_balance : Forall ordinary lg_events /\ one_name (fun _ => Some lg_name) lg_events
  /\ (exists eff, reached 8 lg_events lg_state eff)
  /\ said_new lg_name 0 (log_run 8 child_start lg_events) = 3 /\ said_gone lg_name 0 (log_run 8 child_start lg_events) = 1
  /\ listed lg_name 0 (c_queue lg_state) = 2.
Proof.
  split; [exact lg_ordinary|]. split; [|split; [exact lg_reached|repeat split; vm_compute; reflexivity]].
  intros c e en [<-|[<-|[<-|[<-|[<-|[<-|[]]]]]]] K.
  - destruct K as (d & now & now2 & i' & p' & f & s & pr & ttl & at_ & E & _). discriminate.
  - lg_one K.
  - lg_one K.
  - lg_one K.
  - lg_one K.
  - lg_one K.
Qed.
(** A further switch on the member of bond0: nobody in the table, accounted on bond0. *)
Example C136_case_new : let e := CRecv (u_in 3 (u_sw 9 120)) 150 150 in
  (exists eff, reached 8 lg_events lg_state eff) /\ ordinary e
  /\ (exists c' eff', child_step 8 lg_state e = DOk (c', eff'))
  /\ (exists en n, news lg_state e en /\ netif_byindex (c_nfs lg_state) (q_index en) = Some n /\ nf_name n = bs "eth1"
      /\ exists top, uplink (c_nfs lg_state) n top)
  /\ log_step 8 lg_state e = [LNew lg_name 0 (bs "bond0")]
  /\ log_step 8 lg_state (CTick 195) = [LGone lg_name 0; LGone lg_name 0].
Proof.
  cbv zeta. split; [exact lg_reached|]. split; [lg_recv (u_sw 9 120)|]. split; [do 2 eexists; vm_compute; reflexivity|].
  split; [|split; vm_compute; reflexivity].
  edestruct (u_advert 0 (u_sw 9 120)) as (attrs & A & R);
    [is_bytes|split; vm_compute; discriminate|lia|apply u_sw_frame; lia|vm_compute; reflexivity|].
  assert (Nw : exists en, news lg_state (CRecv (u_in 3 (u_sw 9 120)) 150 150) en /\ q_index en = 3).
  { assert (Es : exists sub, netif_byindex (c_nfs lg_state) 3 = Some sub) by (eexists; vm_compute; reflexivity).
    destruct Es as (sub & Es).
    eexists. split.
    - exists (u_in 3 (u_sw 9 120)), 150, 150, 3, 0, (u_sw 9 120), sub. do 3 eexists. split; [reflexivity|]. split; [is_bytes|].
      split; [split; vm_compute; discriminate|]. split; [lia|]. split; [repeat split; vm_compute; reflexivity|]. split; [exact A|].
      split; [exact Es|]. split; [vm_compute; reflexivity|reflexivity].
    - reflexivity. }
  destruct Nw as (en & Nw & E). exists en. rewrite E. eexists. split; [exact Nw|]. split; [vm_compute; reflexivity|].
  split; [reflexivity|]. eexists. right. exists 2. split; vm_compute; reflexivity.
Qed.
Example C136_case_lines : Forall plain (log_run 8 child_start lg_events).
Proof.
  rewrite C136_case_log.
  repeat apply Forall_cons; [split; apply lit_plain; reflexivity|apply lit_plain; reflexivity|split; apply lit_plain; reflexivity|
    split; apply lit_plain; reflexivity|apply lit_plain; reflexivity|apply lit_plain; reflexivity|constructor].
Qed.

(** An LLDP shutdown as the standard asks for it has no name in it: the neighbour
    leaves the table and the log does not say so. *)
Definition lg_bye : list Z :=
  let port := bs "GigabitEthernet0/1" in
  let f := [1; 128; 194; 0; 0; 14] ++ u_src 1 ++ [136; 204] ++ [2; 7; 4] ++ [2; 0; 0; 0; 0; 9]
    ++ [4; 1 + zlen port; 5] ++ port ++ [6; 2; 0; 0] ++ [0; 0] in
  f ++ repeat 0 (Z.to_nat (60 - zlen f)).
Theorem C136_shutdown_refuted :
  exists opts es c eff h p, Forall ordinary es /\ reached opts es c eff
    /\ said_new h p (log_run opts child_start es) = 1 /\ c_queue c = []
    /\ forall x q, ~ In (LGone x q) (log_run opts child_start es).
Proof.
  exists 0, [CFetch u_nfs; CRecv (u_in 1 (u_sw 1 120)) 100 100; CRecv (u_in 1 lg_bye) 101 101]. do 2 eexists. exists lg_name, 0.
  split; [repeat apply Forall_cons; [exact Logic.I|lg_recv (u_sw 1 120)|lg_recv lg_bye|constructor]|].
  split; [vm_compute; reflexivity|]. split; [vm_compute; reflexivity|]. split; [vm_compute; reflexivity|].
  assert (E : log_run 0 child_start [CFetch u_nfs; CRecv (u_in 1 (u_sw 1 120)) 100 100; CRecv (u_in 1 lg_bye) 101 101]
    = [LNew lg_name 0 (bs "eth0")]) by (vm_compute; reflexivity).
  rewrite E. intros x q [K|[]]. discriminate.
Qed.
Print Assumptions C136_shutdown_refuted.
(** A neighbour that changes its name comes under the old one and goes under the new
    one. *)
Definition lg_renamed : list Z := u_frame (u_src 1) 120 (bs "core.example.org") (bs "GigabitEthernet0/1").
Theorem C136_renamed_refuted :
  exists opts es c eff a b p i, Forall ordinary es /\ reached opts es c eff /\ a <> b /\ c_queue c = []
    /\ log_run opts child_start es = [LNew a p i; LGone b p].
Proof.
  exists 0, [CFetch u_nfs; CRecv (u_in 1 (u_sw 1 120)) 100 100; CRecv (u_in 1 lg_renamed) 130 130; CTick 1000]. do 2 eexists.
  exists lg_name, (bs "core.example.org"), 0, (bs "eth0").
  split; [repeat apply Forall_cons; [exact Logic.I|lg_recv (u_sw 1 120)|lg_recv lg_renamed|reflexivity|constructor]|].
  split; [vm_compute; reflexivity|]. split; [discriminate|]. split; [vm_compute; reflexivity|]. vm_compute. reflexivity.
Qed.
Print Assumptions C136_renamed_refuted.
(** A name with a line feed makes the log of one neighbour the same, byte by byte, as
    that of two. *)
Definition lg_forged : list Z :=
  u_frame (u_src 1) 120 (bs "sw.example.org (LLDP) on interface eth0" ++ [10] ++ bs "new peer sw.example.org") (bs "p1").
Theorem C136_forged_refuted :
  exists opts es es' c c' eff eff' t, Forall ordinary es /\ Forall ordinary es'
    /\ reached opts es c eff /\ reached opts es' c' eff'
    /\ log_bytes 0 (log_run opts child_start es) = Some t /\ log_bytes 0 (log_run opts child_start es') = Some t
    /\ zlen (c_queue c) = 1 /\ zlen (c_queue c') = 2.
Proof.
  exists 0, [CFetch u_nfs; CRecv (u_in 1 lg_forged) 100 100],
    [CFetch u_nfs; CRecv (u_in 1 (u_sw 1 120)) 100 100; CRecv (u_in 1 (u_sw 2 120)) 101 101]. do 5 eexists.
  split; [repeat apply Forall_cons; [exact Logic.I|lg_recv lg_forged|constructor]|].
  split; [repeat apply Forall_cons; [exact Logic.I|lg_recv (u_sw 1 120)|lg_recv (u_sw 2 120)|constructor]|].
  split; [vm_compute; reflexivity|]. split; [vm_compute; reflexivity|]. split; [vm_compute; reflexivity|].
  repeat split; vm_compute; reflexivity.
Qed.
Print Assumptions C136_forged_refuted.
(** With 128 times -v nothing is logged any more, of whatever history. *)
Theorem C136_verbose_refuted :
  exists n, 0 < n /\ forall opts es, log_bytes (loglevel n) (log_run opts child_start es) = Some [].
Proof. exists 128. split; [reflexivity|]. intros opts es. apply log_silent. reflexivity. Qed.
Print Assumptions C136_verbose_refuted.
Example C136_verbose_case : log_bytes (loglevel 0) (log_run 8 child_start lg_events) <> Some [].
Proof. vm_compute. discriminate. Qed.
