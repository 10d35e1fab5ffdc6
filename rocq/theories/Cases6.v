(** Hosts, configurations and histories for the examples of advertisement runs. *)
From Verif Require Import Base Tlv Types Msg Protos Wire Util Child Netif Parent Sysinfo Send Spec SpecRound SpecNet SpecChild SpecAdv SpecNetif SpecSend
  Lemmas Cases2 Cases3 Cases4 Conformance.

(** Two interfaces, or three with a failover bond of two of them: eth1 is active,
    eth2 the backup. *)
Definition w_name (i : Z) : list Z :=
  if i =? 1 then bs "eth0" else if i =? 2 then bs "eth1" else if i =? 3 then bs "eth2" else bs "bond0".
Definition w_link (i : Z) : ifaddr := mkIfa (w_name i) (Some (SALink 1 i [2; 0; 0; 0; 0; i])).
Definition w_os (exist : list Z) (bond : bool) : nos :=
  mkNos
    (Some (mkIfa (bs "lo") (Some (SALink 772 9 (repeat 0 6))) :: map w_link exist
             ++ [mkIfa (bs "eth0") (Some (SAInet [10; 0; 0; 1])); mkIfa (bs "ppp0") None]))
    (fun _ => Some 4163) (fun _ => false) (fun i => i <=? 3)
    (fun i => if i =? 4 then Some (bs "bonding") else None)
    (fun _ => None) (fun _ => None) (fun i => if i =? 1 then bs "uplink" else []) (fun _ => [])
    (fun _ => if bond then Some (1, 2) else None)
    (fun _ i => if i =? 0 then Some (bs "eth1", 0) else Some (bs "eth2", 1))
    (fun _ => None) (fun _ => None) (fun _ => Some 1500)
    (fun i => if i =? 1 then Some (mkEcmd 64 63 1000 1 0 1) else None).
Definition w_os2 : nos := w_os [1; 2] false.
Definition w_os1 : nos := w_os [2] false.
Definition w_osb : nos := w_os [1; 2; 3; 4] true.
Lemma w_os_ok exist bond : Forall (fun i => 0 <= i < 256) exist -> os_ok (w_os exist bond).
Proof.
  intros H. split; [|split].
  - intros ias E. injection E as <-. constructor; [|apply Forall_app; split].
    + split; [split; [repeat constructor; unfold byte; lia|split; [cbn; intuition discriminate|now vm_compute]]|]. split; [discriminate|].
      cbn. split; [lia|]. split; [repeat constructor; unfold byte; lia|reflexivity].
    + apply Forall_map. eapply Forall_impl; [|exact H]. cbn beta. intros i Hi.
      assert (N : In (w_name i) [bs "eth0"; bs "eth1"; bs "eth2"; bs "bond0"]) by (unfold w_name; destruct (i =? 1), (i =? 2), (i =? 3); cbn; tauto).
      unfold ifaddr_ok, w_link. cbn [ia_name ia_addr]. split; [|split].
      * destruct N as [<-|[<-|[<-|[<-|[]]]]]; (split; [repeat constructor; unfold byte; lia|split; [cbn; intuition discriminate|now vm_compute]]).
      * intros K. rewrite K in N. cbn in N. intuition discriminate.
      * split; [lia|]. split; [repeat constructor; unfold byte; lia|reflexivity].
    + repeat constructor; cbn; try (unfold byte; lia); try discriminate; try (intuition discriminate); now vm_compute.
  - intros i. unfold w_os, no_alias. destruct (i =? 1); [|constructor]. repeat constructor; unfold byte; lia.
  - intros i. constructor.
Qed.

(** Sending, receiving and automatic mode; LLDP enabled; then the same for an
    explicit list of interfaces. *)
Definition w_cfg : scfg := mkScfg (mkNcfg 14 [] None (repeat 0 4) (repeat 0 16)) [] (fun p => p =? 0).
Definition w_list (l : list (list Z)) : scfg := mkScfg (mkNcfg 46 l None (repeat 0 4) (repeat 0 16)) [] (fun p => p =? 0).
Definition w_sios : sios :=
  mkSios (bs "Debian") true (mkUts (bs "Linux") (bs "host") (bs "6.1.0-9") (bs "#1 SMP") (bs "x86_64")) None (fun _ => None).
Lemma w_sios_ok : sios_ok w_sios.
Proof.
  split; [|split; [|split; [|split]]].
  - repeat constructor; cbn; try (unfold byte; lia); try discriminate; try (intuition discriminate); now vm_compute.
  - split; [repeat constructor; unfold byte; lia|split; [cbn; intuition discriminate|now vm_compute]].
  - repeat constructor; unfold byte; lia.
  - discriminate.
  - discriminate.
Qed.
Definition w_st0 : sstate := Eval vm_compute in mkSt child_start (sysinfo_fetch w_sios (bs "NL") (bs "attic")) 0.
Lemma w_boot cfg : running cfg w_st0.
Proof.
  assert (E : w_st0 = mkSt child_start (sysinfo_fetch w_sios (bs "NL") (bs "attic")) 0) by (vm_compute; reflexivity).
  rewrite E. apply run_boot; [exact w_sios_ok| |]; (split; [repeat constructor; unfold byte; lia|split; [cbn; intuition discriminate|now vm_compute]]).
Qed.

(** The first run on the host with the bond. *)
Definition w_after (cfg : scfg) (st : sstate) (e : sevent) : sstate :=
  match send_step cfg st e with DOk (s, _) => s | _ => st end.
Definition w_eff (cfg : scfg) (st : sstate) (e : sevent) : list seff :=
  match send_step cfg st e with DOk (_, x) => x | _ => [] end.
Definition w_good (cfg : scfg) (st : sstate) (e : sevent) : bool :=
  match send_step cfg st e with DOk _ => true | _ => false end.
Lemma w_step cfg st e : w_good cfg st e = true -> send_step cfg st e = DOk (w_after cfg st e, w_eff cfg st e).
Proof. unfold w_good, w_after, w_eff. destruct (send_step cfg st e) as [[s x]| | | |]; (reflexivity || discriminate). Qed.
Lemma w_running cfg st e : running cfg st -> event_ok e -> w_good cfg st e = true -> running cfg (w_after cfg st e).
Proof. intros R O G. exact (run_event cfg st e _ _ R O (w_step _ _ _ G)). Qed.
Definition w_run : sevent := EvRun w_osb 1000.
Lemma w_run_ok : event_ok w_run. Proof. apply w_os_ok. repeat constructor; lia. Qed.
Definition w_st1 : sstate := Eval vm_compute in w_after w_cfg w_st0 w_run.
Lemma w_st1_running : running w_cfg w_st1.
Proof.
  replace w_st1 with (w_after w_cfg w_st0 w_run) by (vm_compute; reflexivity). apply w_running; [apply w_boot|exact w_run_ok|vm_compute; reflexivity].
Qed.
(** CDP heard on eth1. *)
Definition w_dgram : list Z := u_in 2 c_cdp.
Definition w_heard : sevent := EvChild (CRecv w_dgram 1005 1005).
Definition w_st2 : sstate := Eval vm_compute in w_after w_cfg w_st1 w_heard.
Definition w_next (cfg : scfg) (os : nos) (st : sstate) : list netif * sysinfo :=
  let '(_, nfs, si, _) := netif_fetch (sc_net cfg) os (table st) (st_si st) in (nfs, si).
(** The same with eth1 listed on the command line. *)
Definition w_cfgl : scfg := w_list [bs "eth1"].
Definition w_stl : sstate := Eval vm_compute in w_after w_cfgl w_st0 w_run.
Lemma w_stl_running : running w_cfgl w_stl.
Proof.
  replace w_stl with (w_after w_cfgl w_st0 w_run) by (vm_compute; reflexivity). apply w_running; [apply w_boot|exact w_run_ok|vm_compute; reflexivity].
Qed.
Definition w_stl2 : sstate := Eval vm_compute in w_after w_cfgl w_stl w_heard.
Lemma w_consistent nfs : flat_map (fun p => map fst (reported w_osb nfs p)) nfs = [2; 3] -> consistent w_osb nfs.
Proof.
  intros E. split.
  - rewrite E. repeat constructor; cbn; intuition discriminate.
  - intros p ports active _ _ H. discriminate H.
Qed.
(** Link messages for the host without aggregates. *)
Definition w_up (os : nos) (i : Z) : sevent := EvLink os 1 69699 i 1001.
Lemma w_steady i : In i [1; 2] -> steady 1 (w_up w_os2 i).
Proof.
  intros Hi. split; [apply w_os_ok; repeat constructor; lia|]. split; [destruct Hi as [<-|[<-|[]]]; lia|]. split.
  - right. exists (bs "eth0"), 0. split; [|split].
    + eexists. exists [2; 0; 0; 0; 0; 1]. split; [reflexivity|]. cbn. tauto.
    + apply kind_device; reflexivity.
    + exists 4163. split; reflexivity.
  - intros nfs _. assert (E : forall p, reported w_os2 nfs p = []).
    { intros p. unfold reported. cbn. destruct (_ =? 12); [reflexivity|]. destruct (_ =? 13); [reflexivity|]. destruct (_ =? 11); reflexivity. }
    split.
    + replace (flat_map _ _) with (@nil Z); [constructor|]. generalize nfs at 2. induction nfs0 as [|n l IH]; [reflexivity|]. cbn. now rewrite E.
    + intros p ports active _ _ H. discriminate H.
Qed.
Lemma w_count cfg i st es k :
  match send_run cfg st es with DOk (_, effs) => zlen (filter (sends i) effs) =? k | _ => false end = true ->
  exists st' effs, send_run cfg st es = DOk (st', effs) /\ zlen (filter (sends i) effs) = k.
Proof.
  destruct (send_run cfg st es) as [[st' effs]| | | |]; try discriminate. intros H. exists st', effs. split; [reflexivity|]. now apply Z.eqb_eq.
Qed.
Lemma w_advert p f payload proto ttl : bytes f -> 60 <= zlen f <= 1518 -> 0 <= p < 6 -> proto_frame p f payload ->
  match proto_decode p (t_ctx 0 1 f) (mkDst no_peers 0 p []) with
  | DOk (_, s) => (s_proto s =? proto) && (s_ttl s =? ttl) | _ => false end = true ->
  exists attrs, SpecChild.advert p f proto ttl attrs.
Proof.
  intros B L P F. destruct (proto_decode p (t_ctx 0 1 f) (mkDst no_peers 0 p [])) as [[n s]| | | |] eqn:D; try discriminate.
  intros E. apply andb_true_iff in E as [E1 E2]. apply Z.eqb_eq in E1, E2.
  destruct (u_advert p f payload n s B L P F D) as (attrs & A & _). rewrite E1, E2 in A. now exists attrs.
Qed.
