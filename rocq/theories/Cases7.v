(** Frames, tables and command lines for the client examples. *)
From Verif Require Import Base Tlv Types Msg Protos Parent Wire Util Child Cli Spec SpecAdv SpecRound SpecNet SpecChild SpecCli
  Cases2 Cases3 Cases4 Lemmas CliProofs6.

(** A CDP advertisement: version, source address, hold time, TLVs. *)
Definition x_tlv (t : Z) (v : list Z) : list Z := be16 t ++ be16 (4 + zlen v) ++ v.
Definition x_cdp (version : Z) (src : list Z) (ttl : Z) (tlvs : list Z) : list Z :=
  [1; 0; 12; 204; 204; 204] ++ src ++ be16 (12 + zlen tlvs) ++ [170; 170; 3; 0; 0; 12; 32; 0]
  ++ [version; ttl; 0; 0] ++ tlvs.
(** A switch port without a name for the switch; a switch speaking version 1. *)
Definition x_port : list Z := x_cdp 2 (u_src 2) 180 (x_tlv 3 (bs "GigabitEthernet0/17") ++ x_tlv 4 [0; 0; 0; 8]
  ++ x_tlv 6 (bs "cisco WS-C2960-24TT")).
Definition x_old : list Z := x_cdp 1 (u_src 4) 180 (x_tlv 1 (bs "old.example.org") ++ x_tlv 3 (bs "FastEthernet0/3")).
(** Two LLDP neighbours; the first one's hold time is short. *)
Definition x_brief : list Z := u_frame (u_src 1) 10 (bs "sw1.example.org") (bs "ge-0/0/1").
Definition x_sw2 : list Z := u_frame (u_src 3) 120 (bs "sw2.example.org") (bs "Ethernet1/7").
(** A host name with a line break and a quote in it. *)
Definition x_trick : list Z := u_frame (u_src 5) 120 (bs "a" ++ [10] ++ bs "core';reboot") (bs "1").

(** Events of the daemon. *)
Lemma x_recv f p payload i now now2 : bytes f -> 60 <= zlen f <= 1518 -> 0 <= p < 6 -> 0 <= now < 9223372036854775808 ->
  carries (u_in i f) i p 0 f -> proto_frame p f payload -> daemon_event (CRecv (u_in i f) now now2).
Proof. intros. split; [assumption|]. now exists i, p, f, payload. Qed.
Lemma x_fetch : daemon_event (CFetch u_nfs).
Proof.
  intros n Hn. cbn in Hn. repeat destruct Hn as [<-|Hn]; try contradiction; (split; [cbn; lia|]);
    (split; [is_bytes|split; [cbn; lia|vm_compute; reflexivity]]).
Qed.
Ltac x_recv p payload :=
  apply (x_recv _ p payload); [is_bytes|split; vm_compute; discriminate|lia|lia|repeat split; vm_compute; reflexivity|].
Ltac x_lldp f := x_recv 0 (skipn 14 f); apply t_lldp; vm_compute; reflexivity.
Ltac x_snap f ty := x_recv 1 (skipn 22 f); apply (t_snap _ _ _ ty); vm_compute; (reflexivity || discriminate || easy).
Lemma x_brief_ev i : i = 1 \/ i = 3 -> daemon_event (CRecv (u_in i x_brief) 100 100).
Proof. intros [->| ->]; x_lldp x_brief. Qed.
Lemma x_sw2_ev : daemon_event (CRecv (u_in 1 x_sw2) 101 101).
Proof. x_lldp x_sw2. Qed.
Lemma x_trick_ev : daemon_event (CRecv (u_in 3 x_trick) 102 102).
Proof. x_lldp x_trick. Qed.
Lemma x_port_ev : daemon_event (CRecv (u_in 3 x_port) 102 102).
Proof. x_snap x_port 66. Qed.
Lemma x_old_ev : daemon_event (CRecv (u_in 1 x_old) 103 103).
Proof. x_snap x_old 50. Qed.

Definition x_queue (es : list cevent) : list entry :=
  match child_run 0 child_start es with DOk (c, _) => c_queue c | _ => [] end.
Lemma x_genuine es : Forall daemon_event es -> Forall genuine (x_queue es).
Proof.
  intros He. unfold x_queue. destruct (child_run 0 child_start es) as [[c eff]| | | |] eqn:E; try constructor.
  now apply (table_genuine 0 es c eff).
Qed.
(** The short-lived neighbour first, or last. *)
Definition x_first : list entry := x_queue
  [CFetch u_nfs; CRecv (u_in 1 x_brief) 100 100; CRecv (u_in 1 x_sw2) 101 101; CRecv (u_in 3 x_port) 102 102].
Definition x_mixed : list entry := x_queue
  [CFetch u_nfs; CRecv (u_in 1 x_brief) 100 100; CRecv (u_in 3 x_port) 102 102].
Definition x_last : list entry := x_queue
  [CFetch u_nfs; CRecv (u_in 1 x_sw2) 101 101; CRecv (u_in 3 x_port) 102 102; CRecv (u_in 1 x_old) 103 103;
   CRecv (u_in 3 x_brief) 100 100].
Definition x_tricky : list entry := x_queue
  [CFetch u_nfs; CRecv (u_in 3 x_trick) 102 102; CRecv (u_in 1 x_sw2) 101 101].
(** An entry of a table. *)
Definition x_at (k : nat) (es : list entry) : entry := nth k es (mkEnt 0 0 [] 0 0 0 [] 0 [] 0).
Lemma x_first_genuine : Forall genuine x_first.
Proof. exact (x_genuine _ (Forall_cons _ x_fetch (Forall_cons _ (x_brief_ev 1 (or_introl eq_refl)) (Forall_cons _ x_sw2_ev (Forall_cons _ x_port_ev (Forall_nil _)))))). Qed.
Lemma x_mixed_genuine : Forall genuine x_mixed.
Proof. exact (x_genuine _ (Forall_cons _ x_fetch (Forall_cons _ (x_brief_ev 1 (or_introl eq_refl)) (Forall_cons _ x_port_ev (Forall_nil _))))). Qed.
Lemma x_last_genuine : Forall genuine x_last.
Proof. exact (x_genuine _ (Forall_cons _ x_fetch (Forall_cons _ x_sw2_ev (Forall_cons _ x_port_ev (Forall_cons _ x_old_ev (Forall_cons _ (x_brief_ev 3 (or_intror eq_refl)) (Forall_nil _))))))). Qed.
Lemma x_tricky_genuine : Forall genuine x_tricky.
Proof. exact (x_genuine _ (Forall_cons _ x_fetch (Forall_cons _ x_trick_ev (Forall_cons _ x_sw2_ev (Forall_nil _))))). Qed.

(** Interface numbers. *)
Definition x_ifindex (n : list Z) : Z := if beq n (bs "eth0") then 1 else if beq n (bs "eth1") then 3 else 0.
(** What is shown: interface, protocol, host name, port name, hold time. *)
Definition x_view (m : item) : Z * Z * option (list Z) * option (list Z) * Z :=
  (sh_index m, sh_proto m, nth 0 (sh_peer m) None, nth 1 (sh_peer m) None, sh_hold m).
Definition x_out (r : option (dres (list cout * list Z))) : list (Z * Z * option (list Z) * option (list Z) * Z) :=
  match r with
  | Some (DOk (o, _)) => flat_map (fun x => match x with OShow m => [x_view m] | OText _ => [] end) o
  | _ => []
  end.
Definition x_text (r : option (dres (list cout * list Z))) : list Z :=
  match r with Some (DOk (_, t)) => t | _ => [] end.
Lemma x_bytes es : forallb (fun e => forallb (fun b => (0 <=? b) && (b <? 256)) (entry_bytes e)) es = true ->
  Forall bytes (map entry_bytes es).
Proof.
  intros E. rewrite forallb_forall in E. apply Forall_forall. intros m Hm. apply in_map_iff in Hm as (e & <- & He).
  apply E in He. rewrite forallb_forall in He. apply Forall_forall. intros b Hb. apply He in Hb. unfold byte. lia.
Qed.
Lemma x_pick es k : Forall genuine es -> (k <? length es)%nat = true -> Forall genuine [x_at k es].
Proof.
  intros H L. constructor; [|constructor]. rewrite Forall_forall in H. apply H, nth_In. now apply Nat.ltb_lt.
Qed.
Lemma x_in es k : (k <? length es)%nat = true -> In (x_at k es) es.
Proof. intros L. apply nth_In. now apply Nat.ltb_lt. Qed.
Lemma x_before now es : forallb (fun e => q_received e <=? now) es = true -> forall e, In e es -> q_received e <= now.
Proof. intros H e He. rewrite forallb_forall in H. apply H in He. lia. Qed.
Lemma x_hides (r : option (dres (list cout * list Z))) m : match r with Some (DOk (o, _)) =>
    forallb (fun x => match x with OShow m' => negb (sh_index m' =? sh_index m) | _ => true end) o | _ => true end = true ->
  forall o text, r = Some (DOk (o, text)) -> ~ In (OShow m) o.
Proof.
  intros H o text -> K. rewrite forallb_forall in H. apply H in K. rewrite Z.eqb_refl in K. discriminate.
Qed.
(** A boolean check of [undisturbed]. *)
Fixpoint x_undist (w g : entry -> bool) (es : list entry) : bool :=
  match es with
  | [] => true
  | e :: es' => (negb (w e && negb (g e)) || forallb (fun e => negb (w e && g e)) es') && x_undist w g es'
  end.
Lemma x_calm w g es : x_undist w g es = true -> undisturbed w g es.
Proof.
  intros H pre. revert es H. induction pre as [|p pre IH]; intros es H a mid b post E Ha Hg Hb; subst es; cbn [app x_undist] in H;
    apply andb_true_iff in H as [H1 H2].
  - rewrite Ha, Hg in H1. cbn [andb negb orb] in H1. rewrite forallb_forall in H1. specialize (H1 b). rewrite Hb in H1.
    cbn [andb] in H1. destruct (g b); [|reflexivity]. discriminate H1. apply in_app_iff. right. now left.
  - now apply (IH _ H2 a mid b post).
Qed.
