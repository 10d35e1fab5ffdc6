(** How many neighbours the table holds: C133. *)
From Verif Require Import Base Types Tlv Msg Protos Wire Parent Util Child Spec SpecAdv SpecRound SpecNet SpecChild SpecHold SpecFlood
  Lemmas Cases2 Cases3 Cases4 NetProofs FloodProofs PropE2E PropHold.

(** C133.  After a clean-up there is at most one entry for each frame of the last 65535
    seconds (the longest hold time), where no client has to wait (else see C28).  Missing:
    a limit that does not depend on the number of frames, see below. *)
Theorem C133_bound_partial opts es t c eff :
  reached opts (es ++ [CTick t]) c eff -> Forall ordinary (es ++ [CTick t]) -> Forall unblocked (es ++ [CTick t]) ->
  zlen (c_queue c) <= zlen (filter (since (t - 65535)) es).
Proof. exact (bounded opts es t c eff). Qed.
Print Assumptions C133_bound_partial.

(** The history of C116 followed by a clean-up 18 hours later, after which the neighbour
    heard meanwhile is the only one left. *)
Definition fd_es : list cevent := b_es1 ++ b_e :: b_es2 ++ [CRecv (u_in 1 (u_sw 2 90)) 65700 65700].
Definition fd_c : child := Eval vm_compute in z_child (fd_es ++ [CTick 65701]).
Example C133_case :
  (exists eff, reached 4 (fd_es ++ [CTick 65701]) fd_c eff) /\ Forall ordinary (fd_es ++ [CTick 65701]) /\ Forall unblocked (fd_es ++ [CTick 65701])
  /\ zlen (c_queue fd_c) = 1 /\ zlen (filter (since (65701 - 65535)) fd_es) = 2 /\ zlen (filter (since 0) fd_es) = 5.
Proof.
  split; [apply z_reached; vm_compute; reflexivity|].
  split. { unfold fd_es, b_es1, b_e, b_es2. cbn [app]. b_all ltac:(first [exact I|eapply b_ordinary; [first [exact b_sw1|exact b_sw2|exact b_sw9]|lia|lia]|cbn; lia]). }
  split. { unfold fd_es, b_es1, b_e, b_es2. cbn [app]. b_all ltac:(first [exact I|intros K; cbn in K; repeat destruct K as [K|K]; (discriminate || contradiction)]). }
  split; [vm_compute; reflexivity|]. split; vm_compute; reflexivity.
Qed.

(** One machine on the network that makes up source addresses fills the table with as many
    entries as it likes, up to four thousand million, within one second; the parent hands
    on each of its frames. *)
Definition fd_frame (k : Z) : list Z := [1; 128; 194; 0; 0; 14] ++ made_up k ++ U16 35020 ++ skipn 14 (u_sw 1 120).
Definition fd_burst (n : nat) : list cevent := burst 100 u_nfs (fun k => u_in 1 (fd_frame k)) n.
Lemma fd_frame_ok k : bytes (fd_frame k) /\ 60 <= zlen (fd_frame k) <= 1518 /\ carries (u_in 1 (fd_frame k)) 1 0 0 (fd_frame k)
  /\ firstn 6 (skipn 6 (fd_frame k)) = made_up k /\ netif_byaddr u_nfs (made_up k) = None /\ exists attrs, advert 0 (fd_frame k) 0 120 attrs.
Proof.
  destruct b_sw1 as (B & L & F & C & attrs & pl & P1 & P2).
  assert (B1 : bytes (fd_frame k)).
  { unfold fd_frame. apply Forall_app. split; [repeat constructor; unfold byte; lia|]. apply Forall_app. split; [apply made_up_bytes|].
    apply Forall_app. split; [repeat constructor; unfold byte; cbn; lia|]. apply Forall_forall. intros x Hx. apply (proj1 (Forall_forall _ _) B).
    rewrite <- (firstn_skipn 14). apply in_app_iff. now right. }
  assert (L1 : zlen (fd_frame k) = zlen (u_sw 1 120)) by (vm_compute; reflexivity).
  split; [exact B1|]. split; [now rewrite L1|]. split.
  - assert (Hi : 0 <= 1 < 4294967296) by lia. destruct (forward_cases 1 (fd_frame k) Hi B1) as (_ & _ & Fw).
    assert (L60 : 60 <= zlen (fd_frame k)) by (rewrite L1; lia). assert (H0 : 0 <= 0 < 5) by lia.
    destruct (Fw 0 L60 H0 eq_refl) as (d & E & Cd). unfold u_in. rewrite E. rewrite firstn_all2 in Cd; [exact Cd|]. rewrite <- L1 in L. unfold zlen in L. lia.
  - split; [reflexivity|]. split; [reflexivity|]. exists attrs, (skipn 14 (u_sw 1 120)). cbn [proto_frame] in *.
    rewrite (lldp_payload _ _ P1 eq_refl) in P2. split; [|exact P2]. apply lldp_untagged. reflexivity.
Qed.
Theorem C133_flood_refuted n : Z.of_nat n <= 4294967296 ->
  exists c, reached 4 (fd_burst n) c [] /\ zlen (c_queue c) = Z.of_nat n
  /\ zlen (filter (since 100) (fd_burst n)) = Z.of_nat n /\ Forall ordinary (fd_burst n) /\ Forall unblocked (fd_burst n).
Proof.
  intros L. assert (H1 : 100 <> -1) by lia. assert (H2 : 120 <> 0) by lia.
  destruct (flood 4 1 100 120 u_nfs u_eth fd_frame (fun k => u_in 1 (fd_frame k)) H1 H2 (conj eq_refl eq_refl) eq_refl fd_frame_ok n L) as (c & R & _ & Q & _).
  exists c. split; [exact R|]. split; [exact Q|]. clear L R Q c. unfold fd_burst. induction n as [|n (I1 & I2 & I3)]; [now repeat constructor|]. cbn [burst]. split; [|split].
  - rewrite filter_app, zlen_app, I1. change (zlen (filter (since 100) [CRecv (u_in 1 (fd_frame (Z.of_nat n))) 100 100])) with 1. lia.
  - apply Forall_app. split; [exact I2|]. constructor; [|constructor]. destruct (fd_frame_ok (Z.of_nat n)) as (B & Lf & Ca & _ & _ & attrs & pl & P1 & _).
    split; [lia|]. split; [lia|]. exists 1, 0, (fd_frame (Z.of_nat n)), pl. split; [exact B|]. split; [exact Lf|]. split; [lia|]. now split.
  - apply Forall_app. split; [exact I3|]. constructor; [exact I|constructor].
Qed.
Print Assumptions C133_flood_refuted.
