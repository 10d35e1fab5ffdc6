(** The path of a frame from the wire to the decoder of the child. *)
From Verif Require Import Base Types Tlv Checks Msg Lldp Protos Bpf Wire Parent Util Child
  Spec SpecAdv SpecRound SpecNet Lemmas DecProofs DecCheck DecSafe BpfProofs WireProofs.

(** Cutting the end of a frame keeps its header. *)
Lemma firstn_app_ge A n (a b : list A) : (length a <= n)%nat -> firstn n (a ++ b) = a ++ firstn (n - length a) b.
Proof. intros H. rewrite firstn_app. now rewrite firstn_all2. Qed.
Lemma snap_cut dst org pid f payload n : zlen dst = 6 -> zlen org = 3 -> (26 <= n)%nat ->
  snap_frame dst org pid f payload -> exists payload', snap_frame dst org pid (firstn n f) payload'.
Proof.
  intros Hd Ho Hn [src ty pl Hs Ht Hv|src tag ty pl Hs Hg Ht].
  - replace (dst ++ _) with ((dst ++ src ++ U16 ty ++ [170; 170; 3] ++ org ++ U16 pid) ++ pl)
      by (now rewrite <- !app_assoc).
    rewrite firstn_app_ge by (rewrite !app_length; unfold zlen in *; cbn [length U16]; lia).
    rewrite <- !app_assoc. eexists. now apply snap_untagged.
  - replace (dst ++ _) with ((dst ++ src ++ U16 33024 ++ tag ++ U16 ty ++ [170; 170; 3] ++ org ++ U16 pid) ++ pl)
      by (now rewrite <- !app_assoc).
    rewrite firstn_app_ge by (rewrite !app_length; unfold zlen in *; cbn [length U16]; lia).
    rewrite <- !app_assoc. eexists. now apply snap_tagged.
Qed.
Lemma lldp_cut f payload n : (26 <= n)%nat ->
  lldp_frame f payload -> exists payload', lldp_frame (firstn n f) payload'.
Proof.
  intros Hn [src pl Hs|src tag pl Hs Hg].
  - replace (_ ++ _) with (([1; 128; 194; 0; 0; 14] ++ src ++ U16 35020) ++ pl)
      by (now rewrite <- !app_assoc).
    rewrite firstn_app_ge by (rewrite !app_length; unfold zlen in *; cbn [length U16]; lia).
    rewrite <- !app_assoc. eexists. now apply lldp_untagged.
  - replace (_ ++ _) with (([1; 128; 194; 0; 0; 14] ++ src ++ U16 33024 ++ tag ++ U16 35020) ++ pl)
      by (now rewrite <- !app_assoc).
    rewrite firstn_app_ge by (rewrite !app_length; unfold zlen in *; cbn [length U16]; lia).
    rewrite <- !app_assoc. eexists. now apply lldp_tagged.
Qed.
Lemma proto_cut p f payload n : (26 <= n)%nat ->
  proto_frame p f payload -> exists payload', proto_frame p (firstn n f) payload'.
Proof.
  intros Hn. unfold proto_frame.
  repeat match goal with |- context [match ?x with _ => _ end] => destruct x end;
    first [now apply lldp_cut|now apply snap_cut].
Qed.

(** The destination of a frame. *)
Lemma snap_dst dst org pid f payload : zlen dst = 6 -> snap_frame dst org pid f payload -> firstn 6 f = dst.
Proof.
  intros Hd H. change 6%nat with (Z.to_nat 6). rewrite <- Hd. destruct H; apply firstn_zlen_app.
Qed.
Lemma lldp_dst f payload : lldp_frame f payload -> firstn 6 f = [1; 128; 194; 0; 0; 14].
Proof. now intros []. Qed.

(** parent_recv_one. *)
Lemma recv_proto_spec f p : recv_proto f = Some p -> 0 <= p < 5 /\ firstn 6 f = group_address p.
Proof.
  unfold recv_proto. cbn [find].
  change (proto_dst 5) with (proto_dst 1).
  repeat match goal with
  | |- context [beq ?a ?b] => destruct (beq a b) eqn:?
  end; intros [= <-]; (split; [lia|]); symmetry;
    match goal with H : beq _ _ = true |- _ => apply beq_true in H; exact H end.
Qed.
Lemma recv_proto_none f : recv_proto f = None <-> forall p, 0 <= p < 5 -> firstn 6 f <> group_address p.
Proof.
  split.
  - intros H p Hp E. unfold recv_proto in H.
    assert (K : In p [0; 1; 2; 3; 4; 5]) by (cbn; lia).
    apply (find_none _ _ H) in K. rewrite E in K.
    assert (C : p = 0 \/ p = 1 \/ p = 2 \/ p = 3 \/ p = 4) by lia.
    destruct C as [-> | [-> | [-> | [-> | ->]]]]; discriminate K.
  - intros H. destruct (recv_proto f) as [p|] eqn:E; [|reflexivity].
    apply recv_proto_spec in E as [Hp E]. now apply H in Hp.
Qed.
Lemma recv_proto_first f p : 0 <= p < 5 -> firstn 6 f = group_address p -> recv_proto f = Some p.
Proof.
  intros Hp E. unfold recv_proto. cbn [find]. rewrite E.
  assert (C : p = 0 \/ p = 1 \/ p = 2 \/ p = 3 \/ p = 4) by lia.
  destruct C as [-> | [-> | [-> | [-> | ->]]]]; reflexivity.
Qed.
Lemma firstn_firstn_6 (f : list Z) : firstn 6 (firstn 1518 f) = firstn 6 f.
Proof. rewrite firstn_firstn. reflexivity. Qed.
Lemma zlen_cut (f : list Z) : zlen (firstn 1518 f) = Z.min 1518 (zlen f).
Proof. unfold zlen. rewrite firstn_length. lia. Qed.

Lemma carries_msg index p f : 0 <= index < 4294967296 -> 0 <= p < 256 -> bytes f -> zlen f <= 1518 ->
  carries (msg_bytes index [] p 0 (zlen f) f) index p 0 f.
Proof.
  intros Hi Hp Hf Hl.
  assert (N : cstring 16 []) by (repeat split; [constructor|easy]).
  assert (R : 0 <= 0 < 9223372036854775808) by lia.
  unfold carries. rewrite w_dlen by assumption.
  rewrite w_index, w_proto, w_received, w_len, w_msg by assumption. repeat split; lia.
Qed.
Lemma msg_bytes_bytes index p f : 0 <= p < 256 -> bytes f -> bytes (msg_bytes index [] p 0 (zlen f) f).
Proof.
  intros Hp Hf. assert (N : cstring 16 []) by (repeat split; [constructor|easy]).
  apply w_dbytes; assumption.
Qed.
Lemma forward_cases index f : 0 <= index < 4294967296 -> bytes f ->
  (zlen f < 60 -> parent_recv_one index f = RSkip)
  /\ (60 <= zlen f -> (forall p, 0 <= p < 5 -> firstn 6 f <> group_address p) ->
      parent_recv_one index f = RStop)
  /\ (forall p, 60 <= zlen f -> 0 <= p < 5 -> firstn 6 f = group_address p ->
      exists d, parent_recv_one index f = RForward d /\ carries d index p 0 (firstn 1518 f)).
Proof.
  intros Hi Hf. unfold parent_recv_one. cbv zeta. rewrite zlen_cut. repeat split.
  - intros H. replace (_ <? 60) with true by lia. reflexivity.
  - intros H Hn. replace (_ <? 60) with false by lia.
    replace (recv_proto _) with (@None Z); [reflexivity|].
    symmetry. apply recv_proto_none. now rewrite firstn_firstn_6.
  - intros p H Hp E. replace (_ <? 60) with false by lia.
    rewrite (recv_proto_first _ p) by (rewrite ?firstn_firstn_6; assumption).
    eexists. split; [reflexivity|]. rewrite <- zlen_cut. apply carries_msg; try assumption; try lia.
    + now apply bytes_firstn.
    + rewrite zlen_cut. lia.
Qed.

(** The loop. *)
Definition unknown_dst (f : list Z) : Prop := forall p, 0 <= p < 5 -> firstn 6 f <> group_address p.
Lemma recv_loop index fs : 0 <= index < 4294967296 -> Forall bytes fs ->
  exists before after, fs = before ++ after
  /\ (after = [] \/ exists f more, after = f :: more /\ 60 <= zlen f /\ unknown_dst f)
  /\ Forall2 (fun d f => exists p, 0 <= p < 5 /\ firstn 6 f = group_address p
                /\ carries d index p 0 (firstn 1518 f))
       (parent_recv index fs) (filter (fun f => 60 <=? zlen f) before).
Proof.
  intros Hi. induction fs as [|f fs IH]; intros Hb.
  - exists [], []. split; [reflexivity|]. split; [now left|constructor].
  - inversion Hb as [|? ? Hf Hfs]; subst. destruct (IH Hfs) as (b & a & -> & Ha & H2).
    destruct (forward_cases index f Hi Hf) as (C1 & C2 & C3). cbn [parent_recv].
    destruct (Z_lt_le_dec (zlen f) 60) as [L|L].
    + rewrite C1 by assumption. exists (f :: b), a. split; [reflexivity|]. split; [assumption|].
      cbn [filter]. replace (60 <=? zlen f) with false by lia. exact H2.
    + destruct (recv_proto f) as [p|] eqn:E.
      * apply recv_proto_spec in E as [Hp E]. destruct (C3 p L Hp E) as (d & Ed & Hc). rewrite Ed.
        exists (f :: b), a. split; [reflexivity|]. split; [assumption|]. cbn [filter].
        replace (60 <=? zlen f) with true by lia. constructor; [now exists p|exact H2].
      * pose proof (proj1 (recv_proto_none f) E) as N. rewrite C2 by assumption. exists [], (f :: b ++ a).
        split; [reflexivity|]. split; [|constructor]. right. exists f, (b ++ a). now split.
Qed.

(** A frame passed by the filter has the signature of the protocol its
    destination stands for. *)
Lemma filter_proto f p : named_frame f -> 0 <= p < 5 -> firstn 6 f = group_address p ->
  exists payload, proto_frame p f payload.
Proof.
  intros (payload & H) Hp E. exists payload.
  assert (C : p = 0 \/ p = 1 \/ p = 2 \/ p = 3 \/ p = 4) by lia.
  assert (D : firstn 6 f = match p with 0 => [1; 128; 194; 0; 0; 14] | 1 => [1; 0; 12; 204; 204; 204]
    | 2 => [0; 224; 43; 0; 0; 0] | 3 => [1; 224; 82; 204; 204; 204] | _ => [1; 0; 129; 0; 1; 0] end).
  { rewrite E. destruct C as [-> | [-> | [-> | [-> | ->]]]]; reflexivity. }
  clear E. destruct H as [H|[H|[H|[H|H]]]].
  1: pose proof (lldp_dst _ _ H) as K.
  2-5: assert (K := H); apply snap_dst in K; [|reflexivity].
  all: rewrite K in D; destruct C as [-> | [-> | [-> | [-> | ->]]]]; try discriminate D; exact H.
Qed.

(** Signature checks and decoders. *)
Lemma check_frame p c f : 0 <= p < 6 -> in_buffer c f ->
  (exists o, proto_check p (d_buf c) (d_len c) = DOk (Some o)) <-> exists payload, proto_frame p f payload.
Proof.
  intros Hp Hin.
  assert (C : p = 0 \/ p = 1 \/ p = 2 \/ p = 3 \/ p = 4 \/ p = 5) by lia.
  assert (K : forall dst org pid, zlen dst = 6 -> zlen org = 3 ->
    (exists o, llc_check dst org pid (d_buf c) (d_len c) = DOk (Some o)) <-> exists payload, snap_frame dst org pid f payload).
  { intros dst org pid Hd Ho. split.
    - intros [o E]. destruct (llc_check_cases dst org pid c f Hin Hd Ho) as [N|Y]; [|exact Y].
      rewrite N in E. discriminate.
    - intros [pl Hf]. destruct (llc_check_some dst org pid c f pl Hin Hd Ho Hf) as (o & E & _). now exists o. }
  destruct C as [-> | [-> | [-> | [-> | [-> | ->]]]]]; try (now apply K).
  split.
  - intros [o E]. destruct (lldp_check_cases c f Hin) as [N|Y]; [|exact Y].
    change (proto_check 0) with lldp_check in E. rewrite N in E. discriminate.
  - intros [pl Hf]. destruct (lldp_check_some c f pl Hin Hf) as (o & E & _). now exists o.
Qed.
Lemma decode_no_abort p c f payload s : 0 <= p < 6 -> in_buffer c f -> proto_frame p f payload ->
  s_peer s = no_peers ->
  proto_decode p c s <> DAbort /\ proto_decode p c s <> DLoop
  /\ (zlen f < 1518 -> d_mode c = 1 -> proto_decode p c s <> DUB).
Proof.
  intros Hp Hin Hf Hs. destruct (Z.eq_dec p 0) as [->|N].
  - change (proto_decode 0 c s) with (lldp_decode c s).
    pose proof (lldp_safe c f payload s Hin Hf) as H.
    destruct (lldp_decode c s) as [[? ?]| | | |]; try contradiction; repeat split; try discriminate.
    intros L M. cbn in H. lia.
  - assert (I : In p [1; 2; 3; 4; 5]) by (cbn; lia).
    destruct (other_safe p c f payload s I Hin Hf Hs) as [E|(n & s' & E & _)]; rewrite E;
      repeat split; discriminate.
Qed.

(** child_queue never aborts on a message carrying a genuine frame. *)
Lemma queue_no_abort opts c d index p received f payload now now2 :
  bytes f -> carries d index p received f -> 0 <= p < 6 -> 60 <= zlen f <= 1518 -> proto_frame p f payload ->
  child_queue opts c d now now2 <> DAbort /\ child_queue opts c d now now2 <> DLoop
  /\ (zlen f < 1518 -> child_queue opts c d now now2 <> DUB).
Proof.
  intros Hb (L & Ei & Ep & Er & El & Em) Hp Hl Hf. unfold child_queue. cbv zeta.
  rewrite Ep, El, Em.
  destruct (negb (msg_size_ok _ _)); [repeat split; discriminate|].
  destruct (now =? -1); [repeat split; discriminate|].
  replace (p <? PROTO_MAX) with true by (unfold PROTO_MAX; lia).
  replace (zlen f <=? ETHER_MAX_LEN) with true by (unfold ETHER_MAX_LEN; lia).
  cbn [negb].
  destruct (netif_byindex _ _) as [sub|]; [|repeat split; discriminate].
  destruct (netif_byaddr _ _); [repeat split; discriminate|].
  set (ctx := mkCtx _ _ _ _ _ _). set (s0 := mkDst _ _ _ _).
  assert (Hin : in_buffer ctx f).
  { exists (repeat 0 (Z.to_nat (1518 - zlen f))). cbn [ctx d_buf d_len]. split; [reflexivity|].
    split; [zl; lia|]. split; [reflexivity|]. split; assumption. }
  destruct (decode_no_abort p ctx f payload s0 Hp Hin Hf eq_refl) as (A & Lp & U).
  assert (X : forall x : child * list ceff, DOk x <> DAbort /\ DOk x <> DLoop /\ (zlen f < 1518 -> DOk x <> DUB))
    by (intros x; repeat split; discriminate).
  destruct (proto_decode p ctx s0) as [[n s]| | | |].
  - destruct (n =? 0); [apply X|]. destruct (queue_put _ _ _) as [q fresh].
    destruct (s_ttl s =? 0); [apply X|]. destruct (_ || _); [apply X|]. destruct (_ && _); apply X.
  - apply X.
  - now contradiction A.
  - split; [discriminate|]. split; [discriminate|]. intros L1. now specialize (U L1 eq_refl).
  - now contradiction Lp.
Qed.
Lemma wire_safe opts index f d c now now2 : bytes f -> 0 <= index < 4294967296 ->
  socket_filter opts f = true -> parent_recv_one index f = RForward d ->
  child_queue opts c d now now2 <> DAbort /\ child_queue opts c d now now2 <> DLoop
  /\ (zlen f < 1518 -> child_queue opts c d now now2 <> DUB).
Proof.
  intros Hb Hi Hf Hr.
  destruct (Z.testbit opts 2) eqn:Eo; [|now rewrite reject_all in Hf].
  apply filter_iff in Hf; [|assumption|assumption].
  destruct (forward_cases index f Hi Hb) as (A & B & C).
  destruct (Z_lt_le_dec (zlen f) 60) as [L|L]; [now rewrite A in Hr|].
  destruct (recv_proto f) as [p|] eqn:E.
  2:{ rewrite B in Hr; [discriminate|assumption|now apply recv_proto_none]. }
  apply recv_proto_spec in E as [Hp E]. destruct (C p L Hp E) as (d' & Ed & Hc).
  rewrite Hr in Ed. injection Ed as <-.
  destruct (filter_proto f p Hf Hp E) as [pl Hpl].
  destruct (proto_cut p f pl 1518 ltac:(lia) Hpl) as [pl' Hpl'].
  pose proof (zlen_cut f).
  destruct (queue_no_abort opts c d index p 0 (firstn 1518 f) pl' now now2) as (Q1 & Q2 & Q3);
    try assumption; try lia.
  { now apply bytes_firstn. }
  split; [assumption|]. split; [assumption|]. intros L1. apply Q3. lia.
Qed.
