(** Common lemmas about reading a received frame. *)
From Verif Require Import Base Vis Tlv Types Checks Msg Spec Lemmas VisProofs EncProofs.

(** Ran normally or rejected the frame: no abort, no stray access, no endless loop. *)
Definition quiet {A} (x : dres A) : Prop :=
  match x with DOk _ | DFail => True | _ => False end.
(** Two runs with the same quiet outcome. *)
Definition same {A} (x y : dres A) : Prop := x = y /\ quiet x.

Lemma same_ok A (a : A) : same (DOk a) (DOk a). Proof. now split. Qed.
Lemma same_fail A : same (@DFail A) DFail. Proof. now split. Qed.
Lemma same_bind A B (x y : dres A) (f g : A -> dres B) :
  same x y -> (forall a, x = DOk a -> same (f a) (g a)) -> same (dbind x f) (dbind y g).
Proof.
  intros [<- Hq] H. destruct x as [a| | | |]; cbn in *; auto; try (now split).
Qed.
Lemma same_if A (c : bool) (x y x' y' : dres A) :
  (c = true -> same x x') -> (c = false -> same y y') ->
  same (if c then x else y) (if c then x' else y').
Proof. destruct c; auto. Qed.

Lemma grab8 buf p r : view buf p r ->
  GRAB_UINT8 buf (mkCur p (zlen r)) =
  match r with b :: r' => DOk (b, mkCur (p + 1) (zlen r')) | [] => DFail end.
Proof.
  intros H. unfold GRAB_UINT8, GRAB. cbn [len pos]. destruct r as [|b r].
  - reflexivity.
  - replace (1 <=? zlen (b :: r)) with true by zlia.
    rewrite (rdn_view _ _ _ 1 H) by zlia. cbn [dbind firstn Z.to_nat Pos.to_nat Pos.iter_op nth].
    do 2 f_equal. f_equal. zlia.
Qed.
Lemma grab16 buf p r : view buf p r ->
  GRAB_UINT16 buf (mkCur p (zlen r)) =
  match r with
  | a :: b :: r' => DOk (a * 256 + b, mkCur (p + 2) (zlen r'))
  | _ => DFail end.
Proof.
  intros H. unfold GRAB_UINT16, GRAB. cbn [len pos]. destruct r as [|a [|b r]].
  - reflexivity.
  - reflexivity.
  - replace (2 <=? zlen (a :: b :: r)) with true by zlia.
    rewrite (rdn_view _ _ _ 2 H) by zlia.
    change (firstn (Z.to_nat 2) (a :: b :: r)) with [a; b]. cbn [dbind de16].
    do 3 f_equal. zlia.
Qed.
Lemma grab32 buf p r : view buf p r ->
  GRAB_UINT32 buf (mkCur p (zlen r)) =
  match r with
  | a :: b :: c :: d :: r' =>
      DOk (((a * 256 + b) * 256 + c) * 256 + d, mkCur (p + 4) (zlen r'))
  | _ => DFail end.
Proof.
  intros H. unfold GRAB_UINT32, GRAB. cbn [len pos]. destruct r as [|a [|b [|c [|d r]]]].
  1-4: reflexivity.
  replace (4 <=? zlen (a :: b :: c :: d :: r)) with true by zlia.
  rewrite (rdn_view _ _ _ 4 H) by zlia.
  change (firstn (Z.to_nat 4) (a :: b :: c :: d :: r)) with [a; b; c; d]. cbn [dbind de32].
  do 3 f_equal. zlia.
Qed.
Lemma grabn n buf p r : view buf p r -> 0 <= n ->
  GRAB n buf (mkCur p (zlen r)) =
  if n <=? zlen r
  then DOk (firstn (Z.to_nat n) r, mkCur (p + n) (zlen (skipn (Z.to_nat n) r))) else DFail.
Proof.
  intros H Hn. unfold GRAB. cbn [len pos]. destruct (n <=? zlen r) eqn:E; [|easy].
  rewrite (rdn_view _ _ _ n H) by lia. cbn [dbind]. do 3 f_equal.
  rewrite zlen_skipn; lia.
Qed.
Lemma skipk n p r : 0 <= n ->
  SKIP n (mkCur p (zlen r)) =
  if n <=? zlen r then DOk (mkCur (p + n) (zlen (@skipn Z (Z.to_nat n) r))) else DFail.
Proof.
  intros Hn. unfold SKIP. cbn [len pos]. destruct (n <=? zlen r) eqn:E; [|easy].
  do 2 f_equal. rewrite zlen_skipn; lia.
Qed.

Lemma view_skipn buf p r n : view buf p r -> 0 <= n <= zlen r ->
  view buf (p + n) (skipn (Z.to_nat n) r).
Proof.
  intros H Hn. rewrite <- (firstn_skipn (Z.to_nat n) r) in H.
  apply view_app_r in H. now rewrite zlen_firstn in H.
Qed.
Lemma view_firstn buf p r n : view buf p r -> view buf p (firstn n r).
Proof. intros H. rewrite <- (firstn_skipn n r) in H. now apply view_app_l in H. Qed.
Lemma view_2 buf p a b r : view buf p (a :: b :: r) -> view buf (p + 2) r.
Proof. intros H. apply (view_app_r buf p [a; b]) in H. exact H. Qed.
Lemma view_4 buf p a b c d r : view buf p (a :: b :: c :: d :: r) -> view buf (p + 4) r.
Proof. intros H. apply (view_app_r buf p [a; b; c; d]) in H. exact H. Qed.

(** GRAB_CDP_TLV on the rest of a frame. *)
Lemma grab_cdp buf p r : view buf p r ->
  GRAB_CDP_TLV buf (mkCur p (zlen r)) =
  match r with
  | t1 :: t2 :: l1 :: l2 :: r' =>
      DOk (t1 * 256 + t2, (l1 * 256 + l2 - 4) mod 65536, mkCur (p + 4) (zlen r'))
  | _ => DFail
  end.
Proof.
  intros H. unfold GRAB_CDP_TLV. rewrite (grab16 _ _ _ H).
  destruct r as [|a [|b r]]; try reflexivity. cbn [dbind].
  rewrite (grab16 _ _ _ (view_2 _ _ _ _ _ H)).
  destruct r as [|c [|d r]]; try reflexivity. cbn [dbind]. do 3 f_equal. lia.
Qed.
Lemma grab_edp buf p r : view buf p r ->
  GRAB_EDP_TLV buf (mkCur p (zlen r)) =
  match r with
  | m :: t :: l1 :: l2 :: r' =>
      DOk (t, (l1 * 256 + l2 - 4) mod 65536, mkCur (p + 4) (zlen r'))
  | _ => DFail
  end.
Proof.
  intros H. unfold GRAB_EDP_TLV. rewrite skipk by lia.
  destruct r as [|m r]; [reflexivity|]. replace (1 <=? zlen (m :: r)) with true by zlia.
  cbn [dbind]. change (skipn (Z.to_nat 1) (m :: r)) with r.
  apply view_cons in H. rewrite (grab8 _ _ _ H).
  destruct r as [|t r]; [reflexivity|]. cbn [dbind].
  apply view_cons in H. rewrite (grab16 _ _ _ H).
  destruct r as [|c [|d r]]; try reflexivity. cbn [dbind]. do 3 f_equal. lia.
Qed.

(** Address texts by peer slot number. *)
Definition addr_text (type : Z) (v : list Z) : option (list Z) :=
  if type =? 4 then (if zlen v =? 4 then Some (inet_ntop4 v) else None)
  else if type =? 5 then (if zlen v =? 16 then Some (inet_ntop6 v) else None)
  else if type =? 6 then (if zlen v =? 6 then Some (mac_str v) else None)
  else None.
Lemma tlv_str_addr_view type buf p v : view buf p v ->
  tlv_str_addr type buf p (zlen v) = DOk (addr_text type v).
Proof.
  intros H. unfold tlv_str_addr, addr_text, PEER_ADDR_INET4, PEER_ADDR_INET6, PEER_ADDR_802.
  destruct (type =? 4); [|destruct (type =? 5); [|destruct (type =? 6); [|easy]]].
  - destruct (zlen v =? 4) eqn:E; [|easy]. apply Z.eqb_eq in E. rewrite <- E.
    now rewrite (rdn_view_all _ _ _ H).
  - destruct (zlen v =? 16) eqn:E; [|easy]. apply Z.eqb_eq in E. rewrite <- E.
    now rewrite (rdn_view_all _ _ _ H).
  - destruct (zlen v =? 6) eqn:E; [|easy]. apply Z.eqb_eq in E. rewrite <- E.
    now rewrite (rdn_view_all _ _ _ H).
Qed.

(** ** Peer slots and reports *)
Definition slot_no (s : slot) : Z :=
  match s with
  | Host => 0 | Port => 1 | PortDescr => 2 | Caps => 3
  | IPv4 => 4 | IPv6 => 5 | Mac => 6 | Vlan => 7
  end.
Lemma first_of_app s a b :
  first_of s (a ++ b) = match first_of s a with Some v => Some v | None => first_of s b end.
Proof.
  induction a as [|[s' v] a IH]; cbn; [easy|]. destruct (slot_eqb s s'); auto.
Qed.
Lemma pget_report sl acc : pget (report acc) (slot_no sl) = first_of sl acc.
Proof. destruct sl; reflexivity. Qed.
Lemma peer_str_report acc sl v :
  PEER_STR (report acc) (slot_no sl) v = report (acc ++ [(sl, v)]).
Proof.
  unfold PEER_STR. rewrite pget_report. unfold report. cbn [map]. rewrite !first_of_app.
  destruct sl; cbn [first_of slot_eqb]; destruct (first_of _ acc) eqn:E;
    cbn [upd Z.to_nat slot_no Pos.to_nat Pos.iter_op Init.Nat.add];
    repeat match goal with
    | |- context [match ?x with Some _ => _ | None => None end] =>
        replace (match x with Some v => Some v | None => None end) with x by (now destruct x)
    end; try reflexivity; rewrite ?E; reflexivity.
Qed.
Lemma report_nil : report [] = no_peers. Proof. reflexivity. Qed.

(** A frame of legal size in front of arbitrary memory. *)
Definition in_buffer (c : dctx) (f : list Z) : Prop :=
  exists tail, d_buf c = f ++ tail /\ zlen (d_buf c) = 1518 /\ d_len c = zlen f
    /\ 60 <= zlen f <= 1518 /\ bytes f.
