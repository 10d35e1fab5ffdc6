(** Writing a structure and reading it back. *)
From Verif Require Import Base Types Tlv Wire Spec Lemmas.

Lemma zlen_le n v : zlen (le n v) = Z.of_nat n.
Proof. revert v. induction n; intros v; cbn [le]; zl; [reflexivity|]. rewrite IHn. lia. Qed.
Lemma le_bytes n v : bytes (le n v).
Proof. revert v. induction n; intros v; cbn [le]; constructor; [unfold byte; lia|apply IHn]. Qed.
Lemma unle_le n v : 0 <= v < 256 ^ Z.of_nat n -> unle (le n v) = v.
Proof.
  revert v. induction n; intros v H; cbn [le unle].
  - change (256 ^ Z.of_nat 0) with 1 in H. lia.
  - rewrite IHn; [lia|]. rewrite Nat2Z.inj_succ, Z.pow_succ_r in H by lia. lia.
Qed.
Lemma unle_bound l : bytes l -> 0 <= unle l < 256 ^ zlen l.
Proof.
  induction 1 as [|b l Hb _ IH]; cbn [unle]; zl; [now cbn|].
  unfold byte in Hb. rewrite Z.pow_add_r by zlia. change (256 ^ 1) with 256. lia.
Qed.
Lemma zlen_zeros n : 0 <= n -> zlen (zeros n) = n.
Proof. intros. unfold zeros. zl. lia. Qed.
Lemma zeros_neg n : n <= 0 -> zeros n = [].
Proof. intros. unfold zeros. replace (Z.to_nat n) with O by lia. reflexivity. Qed.
Lemma zlen_msg_mem d : zlen (msg_mem d) = 1558.
Proof.
  unfold msg_mem. zl. unfold zeros, zlen. rewrite firstn_length, repeat_length. lia.
Qed.
Lemma zlen_req_mem d : zlen (req_mem d) = 544.
Proof.
  unfold req_mem. zl. unfold zeros, zlen. rewrite firstn_length, repeat_length. lia.
Qed.
Lemma bytes_zeros n : bytes (zeros n).
Proof. apply Forall_forall. intros x H%repeat_spec. subst. unfold byte. lia. Qed.
Lemma bytes_firstn n l : bytes l -> bytes (firstn n l).
Proof. intros H. rewrite <- (firstn_skipn n l) in H. now apply Forall_app in H. Qed.
Lemma bytes_skipn n l : bytes l -> bytes (skipn n l).
Proof. intros H. rewrite <- (firstn_skipn n l) in H. now apply Forall_app in H. Qed.
Lemma bytes_slice l p n : bytes l -> bytes (slice l p n).
Proof. intros H. unfold slice. now apply bytes_firstn, bytes_skipn. Qed.
Lemma bytes_msg_mem d : bytes d -> bytes (msg_mem d).
Proof. intros H. apply Forall_app. split; [now apply bytes_firstn|apply bytes_zeros]. Qed.
Lemma bytes_req_mem d : bytes d -> bytes (req_mem d).
Proof. intros H. apply Forall_app. split; [now apply bytes_firstn|apply bytes_zeros]. Qed.
Lemma zlen_slice A (l : list A) p n : 0 <= p -> 0 <= n -> p + n <= zlen l -> zlen (slice l p n) = n.
Proof. intros. unfold slice, zlen in *. rewrite firstn_length, skipn_length. lia. Qed.
Lemma zlen_pm_msg d : zlen (pm_msg (msg_mem d)) = 1518.
Proof. unfold pm_msg. apply zlen_slice; rewrite ?zlen_msg_mem; lia. Qed.
Lemma bytes_pm_msg d : bytes d -> bytes (pm_msg (msg_mem d)).
Proof. intros. now apply bytes_slice, bytes_msg_mem. Qed.
Lemma pm_index_range d : bytes d -> 0 <= pm_index (msg_mem d) < 4294967296.
Proof.
  intros H. unfold pm_index. pose proof (unle_bound (slice (msg_mem d) 0 4)) as B.
  rewrite zlen_slice in B by (rewrite ?zlen_msg_mem; lia). apply B. now apply bytes_slice, bytes_msg_mem.
Qed.
Lemma pm_proto_range d : bytes d -> 0 <= pm_proto (msg_mem d) < 256.
Proof.
  intros H. unfold pm_proto. apply bytes_msg_mem in H. unfold bytes, byte in H. rewrite Forall_forall in H.
  apply H. apply nth_In. apply Nat2Z.inj_lt. change (Z.of_nat (length (msg_mem d))) with (zlen (msg_mem d)).
  rewrite zlen_msg_mem. lia.
Qed.

(** The length field agrees with the size of the datagram. *)
Lemma size_ok_len d : bytes d -> msg_size_ok (Z.min (zlen d) PARENT_MSG_MAX) (msg_mem d) = true ->
  pm_len (msg_mem d) = Z.min (zlen d) 1558 - 40 /\ 40 <= zlen d.
Proof.
  intros Hb H. unfold msg_size_ok, PARENT_MSG_MIN, PARENT_MSG_MAX in H.
  apply andb_prop in H as [H1 H2].
  assert (B : -9223372036854775808 <= pm_len (msg_mem d) < 9223372036854775808).
  { unfold pm_len, sgn64. pose proof (unle_bound (slice (msg_mem d) 32 8)) as B.
    rewrite zlen_slice in B by (rewrite ?zlen_msg_mem; lia).
    change (256 ^ 8) with 18446744073709551616 in B. specialize (B (bytes_slice _ _ _ (bytes_msg_mem _ Hb))).
    destruct (_ <? _) eqn:E; lia. }
  split; [|zlia].
  apply Z.eqb_eq in H2. pose proof (zlen_nonneg _ d). revert H1 H2 B H. generalize (pm_len (msg_mem d)) (zlen d).
  intros a b H1 H2 B H.
  destruct (Z_lt_le_dec (40 + a) 0).
  - rewrite <- (Z.mod_add (40 + a) 1), Z.mod_small in H2; lia.
  - rewrite Z.mod_small in H2; lia.
Qed.
(** The frame in a message that passes the size check. *)
Lemma pm_msg_data d : bytes d -> 40 <= zlen d ->
  pm_msg (msg_mem d) = firstn 1518 (skipn 40 d) ++ zeros (1558 - zlen d).
Proof.
  intros Hb H. unfold pm_msg, msg_mem, slice.
  change (Z.to_nat 40) with 40%nat. change (Z.to_nat 1518) with 1518%nat.
  rewrite skipn_app. rewrite skipn_firstn_comm.
  replace (40 - length (firstn 1558 d))%nat with 0%nat by (rewrite firstn_length; unfold zlen in H; lia).
  rewrite skipn_O. change (1558 - 40)%nat with 1518%nat.
  apply firstn_all2. unfold zeros. rewrite app_length, repeat_length, firstn_length, skipn_length. unfold zlen in *. lia.
Qed.
Lemma pm_msg_frame d : bytes d -> msg_size_ok (Z.min (zlen d) PARENT_MSG_MAX) (msg_mem d) = true ->
  firstn (Z.to_nat (pm_len (msg_mem d))) (pm_msg (msg_mem d)) = firstn 1518 (skipn 40 d)
  /\ pm_len (msg_mem d) = zlen (firstn 1518 (skipn 40 d)).
Proof.
  intros Hb H. apply size_ok_len in H as [E H]; [|assumption].
  assert (L : pm_len (msg_mem d) = zlen (firstn 1518 (skipn 40 d))).
  { rewrite E. unfold zlen. rewrite firstn_length, skipn_length. unfold zlen in H. lia. }
  split; [|exact L]. rewrite L, pm_msg_data by assumption. apply firstn_zlen_app.
Qed.

(** A message written by the parent. *)
Lemma slice_mid (a b c : list Z) p n : zlen a = p -> zlen b = n -> slice (a ++ b ++ c) p n = b.
Proof. intros <- <-. unfold slice. rewrite skipn_zlen_app. apply firstn_zlen_app. Qed.
Section written.
Variables (index : Z) (name : list Z) (p received : Z) (f : list Z).
Hypothesis Hi : 0 <= index < 4294967296.
Hypothesis Hn : cstring 16 name.
Hypothesis Hp : 0 <= p < 256.
Hypothesis Hr : 0 <= received < 9223372036854775808.
Hypothesis Hf : bytes f.
Hypothesis Hl : zlen f <= 1518.
Let d := msg_bytes index name p received (zlen f) f.
Let nm := firstn 16 (name ++ zeros 16).
Lemma w_nmlen : zlen nm = 16.
Proof. unfold nm, zlen. rewrite firstn_length, app_length. unfold zeros. rewrite repeat_length. lia. Qed.
Lemma w_deq : d = le 4 index ++ nm ++ [p; 0; 0; 0] ++ le 8 received ++ le 8 (zlen f) ++ f.
Proof. unfold d, msg_bytes. now rewrite firstn_all_z. Qed.
Lemma w_dlen : zlen d = 40 + zlen f.
Proof. rewrite w_deq. zl. rewrite !zlen_le, w_nmlen. lia. Qed.
Lemma w_dbytes : bytes d.
Proof.
  rewrite w_deq. unfold bytes. rewrite !Forall_app. repeat apply conj; try apply le_bytes; try assumption.
  - apply bytes_firstn. apply Forall_app. split; [eapply Forall_impl; [|apply Hn]; unfold byte; cbn; lia|apply bytes_zeros].
  - repeat constructor; unfold byte; lia.
Qed.
Lemma w_mem : msg_mem d = d ++ zeros (1518 - zlen f).
Proof.
  unfold msg_mem. rewrite firstn_all2 by (pose proof w_dlen; unfold zlen in *; lia).
  rewrite w_dlen. f_equal. f_equal. lia.
Qed.
Lemma w_index : pm_index (msg_mem d) = index.
Proof.
  unfold pm_index. rewrite w_mem, w_deq, <- !app_assoc.
  etransitivity; [apply f_equal, (slice_mid [] (le 4 index) _ 0 4 eq_refl eq_refl)|]. apply unle_le. exact Hi.
Qed.
Lemma w_proto : pm_proto (msg_mem d) = p.
Proof.
  unfold pm_proto. rewrite w_mem, w_deq, <- !app_assoc.
  rewrite (app_assoc (le 4 index)), app_nth2; [|pose proof w_nmlen; pose proof (zlen_le 4 index); unfold zlen in *; rewrite app_length; lia].
  replace (20 - length (le 4 index ++ nm))%nat with 0%nat; [reflexivity|].
  pose proof w_nmlen; pose proof (zlen_le 4 index); unfold zlen in *; rewrite app_length; lia.
Qed.
Lemma w_received : pm_received (msg_mem d) = received.
Proof.
  unfold pm_received. rewrite w_mem, w_deq, <- !app_assoc.
  rewrite (app_assoc (le 4 index)), (app_assoc (_ ++ nm)).
  rewrite slice_mid; [|zl; rewrite zlen_le, w_nmlen; reflexivity|now rewrite zlen_le].
  rewrite unle_le by lia. unfold sgn64. replace (_ <? _) with true by lia. reflexivity.
Qed.
Lemma w_len : pm_len (msg_mem d) = zlen f.
Proof.
  unfold pm_len. rewrite w_mem, w_deq, <- !app_assoc.
  rewrite (app_assoc (le 4 index)), (app_assoc (_ ++ nm)), (app_assoc (_ ++ [_; _; _; _])).
  rewrite slice_mid; [|zl; rewrite !zlen_le, w_nmlen; reflexivity|now rewrite zlen_le].
  rewrite unle_le by zlia. unfold sgn64. replace (_ <? _) with true by lia. reflexivity.
Qed.
Lemma w_msg : pm_msg (msg_mem d) = f ++ zeros (1518 - zlen f).
Proof.
  unfold pm_msg. rewrite w_mem, w_deq, <- !app_assoc.
  rewrite (app_assoc (le 4 index)), (app_assoc (_ ++ nm)), (app_assoc (_ ++ [_; _; _; _])), (app_assoc (_ ++ le 8 received)).
  rewrite <- (app_nil_r (_ ++ f ++ zeros _)), <- (app_assoc _ (f ++ zeros _)).
  apply slice_mid; [zl; rewrite !zlen_le, w_nmlen; reflexivity|]. zl. rewrite zlen_zeros; lia.
Qed.
Lemma w_size : msg_size_ok (Z.min (zlen d) PARENT_MSG_MAX) (msg_mem d) = true.
Proof.
  unfold msg_size_ok, PARENT_MSG_MIN, PARENT_MSG_MAX. rewrite w_len, w_dlen. pose proof (zlen_nonneg _ f).
  rewrite Z.mod_small by lia. lia.
Qed.
End written.
