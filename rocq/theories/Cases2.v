(** Concrete received frames used by the examples beside the property theorems. *)
From Verif Require Import Base Tlv Types Msg Spec SpecAdv SpecRound Conformance Lemmas DecProofs Cases.

(** A frame in a message buffer filled up with the byte [fill]. *)
Definition t_ctx (fill mode : Z) (f : list Z) : dctx :=
  mkCtx (f ++ repeat fill (Z.to_nat (1518 - zlen f))) (zlen f) mode (bs "eth0") 1000 1010.
Definition t_start : dst := mkDst no_peers 0 0 [].
Lemma t_in_buffer fill mode f :
  forallb (fun b => (0 <=? b) && (b <? 256)) f && (60 <=? zlen f) && (zlen f <=? 1518) = true ->
  in_buffer (t_ctx fill mode f) f.
Proof.
  intros [[H1 H2]%andb_prop H3]%andb_prop. exists (repeat fill (Z.to_nat (1518 - zlen f))).
  cbn [t_ctx d_buf d_len]. split; [easy|]. split.
  { rewrite zlen_app. unfold zlen at 2. rewrite repeat_length. lia. }
  split; [easy|]. split; [lia|]. rewrite forallb_forall in H1. apply Forall_forall.
  intros b Hb%H1. unfold byte. lia.
Qed.
(** The payload of an untagged SNAP frame. *)
Lemma t_snap dst org pid ty f : zlen dst = 6 -> zlen org = 3 -> 0 <= ty < 65536 -> ty <> 33024 ->
  f = dst ++ firstn 6 (skipn 6 f) ++ U16 ty ++ [170; 170; 3] ++ org ++ U16 pid ++ skipn 22 f ->
  zlen (firstn 6 (skipn 6 f)) = 6 -> snap_frame dst org pid f (skipn 22 f).
Proof. intros ? ? ? ? E H. rewrite E at 1. now apply snap_untagged. Qed.
Lemma t_lldp f :
  f = [1; 128; 194; 0; 0; 14] ++ firstn 6 (skipn 6 f) ++ U16 35020 ++ skipn 14 f ->
  zlen (firstn 6 (skipn 6 f)) = 6 -> lldp_frame f (skipn 14 f).
Proof. intros E H. rewrite E at 1. now apply lldp_untagged. Qed.

(** Captures of neighbours. *)
Definition c_cdp := f_cdp_45_good_6504.
Definition c_edp := f_edp_41_good_small.
Definition c_fdp := f_fdp_41_good_bi.
Definition c_lldp := f_lldp_42_good_big.
Lemma c_cdp_in fill mode : in_buffer (t_ctx fill mode c_cdp) c_cdp.
Proof. apply t_in_buffer. vm_compute. reflexivity. Qed.
Lemma c_cdp_frame : cdp_frame c_cdp (skipn 22 c_cdp).
Proof. apply (t_snap _ _ _ 444); vm_compute; (reflexivity || discriminate || easy). Qed.
Lemma c_edp_in fill mode : in_buffer (t_ctx fill mode c_edp) c_edp.
Proof. apply t_in_buffer. vm_compute. reflexivity. Qed.
Lemma c_edp_frame : edp_frame c_edp (skipn 22 c_edp).
Proof. apply (t_snap _ _ _ 350); vm_compute; (reflexivity || discriminate || easy). Qed.
Lemma c_fdp_in fill mode : in_buffer (t_ctx fill mode c_fdp) c_fdp.
Proof. apply t_in_buffer. vm_compute. reflexivity. Qed.
Lemma c_fdp_frame : fdp_frame c_fdp (skipn 22 c_fdp).
Proof. apply (t_snap _ _ _ 729); vm_compute; (reflexivity || discriminate || easy). Qed.
Lemma c_lldp_in fill mode : in_buffer (t_ctx fill mode c_lldp) c_lldp.
Proof. apply t_in_buffer. vm_compute. reflexivity. Qed.
Lemma c_lldp_frame : lldp_frame c_lldp (skipn 14 c_lldp).
Proof. apply t_lldp; vm_compute; reflexivity. Qed.
