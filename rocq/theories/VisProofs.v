(** Proofs about string escaping (Vis.v, Tlv.v) against Spec.v. *)
From Verif Require Import Base Vis Tlv Spec Lemmas.

Lemma bytes_isbytes l : bytes l <-> isbytes l.
Proof. reflexivity. Qed.

Lemma cstr_before_nul l : cstr l = before_nul l.
Proof.
  induction l as [|b l IH]; cbn; [easy|]. rewrite IH.
  destruct (Z.eq_dec b 0) as [->|H]; [easy|]. destruct (b =? 0) eqn:E; [lia|easy].
Qed.
Lemma before_nul_le l : zlen (before_nul l) <= zlen l.
Proof.
  induction l as [|b l IH]; cbn; [zlia|]. destruct (Z.eq_dec b 0); zlia.
Qed.
Lemma before_nul_nonzero l : ~ In 0 (before_nul l).
Proof.
  induction l as [|b l IH]; cbn; [easy|]. destruct (Z.eq_dec b 0); cbn; intuition.
Qed.
Lemma before_nul_bytes l : bytes l -> bytes (before_nul l).
Proof.
  induction 1 as [|b l H _ IH]; cbn; [constructor|].
  destruct (Z.eq_dec b 0); constructor; assumption.
Qed.
Lemma before_nul_id l : ~ In 0 l -> before_nul l = l.
Proof.
  induction l as [|b l IH]; cbn; [easy|]. intros H.
  destruct (Z.eq_dec b 0) as [->|]; [intuition|]. f_equal. apply IH. intuition.
Qed.
Lemma before_nul_app_nul l r : ~ In 0 l -> before_nul (l ++ 0 :: r) = l.
Proof.
  induction l as [|b l IH]; cbn; [easy|]. intros H.
  destruct (Z.eq_dec b 0) as [->|]; [intuition|]. f_equal. apply IH. intuition.
Qed.

(** The bytes written for one source byte. *)
Definition esc1 (flag b : Z) : list Z :=
  let c := schar b in
  if isvisible flag c
  then (if (c =? 92) && negb (has flag VIS_NOSLASH) then [b; 92] else [b])
  else vis c flag 0.

Definition all_bytes : list Z := map Z.of_nat (seq 1 255).
Lemma all_bytes_in b : byte b -> b <> 0 -> In b all_bytes.
Proof.
  intros [H1 H2] H. unfold all_bytes. rewrite in_map_iff.
  exists (Z.to_nat b). split; [lia|]. apply in_seq. lia.
Qed.
Lemma all_bytes_check (P : Z -> bool) :
  forallb P all_bytes = true -> forall b, byte b -> b <> 0 -> P b = true.
Proof. intros H b H1 H2. rewrite forallb_forall in H. apply H, all_bytes_in; easy. Qed.

Definition SAFE_FLAGS := Z.lor VIS_SAFE VIS_OCTAL.
Definition STRICT_FLAGS := Z.lor VIS_NL (Z.lor VIS_TAB (Z.lor VIS_GLOB VIS_OCTAL)).

Lemma esc1_safe b : byte b -> b <> 0 -> esc1 SAFE_FLAGS b = show_safe b.
Proof.
  intros H1 H2. apply beq_true. revert b H1 H2.
  apply (all_bytes_check (fun b => beq (esc1 SAFE_FLAGS b) (show_safe b))).
  vm_compute. reflexivity.
Qed.
Lemma esc1_strict b : byte b -> b <> 0 -> esc1 STRICT_FLAGS b = show_strict b.
Proof.
  intros H1 H2. apply beq_true. revert b H1 H2.
  apply (all_bytes_check (fun b => beq (esc1 STRICT_FLAGS b) (show_strict b))).
  vm_compute. reflexivity.
Qed.

Lemma vis_nextc c flag n : has flag VIS_CSTYLE = false -> vis c flag n = vis c flag 0.
Proof. unfold vis. intros ->. reflexivity. Qed.

Lemma puts_ok siz out l : zlen out + zlen l <= siz -> puts siz out l = DOk (out ++ l).
Proof.
  revert out. induction l as [|b l IH]; intros out H; cbn [puts].
  - now rewrite app_nil_r.
  - unfold put. replace (zlen out <? siz) with true by zlia. cbn [dbind].
    rewrite IH by zlia. now rewrite <- app_assoc.
Qed.

Lemma strnvis_loop_ok siz flag src out0 :
  has flag VIS_CSTYLE = false ->
  (forall b, In b src -> 1 <= zlen (esc1 flag b) <= 4) ->
  ~ In 0 src -> zlen out0 + 4 * zlen src <= siz - 1 ->
  strnvis_loop siz flag src out0 = DOk (out0 ++ flat_map (esc1 flag) src).
Proof.
  intros Hf. revert out0. induction src as [|b src IH]; intros out0 Hl Hz Hs;
    cbn [strnvis_loop flat_map].
  - now rewrite app_nil_r.
  - assert (Hb : b =? 0 = false) by (cbn in Hz; intuition lia).
    pose proof (Hl b (or_introl eq_refl)) as Hlb.
    assert (IH' : forall o, zlen o + 4 * zlen src <= siz - 1 ->
       strnvis_loop siz flag src o = DOk (o ++ flat_map (esc1 flag) src)).
    { intros o Ho. apply IH; [intros x Hx; apply Hl; now right | cbn in Hz; intuition | easy]. }
    rewrite Hb. replace (zlen out0 <? siz - 1) with true by zlia. cbn [negb orb].
    unfold esc1 in Hlb |- *.
    destruct (isvisible flag (schar b)).
    + unfold put at 1. replace (zlen out0 <? siz) with true by zlia. cbn [dbind].
      destruct ((schar b =? 92) && negb (has flag VIS_NOSLASH)).
      * replace (zlen (out0 ++ [b]) <? siz - 1) with true by zlia.
        unfold put. replace (zlen (out0 ++ [b]) <? siz) with true by zlia. cbn [dbind].
        rewrite IH' by zlia. now rewrite <- !app_assoc.
      * rewrite IH' by zlia. now rewrite <- !app_assoc.
    + rewrite (vis_nextc _ _ _ Hf).
      replace (_ <=? siz - 1) with true by zlia.
      rewrite puts_ok by zlia. cbn [dbind]. rewrite IH' by zlia. now rewrite <- !app_assoc.
Qed.

Lemma strnvis_ok siz flag src :
  has flag VIS_CSTYLE = false ->
  (forall b, In b src -> 1 <= zlen (esc1 flag b) <= 4) ->
  ~ In 0 src -> 4 * zlen src <= siz - 1 ->
  strnvis siz flag src = DOk (flat_map (esc1 flag) src).
Proof.
  intros Hf Hl Hz Hs. unfold strnvis.
  rewrite strnvis_loop_ok by (try assumption; zlia). cbn [dbind app].
  replace (0 <? siz) with true by zlia.
  unfold put. replace (_ <? siz) with true; [easy|].
  assert (zlen (flat_map (esc1 flag) src) <= 4 * zlen src); [|zlia].
  clear -Hl. induction src as [|b src IH]; cbn [flat_map]; [zlia|].
  pose proof (Hl b (or_introl eq_refl)).
  assert (zlen (flat_map (esc1 flag) src) <= 4 * zlen src)
    by (apply IH; intros; apply Hl; now right). zlia.
Qed.

Lemma flat_map_ext_in A B (f g : A -> list B) l :
  (forall a, In a l -> f a = g a) -> flat_map f l = flat_map g l.
Proof.
  induction l as [|a l IH]; cbn; intros H; [easy|].
  rewrite H by now left. f_equal. apply IH. intros; apply H; now right.
Qed.

Lemma show_safe_len b : 1 <= zlen (show_safe b) <= 4.
Proof.
  unfold show_safe, octal. destruct (b =? 92); [easy|].
  match goal with |- context [if ?c then _ else _] => destruct c end; zlia.
Qed.
Lemma show_strict_len b : 1 <= zlen (show_strict b) <= 4.
Proof.
  unfold show_strict, octal. destruct (b =? 92); [easy|].
  match goal with |- context [if ?c then _ else _] => destruct c end; zlia.
Qed.

Lemma bytes_firstn n l : bytes l -> bytes (firstn n l).
Proof.
  intros H. rewrite <- (firstn_skipn n l) in H. apply Forall_app in H. tauto.
Qed.
Lemma bytes_skipn n l : bytes l -> bytes (skipn n l).
Proof.
  intros H. rewrite <- (firstn_skipn n l) in H. apply Forall_app in H. tauto.
Qed.

Lemma strnvis_shown show flag v siz :
  has flag VIS_CSTYLE = false ->
  (forall b, byte b -> b <> 0 -> esc1 flag b = show b) ->
  (forall b, 1 <= zlen (show b) <= 4) ->
  bytes v -> 4 * zlen v <= siz - 1 ->
  strnvis siz flag (cstr v) = DOk (flat_map show (before_nul v)).
Proof.
  intros Hf He Hl Hb Hs. rewrite cstr_before_nul.
  pose proof (before_nul_le v). pose proof (before_nul_nonzero v) as Hn.
  pose proof (before_nul_bytes v Hb) as Hbb. unfold bytes in Hbb.
  rewrite Forall_forall in Hbb.
  rewrite strnvis_ok; [f_equal| easy | | easy | lia].
  - apply flat_map_ext_in. intros a Ha. apply He; [auto | congruence].
  - intros b Hi. rewrite He; [apply Hl | auto | congruence].
Qed.

Lemma firstn_min A (v : list A) l n : zlen v = l -> 0 <= n ->
  firstn (Z.to_nat (Z.min l n)) v = firstn (Z.to_nat n) v.
Proof.
  intros <- Hn. destruct (Z.le_gt_cases (zlen v) n).
  - rewrite Z.min_l, firstn_all_z by lia. symmetry. apply firstn_all2. unfold zlen in *. lia.
  - now rewrite Z.min_r by lia.
Qed.

(** The escaping functions on a value [v] lying at [p] in the buffer. *)
Lemma tlv_str_copy_view buf p v :
  view buf p v -> bytes v -> tlv_str_copy buf p (zlen v) = DOk (shown show_safe v).
Proof.
  intros Hv Hb. unfold tlv_str_copy, TLV_LEN.
  rewrite (rdn_view buf p v) by (try assumption; zlia). cbn [dbind].
  rewrite firstn_min by (zlia || easy).
  change (512 - 1) with 511. unfold shown.
  change (Z.to_nat 511) with 511%nat.
  rewrite (strnvis_shown show_safe); try easy.
  - apply esc1_safe.
  - apply show_safe_len.
  - now apply bytes_firstn.
  - unfold zlen. rewrite firstn_length. lia.
Qed.
Lemma tlv_value_vis_view buf p v :
  view buf p v -> bytes v -> tlv_value_vis buf p (zlen v) = DOk (shown show_strict v).
Proof.
  intros Hv Hb. unfold tlv_value_vis, TLV_LEN.
  rewrite (rdn_view buf p v) by (try assumption; zlia). cbn [dbind].
  rewrite firstn_min by (zlia || easy).
  change (512 - 1) with 511. unfold shown.
  change (Z.to_nat 511) with 511%nat.
  rewrite (strnvis_shown show_strict); try easy.
  - apply esc1_strict.
  - apply show_strict_len.
  - now apply bytes_firstn.
  - unfold zlen. rewrite firstn_length. lia.
Qed.

(** Capability letters. *)
Lemma has_bit w i : 0 <= i -> has w (2 ^ i) = Z.testbit w i.
Proof.
  intros Hi. unfold has. destruct (Z.testbit w i) eqn:E.
  - destruct (Z.land w (2 ^ i) =? 0) eqn:E2; [|easy]. apply Z.eqb_eq in E2.
    assert (H : Z.testbit (Z.land w (2 ^ i)) i = false) by (rewrite E2; apply Z.bits_0).
    rewrite Z.land_spec, E, Z.pow2_bits_true in H by easy. discriminate.
  - replace (Z.land w (2 ^ i)) with 0; [easy|]. symmetry. apply Z.bits_inj'.
    intros j Hj. rewrite Z.land_spec, Z.bits_0, Z.pow2_bits_eqb by easy.
    destruct (i =? j) eqn:E3; [|now rewrite andb_false_r].
    apply Z.eqb_eq in E3. subst. now rewrite E.
Qed.
Lemma cap_str_letters cap : tlv_str_cap cap = letters cap.
Proof.
  unfold tlv_str_cap, letters, CAP_STRING.
  change (bs "rBHRSWCTO") with [114; 66; 72; 82; 83; 87; 67; 84; 79].
  cbn [cap_letters combine filter map fst snd].
  change (2 * 1) with 2. change (2 * 2) with 4. change (2 * 4) with 8.
  change (2 * 8) with 16. change (2 * 16) with 32. change (2 * 32) with 64.
  change (2 * 64) with 128. change (2 * 128) with 256.
  change (has cap 1) with (has cap (2 ^ 0)). change (has cap 2) with (has cap (2 ^ 1)).
  change (has cap 4) with (has cap (2 ^ 2)). change (has cap 8) with (has cap (2 ^ 3)).
  change (has cap 16) with (has cap (2 ^ 4)). change (has cap 32) with (has cap (2 ^ 5)).
  change (has cap 64) with (has cap (2 ^ 6)). change (has cap 128) with (has cap (2 ^ 7)).
  change (has cap 256) with (has cap (2 ^ 8)).
  rewrite !has_bit by lia.
  destruct (Z.testbit cap 0), (Z.testbit cap 1), (Z.testbit cap 2), (Z.testbit cap 3),
    (Z.testbit cap 4), (Z.testbit cap 5), (Z.testbit cap 6), (Z.testbit cap 7),
    (Z.testbit cap 8); reflexivity.
Qed.

(** Decimal notation of 16-bit values: checked for every value. *)
Fixpoint zcheck (P : Z -> bool) (fuel : nat) (i : Z) : bool :=
  match fuel with
  | O => true
  | S f => P i && zcheck P f (i + 1)
  end.
Lemma zcheck_ok P fuel i n :
  zcheck P fuel i = true -> i <= n < i + Z.of_nat fuel -> P n = true.
Proof.
  revert i. induction fuel as [|f IH]; intros i H Hn; cbn [zcheck] in H; [lia|].
  apply andb_prop in H as [H1 H2]. destruct (Z.eq_dec i n) as [<-|]; [easy|].
  apply (IH (i + 1)); [easy|lia].
Qed.
Lemma dec_decimal_all :
  zcheck (fun n => beq (dec n) (decimal n)) (Z.to_nat 65536) 0 = true.
Proof. vm_compute. reflexivity. Qed.
Lemma dec_decimal n : 0 <= n < 65536 -> dec n = decimal n.
Proof.
  intros H. apply beq_true.
  apply (zcheck_ok (fun n => beq (dec n) (decimal n)) (Z.to_nat 65536) 0 n dec_decimal_all).
  rewrite Z2Nat.id by lia. lia.
Qed.
