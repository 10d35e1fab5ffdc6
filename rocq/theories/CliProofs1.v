(** Numbers in decimal notation, of any size printf meets. *)
From Coq Require Import Decimal DecimalFacts DecimalPos DecimalN.
From Verif Require Import Base Spec Lemmas.

Fixpoint ulen (d : uint) : Z :=
  match d with
  | Nil => 0
  | D0 d | D1 d | D2 d | D3 d | D4 d | D5 d | D6 d | D7 d | D8 d | D9 d => 1 + ulen d
  end.
Fixpoint val (d : uint) : Z :=
  match d with
  | Nil => 0
  | D0 d => val d
  | D1 d => 1 * 10 ^ ulen d + val d
  | D2 d => 2 * 10 ^ ulen d + val d
  | D3 d => 3 * 10 ^ ulen d + val d
  | D4 d => 4 * 10 ^ ulen d + val d
  | D5 d => 5 * 10 ^ ulen d + val d
  | D6 d => 6 * 10 ^ ulen d + val d
  | D7 d => 7 * 10 ^ ulen d + val d
  | D8 d => 8 * 10 ^ ulen d + val d
  | D9 d => 9 * 10 ^ ulen d + val d
  end.
Definition dig (k : Z) (d : uint) : uint :=
  match k with
  | 0 => D0 d | 1 => D1 d | 2 => D2 d | 3 => D3 d | 4 => D4 d
  | 5 => D5 d | 6 => D6 d | 7 => D7 d | 8 => D8 d | _ => D9 d
  end.
Definition chars (d : uint) : list Z := bs (DecimalString.NilEmpty.string_of_uint d).

Lemma ten k : 0 <= k < 10 -> k = 0 \/ k = 1 \/ k = 2 \/ k = 3 \/ k = 4 \/ k = 5 \/ k = 6 \/ k = 7 \/ k = 8 \/ k = 9.
Proof. lia. Qed.
Ltac cases10 H := apply ten in H as [->|[->|[->|[->|[->|[->|[->|[->|[->| ->]]]]]]]]].
Lemma chars_dig k d : 0 <= k < 10 -> chars (dig k d) = 48 + k :: chars d.
Proof. intros H. cases10 H; reflexivity. Qed.
Lemma ulen_nonneg d : 0 <= ulen d.
Proof. induction d; cbn [ulen]; lia. Qed.
Lemma ulen_dig k d : 0 <= k < 10 -> ulen (dig k d) = 1 + ulen d.
Proof. intros H. cases10 H; reflexivity. Qed.
Lemma val_dig k d : 0 <= k < 10 -> val (dig k d) = k * 10 ^ ulen d + val d.
Proof. intros H. cases10 H; cbn [dig val]; lia. Qed.

Lemma of_uint_acc_val d : forall p, Zpos (Pos.of_uint_acc d p) = Zpos p * 10 ^ ulen d + val d.
Proof.
  induction d; intros p; cbn [Pos.of_uint_acc ulen val]; [lia|..];
    pose proof (ulen_nonneg d); rewrite IHd, Z.pow_add_r by lia; change (10 ^ 1) with 10; try nia.
Qed.
Lemma of_uint_val d : Z.of_N (N.of_uint d) = val d.
Proof.
  unfold N.of_uint. induction d; cbn [Pos.of_uint val]; try reflexivity; [assumption|..];
    cbn [Z.of_N]; rewrite of_uint_acc_val; reflexivity.
Qed.

Lemma digits_chars fuel : forall n a, 0 < n < 10 ^ Z.of_nat fuel -> exists d,
  digits 10 fuel n (chars a) = chars d /\ val d = n * 10 ^ ulen a + val a /\ unorm d = d.
Proof.
  induction fuel as [|f IH]; intros n a Hn. { cbn in Hn. lia. }
  cbn [digits]. pose proof (Z.mod_pos_bound n 10 ltac:(lia)) as Hm.
  replace (n mod 10 <? 10) with true by lia.
  rewrite <- chars_dig by lia. pose proof (Z.div_mod n 10 ltac:(lia)).
  destruct (n / 10 =? 0) eqn:E.
  - exists (dig (n mod 10) a). split; [reflexivity|]. rewrite val_dig by lia. split; [f_equal; f_equal; lia|].
    assert (K : n mod 10 <> 0) by lia. clear - K Hm. revert K Hm. generalize (n mod 10). intros k K Hm.
    cases10 Hm; cbn [dig]; (lia || reflexivity).
  - destruct (IH (n / 10) (dig (n mod 10) a)) as (d & H1 & H2 & H3).
    { rewrite Nat2Z.inj_succ, Z.pow_succ_r in Hn by lia. assert (0 <= n / 10) by (apply Z.div_pos; lia). nia. }
    exists d. split; [exact H1|]. split; [|exact H3].
    rewrite H2, ulen_dig, val_dig by lia. pose proof (ulen_nonneg a). rewrite Z.pow_add_r by lia.
    change (10 ^ 1) with 10. nia.
Qed.
Lemma dec_any n : 0 <= n < 10 ^ 20 -> dec n = decimal n.
Proof.
  intros H. destruct (Z.eq_dec n 0) as [->|Hn]; [reflexivity|].
  destruct (digits_chars 20 n Nil ltac:(cbn [Z.of_nat]; change (Z.of_nat 20) with 20; lia)) as (d & H1 & H2 & H3).
  unfold dec. change [] with (chars Nil). rewrite H1. unfold chars, decimal. do 2 f_equal.
  rewrite <- H3, <- (DecimalN.Unsigned.to_of d). f_equal.
  apply N2Z.inj. rewrite of_uint_val, H2, Z2N.id by lia. cbn [ulen val]. lia.
Qed.
