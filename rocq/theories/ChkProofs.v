(** Proofs about my_chksum against the Internet checksum. *)
From Verif Require Import Base Chksum Spec Lemmas.

Definition zsum (l : list Z) : Z := fold_right Z.add 0 l.
Definition words_ok (l : list Z) : Prop := Forall (fun w => 0 <= w < 65536) l.

(** The sum over little endian words. *)
Fixpoint lsum (cisco : bool) (d : list Z) : Z :=
  match d with
  | a :: b :: d' => (a + 256 * b) + lsum cisco d'
  | [a] => if cisco then 256 * a else a
  | [] => 0
  end.

Lemma pair_ind (P : list Z -> Prop) :
  P [] -> (forall a, P [a]) -> (forall a b l, P l -> P (a :: b :: l)) -> forall l, P l.
Proof.
  intros H0 H1 H2. fix IH 1. destruct l as [|a [|b l]]; [apply H0|apply H1|apply H2, IH].
Qed.

Lemma words_bytes cisco d : bytes d -> words_ok (words cisco d).
Proof.
  induction d as [|a|a b d IH] using pair_ind; intros H; cbn [words].
  - constructor.
  - inversion H; subst. constructor; [|constructor]. unfold byte in *. destruct cisco; lia.
  - inversion H as [|? ? Ha H1]; subst. inversion H1; subst.
    constructor; [unfold byte in *; lia | now apply IH].
Qed.

Lemma lsum_bound cisco d : bytes d -> 0 <= lsum cisco d <= 65535 * zlen d.
Proof.
  induction d as [|a|a b d IH] using pair_ind; intros H; cbn [lsum].
  - zlia.
  - inversion H; subst. unfold byte in *. destruct cisco; zlia.
  - inversion H as [|? ? Ha H1]; subst. inversion H1; subst.
    unfold byte in *. specialize (IH H4). zlia.
Qed.

Lemma lsum_swap cisco d : exists k, 256 * lsum cisco d = zsum (words cisco d) + 65535 * k.
Proof.
  induction d as [|a|a b d [k IH]] using pair_ind; cbn [lsum words zsum fold_right].
  - exists 0. lia.
  - destruct cisco; [exists a | exists 0]; lia.
  - fold (zsum (words cisco d)). exists (b + k). lia.
Qed.

Lemma lsum_zero cisco d : bytes d -> lsum cisco d = 0 <-> zsum (words cisco d) = 0.
Proof.
  intros Hd.
  assert (Hw : forall l, words_ok l -> 0 <= zsum l).
  { induction 1; cbn; [lia|]. fold (zsum l). lia. }
  induction d as [|a|a b d IH] using pair_ind; cbn [lsum words zsum fold_right].
  - tauto.
  - destruct cisco; lia.
  - fold (zsum (words cisco d)). inversion Hd as [|? ? Ha H1]; subst.
    inversion H1 as [|? ? Hb H2]; subst. specialize (IH H2).
    pose proof (lsum_bound cisco d H2). pose proof (Hw _ (words_bytes cisco d H2)).
    unfold byte in *. lia.
Qed.

Lemma chk_loop_lsum cisco d sum :
  bytes d -> 0 <= sum -> sum + 65535 * zlen d < 4294967296 ->
  chk_loop cisco sum d = sum + lsum cisco d.
Proof.
  revert sum. induction d as [|a|a b d IH] using pair_ind; intros sum H Hs Hl;
    cbn [chk_loop lsum].
  - lia.
  - inversion H; subst. unfold byte in *. apply Z.mod_small. destruct cisco; zlia.
  - inversion H as [|? ? Ha H1]; subst. inversion H1 as [|? ? Hb H2]; subst.
    unfold byte in *. rewrite Z.mod_small by zlia. rewrite IH by (try assumption; zlia). lia.
Qed.

(** One's complement representatives: determined by the residue mod 65535 and
    by being zero. *)
Definition rep (r s : Z) : Prop :=
  0 <= r < 65536 /\ (exists k, s = r + 65535 * k) /\ (r = 0 <-> s = 0).

Lemma rep_unique r r' s : 0 <= s -> rep r s -> rep r' s -> r = r'.
Proof. intros Hs (H1 & (k & E) & Hz) (H1' & (k' & E') & Hz'). lia. Qed.

Lemma ones_fold l acc s : words_ok l -> 0 <= s -> rep acc s ->
  rep (fold_left ones_add l acc) (s + zsum l).
Proof.
  revert acc s. induction l as [|w l IH]; intros acc s Hl Hs Ha; cbn [fold_left zsum fold_right].
  - now rewrite Z.add_0_r.
  - fold (zsum l). inversion Hl; subst.
    rewrite Z.add_assoc. apply IH; [easy|lia|].
    destruct Ha as (Hr & (k & E) & Hz). unfold ones_add.
    destruct (acc + w <? 65536) eqn:C.
    + split; [lia|]. split; [exists k; lia|]. lia.
    + split; [lia|]. split; [exists (k + 1); lia|]. lia.
Qed.

Lemma zsum_nonneg l : words_ok l -> 0 <= zsum l.
Proof. induction 1; cbn; [lia|]. fold (zsum l). lia. Qed.

Lemma inet_sum_rep cisco d : bytes d -> rep (inet_sum cisco d) (zsum (words cisco d)).
Proof.
  intros H. apply (ones_fold (words cisco d) 0 0 (words_bytes cisco d H)); [lia|].
  split; [lia|]. split; [now exists 0|tauto].
Qed.

(** Folding a 32-bit sum as my_chksum does. *)
Definition fold16 (s : Z) : Z :=
  let s := s / 65536 + s mod 65536 in (s + s / 65536) mod 65536.
Lemma fold16_rep s : 0 <= s < 4294967296 -> rep (fold16 s) s.
Proof.
  intros H. unfold fold16.
  set (hi := s / 65536). set (lo := s mod 65536).
  assert (Hhi : 0 <= hi < 65536) by (subst hi; lia).
  assert (Hlo : 0 <= lo < 65536) by (subst lo; lia).
  assert (Es : s = 65536 * hi + lo) by (subst hi lo; lia).
  clearbody hi lo. subst s.
  destruct (Z.ltb_spec (hi + lo) 65536) as [C|C].
  - replace ((hi + lo) / 65536) with 0 by lia. rewrite Z.add_0_r, Z.mod_small by lia.
    split; [lia|]. split; [exists hi; lia|]. lia.
  - replace ((hi + lo) / 65536) with 1 by lia.
    replace ((hi + lo + 1) mod 65536) with (hi + lo - 65535) by lia.
    split; [lia|]. split; [exists (hi + 1); lia|]. lia.
Qed.

Lemma my_chksum_fold d cisco : bytes d -> zlen d <= 65536 ->
  my_chksum d cisco = 65535 - fold16 (lsum cisco d).
Proof.
  intros Hb Hl. unfold my_chksum. rewrite chk_loop_lsum by (try assumption; zlia).
  rewrite Z.add_0_l. pose proof (lsum_bound cisco d Hb) as Hs.
  set (s := lsum cisco d) in *. clearbody s.
  unfold fold16. cbv zeta.
  set (t := s / 65536 + s mod 65536).
  assert (Ht : 0 <= t < 131072) by (subst t; lia). clearbody t.
  lia.
Qed.

Definition swap16 (v : Z) : Z := (v mod 256) * 256 + v / 256.
Lemma swap16_rep r s : 0 <= s -> rep r s -> rep (swap16 r) (256 * s).
Proof.
  intros Hs (Hr & (k & E) & Hz). unfold swap16.
  set (hi := r / 256). set (lo := r mod 256).
  assert (Hhi : 0 <= hi < 256) by (subst hi; lia).
  assert (Hlo : 0 <= lo < 256) by (subst lo; lia).
  assert (Er : r = 256 * hi + lo) by (subst hi lo; lia). clearbody hi lo.
  split; [lia|]. split; [exists (hi + 256 * k); lia|]. lia.
Qed.

Lemma rep_shift r s s' k : rep r s -> s = s' + 65535 * k -> (s = 0 <-> s' = 0) -> rep r s'.
Proof.
  intros (Hr & (k' & E) & Hz) Es Hz'. split; [easy|]. split; [exists (k' - k); lia|]. lia.
Qed.

Lemma my_chksum_ok d cisco : bytes d -> zlen d <= 65536 ->
  le16 (my_chksum d cisco) = U16 (65535 - inet_sum cisco d).
Proof.
  intros Hb Hl.
  assert (E : swap16 (fold16 (lsum cisco d)) = inet_sum cisco d).
  { pose proof (lsum_bound cisco d Hb) as Hs.
    apply (rep_unique _ _ (zsum (words cisco d))).
    - apply zsum_nonneg, words_bytes, Hb.
    - destruct (lsum_swap cisco d) as [k Ek].
      apply (rep_shift _ (256 * lsum cisco d) _ k); [|easy|].
      + apply swap16_rep; [lia|]. apply fold16_rep. lia.
      + pose proof (lsum_zero cisco d Hb). lia.
    - apply inet_sum_rep, Hb. }
  rewrite my_chksum_fold by assumption. rewrite <- E. unfold swap16, le16, U16.
  pose proof (lsum_bound cisco d Hb) as Hs.
  assert (Hf : 0 <= fold16 (lsum cisco d) < 65536) by (unfold fold16; lia).
  set (r := fold16 (lsum cisco d)) in *. clearbody r.
  assert (65535 - (r mod 256 * 256 + r / 256) = 256 * (255 - r mod 256) + (255 - r / 256)) as -> by lia.
  f_equal; [|f_equal]; lia.
Qed.

Lemma words_app_even cisco a b : (exists k, zlen a = 2 * k) ->
  words cisco (a ++ b) = words cisco a ++ words cisco b.
Proof.
  induction a as [|x|x y a IH] using pair_ind; intros [k Hk]; cbn [words app].
  - easy.
  - exfalso. zlia.
  - f_equal. apply IH. exists (k - 1). zlia.
Qed.

Lemma zsum_app a b : zsum (a ++ b) = zsum a + zsum b.
Proof. induction a as [|x a IH]; cbn; [easy|]. unfold zsum in *. lia. Qed.

(** Filling in the checksum makes the sum all ones. *)
Lemma chksum_verifies cisco pre post :
  bytes (pre ++ [0; 0] ++ post) -> zlen (pre ++ [0; 0] ++ post) <= 65536 ->
  (exists k, zlen pre = 2 * k) -> (exists b, In b pre /\ b <> 0) ->
  inet_sum cisco (pre ++ le16 (my_chksum (pre ++ [0; 0] ++ post) cisco) ++ post) = 65535.
Proof.
  intros Hb Hl Hk Hnz. rewrite my_chksum_ok by assumption.
  set (c := 65535 - inet_sum cisco (pre ++ [0; 0] ++ post)).
  pose proof (inet_sum_rep cisco _ Hb) as R. destruct R as (R1 & (k & R2) & R3).
  assert (Hc : 0 <= c < 65536) by (subst c; lia).
  assert (Hb' : bytes (pre ++ U16 c ++ post)).
  { unfold bytes in *. rewrite !Forall_app in *. destruct Hb as (? & ? & ?). repeat split; try easy.
    repeat constructor; unfold byte; lia. }
  pose proof (inet_sum_rep cisco _ Hb') as R'. destruct R' as (R1' & (k' & R2') & R3').
  assert (E : zsum (words cisco (pre ++ U16 c ++ post))
              = zsum (words cisco (pre ++ [0; 0] ++ post)) + c).
  { rewrite !words_app_even by (exact Hk || (exists 1; reflexivity)).
    rewrite !zsum_app. cbn [words U16 zsum fold_right]. lia. }
  assert (Hpos : 0 < zsum (words cisco (pre ++ [0; 0] ++ post))).
  { rewrite words_app_even, zsum_app by easy.
    assert (Hbp : bytes pre) by (unfold bytes in *; rewrite Forall_app in Hb; tauto).
    assert (Hbq : bytes ([0; 0] ++ post)) by (unfold bytes in *; rewrite Forall_app in Hb; tauto).
    pose proof (zsum_nonneg _ (words_bytes cisco _ Hbq)).
    enough (0 < zsum (words cisco pre)) by lia.
    clear -Hbp Hnz. destruct Hnz as (x & Hx & Hn).
    induction pre as [|a|a b d IH] using pair_ind; cbn [words zsum fold_right].
    - easy.
    - inversion Hbp; subst. cbn in Hx. unfold byte in *.
      assert (a = x) by intuition. destruct cisco; lia.
    - fold (zsum (words cisco d)). inversion Hbp as [|? ? Ha H1]; subst.
      inversion H1 as [|? ? Hb H2]; subst.
      pose proof (zsum_nonneg _ (words_bytes cisco _ H2)). unfold byte in *.
      destruct Hx as [->|[->|Hx]]; [lia|lia|]. specialize (IH Hx H2). lia. }
  subst c. lia.
Qed.
