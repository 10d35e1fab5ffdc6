(** General lemmas: lists measured in [Z], slices, views of a buffer. *)
From Verif Require Import Base.
From Coq Require Export ZifyBool ZifyNat Zify.
Ltac Zify.zify_post_hook ::= Z.div_mod_to_equations.

Arguments zlen : simpl never.
Lemma zlen_nil A : zlen (@nil A) = 0. Proof. reflexivity. Qed.
Lemma zlen_cons A (a : A) l : zlen (a :: l) = 1 + zlen l.
Proof. unfold zlen. cbn [length]. lia. Qed.
Lemma zlen_app A (a b : list A) : zlen (a ++ b) = zlen a + zlen b.
Proof. unfold zlen. rewrite app_length. lia. Qed.
Lemma zlen_nonneg A (l : list A) : 0 <= zlen l.
Proof. unfold zlen. lia. Qed.
Lemma zlen_map A B (f : A -> B) l : zlen (map f l) = zlen l.
Proof. unfold zlen. now rewrite map_length. Qed.
Lemma zlen_rev A (l : list A) : zlen (rev l) = zlen l.
Proof. unfold zlen. now rewrite rev_length. Qed.
Lemma zlen_repeat A (x : A) n : zlen (repeat x n) = Z.of_nat n.
Proof. unfold zlen. now rewrite repeat_length. Qed.
Lemma zlen_0 A (l : list A) : zlen l = 0 -> l = [].
Proof. destruct l; [easy|]. rewrite zlen_cons. pose proof (zlen_nonneg _ l). lia. Qed.
Lemma to_nat_zlen A (l : list A) : Z.to_nat (zlen l) = length l.
Proof. unfold zlen. lia. Qed.
Lemma zlen_firstn A (l : list A) n :
  0 <= n <= zlen l -> zlen (firstn (Z.to_nat n) l) = n.
Proof. unfold zlen. intros. rewrite firstn_length. lia. Qed.
Lemma zlen_skipn A (l : list A) n :
  0 <= n <= zlen l -> zlen (skipn (Z.to_nat n) l) = zlen l - n.
Proof. unfold zlen. intros. rewrite skipn_length. lia. Qed.
Lemma zlen_be16 v : zlen (be16 v) = 2. Proof. reflexivity. Qed.
Lemma zlen_be32 v : zlen (be32 v) = 4. Proof. reflexivity. Qed.

#[export] Hint Rewrite zlen_nil zlen_cons zlen_app zlen_map zlen_repeat
  zlen_be16 zlen_be32 zlen_rev : zl.
Ltac zl := autorewrite with zl in *.
(** Solve a linear goal about list lengths. *)
Ltac zlia :=
  autorewrite with zl in *;
  repeat match goal with
  | |- context [zlen ?l] =>
      lazymatch goal with H : 0 <= zlen l |- _ => fail | _ => pose proof (zlen_nonneg _ l) end
  | _ : context [zlen ?l] |- _ =>
      lazymatch goal with H : 0 <= zlen l |- _ => fail | _ => pose proof (zlen_nonneg _ l) end
  end; lia.

Lemma firstn_zlen_app A (a b : list A) : firstn (Z.to_nat (zlen a)) (a ++ b) = a.
Proof.
  rewrite to_nat_zlen, firstn_app, Nat.sub_diag, firstn_all. cbn. apply app_nil_r.
Qed.
Lemma skipn_zlen_app A (a b : list A) : skipn (Z.to_nat (zlen a)) (a ++ b) = b.
Proof. rewrite to_nat_zlen, skipn_app, Nat.sub_diag, skipn_all. reflexivity. Qed.
Lemma firstn_all_z A (a : list A) : firstn (Z.to_nat (zlen a)) a = a.
Proof. rewrite to_nat_zlen. apply firstn_all. Qed.
Lemma skipn_all_z A (a : list A) : skipn (Z.to_nat (zlen a)) a = [].
Proof. rewrite to_nat_zlen. apply skipn_all. Qed.

Lemma split_at A (l : list A) n : 0 <= n <= zlen l ->
  exists a b, l = a ++ b /\ zlen a = n.
Proof.
  intros H. exists (firstn (Z.to_nat n) l), (skipn (Z.to_nat n) l).
  split; [symmetry; apply firstn_skipn | now apply zlen_firstn].
Qed.

Lemma app_inj_len A (a b c d : list A) :
  zlen a = zlen c -> a ++ b = c ++ d -> a = c /\ b = d.
Proof.
  revert c. induction a as [|x a IH]; intros [|y c] H E.
  - now split.
  - exfalso. zlia.
  - exfalso. zlia.
  - cbn in E. injection E as -> E. destruct (IH c) as [-> ->]; [zlia | easy | now split].
Qed.

Lemma beq_true a b : beq a b = true <-> a = b.
Proof.
  revert b. induction a as [|x a IH]; destruct b as [|y b]; cbn; split; try easy.
  - intros H. apply andb_prop in H as [H1 H2]. apply Z.eqb_eq in H1. apply IH in H2. now subst.
  - intros [= -> ->]. rewrite Z.eqb_refl. now apply IH.
Qed.
Lemma beq_refl a : beq a a = true. Proof. now apply beq_true. Qed.
Lemma beq_false a b : beq a b = false <-> a <> b.
Proof.
  split; intros H.
  - intros ->. now rewrite beq_refl in H.
  - destruct (beq a b) eqn:E; [|easy]. apply beq_true in E. now subst.
Qed.

(** [v] lies at offset [p] of the buffer. *)
Definition view (buf : list Z) (p : Z) (v : list Z) : Prop :=
  exists pre post, buf = pre ++ v ++ post /\ zlen pre = p.

Lemma view_pos buf p v : view buf p v -> 0 <= p.
Proof. intros (pre & post & -> & <-). apply zlen_nonneg. Qed.
Lemma view_app_l buf p a b : view buf p (a ++ b) -> view buf p a.
Proof.
  intros (pre & post & -> & <-). exists pre, (b ++ post).
  split; [now rewrite <- !app_assoc | easy].
Qed.
Lemma view_app_r buf p a b : view buf p (a ++ b) -> view buf (p + zlen a) b.
Proof.
  intros (pre & post & -> & <-). exists (pre ++ a), post.
  split; [now rewrite <- !app_assoc | apply zlen_app].
Qed.
Lemma view_cons buf p a b : view buf p (a :: b) -> view buf (p + 1) b.
Proof. intros H. apply (view_app_r buf p [a] b) in H. exact H. Qed.
Lemma view_self f tail : view (f ++ tail) 0 f.
Proof. exists [], tail. now split. Qed.

Lemma rdn_view buf p v n : view buf p v -> 0 <= n <= zlen v ->
  rdn buf p n = DOk (firstn (Z.to_nat n) v).
Proof.
  intros (pre & post & -> & <-) H. unfold rdn.
  pose proof (zlen_nonneg _ pre) as H0. pose proof (zlen_nonneg _ post) as H1.
  replace ((0 <=? zlen pre) && (0 <=? n) && (zlen pre + n <=? zlen (pre ++ v ++ post)))
    with true by zlia.
  f_equal. unfold slice. rewrite skipn_zlen_app.
  rewrite firstn_app. unfold zlen in *. replace (Z.to_nat n - length v)%nat with 0%nat by lia.
  cbn. apply app_nil_r.
Qed.
Lemma rdn_view_all buf p v : view buf p v -> rdn buf p (zlen v) = DOk v.
Proof.
  intros H. rewrite (rdn_view buf p v) by (try easy; zlia). now rewrite firstn_all_z.
Qed.
Lemma rdn_view_pre buf p a b : view buf p (a ++ b) -> rdn buf p (zlen a) = DOk a.
Proof. intros H. apply rdn_view_all. eapply view_app_l, H. Qed.
Lemma rdn_ok buf p n : 0 <= p -> 0 <= n -> p + n <= zlen buf ->
  rdn buf p n = DOk (slice buf p n).
Proof. intros. unfold rdn. replace (_ && _ && _) with true by lia. reflexivity. Qed.

(** Lists of bytes. *)
Definition isbyte (b : Z) : Prop := 0 <= b < 256.
Definition isbytes (l : list Z) : Prop := Forall isbyte l.

Lemma isbytes_app a b : isbytes (a ++ b) <-> isbytes a /\ isbytes b.
Proof. apply Forall_app. Qed.
Lemma be16_bytes v : isbytes (be16 v).
Proof. repeat constructor; lia. Qed.
Lemma be32_bytes v : isbytes (be32 v).
Proof. repeat constructor; lia. Qed.
Lemma de16_be16 v : 0 <= v < 65536 -> de16 (be16 v) = v.
Proof. unfold de16, be16. lia. Qed.
Lemma de32_be32 v : 0 <= v < 4294967296 -> de32 (be32 v) = v.
Proof. unfold de32, be32. lia. Qed.

Lemma dbind_ok A B (x : dres A) (f : A -> dres B) r :
  dbind x f = DOk r -> exists a, x = DOk a /\ f a = DOk r.
Proof. destruct x; cbn; try discriminate. eauto. Qed.
Lemma obind_some A B (x : option A) (f : A -> option B) r :
  obind x f = Some r -> exists a, x = Some a /\ f a = Some r.
Proof. destruct x; cbn; try discriminate. eauto. Qed.
