(** strlcpy and strlcat. *)
From Verif Require Import Base Compat SpecCompat Lemmas.

Lemma rd_at a b r : rd (a ++ b :: r) (zlen a) = DOk b.
Proof.
  unfold rd. rewrite zlen_app, zlen_cons. pose proof (zlen_nonneg _ a). pose proof (zlen_nonneg _ r).
  replace ((0 <=? zlen a) && (zlen a <? zlen a + (1 + zlen r))) with true by (symmetry; lia).
  unfold zlen. rewrite Nat2Z.id, app_nth2, Nat.sub_diag by lia. reflexivity.
Qed.
Lemma wr_at a b r v : wr (a ++ b :: r) (zlen a) v = DOk (a ++ v :: r).
Proof.
  unfold wr. rewrite zlen_app, zlen_cons. pose proof (zlen_nonneg _ a). pose proof (zlen_nonneg _ r).
  replace ((0 <=? zlen a) && (zlen a <? zlen a + (1 + zlen r))) with true by (symmetry; lia).
  unfold zlen. rewrite Nat2Z.id, firstn_app, firstn_all, Nat.sub_diag, app_nil_r.
  rewrite skipn_app, skipn_all2 by lia. replace (S (length a) - length a)%nat with 1%nat by lia. reflexivity.
Qed.
Lemma pair_eq A B (a a' : A) (b b' : B) : a = a' -> b = b' -> (a, b) = (a', b').
Proof. now intros -> ->. Qed.
Ltac okp := apply (f_equal DOk); repeat apply pair_eq; try reflexivity; lia.
Lemma zlen_snoc (a : list Z) b : zlen (a ++ [b]) = zlen a + 1.
Proof. rewrite zlen_app, zlen_cons, zlen_nil. lia. Qed.
Lemma app_snoc {A} (a r : list A) b : a ++ b :: r = (a ++ [b]) ++ r.
Proof. now rewrite <- app_assoc. Qed.

Lemma skip_spec s r : ~ In 0 s -> forall a fuel, (length s < fuel)%nat ->
  skip_string fuel (a ++ s ++ 0 :: r) (zlen a) = DOk (zlen a + zlen s + 1).
Proof.
  intros H. induction s as [|b s IH]; intros a [|fuel] Hf; cbn [length] in Hf; try lia; cbn [skip_string app].
  - rewrite rd_at. cbn. rewrite zlen_nil. f_equal. lia.
  - rewrite rd_at. cbn [dbind]. replace (b =? 0) with false by (symmetry; apply Z.eqb_neq; intros ->; apply H; now left).
    rewrite app_snoc, <- (zlen_snoc a b), IH; [f_equal; rewrite zlen_snoc, zlen_cons; lia| |lia]. intros K. apply H. now right.
Qed.
Lemma strlen_spec s r : ~ In 0 s -> forall a fuel, (length s < fuel)%nat ->
  strlen_from fuel (a ++ s ++ 0 :: r) (zlen a) = DOk (zlen a + zlen s).
Proof.
  intros H. induction s as [|b s IH]; intros a [|fuel] Hf; cbn [length] in Hf; try lia; cbn [strlen_from app].
  - rewrite rd_at. cbn. rewrite zlen_nil. f_equal. lia.
  - rewrite rd_at. cbn [dbind]. replace (b =? 0) with false by (symmetry; apply Z.eqb_neq; intros ->; apply H; now left).
    rewrite app_snoc, <- (zlen_snoc a b), IH; [f_equal; rewrite zlen_snoc, zlen_cons; lia| |lia]. intros K. apply H. now right.
Qed.
(** The string fits, with its NUL; or only its first [n] bytes are copied. *)
Lemma copy_fits s r : ~ In 0 s -> forall a da dr n fuel, (length s < fuel)%nat -> zlen s < n -> zlen s < zlen dr ->
  copy_loop fuel (da ++ dr) (a ++ s ++ 0 :: r) (zlen da) (zlen a) n
  = DOk (da ++ s ++ 0 :: skipn (S (length s)) dr, zlen da + zlen s + 1, zlen a + zlen s + 1, n - zlen s).
Proof.
  intros H. induction s as [|b s IH]; intros a da dr n [|fuel] Hf Hn Hd; cbn [length] in Hf; try lia; cbn [copy_loop app];
    (destruct dr as [|x dr]; [exfalso; rewrite zlen_nil in Hd; unfold zlen in Hd; lia|]).
  - rewrite rd_at. cbn [dbind]. rewrite wr_at. cbn. rewrite zlen_nil. okp.
  - rewrite rd_at. cbn [dbind]. rewrite wr_at. cbn [dbind].
    replace (b =? 0) with false by (symmetry; apply Z.eqb_neq; intros ->; apply H; now left).
    rewrite !zlen_cons in *. replace (n - 1 =? 0) with false by (pose proof (zlen_nonneg _ s); symmetry; lia).
    rewrite (app_snoc a), (app_snoc da), <- (zlen_snoc a b), <- (zlen_snoc da b), IH; [|intros K; apply H; now right|lia|lia|lia].
    rewrite !zlen_snoc. rewrite <- app_assoc. cbn [app length skipn]. okp.
Qed.
Lemma copy_cut s r : ~ In 0 s -> forall a da dr n fuel, (length s < fuel)%nat -> 0 < n <= zlen s -> n <= zlen dr ->
  copy_loop fuel (da ++ dr) (a ++ s ++ 0 :: r) (zlen da) (zlen a) n
  = DOk (da ++ firstn (Z.to_nat n) s ++ skipn (Z.to_nat n) dr, zlen da + n, zlen a + n, 0).
Proof.
  intros H. induction s as [|b s IH]; intros a da dr n [|fuel] Hf Hn Hd; cbn [length] in Hf; try lia; cbn [copy_loop app];
    (destruct dr as [|x dr]; [rewrite zlen_nil in Hd; lia|]).
  - rewrite zlen_nil in Hn. lia.
  - rewrite rd_at. cbn [dbind]. rewrite wr_at. cbn [dbind].
    replace (b =? 0) with false by (symmetry; apply Z.eqb_neq; intros ->; apply H; now left).
    rewrite !zlen_cons in *. assert (En : Z.to_nat n = S (Z.to_nat (n - 1))) by lia. rewrite En. cbn [firstn skipn].
    destruct (n - 1 =? 0) eqn:E.
    + assert (n = 1) as -> by lia. cbn. reflexivity.
    + rewrite (app_snoc a), (app_snoc da), <- (zlen_snoc a b), <- (zlen_snoc da b), IH; [|intros K; apply H; now right|lia|lia|lia].
      rewrite !zlen_snoc. rewrite <- app_assoc. cbn [app]. okp.
Qed.
Lemma firstn_zlen n (s : list Z) : 0 <= n <= zlen s -> zlen (firstn (Z.to_nat n) s) = n.
Proof. intros H. unfold zlen in *. rewrite firstn_length. lia. Qed.
Lemma skipn_cons_ex n (l : list Z) : (n < length l)%nat -> exists b, skipn n l = b :: skipn (S n) l.
Proof. revert l. induction n as [|n IH]; intros [|x l] H; cbn [length] in H; try lia; [now exists x|]. apply IH. lia. Qed.

Theorem strlcpy_spec dst src s siz : c_string src s -> 0 <= siz -> Z.min siz (zlen s + 1) <= zlen dst ->
  exists dst', strlcpy dst src siz = DOk (dst', zlen s)
  /\ (siz = 0 -> dst' = dst)
  /\ (0 < siz -> holds_string dst dst' (firstn (Z.to_nat (siz - 1)) s)).
Proof.
  intros [H0 (r & ->)] Hs Hd. unfold strlcpy. pose proof (zlen_nonneg _ s) as Hl.
  assert (Hf : (length s < S (length (s ++ 0%Z :: r)))%nat) by (rewrite app_length; cbn; lia).
  destruct (siz =? 0) eqn:E0; cbn [negb].
  { cbn [dbind Z.eqb]. assert (siz = 0) as -> by lia. cbn [negb dbind].
    pose proof (skip_spec s r H0 [] (S (length (s ++ 0 :: r))) Hf) as SK. cbn [app] in SK. rewrite zlen_nil in SK. rewrite SK. cbn [dbind].
    exists dst. split; [okp|]. split; [reflexivity|lia]. }
  destruct (siz - 1 =? 0) eqn:E1; cbn [negb].
  { cbn [dbind Z.eqb]. assert (siz = 1) as -> by lia. destruct dst as [|x dst]; [rewrite zlen_nil in Hd; lia|].
    change 0 with (zlen (@nil Z)) at 2. change (x :: dst) with ([] ++ x :: dst) at 1. rewrite wr_at. cbn [dbind app].
    pose proof (skip_spec s r H0 [] (S (length (s ++ 0 :: r))) Hf) as SK. cbn [app] in SK. rewrite zlen_nil in SK. rewrite SK. cbn [dbind].
    exists (0 :: dst). split; [okp|]. split; [lia|]. intros _. reflexivity. }
  destruct (Z_lt_ge_dec (zlen s) (siz - 1)) as [L|L].
  - pose proof (copy_fits s r H0 [] [] dst (siz - 1) (S (length (s ++ 0 :: r))) Hf L ltac:(lia)) as C. cbn [app] in C. rewrite !zlen_nil in C. rewrite C.
    cbn [dbind]. replace (siz - 1 - zlen s =? 0) with false by (symmetry; lia).
    eexists. split; [okp|]. split; [lia|]. intros _. unfold holds_string.
    rewrite firstn_all2 by (unfold zlen in L; lia). reflexivity.
  - assert (B1 : 0 < siz - 1 <= zlen s) by lia. assert (B2 : siz - 1 <= zlen dst) by lia.
    pose proof (copy_cut s r H0 [] [] dst (siz - 1) (S (length (s ++ 0 :: r))) Hf B1 B2) as C. cbn [app] in C. rewrite !zlen_nil in C. rewrite C.
    cbn [dbind Z.eqb]. rewrite ?E0. cbn [negb].
    destruct (skipn_cons_ex (Z.to_nat (siz - 1)) dst) as (b & Eb); [unfold zlen in *; lia|]. rewrite Eb.
    assert (K : forall v, wr (firstn (Z.to_nat (siz - 1)) s ++ b :: skipn (S (Z.to_nat (siz - 1))) dst) (0 + (siz - 1)) v
      = DOk (firstn (Z.to_nat (siz - 1)) s ++ v :: skipn (S (Z.to_nat (siz - 1))) dst)).
    { intros v. rewrite <- wr_at with (b := b). f_equal. rewrite firstn_zlen; lia. }
    rewrite K. cbn [dbind].
    assert (Es : s ++ 0 :: r = firstn (Z.to_nat (siz - 1)) s ++ skipn (Z.to_nat (siz - 1)) s ++ 0 :: r) by (rewrite app_assoc, firstn_skipn; reflexivity).
    assert (SK : skip_string (S (length (s ++ 0 :: r))) (s ++ 0 :: r) (0 + (siz - 1)) = DOk (zlen s + 1)).
    { rewrite Es at 2. replace (0 + (siz - 1)) with (zlen (firstn (Z.to_nat (siz - 1)) s)) by (rewrite firstn_zlen; lia).
      rewrite skip_spec.
      - f_equal. rewrite firstn_zlen by lia. unfold zlen in *. rewrite skipn_length. lia.
      - intros K0. apply H0. rewrite <- (firstn_skipn (Z.to_nat (siz - 1)) s). apply in_or_app. now right.
      - rewrite skipn_length. lia. }
    rewrite SK. cbn [dbind]. eexists. split; [okp|]. split; [lia|]. intros _. unfold holds_string.
    rewrite firstn_length. do 2 f_equal. f_equal. unfold zlen in L. lia.
Qed.

Lemma find_spec s r : ~ In 0 s -> forall a fuel n, (length s < fuel)%nat -> zlen s < n ->
  find_end fuel (a ++ s ++ 0 :: r) (zlen a) n = DOk (zlen a + zlen s).
Proof.
  intros H. induction s as [|b s IH]; intros a [|fuel] n Hf Hn; cbn [length] in Hf; try lia; cbn [find_end app].
  - rewrite zlen_nil in *. replace (n =? 0) with false by (symmetry; lia). rewrite rd_at. cbn. f_equal. lia.
  - rewrite zlen_cons in *. pose proof (zlen_nonneg _ s). replace (n =? 0) with false by (symmetry; lia). rewrite rd_at. cbn [dbind].
    replace (b =? 0) with false by (symmetry; apply Z.eqb_neq; intros ->; apply H; now left).
    rewrite app_snoc, <- (zlen_snoc a b), IH; [f_equal; rewrite zlen_snoc; lia|intros K; apply H; now right|lia|lia].
Qed.
Lemma find_none s r : ~ In 0 s -> forall a fuel, (length s < fuel)%nat ->
  find_end fuel (a ++ s ++ r) (zlen a) (zlen s) = DOk (zlen a + zlen s).
Proof.
  intros H. induction s as [|b s IH]; intros a [|fuel] Hf; cbn [length] in Hf; try lia; cbn [find_end app].
  - rewrite zlen_nil. cbn. f_equal. lia.
  - rewrite zlen_cons. pose proof (zlen_nonneg _ s). replace (1 + zlen s =? 0) with false by (symmetry; lia). rewrite rd_at. cbn [dbind].
    replace (b =? 0) with false by (symmetry; apply Z.eqb_neq; intros ->; apply H; now left).
    rewrite app_snoc, <- (zlen_snoc a b). replace (1 + zlen s - 1) with (zlen s) by lia.
    rewrite IH; [f_equal; rewrite zlen_snoc; lia|intros K; apply H; now right|lia].
Qed.
(** What is appended when [n] bytes, NUL included, are left. *)
Lemma append_spec s r : ~ In 0 s -> forall a da dr n fuel, (length s < fuel)%nat -> 0 < n ->
  Z.min n (zlen s + 1) <= zlen dr ->
  let t := firstn (Z.to_nat (n - 1)) s in
  append_loop fuel (da ++ dr) (a ++ s ++ 0 :: r) (zlen da) (zlen a) n
  = DOk (da ++ t ++ skipn (length t) dr, zlen da + zlen t, zlen a + zlen s).
Proof.
  intros H. induction s as [|b s IH]; intros a da dr n [|fuel] Hf Hn Hd; cbn [length] in Hf; try lia; cbn [append_loop app].
  - rewrite rd_at. cbn [dbind Z.eqb]. cbv zeta. rewrite firstn_nil. cbn. rewrite !zlen_nil. okp.
  - rewrite rd_at. cbn [dbind]. replace (b =? 0) with false by (symmetry; apply Z.eqb_neq; intros ->; apply H; now left).
    assert (H1 : ~ In 0 s) by (intros K; apply H; now right). rewrite zlen_cons in Hd. pose proof (zlen_nonneg _ s).
    destruct (n =? 1) eqn:E; cbn [negb].
    + assert (n = 1) as -> by lia. cbn [Z.sub Z.to_nat]. change (Z.to_nat (1 - 1)) with 0%nat. cbv zeta. cbn [firstn].
      rewrite (app_snoc a), <- (zlen_snoc a b).
      specialize (IH H1 (a ++ [b]) da dr 1 fuel ltac:(lia) ltac:(lia) ltac:(lia)). cbv zeta in IH. change (Z.to_nat (1 - 1)) with 0%nat in IH. cbn [firstn] in IH.
      rewrite IH. rewrite zlen_snoc, zlen_cons. okp.
    + destruct dr as [|x dr]; [rewrite zlen_nil in Hd; lia|]. rewrite wr_at. cbn [dbind].
      rewrite (app_snoc a), (app_snoc da), <- (zlen_snoc a b), <- (zlen_snoc da b). rewrite zlen_cons in Hd.
      specialize (IH H1 (a ++ [b]) (da ++ [b]) dr (n - 1) fuel ltac:(lia) ltac:(lia) ltac:(lia)). cbv zeta in IH. rewrite IH.
      cbv zeta. replace (Z.to_nat (n - 1)) with (S (Z.to_nat (n - 1 - 1))) by lia. cbn [firstn length skipn].
      rewrite !zlen_snoc, !zlen_cons. rewrite <- app_assoc. cbn [app]. okp.
Qed.

Theorem strlcat_spec dst src t s siz : c_string dst t -> c_string src s -> zlen t < siz ->
  Z.min siz (zlen t + zlen s + 1) <= zlen dst ->
  exists dst', strlcat dst src siz = DOk (dst', zlen t + zlen s)
  /\ holds_string dst dst' (t ++ firstn (Z.to_nat (siz - zlen t - 1)) s).
Proof.
  intros [T0 (dr & Ed)] [H0 (r & Es)] Hs Hd. unfold strlcat. subst dst src. rewrite zlen_app in Hd.
  pose proof (zlen_nonneg _ t) as Ht. pose proof (zlen_nonneg _ s) as Hl.
  assert (Hf : (length s < S (length (s ++ 0%Z :: r)))%nat) by (rewrite app_length; cbn; lia).
  pose proof (find_spec t dr T0 [] (S (length (t ++ 0 :: dr))) siz ltac:(rewrite app_length; cbn; lia) Hs) as F. cbn [app] in F. rewrite zlen_nil in F. rewrite F.
  cbn [dbind]. replace (siz - (0 + zlen t) =? 0) with false by (symmetry; lia).
  pose proof (append_spec s r H0 [] t (0 :: dr) (siz - zlen t) (S (length (s ++ 0 :: r))) Hf ltac:(lia)) as A. cbv zeta in A. cbn [app] in A.
  rewrite zlen_nil in A. replace (0 + zlen t) with (zlen t) by lia. rewrite A by lia. cbn [dbind].
  set (u := firstn (Z.to_nat (siz - zlen t - 1)) s) in *.
  assert (Lu : zlen u = Z.min (siz - zlen t - 1) (zlen s)) by (unfold u, zlen in *; rewrite firstn_length; lia).
  destruct (skipn_cons_ex (length u) (0 :: dr)) as (b & Eb); [unfold zlen in *; cbn [length] in *; lia|]. rewrite Eb.
  rewrite app_assoc, <- (zlen_app _ t u), wr_at. cbn [dbind].
  eexists. split; [okp|]. unfold holds_string. rewrite app_length. do 2 f_equal.
  replace (S (length t + length u)) with (length t + S (length u))%nat by lia.
  rewrite skipn_app. rewrite (skipn_all2 t) by lia. replace (length t + S (length u) - length t)%nat with (S (length u)) by lia. reflexivity.
Qed.
Theorem strlcat_full dst src s siz : c_string src s -> 0 <= siz <= zlen dst -> ~ In 0 (firstn (Z.to_nat siz) dst) ->
  strlcat dst src siz = DOk (dst, siz + zlen s).
Proof.
  intros [H0 (r & Es)] Hs T0. unfold strlcat.
  assert (L : zlen (firstn (Z.to_nat siz) dst) = siz) by (apply firstn_zlen; lia).
  pose proof (find_none _ (skipn (Z.to_nat siz) dst) T0 [] (S (length dst)) ltac:(rewrite firstn_length; lia)) as F.
  cbn [app] in F. rewrite firstn_skipn, L, zlen_nil in F. rewrite F. cbn [dbind]. replace (siz - (0 + siz) =? 0) with true by (symmetry; lia).
  subst src. pose proof (strlen_spec s r H0 [] (S (length (s ++ 0 :: r))) ltac:(rewrite app_length; cbn; lia)) as S1. cbn [app] in S1. rewrite zlen_nil in S1. rewrite S1.
  cbn [dbind]. okp.
Qed.
