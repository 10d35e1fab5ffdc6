(** The process title. *)
From Verif Require Import Base Vis Compat Title Spec SpecCompat SpecTitle Lemmas VisProofs CompatProofs.

(** ** Making it visible *)
Lemma esc1_title b : byte b -> b <> 0 -> esc1 TITLE_FLAGS b = show_title b.
Proof.
  intros H1 H2. apply beq_true. revert b H1 H2.
  apply (all_bytes_check (fun b => beq (esc1 TITLE_FLAGS b) (show_title b))). vm_compute. reflexivity.
Qed.
Lemma title_nextc b n : byte b -> b <> 0 -> vis (schar b) TITLE_FLAGS n = vis (schar b) TITLE_FLAGS 0.
Proof.
  intros H1 H2. unfold vis, vis_cstyle.
  assert (H : schar b =? 0 = false).
  { unfold schar. unfold byte in H1. destruct (b <? 128) eqn:E; lia. }
  rewrite H. reflexivity.
Qed.
Lemma show_title_len b : 1 <= zlen (show_title b) <= 4.
Proof.
  unfold show_title, octal.
  repeat match goal with |- context [if ?c then _ else _] => destruct c end; cbn [bs]; zlia.
Qed.
Lemma show_title_nz b : byte b -> b <> 0 -> ~ In 0 (show_title b).
Proof.
  intros H1 H2 Hi. assert (K : existsb (Z.eqb 0) (show_title b) = false).
  { apply negb_true_iff. revert b H1 H2 Hi.
    intros b H1 H2 _. revert b H1 H2. apply (all_bytes_check (fun b => negb (existsb (Z.eqb 0) (show_title b)))). vm_compute. reflexivity. }
  apply not_true_iff_false in K. apply K. apply existsb_exists. exists 0. split; [exact Hi|reflexivity].
Qed.
Lemma fitting_small n l : n <= 0 -> fitting n l = [].
Proof.
  intros H. destruct l as [|b l]; [reflexivity|]. cbn [fitting]. pose proof (show_title_len b).
  replace (zlen (show_title b) <=? n) with false by lia. reflexivity.
Qed.
Lemma fitting_len l : forall n, 0 <= n -> zlen (fitting n l) <= n.
Proof.
  induction l as [|b l IH]; intros n Hn; cbn [fitting]; [zlia|].
  destruct (zlen (show_title b) <=? n) eqn:E; [|zlia].
  specialize (IH (n - zlen (show_title b)) ltac:(lia)). zlia.
Qed.
Lemma fitting_nz l : bytes l -> ~ In 0 l -> forall n, ~ In 0 (fitting n l).
Proof.
  induction 1 as [|b l Hb _ IH]; intros Hz n; cbn [fitting]; [easy|].
  destruct (zlen (show_title b) <=? n); [|easy]. rewrite in_app_iff. intros [K|K].
  - revert K. apply show_title_nz; [exact Hb|]. intros ->. apply Hz. now left.
  - revert K. apply IH. intros K. apply Hz. now right.
Qed.
Lemma title_loop l : bytes l -> ~ In 0 l -> forall out, zlen out <= 1023 ->
  strnvis_loop 1024 TITLE_FLAGS l out = DOk (out ++ fitting (1023 - zlen out) l).
Proof.
  induction 1 as [|b l Hb Hl IH]; intros Hz out Ho; cbn [strnvis_loop].
  - cbn [fitting]. now rewrite app_nil_r.
  - assert (N : b <> 0) by (intros ->; apply Hz; now left).
    assert (Hz' : ~ In 0 l) by (intros K; apply Hz; now right). specialize (IH Hz').
    replace (b =? 0) with false by lia. cbn [orb].
    destruct (zlen out <? 1024 - 1) eqn:E; cbn [negb].
    2:{ rewrite fitting_small by lia. now rewrite app_nil_r. }
    pose proof (esc1_title b Hb N) as X. unfold esc1 in X. cbn [fitting]. rewrite <- X.
    destruct (isvisible TITLE_FLAGS (schar b)).
    + unfold put at 1. replace (zlen out <? 1024) with true by lia. cbn [dbind].
      destruct ((schar b =? 92) && negb (has TITLE_FLAGS VIS_NOSLASH)).
      * rewrite zlen_app, zlen_cons, zlen_nil. rewrite !zlen_cons, zlen_nil.
        destruct (zlen out + (1 + 0) <? 1024 - 1) eqn:E2.
        -- unfold put. replace (zlen (out ++ [b]) <? 1024) with true by zlia. cbn [dbind].
           rewrite IH by zlia. replace (1 + (1 + 0) <=? 1023 - zlen out) with true by lia.
           replace (1023 - zlen ((out ++ [b]) ++ [92])) with (1023 - zlen out - (1 + (1 + 0))) by zlia.
           rewrite <- !app_assoc. reflexivity.
        -- replace (1 + (1 + 0) <=? 1023 - zlen out) with false by lia. now rewrite app_nil_r.
      * rewrite zlen_cons, zlen_nil. replace (1 + 0 <=? 1023 - zlen out) with true by lia.
        rewrite IH by zlia.
        replace (1023 - zlen (out ++ [b])) with (1023 - zlen out - (1 + 0)) by zlia. rewrite <- app_assoc. reflexivity.
    + rewrite title_nextc by assumption.
      set (t := vis (schar b) TITLE_FLAGS 0) in *.
      destruct (zlen out + zlen t <=? 1024 - 1) eqn:E2.
      * rewrite puts_ok by lia. cbn [dbind]. rewrite IH by zlia.
        replace (zlen t <=? 1023 - zlen out) with true by lia.
        replace (1023 - zlen (out ++ t)) with (1023 - zlen out - zlen t) by zlia. rewrite <- app_assoc. reflexivity.
      * replace (zlen t <=? 1023 - zlen out) with false by lia. now rewrite app_nil_r.
Qed.
Lemma title_vis l : bytes l -> ~ In 0 l -> strnvis 1024 TITLE_FLAGS l = DOk (fitting 1023 l).
Proof.
  intros H1 H2. unfold strnvis. rewrite title_loop by (assumption || zlia). cbn [dbind app].
  rewrite zlen_nil. replace (1023 - 0) with 1023 by lia. pose proof (fitting_len l 1023 ltac:(lia)).
  change (0 <? 1024) with true. cbv iota. unfold put. replace (_ <? 1024) with true by lia. reflexivity.
Qed.

(** ** The text *)
Lemma firstn_is (a b : list Z) n : 0 <= n ->
  firstn (Z.to_nat n) (a ++ b) = firstn (Z.to_nat n) a ++ firstn (Z.to_nat (n - zlen a)) b.
Proof. intros H. rewrite firstn_app. do 2 f_equal. unfold zlen. lia. Qed.
Lemma firstn_long (a : list Z) n : zlen a <= n -> firstn (Z.to_nat n) a = a.
Proof. intros H. apply firstn_all2. unfold zlen in H. lia. Qed.
Lemma nin_firstn (l : list Z) n : ~ In 0 l -> ~ In 0 (firstn n l).
Proof. intros H K. apply H. revert K. revert l H. induction n as [|n IH]; intros [|x l] H; cbn [firstn In]; try easy. intros [->|K]; [now left|right]. apply (IH l); [|exact K]. intros Q. apply H. now right. Qed.
Lemma cstr_str (s r : list Z) : ~ In 0 s -> cstr (s ++ 0 :: r) = s.
Proof. intros H. rewrite cstr_before_nul. now apply before_nul_app_nul. Qed.
Lemma zlen_holds m m' s : holds_string m m' s -> zlen s < zlen m -> zlen m' = zlen m.
Proof.
  unfold holds_string. intros -> H. unfold zlen in *. rewrite app_length. cbn [length]. rewrite skipn_length. lia.
Qed.
Lemma buf_text buf0 prog text : zlen buf0 = 1024 -> ~ In 0 prog -> ~ In 0 text ->
  exists buf, title_buf buf0 prog text = DOk buf /\ cstr buf = firstn (Z.to_nat 1023) (prog ++ bs ": " ++ text).
Proof.
  intros H0 Hp Ht. unfold title_buf. set (col := bs ": ").
  assert (Lc : zlen col = 2) by reflexivity.
  assert (Hc : ~ In 0 col) by (intros [K|[K|[]]]; discriminate K).
  pose proof (zlen_nonneg _ prog) as Lp.
  destruct (strlcpy_spec buf0 (prog ++ [0]) prog 1024) as (b1 & E1 & _ & H1).
  { split; [exact Hp|]. now exists []. } { lia. } { lia. }
  rewrite E1. cbn [dbind]. specialize (H1 ltac:(lia)). change (1024 - 1) with 1023 in H1.
  set (p := firstn (Z.to_nat 1023) prog) in *.
  assert (P0 : ~ In 0 p) by now apply nin_firstn.
  assert (Lq : zlen p = Z.min 1023 (zlen prog)) by (unfold p, zlen in *; rewrite firstn_length; lia).
  assert (L1 : zlen b1 = 1024) by (rewrite (zlen_holds _ _ _ H1); lia).
  destruct (strlcat_spec b1 (col ++ [0]) p col 1024) as (b2 & E2 & H2).
  { split; [exact P0|]. eexists. exact H1. } { split; [exact Hc|]. now exists []. } { lia. } { lia. }
  rewrite E2. cbn [dbind]. rewrite Lc. clear E1 E2 H1.
  set (c := firstn (Z.to_nat (1024 - zlen p - 1)) col) in *.
  assert (C0 : ~ In 0 c) by now apply nin_firstn.
  destruct (zlen p + 2 <? 1024) eqn:E.
  - assert (Ep : p = prog) by (apply firstn_long; lia).
    assert (Ec : c = col) by (apply firstn_long; lia).
    set (t := firstn (Z.to_nat (1024 - (zlen p + 2) - 1)) text).
    eexists. split; [reflexivity|].
    assert (F : firstn (Z.to_nat (zlen p + 2)) b2 = prog ++ col).
    { unfold holds_string in H2. rewrite H2, Ec, <- Ep. rewrite <- Lc, <- zlen_app. apply firstn_zlen_app. }
    rewrite F. rewrite <- (app_assoc t). cbn [app]. rewrite app_assoc, cstr_str.
    + rewrite app_assoc, (firstn_is (prog ++ col)) by lia. rewrite (firstn_long (prog ++ col)) by zlia.
      f_equal. unfold t. do 2 f_equal. rewrite zlen_app, Lc, Ep. lia.
    + rewrite !in_app_iff. intros [[K|K]|K]; auto. revert K. now apply nin_firstn.
  - eexists. split; [reflexivity|]. unfold holds_string in H2. rewrite H2, cstr_str.
    + rewrite (firstn_is prog) by lia. fold p. f_equal. unfold c.
      destruct (Z_le_gt_dec (zlen prog) 1023).
      * replace (1024 - zlen p - 1) with (1023 - zlen prog) by lia. rewrite (firstn_is col) by lia.
        replace (Z.to_nat (1023 - zlen prog - zlen col)) with O by lia. cbn [firstn]. now rewrite app_nil_r.
      * replace (Z.to_nat (1024 - zlen p - 1)) with O by lia. replace (Z.to_nat (1023 - zlen prog)) with O by lia.
        reflexivity.
    + rewrite in_app_iff. intros [K|K]; auto.
Qed.

(** ** Writing it *)
Lemma skipn_skipn_c A (l : list A) i j : skipn i (skipn j l) = skipn (j + i) l.
Proof. revert l. induction j as [|j IH]; intros l; [reflexivity|]. destruct l as [|x l]; [now rewrite !skipn_nil|]. apply IH. Qed.
Lemma nth_skipn_c (l : list Z) i k : nth k (skipn i l) 0 = nth (i + k) l 0.
Proof. revert l. induction i as [|i IH]; intros l; [reflexivity|]. destruct l as [|x l]; [cbn; now destruct k|]. apply IH. Qed.
Lemma pad_ok k : forall (A B : list Z) fuel, (k < fuel)%nat -> (k <= length B)%nat ->
  pad_loop fuel (A ++ B) (zlen A) (zlen A + Z.of_nat k) = DOk (A ++ repeat 0 k ++ skipn k B).
Proof.
  induction k as [|k IH]; intros A B fuel Hf Hb; (destruct fuel as [|fuel]; [lia|]); cbn [pad_loop].
  - replace (zlen A <? zlen A + Z.of_nat 0) with false by lia. reflexivity.
  - replace (zlen A <? zlen A + Z.of_nat (S k)) with true by lia.
    destruct B as [|b B]; [cbn in Hb; lia|]. rewrite wr_at. cbn [dbind].
    change (A ++ 0 :: B) with (A ++ [0] ++ B). rewrite app_assoc.
    replace (zlen A + 1) with (zlen (A ++ [0])) by zlia.
    replace (zlen A + Z.of_nat (S k)) with (zlen (A ++ [0]) + Z.of_nat k) by zlia.
    rewrite IH by (cbn in Hb; lia). now rewrite <- app_assoc.
Qed.
Lemma pad_none fuel m len n : n <= len -> pad_loop (S fuel) m len n = DOk m.
Proof. intros H. cbn [pad_loop]. replace (len <? n) with false by lia. reflexivity. Qed.
Lemma title_ok prog text : c_text prog -> c_text text ->
  bytes (firstn (Z.to_nat 1023) (prog ++ bs ": " ++ text)) /\ ~ In 0 (firstn (Z.to_nat 1023) (prog ++ bs ": " ++ text)).
Proof.
  intros [B1 N1] [B2 N2]. split.
  - apply bytes_firstn. apply Forall_app. split; [exact B1|]. apply Forall_app. split; [|exact B2].
    repeat constructor; unfold byte; cbn; lia.
  - apply nin_firstn. rewrite !in_app_iff. intros [K|[[K|[K|[]]]|K]]; auto; discriminate K.
Qed.
Lemma set_ok a n buf0 prog text mem : zlen buf0 = 1024 -> c_text prog -> c_text text -> 0 < n <= zlen mem ->
  let t := firstn (Z.to_nat (n - 1)) (title prog text) in
  setproctitle (Some (mkSpt a n)) buf0 prog text mem
  = DOk (t ++ repeat 0 (Z.to_nat (n - zlen t)) ++ skipn (Z.to_nat n) mem).
Proof.
  intros H0 Hp Ht Hn. cbv zeta. unfold setproctitle. cbn [sp_len]. replace (n <=? 0) with false by lia.
  destruct (buf_text buf0 prog text H0 (proj2 Hp) (proj2 Ht)) as (buf & -> & Eb). cbn [dbind]. rewrite Eb.
  destruct (title_ok prog text Hp Ht) as (B & N). rewrite title_vis by assumption. cbn [dbind].
  pose proof (fitting_nz _ B N 1023) as Z. change (fitting 1023 _) with (title prog text) in Z |- *.
  set (pt := title prog text) in *. pose proof (zlen_nonneg _ pt) as Lp.
  destruct (strlcpy_spec mem (pt ++ [0]) pt n) as (m & -> & _ & H).
  { split; [exact Z|]. now exists []. } { lia. } { lia. }
  cbn [dbind]. specialize (H ltac:(lia)). unfold holds_string in H.
  destruct (Z_le_gt_dec n (zlen pt)).
  - rewrite pad_none by lia. rewrite H. f_equal. f_equal.
    assert (L : zlen (firstn (Z.to_nat (n - 1)) pt) = n - 1) by (unfold zlen in *; rewrite firstn_length; lia).
    rewrite L. replace (n - (n - 1)) with 1 by lia. change (repeat 0 (Z.to_nat 1)) with [0]. cbn [app].
    replace (S (length (firstn (Z.to_nat (n - 1)) pt))) with (Z.to_nat n) by (unfold zlen in L; lia). reflexivity.
  - rewrite firstn_long in H |- * by lia. rewrite H.
    pose proof (pad_ok (Z.to_nat (n - zlen pt)) pt (0 :: skipn (S (length pt)) mem)
      (S (length (pt ++ 0 :: skipn (S (length pt)) mem)))) as P.
    replace (zlen pt + Z.of_nat (Z.to_nat (n - zlen pt))) with n in P by lia.
    assert (X : (Z.to_nat (n - zlen pt) <= length (0%Z :: skipn (S (length pt)) mem))%nat).
    { cbn [length]. rewrite skipn_length. unfold zlen in *. lia. }
    rewrite P; [|rewrite app_length; lia|exact X]. f_equal. f_equal. f_equal.
    replace (Z.to_nat (n - zlen pt)) with (S (Z.to_nat (n - zlen pt - 1))) by lia.
    change (skipn (S (Z.to_nat (n - zlen pt - 1))) (0 :: skipn (S (length pt)) mem))
      with (skipn (Z.to_nat (n - zlen pt - 1)) (skipn (S (length pt)) mem)).
    rewrite skipn_skipn_c. f_equal. unfold zlen in *. lia.
Qed.

(** ** The area *)
Lemma last_arg_laid l : forall e, last_arg (Some e) (laid (e + 1) l) = Some (e + zlen (strings l)).
Proof.
  induction l as [|s l IH]; intros e; cbn [laid last_arg strings flat_map]; [f_equal; zlia|].
  replace (e + 1 =? e + 1) with true by lia. replace (e + 1 + zlen s + 1) with (e + 1 + zlen s + 1) by lia.
  rewrite IH. f_equal. fold (strings l). zlia.
Qed.
Lemma last_env_laid l : forall e, last_env e (laid (e + 1) l) = e + zlen (strings l).
Proof.
  induction l as [|s l IH]; intros e; cbn [laid last_env strings flat_map]; [zlia|].
  replace (e + 1 =? e + 1) with true by lia. rewrite IH. fold (strings l). zlia.
Qed.
Lemma strings_app a b : strings (a ++ b) = strings a ++ strings b.
Proof. unfold strings. apply flat_map_app. Qed.
Lemma copy_env_all dup env : (forall i, dup i = true) -> forall i, copy_env dup i env = map snd env.
Proof. intros H. induction env as [|[a s] env IH]; intros i; cbn [copy_env map snd]; [reflexivity|]. now rewrite H, IH. Qed.
Lemma laid_texts l : forall a, map snd (laid a l) = l.
Proof. induction l as [|s l IH]; intros a; cbn [laid map snd]; [reflexivity|]. now rewrite IH. Qed.
Lemma init_laid dup a args env : args <> [] ->
  fst (compat_init true dup (laid a args) (laid (a + zlen (strings args)) env))
  = Some (mkSpt a ((zlen (strings (args ++ env)) - 2) mod 18446744073709551616)).
Proof.
  intros H. destruct args as [|s args]; [easy|]. cbn [laid compat_init negb fst last_arg].
  rewrite last_arg_laid. cbn [app strings flat_map]. fold (strings args). fold (strings (args ++ env)).
  rewrite strings_app, !zlen_app, zlen_cons, zlen_nil.
  replace (a + (zlen s + (1 + 0) + zlen (strings args))) with (a + zlen s + zlen (strings args) + 1) by lia.
  rewrite last_env_laid. do 3 f_equal. lia.
Qed.
Lemma environ_kept room dup args env : (forall i, dup i = true) -> snd (compat_init room dup args env) = map snd env.
Proof.
  intros H. destruct args as [|[a s] args]; [reflexivity|]. cbn [compat_init]. destruct room; [|reflexivity].
  now apply copy_env_all.
Qed.

(** C95 *)
Lemma title_set dup a args env rest buf0 prog text : args <> [] -> zlen buf0 = 1024 -> c_text prog -> c_text text ->
  let room := zlen (strings (args ++ env)) in
  2 <= room < 18446744073709551616 ->
  let mem := strings (args ++ env) ++ rest in
  setproctitle (fst (compat_init true dup (laid a args) (laid (a + zlen (strings args)) env))) buf0 prog text mem
  = DOk (if room =? 2 then mem
         else let t := firstn (Z.to_nat (room - 3)) (title prog text) in
              t ++ repeat 0 (Z.to_nat (room - 2 - zlen t)) ++ skipn (Z.to_nat (room - 2)) mem).
Proof.
  intros Ha H0 Hp Ht room Hr mem. rewrite init_laid by exact Ha. fold room.
  rewrite Z.mod_small by lia. destruct (room =? 2) eqn:E.
  - replace (room - 2) with 0 by lia. reflexivity.
  - cbv zeta. replace (room - 3) with (room - 2 - 1) by lia. apply set_ok; try assumption. unfold mem. rewrite zlen_app. fold room.
    pose proof (zlen_nonneg _ rest). lia.
Qed.

Definition covered (l : list pstr) (a e : Z) : Prop := a <= e -> forall x, a <= x <= e -> inside l x.
Lemma step_covered l a e b s : covered l a e -> a <= e -> e + 1 = b -> In (b, s) l -> covered l a (b + zlen s).
Proof.
  intros C Hae Hb Hi _ x Hx. destruct (Z_le_gt_dec x e); [apply C; lia|]. exists b, s. split; [exact Hi|lia].
Qed.
Lemma last_arg_covered l a : forall args e r, incl args l -> a <= e -> covered l a e ->
  last_arg (Some e) args = Some r -> a <= r /\ covered l a r /\ e <= r.
Proof.
  induction args as [|[b s] args IH]; intros e r Hi Hae C; cbn [last_arg].
  - intros [= <-]. split; [exact Hae|]. split; [exact C|lia].
  - assert (Hi' : incl args l) by (intros x Hx; apply Hi; now right).
    pose proof (zlen_nonneg _ s).
    destruct (e + 1 =? b) eqn:E; intros H1.
    + destruct (IH (b + zlen s) r Hi' ltac:(lia)) as (A & B & D); [|exact H1|].
      * apply (step_covered l a e b s C Hae ltac:(lia)). apply Hi. now left.
      * split; [exact A|]. split; [exact B|lia].
    + apply (IH e r Hi' Hae C H1).
Qed.
Lemma last_env_covered l a : forall env e, incl env l -> a <= e -> covered l a e ->
  a <= last_env e env /\ covered l a (last_env e env) /\ e <= last_env e env.
Proof.
  induction env as [|[b s] env IH]; intros e Hi Hae C; cbn [last_env].
  - split; [exact Hae|]. split; [exact C|lia].
  - assert (Hi' : incl env l) by (intros x Hx; apply Hi; now right).
    pose proof (zlen_nonneg _ s).
    destruct (e + 1 =? b) eqn:E.
    + destruct (IH (b + zlen s) Hi' ltac:(lia)) as (A & B & D).
      * apply (step_covered l a e b s C Hae ltac:(lia)). apply Hi. now left.
      * split; [exact A|]. split; [exact B|lia].
    + apply (IH e Hi' Hae C).
Qed.
Lemma last_arg_some args : forall e, exists r, last_arg (Some e) args = Some r.
Proof.
  induction args as [|[b s] args IH]; intros e; cbn [last_arg]; [eauto|]. destruct (e + 1 =? b); apply IH.
Qed.
Lemma last_arg_next e t : forall args r, In (e + 1, t) args -> last_arg (Some e) args = Some r -> e + 1 <= r.
Proof.
  induction args as [|[b s] args IH]; intros r Hi; cbn [last_arg]; [easy|].
  pose proof (zlen_nonneg _ s). destruct (e + 1 =? b) eqn:E; intros H1.
  - destruct (last_arg_covered ((b, s) :: args) b args (b + zlen s) r) as (A & _); [now right| lia | | exact H1 | lia].
    intros _ x Hx. exists b, s. split; [now left|lia].
  - apply (IH r); [|exact H1]. destruct Hi as [[= -> _]|Hi]; [lia|exact Hi].
Qed.
Lemma last_env_next e t : forall env, In (e + 1, t) env -> e + 1 <= last_env e env.
Proof.
  induction env as [|[b s] env IH]; intros Hi; cbn [last_env]; [easy|].
  pose proof (zlen_nonneg _ s). destruct (e + 1 =? b) eqn:E.
  - destruct (last_env_covered ((b, s) :: env) b env (b + zlen s)) as (A & _); [now right| lia | | lia].
    intros _ x Hx. exists b, s. split; [now left|lia].
  - apply IH. destruct Hi as [[= -> _]|Hi]; [lia|exact Hi].
Qed.
Lemma init_covered dup a s args env : 0 < zlen s \/ (exists t, In (a + 1, t) (args ++ env)) ->
  exists n, fst (compat_init true dup ((a, s) :: args) env) = Some (mkSpt a (n mod 18446744073709551616))
    /\ 0 <= n /\ forall x, a <= x <= a + n + 1 -> inside (((a, s) :: args) ++ env) x.
Proof.
  intros Hs. set (l := ((a, s) :: args) ++ env). pose proof (zlen_nonneg _ s) as Ls.
  cbn [compat_init negb fst last_arg]. destruct (last_arg_some args (a + zlen s)) as (r & E). rewrite E.
  destruct (last_arg_covered l a args (a + zlen s) r) as (A & B & D); [| lia | | exact E |].
  { intros x Hx. right. apply in_or_app. now left. }
  { intros _ x Hx. exists a, s. split; [now left|lia]. }
  destruct (last_env_covered l a env r) as (A' & B' & D'); [| exact A | exact B |].
  { intros x Hx. right. apply in_or_app. now right. }
  assert (N : a + 1 <= last_env r env).
  { destruct (Z_le_gt_dec (a + 1) r) as [Q|Q]; [lia|]. assert (r = a /\ zlen s = 0) as (-> & S0) by lia.
    rewrite S0, Z.add_0_r in E. destruct Hs as [Hs|(t & Hi)]; [lia|]. apply in_app_or in Hi as [Hi|Hi].
    - pose proof (last_arg_next a t args a Hi E). lia.
    - exact (last_env_next a t env Hi). }
  exists (last_env r env - a - 1). split; [reflexivity|]. split; [lia|].
  intros x Hx. apply (B' A'). lia.
Qed.
Lemma set_inside dup a s args env buf0 prog text mem : 0 < zlen s \/ (exists t, In (a + 1, t) (args ++ env)) ->
  zlen buf0 = 1024 -> c_text prog -> c_text text -> zlen mem < 18446744073709551616 ->
  (forall x, a <= x -> inside (((a, s) :: args) ++ env) x -> x < a + zlen mem) ->
  exists mem', setproctitle (fst (compat_init true dup ((a, s) :: args) env)) buf0 prog text mem = DOk mem'
    /\ zlen mem' = zlen mem
    /\ forall k, 0 <= k -> nth (Z.to_nat k) mem' 0 <> nth (Z.to_nat k) mem 0 -> inside (((a, s) :: args) ++ env) (a + k).
Proof.
  intros Hs H0 Hp Ht Hm Hin. destruct (init_covered dup a s args env Hs) as (n & E & N & C). rewrite E.
  assert (L : n + 1 < zlen mem) by (pose proof (Hin (a + n + 1) ltac:(lia) (C (a + n + 1) ltac:(lia))); lia).
  rewrite Z.mod_small by lia. destruct (Z.eq_dec n 0) as [->|Nz].
  { exists mem. split; [reflexivity|]. split; [reflexivity|]. easy. }
  rewrite set_ok by (assumption || lia). eexists. split; [reflexivity|].
  set (t := firstn (Z.to_nat (n - 1)) (title prog text)).
  assert (Lt : zlen t <= n - 1) by (unfold t, zlen; rewrite firstn_length; lia). pose proof (zlen_nonneg _ t).
  split.
  - unfold zlen in *. rewrite !app_length, repeat_length, skipn_length. lia.
  - intros k Hk D. apply C. split; [lia|]. destruct (Z_le_gt_dec k (n + 1)); [lia|]. exfalso. apply D.
    rewrite app_assoc, app_nth2.
    + rewrite app_length, repeat_length, nth_skipn_c. f_equal. unfold zlen in *. lia.
    + rewrite app_length, repeat_length. unfold zlen in *. lia.
Qed.
Lemma fitting_plain l : Forall (fun b => 32 <= b <= 126 /\ b <> 92) l -> forall n, zlen l <= n -> fitting n l = l.
Proof.
  induction 1 as [|b l [H1 H2] _ IH]; intros n Hn; cbn [fitting]; [reflexivity|].
  assert (E : show_title b = [b]).
  { unfold show_title. replace (b =? 92) with false by lia. replace ((32 <=? b) && (b <=? 126)) with true by lia. reflexivity. }
  rewrite E. pose proof (zlen_nonneg _ l). rewrite zlen_cons in Hn. rewrite zlen_cons, zlen_nil.
  replace (1 + 0 <=? n) with true by lia. cbn [app]. f_equal. apply IH. lia.
Qed.
Lemma title_plain prog text : Forall (fun b => 32 <= b <= 126 /\ b <> 92) (prog ++ text) -> zlen prog + zlen text <= 1021 ->
  title prog text = prog ++ bs ": " ++ text.
Proof.
  intros H L. apply Forall_app in H as (H1 & H2). unfold title.
  assert (Ls : zlen (prog ++ bs ": " ++ text) <= 1023) by (rewrite !zlen_app; change (zlen (bs ": ")) with 2; lia).
  change 1023%nat with (Z.to_nat 1023). rewrite firstn_long by exact Ls. apply fitting_plain; [|exact Ls].
  apply Forall_app. split; [exact H1|]. apply Forall_app. split; [|exact H2]. repeat constructor; cbn; lia.
Qed.
