(** Release numbers and forwarding switches. *)
From Verif Require Import Base Types Tlv Msg Protos Wire Util Child Netif Sysinfo Send Spec SpecChild SpecAdv SpecNetif SpecSend SpecSys.
From Verif Require Import Lemmas VisProofs TypesProofs CliProofs1 SendProofs1 SendProofs4 SysProofs1.

(** ** Digits *)
Lemma isdigit_digit c : isdigit c = true <-> digit c.
Proof. unfold isdigit, digit. rewrite andb_true_iff. lia. Qed.
Lemma isdigit_not c : isdigit c = false <-> ~ digit c.
Proof. rewrite <- isdigit_digit. destruct (isdigit c); intuition discriminate. Qed.
Lemma all_digits l : forallb isdigit l = true -> Forall digit l.
Proof. rewrite forallb_forall, Forall_forall. intros H c Hc. apply isdigit_digit. now apply H. Qed.
Definition ends (r : list Z) : Prop := r = [] \/ exists c r', r = c :: r' /\ ~ digit c.
Definition vfold (v : Z) (ds : list Z) : Z := fold_left (fun v c => 10 * v + (c - 48)) ds v.
Lemma scan_spec : forall l v k, exists ds r, l = ds ++ r /\ Forall digit ds /\ ends r
  /\ scan_digits l v k = (vfold v ds, (k + length ds)%nat).
Proof.
  induction l as [|c l IH]; intros v k; cbn [scan_digits].
  - exists [], []. split; [reflexivity|]. split; [constructor|]. split; [now left|]. cbn. now rewrite Nat.add_0_r.
  - destruct (isdigit c) eqn:D.
    + destruct (IH (v * 10 + (c - 48)) (S k)) as (ds & r & -> & F & E & S). exists (c :: ds), r. split; [reflexivity|].
      split; [constructor; [now apply isdigit_digit|assumption]|]. split; [assumption|]. rewrite S. cbn [vfold fold_left length].
      f_equal; [unfold vfold; f_equal; lia|lia].
    + exists [], (c :: l). split; [reflexivity|]. split; [constructor|]. split; [right; exists c, l; split; [reflexivity|now apply isdigit_not]|].
      cbn. now rewrite Nat.add_0_r.
Qed.
Lemma skip_spec : forall l k, exists sp r, l = sp ++ r /\ Forall (fun c => isspace c = true) sp
  /\ (r = [] \/ exists c r', r = c :: r' /\ isspace c = false) /\ skip_space l k = (r, (k + length sp)%nat).
Proof.
  induction l as [|c l IH]; intros k; cbn [skip_space].
  - exists [], []. split; [reflexivity|]. split; [constructor|]. split; [now left|]. cbn. now rewrite Nat.add_0_r.
  - destruct (isspace c) eqn:D.
    + destruct (IH (S k)) as (sp & r & -> & F & E & S). exists (c :: sp), r. split; [reflexivity|].
      split; [now constructor|]. split; [assumption|]. rewrite S. cbn [length]. f_equal. lia.
    + exists [], (c :: l). split; [reflexivity|]. split; [constructor|]. split; [right; now exists c, l|]. cbn. now rewrite Nat.add_0_r.
Qed.
Lemma space_other c : isspace c = true -> ~ digit c.
Proof. unfold isspace, digit. rewrite orb_true_iff, andb_true_iff. lia. Qed.
Definition nodigits (l : list Z) : Prop := Forall (fun c => ~ digit c) l.
Lemma nodigits_sp sp : Forall (fun c => isspace c = true) sp -> nodigits sp.
Proof. intros H. eapply Forall_impl; [|exact H]. intros c. apply space_other. Qed.

Lemma no_signs_tail a r : no_signs (a ++ r) -> (a = [] \/ exists x c, a = x ++ [c] /\ ~ digit c) -> no_signs r.
Proof.
  intros N A p d b E D. destruct (N (a ++ p) d b) as (q & c & Q & C); [now rewrite E, <- app_assoc|assumption|].
  destruct (exists_last (l := a ++ p)) as (u & w & Eu). { intros K. rewrite K in Q. now destruct q. }
  destruct p as [|p0 p'].
  - rewrite app_nil_r in Q. destruct A as [->|(x & y & -> & Y)]; [now destruct q|]. apply app_inj_tail in Q as [_ ->]. contradiction.
  - destruct (exists_last (l := p0 :: p') ltac:(discriminate)) as (p2 & z & Ep). rewrite Ep in Q. rewrite app_assoc in Q.
    apply app_inj_tail in Q as [_ ->]. exists p2, c. now split.
Qed.

(** What strtol finds. *)
Lemma strtol_spec r : r <> [] -> no_signs r ->
  (snd (strtol r) = O /\ exists c r', r = c :: r' /\ ~ digit c)
  \/ (exists pre ds rest, r = pre ++ ds ++ rest /\ nodigits pre /\ ds <> [] /\ Forall digit ds /\ ends rest
       /\ snd (strtol r) = length (pre ++ ds) /\ fst (strtol r) = Z.min 9223372036854775807 (value ds)).
Proof.
  intros NE N. unfold strtol. destruct (skip_spec r 0) as (sp & r1 & -> & SP & R1 & ->).
  assert (Start : forall x, nodigits x -> r1 = x ++ skipn (length x) r1 -> True) by easy. clear Start.
  (* the number, after a sign or not *)
  assert (Go : forall pre l2, sp ++ r1 = pre ++ l2 -> nodigits pre -> (pre <> [] \/ exists c l, l2 = c :: l) ->
    let '(v, k) := scan_digits l2 0 0 in
    let res := match k with O => (0, O) | _ => (Z.min 9223372036854775807 v, (length pre + k)%nat) end in
    (snd res = O /\ exists c r', pre ++ l2 = c :: r' /\ ~ digit c)
    \/ (exists pre' ds rest, pre ++ l2 = pre' ++ ds ++ rest /\ nodigits pre' /\ ds <> [] /\ Forall digit ds /\ ends rest
       /\ snd res = length (pre' ++ ds) /\ fst res = Z.min 9223372036854775807 (value ds))).
  { intros pre l2 _ P Q. destruct (scan_spec l2 0 0) as (ds & rest & -> & D & E & ->). cbn [Nat.add]. destruct ds as [|d ds].
    - cbn [length]. left. split; [reflexivity|]. cbn [app]. destruct pre as [|c pre].
      + destruct Q as [Q|(c & l & Q)]; [easy|]. cbn [app] in Q. destruct E as [->|(c' & r' & -> & E)]; [discriminate|]. now exists c', r'.
      + inversion P; subst. now exists c, (pre ++ rest).
    - cbn [length]. right. exists pre, (d :: ds), rest. split; [reflexivity|]. split; [assumption|]. split; [discriminate|]. split; [assumption|].
      split; [assumption|]. split; [|reflexivity]. cbn [snd]. rewrite app_length. reflexivity. }
  pose proof (nodigits_sp _ SP) as NP.
  destruct r1 as [|c r1].
  { specialize (Go sp [] eq_refl NP). rewrite app_nil_r in *. cbn [Nat.add]. cbn [scan_digits] in *. apply Go. now left. }
  cbn [Nat.add]. destruct (c =? 45) eqn:C45.
  - (* a minus sign: no digit follows *)
    apply Z.eqb_eq in C45. subst c. destruct r1 as [|d r1].
    + cbn [scan_digits]. left. split; [reflexivity|]. destruct sp as [|x sp]; [exists 45, []; split; [reflexivity|unfold digit; lia]|]. inversion NP; subst. now exists x, (sp ++ [45]).
    + cbn [scan_digits]. destruct (isdigit d) eqn:D.
      * exfalso. apply isdigit_digit in D. destruct (N sp d r1 eq_refl D) as (a & y & -> & Y). apply Forall_app in NP as [_ NP]. now inversion NP.
      * left. split; [reflexivity|]. destruct sp as [|x sp]; [exists 45, (d :: r1); split; [reflexivity|unfold digit; lia]|]. inversion NP; subst. now exists x, (sp ++ 45 :: d :: r1).
  - destruct (c =? 43) eqn:C43.
    + apply Z.eqb_eq in C43. subst c. specialize (Go (sp ++ [43]) r1). rewrite <- app_assoc in Go. specialize (Go eq_refl).
      assert (NP' : nodigits (sp ++ [43])) by (apply Forall_app; split; [assumption|constructor; [unfold digit; lia|constructor]]).
      specialize (Go NP' ltac:(left; now destruct sp)). cbn [app] in Go. rewrite app_length in Go. cbn [length] in Go. rewrite Nat.add_1_r in Go.
      destruct (scan_digits r1 0 0) as [v k]. now destruct k.
    + specialize (Go sp (c :: r1) eq_refl NP ltac:(right; now exists c, r1)). destruct (scan_digits (c :: r1) 0 0) as [v k]. now destruct k.
Qed.

(** ** Numbers *)
Lemma run_unique : forall ds ds2 r r2, Forall digit ds -> Forall digit ds2 -> ends r -> ends r2 -> ds ++ r = ds2 ++ r2 -> ds = ds2 /\ r = r2.
Proof.
  induction ds as [|d ds IH]; intros [|d2 ds2] r r2 D D2 E E2 H; cbn [app] in H.
  - now split.
  - subst r. inversion D2; subst. destruct E as [E0|(c & r' & E0 & X)]; [discriminate|]. injection E0 as <- <-. contradiction.
  - subst r2. inversion D; subst. destruct E2 as [E0|(c & r' & E0 & X)]; [discriminate|]. injection E0 as <- <-. contradiction.
  - injection H as <- H. inversion D; inversion D2; subst. destruct (IH ds2 r r2) as [-> ->]; try assumption. now split.
Qed.
Lemma numbers_other c r l : ~ digit c -> numbers (c :: r) l -> numbers r l.
Proof.
  intros C H. inversion H as [|c' r' l' H1 H2 E1|ds r' l' H1 H2 H3 H4 E1]; subst; [assumption|].
  destruct ds as [|d ds]; [easy|]. cbn in E1. injection E1 as -> _. inversion H2; subst. contradiction.
Qed.
Lemma numbers_skip pre r l : nodigits pre -> numbers (pre ++ r) l -> numbers r l.
Proof. intros P. induction P as [|c pre C P IH]; cbn [app]; [easy|]. intros H. apply IH. now apply numbers_other in H. Qed.
Lemma numbers_run ds r l : ds <> [] -> Forall digit ds -> ends r -> numbers (ds ++ r) l -> exists l', l = value ds :: l' /\ numbers r l'.
Proof.
  intros NE D E H. remember (ds ++ r) as t eqn:T. destruct H as [|c t' l' C H|ds2 r2 l' NE2 D2 E2 H].
  - now destruct ds.
  - destruct ds as [|d ds]; [easy|]. cbn in T. injection T as -> _. inversion D; subst. contradiction.
  - apply run_unique in T as [-> ->]; try assumption. now exists l'.
Qed.
Lemma value_nonneg ds : Forall digit ds -> 0 <= value ds.
Proof.
  unfold value. enough (G : forall v, Forall digit ds -> 0 <= v -> 0 <= fold_left (fun v c => 10 * v + (c - 48)) ds v) by (intros H; apply G; [assumption|lia]).
  induction ds as [|d ds IH]; intros v D V; cbn [fold_left]; [assumption|]. inversion D; subst. apply IH; [assumption|]. unfold digit in *. lia.
Qed.
Lemma skipn_past {A} (a b : list A) n : skipn (length a + n) (a ++ b) = skipn n b.
Proof. induction a as [|x a IH]; [reflexivity|assumption]. Qed.
Lemma rel_spec : forall f r i l, (length r < f)%nat -> no_signs r -> numbers r l -> Forall (fun v => v < 9223372036854775808) l ->
  rel_loop f r i = map (fun v => v mod 256) (firstn i l).
Proof.
  induction f as [|f IH]; intros r i l L N H B; [lia|]. cbn [rel_loop].
  destruct r as [|c0 r0].
  { inversion H as [| |ds r' l' H1 H2 H3 H4 E1]; subst; [now rewrite firstn_nil|]. destruct ds; [now destruct H1|discriminate]. }
  destruct i as [|i]; [reflexivity|]. set (r := c0 :: r0) in *.
  destruct (strtol_spec r ltac:(discriminate) N) as [[K (c & r' & E & C)]|(pre & ds & rest & E & P & NE & D & EN & K & V)].
  - destruct (strtol r) as [v k]. cbn [snd] in K. subst k. rewrite E. cbn [skipn]. apply IH.
    + rewrite E in L. cbn [length] in L. lia.
    + apply (no_signs_tail [c]); [cbn; now rewrite <- E|]. right. exists [], c. now split.
    + rewrite E in H. now apply numbers_other in H.
    + assumption.
  - assert (LK : (1 <= length (pre ++ ds))%nat) by (rewrite app_length; destruct ds; [easy|cbn; lia]).
    destruct (strtol r) as [v k]. cbn [fst snd] in K, V. rewrite E, app_assoc in N, H, L. rewrite <- app_assoc in H.
    apply numbers_skip in H; [|assumption]. apply numbers_run in H as (l' & -> & H); try assumption. inversion B as [|? ? B1 B2]; subst l x.
    destruct k as [|k]; [lia|]. cbn [firstn map]. f_equal; [rewrite V; f_equal; lia|].
    assert (SK : skipn (S (S k)) r = skipn 1 rest). { rewrite K, E, app_assoc, <- Nat.add_1_r. apply skipn_past. }
    rewrite SK. rewrite app_length in L. destruct EN as [->|(c & r' & -> & C)].
    + cbn [skipn]. apply IH; try assumption; [cbn; lia|]. intros [|x a] d b X; discriminate.
    + cbn [skipn]. apply IH; try assumption.
      * cbn [length] in L. lia.
      * apply (no_signs_tail ((pre ++ ds) ++ [c])); [rewrite <- app_assoc; exact N|]. right. exists (pre ++ ds), c. now split.
      * now apply numbers_other in H.
Qed.
Lemma uts_rel_spec r l : no_signs r -> numbers r l -> Forall (fun v => v < 9223372036854775808) l -> uts_rel r = version_of l.
Proof.
  intros N H B. unfold uts_rel, version_of. rewrite (rel_spec _ r 3 l) by (try assumption; lia).
  destruct l as [|a [|b [|c l]]]; reflexivity.
Qed.

(** ** Decimal numbers *)
Lemma digits_value : forall f n acc, 0 <= n < 10 ^ Z.of_nat f -> (0 < f)%nat ->
  exists ds, digits 10 f n acc = ds ++ acc /\ ds <> [] /\ Forall digit ds /\ value ds = n /\ (length ds <= f)%nat.
Proof.
  induction f as [|f IH]; intros n acc H F; [lia|]. cbn [digits]. pose proof (Z.mod_pos_bound n 10 ltac:(lia)). pose proof (Z.div_mod n 10 ltac:(lia)).
  replace (n mod 10 <? 10) with true by lia. destruct (n / 10 =? 0) eqn:E.
  - exists [48 + n mod 10]. split; [reflexivity|]. split; [discriminate|]. split; [constructor; [unfold digit; lia|constructor]|].
    split; [unfold value; cbn [fold_left]; lia|cbn; lia].
  - rewrite Nat2Z.inj_succ, Z.pow_succ_r in H by lia. destruct f as [|f']; [cbn in H; lia|].
    assert (0 <= n / 10) by (apply Z.div_pos; lia).
    destruct (IH (n / 10) ((48 + n mod 10) :: acc) ltac:(lia) ltac:(lia)) as (ds & E1 & NE & D & V & L).
    exists (ds ++ [48 + n mod 10]). split; [rewrite E1, <- app_assoc; reflexivity|]. split; [now destruct ds|]. split.
    + apply Forall_app. split; [assumption|]. constructor; [unfold digit; lia|constructor].
    + split; [|rewrite app_length; cbn [length]; lia]. unfold value in *. rewrite fold_left_app, V. cbn [fold_left]. lia.
Qed.
Lemma decimal_digits n : 0 <= n < 2147483648 -> exists ds, decimal n = ds /\ ds <> [] /\ Forall digit ds /\ value ds = n /\ (length ds <= 20)%nat.
Proof.
  intros H. rewrite <- dec_any by lia. unfold dec. destruct (digits_value 20 n [] ltac:(change (10 ^ Z.of_nat 20) with (10 ^ 20); lia) ltac:(lia)) as (ds & E & K).
  exists ds. rewrite app_nil_r in E. now split.
Qed.
Lemma atoi_digits ds : ds <> [] -> Forall digit ds -> value ds < 2147483648 -> atoi ds = value ds.
Proof.
  intros NE D V. pose proof (value_nonneg ds D) as V0. unfold atoi. destruct ds as [|d ds]; [easy|].
  assert (N : no_signs (d :: ds)).
  { intros a x b E X. assert (K : In 45 (d :: ds)) by (rewrite E; apply in_or_app; right; now left). rewrite Forall_forall in D. apply D in K. unfold digit in K. lia. }
  destruct (strtol_spec (d :: ds) ltac:(discriminate) N) as [[_ (c & r' & E & C)]|(pre & ds2 & rest & E & P & NE2 & D2 & EN & K & V2)].
  - injection E as <- <-. inversion D; subst. contradiction.
  - destruct pre as [|c pre]; [|cbn in E; injection E as <- _; inversion P; inversion D; subst; contradiction].
    cbn [app] in E. assert (X : (d :: ds) ++ [] = ds2 ++ rest) by now rewrite app_nil_r.
    apply run_unique in X as [<- _]; try assumption; [|now left]. rewrite V2.
    replace (Z.min 9223372036854775807 (value (d :: ds))) with (value (d :: ds)) by lia. rewrite Z.mod_small; lia.
Qed.

(** ** Forwarding *)
Lemma read_readable os path : readable os path <-> exists line, read_line os path 255 = Some line /\ 0 < zlen line.
Proof.
  split.
  - intros (line & F & NE). pose proof (read_default os path 255) as G. change (Z.of_nat 255) with 255 in G.
    destruct (read_line os path 255) as [s|].
    + exists s. split; [reflexivity|]. assert (line = s) as <-.
      { unfold file_line in F, G. destruct (so_file os path); [now apply (line_unique 255 l)|congruence]. }
      destruct line as [|b line]; [easy|]. rewrite zlen_cons. pose proof (zlen_nonneg _ line). lia.
    + destruct NE. unfold file_line in F, G. destruct (so_file os path); [now apply (line_unique 255 l)|congruence].
  - intros (line & E & L). exists line. split; [exact (read_first os path 255 line E)|]. intros ->. rewrite zlen_nil in L. lia.
Qed.
Lemma cap_router x : Z.testbit (Z.lor x CAP_ROUTER) 3 = true.
Proof. rewrite Z.lor_spec. change (Z.testbit CAP_ROUTER 3) with true. apply orb_true_r. Qed.
Lemma forwarding_router os : Z.testbit (fst (sysinfo_forwarding os CAP_HOST CAP_HOST)) 3 = true <-> readable os switch4 \/ readable os switch6.
Proof.
  rewrite !read_readable. unfold sysinfo_forwarding. change PROCFS_FORWARD_IPV4 with switch4. change PROCFS_FORWARD_IPV6 with switch6.
  set (a := read_line os switch4 255). set (b := read_line os switch6 255).
  assert (X : forall o : option (list Z), (exists line, o = Some line /\ 0 < zlen line) <-> match o with Some l => zlen l =? 0 | None => true end = false).
  { intros [l|]; [|split; [intros (x & E & _); discriminate|discriminate]]. pose proof (zlen_nonneg _ l). split.
    - intros (x & E & H2). injection E as <-. lia.
    - intros H2. exists l. split; [reflexivity|lia]. }
  rewrite (X a), (X b). clear X. destruct a as [l|]; [destruct (zlen l =? 0)|].
  - destruct b as [l'|]; [destruct (zlen l' =? 0); [|destruct (atoi l' =? 1)]|]; cbn [fst]; rewrite ?cap_router; cbn; intuition discriminate.
  - destruct (atoi l =? 1); [cbn [fst]; rewrite cap_router; intuition discriminate|].
    destruct b as [l'|]; [destruct (zlen l' =? 0); [|destruct (atoi l' =? 1)]|]; cbn [fst]; rewrite ?cap_router; cbn; intuition discriminate.
  - destruct b as [l'|]; [destruct (zlen l' =? 0); [|destruct (atoi l' =? 1)]|]; cbn [fst]; rewrite ?cap_router; cbn; intuition discriminate.
Qed.
Lemma digits_line ds : Forall digit ds -> (length ds <= 20)%nat -> upto_nl (cstr (fgets 255 (ds ++ [10]))) = ds.
Proof.
  intros D L. apply (line_unique 255 (ds ++ [10])); [apply (line_first 255)|].
  exists [10]. split; [reflexivity|].
  assert (X : forall c, In c ds -> 48 <= c) by (intros c H; rewrite Forall_forall in D; apply D in H; unfold digit in H; lia).
  split; [intros H; apply X in H; lia|]. split; [intros H; apply X in H; lia|]. split; [unfold zlen; lia|]. right. right. exists 10, []. split; [reflexivity|now left].
Qed.
Lemma proper_line os path : proper os path ->
  (turned_on os path <-> exists line, read_line os path 255 = Some line /\ zlen line <> 0 /\ atoi line = 1).
Proof.
  intros [P|(n & N & P)]; unfold turned_on, read_line; rewrite P.
  - split; [discriminate|intros (? & ? & _); discriminate].
  - destruct (decimal_digits n N) as (ds & ED & NE & D & V & L). rewrite ED. pose proof (digits_line ds D L) as DL.
    assert (A : atoi ds = n) by (rewrite <- V; apply atoi_digits; [assumption|assumption|lia]).
    split.
    + intros E. injection E as E. change [49; 10] with (bs "1" ++ [10]) in E. apply app_inj_tail in E as [E _]. exists ds. split; [|split].
      * destruct ds as [|d ds]; [easy|]. cbn [app]. now rewrite <- DL.
      * rewrite E. discriminate.
      * rewrite E. reflexivity.
    + intros (line & E & Z0 & A1). assert (line = ds) as ->. { destruct ds as [|d ds]; [easy|]. cbn [app] in E. injection E as <-. exact DL. }
      assert (n = 1) as -> by congruence. f_equal. f_equal. rewrite <- ED. reflexivity.
Qed.
Lemma forwarding_active os : proper os switch4 -> proper os switch6 ->
  (Z.testbit (snd (sysinfo_forwarding os CAP_HOST CAP_HOST)) 3 = true <-> turned_on os switch4 \/ turned_on os switch6).
Proof.
  intros P4 P6. rewrite (proper_line _ _ P4), (proper_line _ _ P6). clear P4 P6.
  unfold sysinfo_forwarding. change PROCFS_FORWARD_IPV4 with switch4. change PROCFS_FORWARD_IPV6 with switch6.
  set (a := read_line os switch4 255). set (b := read_line os switch6 255).
  assert (X : forall o : option (list Z), (exists line, o = Some line /\ zlen line <> 0 /\ atoi line = 1)
    <-> match o with Some l => negb (zlen l =? 0) && (atoi l =? 1) | None => false end = true).
  { intros [l|]; [|split; [intros (x & E & _); discriminate|discriminate]]. rewrite andb_true_iff, negb_true_iff, Z.eqb_neq, Z.eqb_eq. split.
    - intros (x & E & H2). injection E as <-. assumption.
    - intros H2. exists l. now split. }
  rewrite (X a), (X b). clear X. clearbody a b.
  destruct a as [l|]; [destruct (zlen l =? 0); [|destruct (atoi l =? 1)]|];
    try (destruct b as [l'|]; [destruct (zlen l' =? 0); [|destruct (atoi l' =? 1)]|]); cbn [snd]; rewrite ?cap_router; cbn; intuition discriminate.
Qed.
Lemma cap_host os i : i = 2 -> Z.testbit (fst (sysinfo_forwarding os CAP_HOST CAP_HOST)) i = true /\ Z.testbit (snd (sysinfo_forwarding os CAP_HOST CAP_HOST)) i = true.
Proof.
  intros ->. unfold sysinfo_forwarding.
  assert (B : forall x, Z.testbit x 2 = true -> Z.testbit (Z.lor x CAP_ROUTER) 2 = true) by (intros x H; rewrite Z.lor_spec, H; reflexivity).
  destruct (read_line os PROCFS_FORWARD_IPV4 255) as [l|]; [destruct (zlen l =? 0); [|destruct (atoi l =? 1)]|];
    try (destruct (read_line os PROCFS_FORWARD_IPV6 255) as [l'|]; [destruct (zlen l' =? 0); [|destruct (atoi l' =? 1)]|]);
    cbn [fst snd]; split; repeat (apply B); reflexivity.
Qed.
Lemma boot_router os country location : let si := sysinfo_fetch os country location in
  (Z.testbit (si_cap si) 3 = true <-> readable os switch4 \/ readable os switch6)
  /\ (proper os switch4 -> proper os switch6 -> (Z.testbit (si_cap_active si) 3 = true <-> turned_on os switch4 \/ turned_on os switch6))
  /\ Z.testbit (si_cap si) 2 = true /\ Z.testbit (si_cap_active si) 2 = true.
Proof.
  cbv zeta. rewrite <- forwarding_router. pose proof (forwarding_active os) as A. destruct (cap_host os 2 eq_refl) as [H1 H2].
  unfold sysinfo_fetch. cbv zeta. destruct (sysinfo_forwarding os CAP_HOST CAP_HOST) as [cap act]. cbn [si_cap si_cap_active fst snd] in *.
  exact (conj (iff_refl _) (conj A (conj H1 H2))).
Qed.
