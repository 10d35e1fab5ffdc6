(** The command line. *)
From Verif Require Import Base Types Opts SpecOpts Lemmas VisProofs.

(** The bits set and cleared by an option. *)
Definition sets (x : Z) : Z :=
  match x with
  | 97 => 12 | 100 => 64 | 109 => 128 | 110 => 256 | 111 => 16 | 113 => 8192 | 114 => 4 | 116 => 1024
  | 119 => 512 | 121 => 6148 | 122 => 2052 | _ => 0
  end.
Definition clears (x : Z) : Z := match x with 100 => 1 | 102 => 1 | 115 => 2 | _ => 0 end.
Definition enables (x : Z) : option nat :=
  match x with 76 => Some 0%nat | 67 => Some 1%nat | 69 => Some 2%nat | 70 => Some 3%nat | 78 => Some 4%nat | _ => None end.
Definition codes : list Z := Eval vm_compute in bs "adefmnoqrstuvwyzclLCEFN".
Definition is_code (x : Z) : Prop := In x codes.

Lemma step_codes n s x arg s' : opt_step n s x arg = Some s' -> is_code x.
Proof.
  intros H. destruct s. unfold opt_step in H.
  destruct x as [|p|p]; try discriminate H.
  do 8 (try destruct p as [p|p|]; try discriminate H); cbv; tauto.
Qed.
Ltac letter H := repeat (destruct H as [<-|H]; [|]); [..|destruct H].
Definition facts (n : naming) (s : setup) (x : Z) (arg : list Z) (s' : setup) : Prop :=
  u_opts s' = Z.land (Z.lor (u_opts s) (sets x)) (Z.lnot (clears x))
  /\ u_enabled s' = match enables x with Some i => firstn i (u_enabled s) ++ true :: skipn (S i) (u_enabled s) | None => u_enabled s end
  /\ u_user s' = last (args_of 117 [(x, arg)]) (u_user s)
  /\ u_location s' = last (map (firstn 255) (args_of 108 [(x, arg)])) (u_location s)
  /\ u_excl s' = u_excl s ++ map (firstn 15) (args_of 101 [(x, arg)])
  /\ u_country s' = last (map (map toupper) (args_of 99 [(x, arg)])) (u_country s)
  /\ u_mif s' = last (map Some (m_interfaces n [(x, arg)])) (u_mif s)
  /\ u_m4 s' = last (map (n_pton4 n) (m_v4 n [(x, arg)])) (u_m4 s)
  /\ u_m6 s' = last (map (n_pton6 n) (m_v6 n [(x, arg)])) (u_m6 s).
Lemma clear0 o x : Z.land (Z.lor o x) (-1) = Z.lor o x.
Proof. apply Z.land_m1_r. Qed.
Lemma step_facts n s x arg s' : opt_step n s x arg = Some s' -> ~ bad_option n x arg /\ facts n s x arg s'.
Proof.
  intros H. pose proof (step_codes _ _ _ _ _ H) as Hin.
  assert (NB : ((x = 101 /\ n_index n arg = 0)
  \/ (x = 109 /\ n_index n arg = 0 /\ n_pton4 n arg = None /\ n_pton6 n arg = None)
  \/ (x = 99 /\ zlen arg <> 2)
  \/ (x = 108 /\ arg = []) -> False) -> ~ bad_option n x arg).
  { intros K [B|B]; [now apply B|now apply K]. }
  destruct s as [o u e mi m4 m6 c l en]. unfold is_code, codes in Hin.
  repeat (destruct Hin as [<-|Hin]); [..|destruct Hin];
    cbn [opt_step set_opts enable u_opts] in H.
  (* e *)
  3:{ destruct (n_index n arg =? 0) eqn:E; cbn [negb] in H; [discriminate H|]. injection H as <-. split; [apply NB; lia|].
      unfold facts. cbn. rewrite Z.lor_0_r, Z.land_m1_r. repeat split. }
  (* m *)
  4:{ unfold facts, m_interfaces, m_v4, m_v6. cbn [args_of filter map snd Z.eqb Pos.eqb].
      destruct (n_index n arg =? 0) eqn:E; cbn [negb] in H |- *.
      - destruct (n_pton4 n arg) eqn:E4; [|destruct (n_pton6 n arg) eqn:E6; [|discriminate H]]; injection H as <-;
          (split; [apply NB; intros [?|[(_ & _ & K)|[?|?]]]; try lia; destruct K; congruence|]);
          cbn [andb map last]; rewrite ?E4, ?E6; cbn; rewrite clear0, app_nil_r; repeat split.
      - injection H as <-. split; [apply NB; lia|]. cbn. rewrite clear0, app_nil_r; repeat split. }
  (* c *)
  15:{ destruct arg as [|a [|b [|]]]; try discriminate H. injection H as <-. split; [apply NB; unfold zlen; cbn; lia|].
      unfold facts. cbn. rewrite Z.lor_0_r, Z.land_m1_r, app_nil_r. repeat split. }
  (* l *)
  15:{ destruct arg as [|a arg]; try discriminate H. injection H as <-. split; [apply NB; intros [?|[?|[?|[_ K]]]]; try lia; discriminate K|].
      unfold facts. cbn. rewrite Z.lor_0_r, Z.land_m1_r, app_nil_r. repeat split. }
  all: injection H as <-; (split; [apply NB; lia|]); unfold facts; cbn; rewrite ?Z.lor_0_r, ?Z.land_m1_r, app_nil_r; repeat split.
  rewrite <- Z.lor_assoc. reflexivity.
Qed.
Lemma step_refuses n s x arg : opt_step n s x arg = None -> bad_option n x arg.
Proof.
  intros H. unfold bad_option. destruct (in_dec Z.eq_dec x codes) as [Hin|Hn]; [right|now left].
  destruct s as [o u e mi m4 m6 c l en]. unfold codes in Hin.
  repeat (destruct Hin as [<-|Hin]); [..|destruct Hin]; cbn [opt_step set_opts enable] in H; try discriminate H.
  - left. split; [reflexivity|]. destruct (n_index n arg =? 0) eqn:E; [lia|discriminate H].
  - right. left. split; [reflexivity|]. destruct (n_index n arg =? 0) eqn:E; [|discriminate H]. split; [lia|].
    cbn [negb] in H. destruct (n_pton4 n arg); [discriminate H|]. destruct (n_pton6 n arg); [discriminate H|]. now split.
  - right. right. left. split; [reflexivity|]. destruct arg as [|a [|b [|]]]; try discriminate H; unfold zlen; cbn [length]; lia.
  - right. right. right. split; [reflexivity|]. destruct arg; [reflexivity|discriminate H].
Qed.

(** The loop. *)
Lemma loop_refuses n ol : forall s, opt_loop n s ol = None <-> exists x arg, In (x, arg) ol /\ bad_option n x arg.
Proof.
  induction ol as [|[x arg] ol IH]; intros s; cbn [opt_loop].
  - split; [discriminate|]. now intros (x & arg & [] & _).
  - destruct (opt_step n s x arg) as [s'|] eqn:E; cbn [obind].
    + rewrite IH. apply step_facts in E as [NB _]. split.
      * intros (y & a & H & B). exists y, a. split; [now right|assumption].
      * intros (y & a & [H|H] & B); [injection H as <- <-; contradiction|now exists y, a].
    + split; [intros _|reflexivity]. apply step_refuses in E. exists x, arg. split; [now left|assumption].
Qed.
Lemma last_cons A (x d : A) l : last (x :: l) d = last l x.
Proof. revert x d. induction l as [|y l IH]; intros x d; [reflexivity|]. change (last (y :: l) d = last (y :: l) x). now rewrite !IH. Qed.
Lemma last_app A (a b : list A) d : last (a ++ b) d = last b (last a d).
Proof.
  revert d. induction a as [|x a IH]; intros d; [reflexivity|]. change ((x :: a) ++ b) with (x :: (a ++ b)). now rewrite !last_cons.
Qed.
Lemma args_cons x y arg ol : args_of x ((y, arg) :: ol) = args_of x [(y, arg)] ++ args_of x ol.
Proof. unfold args_of. cbn [filter]. destruct (y =? x); reflexivity. Qed.

Lemma loop_values n ol : forall s s', opt_loop n s ol = Some s' ->
  u_user s' = last (args_of 117 ol) (u_user s)
  /\ u_location s' = last (map (firstn 255) (args_of 108 ol)) (u_location s)
  /\ u_excl s' = u_excl s ++ map (firstn 15) (args_of 101 ol)
  /\ u_country s' = last (map (map toupper) (args_of 99 ol)) (u_country s)
  /\ u_mif s' = last (map Some (m_interfaces n ol)) (u_mif s)
  /\ u_m4 s' = last (map (n_pton4 n) (m_v4 n ol)) (u_m4 s)
  /\ u_m6 s' = last (map (n_pton6 n) (m_v6 n ol)) (u_m6 s).
Proof.
  induction ol as [|[x arg] ol IH]; intros s s' H; cbn [opt_loop] in H.
  - injection H as <-. cbn. rewrite app_nil_r. repeat split.
  - destruct (opt_step n s x arg) as [s1|] eqn:E; cbn [obind] in H; [|discriminate H].
    apply step_facts in E as [_ (_ & _ & F1 & F2 & F3 & F4 & F5 & F6 & F7)].
    destruct (IH _ _ H) as (H1 & H2 & H3 & H4 & H5 & H6 & H7).
    unfold m_interfaces, m_v4, m_v6 in *.
    rewrite !(args_cons _ x arg ol), !filter_app, !map_app, !last_app, <- F1, <- F2, <- F4, <- F5, <- F6, <- F7, app_assoc, <- F3.
    repeat split; assumption.
Qed.

Lemma given_cons xs x arg ol : given xs ((x, arg) :: ol) = existsb (Z.eqb x) xs || given xs ol.
Proof. reflexivity. Qed.
Lemma given_app xs ys ol : given (xs ++ ys) ol = given xs ol || given ys ol.
Proof.
  induction ol as [|[x a] ol IH]; [reflexivity|]. rewrite !given_cons, IH, existsb_app.
  destruct (existsb (Z.eqb x) xs), (existsb (Z.eqb x) ys), (given xs ol); reflexivity.
Qed.
Lemma bit_step n s x arg s' i : opt_step n s x arg = Some s' -> 0 <= i ->
  Z.testbit (u_opts s') i = (Z.testbit (u_opts s) i || Z.testbit (sets x) i) && negb (Z.testbit (clears x) i).
Proof.
  intros H Hi. apply step_facts in H as [_ (-> & _)]. rewrite Z.land_spec, Z.lor_spec, Z.lnot_spec by assumption. reflexivity.
Qed.
Definition check_on (i : Z) (xs : list Z) : bool :=
  forallb (fun x => Bool.eqb (Z.testbit (sets x) i) (existsb (Z.eqb x) xs) && negb (Z.testbit (clears x) i)) codes.
Definition check_off (i : Z) (xs : list Z) : bool :=
  forallb (fun x => Bool.eqb (Z.testbit (clears x) i) (existsb (Z.eqb x) xs) && negb (Z.testbit (sets x) i)) codes.
Lemma loop_on n i xs : 0 <= i -> check_on i xs = true -> forall ol s s', opt_loop n s ol = Some s' ->
  Z.testbit (u_opts s') i = Z.testbit (u_opts s) i || given xs ol.
Proof.
  intros Hi Hc. unfold check_on in Hc. rewrite forallb_forall in Hc.
  induction ol as [|[x arg] ol IH]; intros s s' H; cbn [opt_loop] in H.
  - injection H as <-. now rewrite orb_false_r.
  - destruct (opt_step n s x arg) as [s1|] eqn:E; cbn [obind] in H; [|discriminate H].
    rewrite (IH _ _ H), given_cons, (bit_step _ _ _ _ _ i E Hi).
    apply step_codes in E. specialize (Hc x E). apply andb_prop in Hc as [H1 H2]. apply Bool.eqb_prop in H1. rewrite H1, H2, andb_true_r.
    now rewrite orb_assoc.
Qed.
Lemma loop_off n i xs : 0 <= i -> check_off i xs = true -> forall ol s s', opt_loop n s ol = Some s' ->
  Z.testbit (u_opts s') i = Z.testbit (u_opts s) i && negb (given xs ol).
Proof.
  intros Hi Hc. unfold check_off in Hc. rewrite forallb_forall in Hc.
  induction ol as [|[x arg] ol IH]; intros s s' H; cbn [opt_loop] in H.
  - injection H as <-. now rewrite andb_true_r.
  - destruct (opt_step n s x arg) as [s1|] eqn:E; cbn [obind] in H; [|discriminate H].
    rewrite (IH _ _ H), given_cons, (bit_step _ _ _ _ _ i E Hi).
    apply step_codes in E. specialize (Hc x E). apply andb_prop in Hc as [H1 H2]. apply Bool.eqb_prop in H1. rewrite H1.
    apply Bool.negb_true_iff in H2. rewrite H2, orb_false_r. destruct (existsb _ xs), (given xs ol), (Z.testbit (u_opts s) i); reflexivity.
Qed.
Lemma loop_enabled n : forall ol s s', opt_loop n s ol = Some s' -> length (u_enabled s) = 6%nat ->
  length (u_enabled s') = 6%nat
  /\ (forall i x, In (i, x) protocol_letters -> nth i (u_enabled s') false = nth i (u_enabled s) false || given [x] ol)
  /\ nth 5 (u_enabled s') false = nth 5 (u_enabled s) false.
Proof.
  induction ol as [|[x arg] ol IH]; intros s s' H L; cbn [opt_loop] in H.
  - injection H as <-. split; [assumption|]. split; [|reflexivity]. intros i x _. now rewrite orb_false_r.
  - destruct (opt_step n s x arg) as [s1|] eqn:E; cbn [obind] in H; [|discriminate H].
    pose proof (step_codes _ _ _ _ _ E) as Hc. apply step_facts in E as [_ (_ & F & _)].
    destruct (u_enabled s) as [|e0 [|e1 [|e2 [|e3 [|e4 [|e5 [|]]]]]]]; try discriminate L.
    assert (G : length (u_enabled s1) = 6%nat
      /\ (forall i y, In (i, y) protocol_letters -> nth i (u_enabled s1) false = nth i [e0; e1; e2; e3; e4; e5] false || (x =? y))
      /\ nth 5 (u_enabled s1) false = e5).
    { rewrite F. clear -Hc. unfold is_code, codes in Hc.
      repeat (destruct Hc as [<-|Hc]); [..|destruct Hc]; cbn; (split; [reflexivity|]); (split; [|reflexivity]);
        intros i y [K|[K|[K|[K|[K|[]]]]]]; injection K as <- <-; cbn; now rewrite ?orb_false_r, ?orb_true_r. }
    destruct G as (G1 & G2 & G3). destruct (IH _ _ H G1) as (H1 & H2 & H3). split; [assumption|]. split; [|now rewrite H3].
    intros i y Hy. rewrite (H2 i y Hy), (G2 i y Hy), given_cons. cbn [existsb]. now rewrite orb_false_r, orb_assoc.
Qed.

(** The whole command line. *)
Lemma opts_split n ol ops s : main_opts n ol ops = Some s ->
  exists s1, opt_loop n setup0 ol = Some s1 /\ s = (match ops with [] => s1 | _ => set_opts s1 (Z.lor (u_opts s1) OPT_ARGV) end).
Proof.
  unfold main_opts. destruct (opt_loop n setup0 ol) as [s1|]; cbn [obind]; [|discriminate]. intros H. exists s1. split; [reflexivity|].
  destruct (negb _ && _); [discriminate H|]. now injection H.
Qed.
Lemma argv_fields (ops : list (list Z)) s1 : let s := (match ops with [] => s1 | _ => set_opts s1 (Z.lor (u_opts s1) OPT_ARGV) end) in
  (u_user s, u_excl s, u_mif s, u_m4 s, u_m6 s, u_country s, u_location s, u_enabled s)
  = (u_user s1, u_excl s1, u_mif s1, u_m4 s1, u_m6 s1, u_country s1, u_location s1, u_enabled s1)
  /\ u_opts s = Z.lor (u_opts s1) (match ops with [] => 0 | _ => 32 end).
Proof. destruct ops, s1; cbn; [rewrite Z.lor_0_r|]; now split. Qed.
Lemma argv_bit (ops : list (list Z)) i : 0 <= i -> i <> 5 -> Z.testbit (match ops with [] => 0 | _ => 32 end) i = false.
Proof.
  intros Hi N. destruct ops; [apply Z.bits_0|]. change 32 with (2 ^ 5). apply Z.pow2_bits_false. lia.
Qed.
Theorem opts_switches n ol ops s : main_opts n ol ops = Some s ->
  (forall b xs, In (b, xs) switched_on -> has (u_opts s) b = given xs ol)
  /\ (forall b xs, In (b, xs) switched_off -> has (u_opts s) b = negb (given xs ol))
  /\ (has (u_opts s) OPT_ARGV = true <-> ops <> [])
  /\ (forall i x, In (i, x) protocol_letters -> nth i (u_enabled s) false = given [x] ol)
  /\ nth 5 (u_enabled s) false = false.
Proof.
  intros H. apply opts_split in H as (s1 & H & Es). destruct (argv_fields ops s1) as [A1 A2]. rewrite <- Es in A1, A2.
  injection A1 as _ _ _ _ _ _ _ A1. destruct (loop_enabled n ol _ _ H eq_refl) as (_ & L1 & L2).
  split; [|split; [|split; [|split]]].
  - assert (K : forall i xs, 0 <= i -> i <> 5 -> check_on i xs = true -> Z.testbit 3 i = false -> has (u_opts s) (2 ^ i) = given xs ol).
    { intros i xs Hi N C Z0. rewrite has_bit by assumption. rewrite A2, Z.lor_spec, argv_bit, orb_false_r by assumption.
      rewrite (loop_on n i xs Hi C ol _ _ H). cbn [setup0 u_opts]. change (Z.lor OPT_DAEMON OPT_SEND) with 3. now rewrite Z0. }
    intros b xs Hin. unfold switched_on in Hin.
    repeat (destruct Hin as [Hin|Hin]; [injection Hin as <- <-|]); [..|destruct Hin].
    + now apply (K 3). + now apply (K 2). + now apply (K 4). + now apply (K 6). + now apply (K 7). + now apply (K 8).
    + now apply (K 9). + now apply (K 10). + now apply (K 11). + now apply (K 12). + now apply (K 13).
  - assert (K : forall i xs, 0 <= i -> i <> 5 -> check_off i xs = true -> Z.testbit 3 i = true -> has (u_opts s) (2 ^ i) = negb (given xs ol)).
    { intros i xs Hi N C Z0. rewrite has_bit by assumption. rewrite A2, Z.lor_spec, argv_bit, orb_false_r by assumption.
      rewrite (loop_off n i xs Hi C ol _ _ H). cbn [setup0 u_opts]. change (Z.lor OPT_DAEMON OPT_SEND) with 3. now rewrite Z0. }
    intros b xs Hin. unfold switched_off in Hin.
    repeat (destruct Hin as [Hin|Hin]; [injection Hin as <- <-|]); [..|destruct Hin].
    + now apply (K 0). + now apply (K 1).
  - change OPT_ARGV with (2 ^ 5). rewrite has_bit by lia. rewrite A2, Z.lor_spec.
    assert (Z.testbit (u_opts s1) 5 = false) as ->.
    { rewrite (loop_on n 5 [] ltac:(lia) eq_refl ol _ _ H). unfold given. cbn [setup0 u_opts]. change (Z.testbit (Z.lor OPT_DAEMON OPT_SEND) 5) with false.
      cbn [orb]. clear. induction ol as [|[x a] ol IH]; [reflexivity|]. cbn. exact IH. }
    destruct ops; cbn [orb].
    + rewrite Z.bits_0. split; [discriminate|]. intros K. now destruct K.
    + split; [discriminate|reflexivity].
  - intros i x Hin. rewrite A1, (L1 i x Hin). unfold setup0. cbn [u_enabled].
    repeat (destruct Hin as [Hin|Hin]; [injection Hin as <- <-; reflexivity|]). destruct Hin.
  - rewrite A1, L2. reflexivity.
Qed.
Theorem opts_refused n ol ops : main_opts n ol ops = None <->
  (exists x arg, In (x, arg) ol /\ bad_option n x arg) \/ given (bs "aLCEFN") ol = false.
Proof.
  unfold main_opts. pose proof (loop_refuses n ol setup0) as R. destruct (opt_loop n setup0 ol) as [s1|] eqn:E; cbn [obind].
  2:{ split; [intros _; left; now apply R|reflexivity]. }
  assert (NR : ~ exists x arg, In (x, arg) ol /\ bad_option n x arg) by (intros B; apply R in B; discriminate B).
  set (s := match ops with [] => s1 | _ => _ end). destruct (argv_fields ops s1) as [A1 A2]. fold s in A1, A2.
  injection A1 as _ _ _ _ _ _ _ A1. destruct (loop_enabled n ol _ _ E eq_refl) as (L0 & L1 & L2).
  assert (Ha : has (u_opts s) OPT_AUTO = given [97] ol).
  { change OPT_AUTO with (2 ^ 3). rewrite has_bit by lia. rewrite A2, Z.lor_spec, argv_bit, orb_false_r by lia.
    rewrite (loop_on n 3 [97] ltac:(lia) eq_refl ol _ _ E). reflexivity. }
  assert (He : existsb (fun b => b) (u_enabled s) = given [76] ol || given [67] ol || given [69] ol || given [70] ol || given [78] ol).
  { rewrite A1. assert (N : forall i x, In (i, x) protocol_letters -> nth i (u_enabled s1) false = given [x] ol).
    { intros i x Hin. rewrite (L1 i x Hin). unfold setup0. cbn [u_enabled].
      repeat (destruct Hin as [Hin|Hin]; [injection Hin as <- <-; reflexivity|]). destruct Hin. }
    destruct (u_enabled s1) as [|e0 [|e1 [|e2 [|e3 [|e4 [|e5 [|]]]]]]]; try discriminate L0.
    rewrite <- (N 0%nat 76), <- (N 1%nat 67), <- (N 2%nat 69), <- (N 3%nat 70), <- (N 4%nat 78) by (cbn; tauto).
    cbn in L2 |- *. rewrite L2. now rewrite !orb_false_r, !orb_assoc. }
  assert (Hg : given (bs "aLCEFN") ol = given [97] ol || (given [76] ol || given [67] ol || given [69] ol || given [70] ol || given [78] ol)).
  { change (bs "aLCEFN") with ([97] ++ [76] ++ [67] ++ [69] ++ [70] ++ [78]). rewrite !given_app. now rewrite !orb_assoc. }
  rewrite Ha, He, Hg. destruct (given [97] ol); cbn [negb andb orb].
  - split; [discriminate|]. intros [B|B]; [contradiction|discriminate B].
  - destruct (given [76] ol || _ || _ || _ || _); cbn [negb].
    + split; [discriminate|]. intros [B|B]; [contradiction|discriminate B].
    + split; [intros _; now right|reflexivity].
Qed.
Lemma toupper_capital b : capital b (toupper b).
Proof. unfold capital, toupper. destruct ((97 <=? b) && (b <=? 122)) eqn:E; [left|right]; lia. Qed.
Lemma last_map A B (f : A -> B) l d : last (map f l) (f d) = f (last l d).
Proof. revert d. induction l as [|x l IH]; intros d; [reflexivity|]. cbn [map]. rewrite !last_cons. apply IH. Qed.
Theorem opts_values n ol ops s : main_opts n ol ops = Some s ->
  u_user s = last (args_of 117 ol) (bs "ladvd")
  /\ u_location s = firstn 255 (last (args_of 108 ol) [])
  /\ u_excl s = map (firstn 15) (args_of 101 ol)
  /\ Forall2 capital (last (args_of 99 ol) []) (u_country s)
  /\ (args_of 99 ol <> [] -> zlen (u_country s) = 2)
  /\ u_mif s = last (map Some (m_interfaces n ol)) None
  /\ u_m4 s = last (map (n_pton4 n) (m_v4 n ol)) None
  /\ u_m6 s = last (map (n_pton6 n) (m_v6 n ol)) None.
Proof.
  intros H. apply opts_split in H as (s1 & H & Es). destruct (argv_fields ops s1) as [A1 _]. rewrite <- Es in A1.
  injection A1 as -> -> -> -> -> -> -> _.
  pose proof (loop_refuses n ol setup0) as R. rewrite H in R.
  destruct (loop_values n ol _ _ H) as (-> & -> & -> & -> & -> & -> & ->). cbn [setup0 u_user u_location u_excl u_country u_mif u_m4 u_m6].
  split; [reflexivity|]. split; [apply (last_map _ _ (firstn 255) _ [])|]. split; [reflexivity|].
  assert (Lm : last (map (map toupper) (args_of 99 ol)) [] = map toupper (last (args_of 99 ol) [])) by apply (last_map _ _ (map toupper) (args_of 99 ol) []).
  rewrite Lm.
  split; [|split; [|repeat split]].
  - clear. induction (last (args_of 99 ol) []) as [|b l IH]; [constructor|]. cbn [map]. constructor; [apply toupper_capital|assumption].
  - intros N. assert (I : In (99, last (args_of 99 ol) []) ol).
    { assert (In (last (args_of 99 ol) []) (args_of 99 ol)) as I.
      { destruct (args_of 99 ol) as [|a l] using rev_ind; [now destruct N|]. rewrite last_last. apply in_or_app. right. now left. }
      unfold args_of at 2 in I. apply in_map_iff in I as ([y a] & E1 & E2). cbn in E1. apply filter_In in E2 as [E2 E3].
      assert (y = 99) as -> by lia. now rewrite <- E1. }
    unfold zlen. rewrite map_length. fold (zlen (last (args_of 99 ol) [])).
    destruct (Z.eq_dec (zlen (last (args_of 99 ol) [])) 2) as [?|B]; [assumption|]. exfalso.
    assert (None = Some s1 -> False) as X by discriminate. apply X. symmetry. apply R. exists 99, (last (args_of 99 ol) []).
    split; [assumption|]. right. right. right. left. now split.
Qed.
Theorem opts_implied n ol ops s : main_opts n ol ops = Some s ->
  (has (u_opts s) OPT_AUTO = true \/ In true (u_enabled s))
  /\ (has (u_opts s) OPT_AUTO = true -> has (u_opts s) OPT_RECV = true)
  /\ (has (u_opts s) OPT_IFDESCR = true -> has (u_opts s) OPT_RECV = true)
  /\ (has (u_opts s) OPT_USEDESCR = true -> has (u_opts s) OPT_IFDESCR = true)
  /\ (has (u_opts s) OPT_DEBUG = true -> has (u_opts s) OPT_DAEMON = false).
Proof.
  intros H. destruct (opts_switches n ol ops s H) as (H1 & H2 & _).
  assert (A : has (u_opts s) OPT_AUTO = given (bs "a") ol) by (apply H1; cbn; tauto).
  assert (R : has (u_opts s) OPT_RECV = given (bs "aryz") ol) by (apply H1; cbn; tauto).
  assert (I : has (u_opts s) OPT_IFDESCR = given (bs "yz") ol) by (apply H1; cbn; tauto).
  assert (U : has (u_opts s) OPT_USEDESCR = given (bs "y") ol) by (apply H1; cbn; tauto).
  assert (D : has (u_opts s) OPT_DEBUG = given (bs "d") ol) by (apply H1; cbn; tauto).
  assert (Dm : has (u_opts s) OPT_DAEMON = negb (given (bs "df") ol)) by (apply H2; cbn; tauto).
  split.
  { clear -H. unfold main_opts in H. destruct (opt_loop n setup0 ol) as [s1|]; cbn [obind] in H; [|discriminate H].
    set (s2 := match ops with [] => s1 | _ => _ end) in H. destruct (has (u_opts s2) OPT_AUTO) eqn:E; cbn [negb andb] in H.
    - injection H as <-. now left.
    - destruct (existsb (fun b => b) (u_enabled s2)) eqn:E2; cbn [negb] in H; [|discriminate H]. injection H as <-.
      right. apply existsb_exists in E2 as (b & Hb & ->). exact Hb. }
  rewrite A, R, I, U, D, Dm.
  change (bs "aryz") with (bs "a" ++ [114] ++ bs "yz"). change (bs "yz") with (bs "y" ++ [122]).
  change (bs "df") with (bs "d" ++ [102]). rewrite !given_app.
  repeat split; intros ->; rewrite ?orb_true_r; reflexivity.
Qed.
