(** Port names, the number of peers and interface descriptions. *)
From Verif Require Import Base Types Tlv Wire Util Child Spec SpecAdv SpecChild
  Lemmas VisProps ChildProofs DecCdp2.

(** ** Port names *)
Lemma F2_length {A B} (R : A -> B -> Prop) a b : Forall2 R a b -> length a = length b.
Proof. induction 1; cbn; congruence. Qed.
Lemma prefix_iff p s : prefix p s = true <-> exists r, s = p ++ r.
Proof.
  revert s. induction p as [|a p IH]; intros s; cbn.
  - split; [now exists s|easy].
  - destruct s as [|b s]; [split; [discriminate|now intros [r Hr]]|].
    rewrite andb_true_iff, IH. split.
    + intros [E [r ->]]. exists r. now replace b with a by lia.
    + intros [r [= -> ->]]. split; [lia|now exists r].
Qed.
Lemma lower_letter a b : 97 <= b <= 122 -> (b = lower a <-> same_letter a b).
Proof.
  intros Hb. unfold lower, same_letter. destruct (_ && _) eqn:E; [|]; lia.
Qed.
Lemma casefold_iff p s : Forall (fun b => 97 <= b <= 122) p ->
  prefix p (map lower s) = true <-> exists w r, s = w ++ r /\ Forall2 same_letter w p.
Proof.
  revert s. induction p as [|a p IH]; intros s Hp; cbn.
  - split; [intros _; exists [], s; now split|easy].
  - inversion Hp as [|? ? Ha Hp']; subst. destruct s as [|b s]; cbn.
    + split; [discriminate|]. intros (w & r & E & H). inversion H; subst. discriminate.
    + rewrite andb_true_iff, (IH s Hp'). split.
      * intros [E (w & r & -> & H)]. exists (b :: w), r. split; [reflexivity|]. constructor; [|exact H].
        apply lower_letter; lia.
      * intros (w & r & E & H). inversion H as [|x y w' p' Hx Hw]; subst. injection E as -> ->.
        apply lower_letter in Hx; [|assumption]. split; [lia|]. exists w', r. now split.
Qed.
Lemma eth_letters : Forall (fun b => 97 <= b <= 122) (bs "ethernet").
Proof. cbn. repeat (apply Forall_cons; [lia|]). apply Forall_nil. Qed.

Lemma abbr_short s : short_port s (portname_abbr s).
Proof.
  unfold portname_abbr.
  destruct (prefix (bs "FastEthernet") s) eqn:E1.
  { apply prefix_iff in E1 as [r ->]. apply short_fa. }
  destruct (prefix (bs "GigabitEthernet") s) eqn:E2.
  { apply prefix_iff in E2 as [r ->]. apply short_gi. }
  destruct (prefix (bs "TenGigabitEthernet") s) eqn:E3.
  { apply prefix_iff in E3 as [r ->]. apply short_te. }
  destruct (prefix (bs "ethernet") (map lower s)) eqn:E4.
  { apply casefold_iff in E4 as (w & r & -> & H); [|apply eth_letters].
    inversion H as [|a ? w1 ? Ha H1]; subst. inversion H1 as [|b ? w2 ? Hb H2]; subst.
    inversion H2 as [|c ? d ? Hc H3]; subst.
    pose proof (F2_length _ _ _ H3) as L. cbn in L.
    change ((a :: b :: c :: d) ++ r) with ([a; b; c] ++ d ++ r).
    replace (firstn 3 ([a; b; c] ++ d ++ r) ++ skipn 8 ([a; b; c] ++ d ++ r)) with ([a; b; c] ++ r).
    - now apply short_eth.
    - change (skipn 8 ([a; b; c] ++ d ++ r)) with (skipn 5 (d ++ r)).
      rewrite skipn_app, <- L, skipn_all, Nat.sub_diag. reflexivity. }
  assert (N : forall p, prefix p s = false -> forall r, s <> p ++ r).
  { intros p E r K. enough (prefix p s = true) by congruence. apply prefix_iff. now exists r. }
  apply short_other; [now apply N|now apply N|now apply N|].
  intros w r H K. enough (prefix (bs "ethernet") (map lower s) = true) by congruence.
  apply casefold_iff; [apply eth_letters|now exists w, r].
Qed.
Lemma short_abbr s r : short_port s r -> portname_abbr s = r.
Proof.
  destruct 1 as [r|r|r|a b c d r H|s N1 N2 N3 N4]; try reflexivity.
  - assert (C : prefix (bs "ethernet") (map lower ([a; b; c] ++ d ++ r)) = true).
    { apply casefold_iff; [apply eth_letters|]. exists ([a; b; c] ++ d), r. split; [|exact H].
      now rewrite app_assoc. }
    inversion H as [|? ? ? ? Ha H1]; subst. inversion H1 as [|? ? ? ? Hb H2]; subst.
    inversion H2 as [|? ? ? ? Hc H3]; subst. pose proof (F2_length _ _ _ H3) as L. cbn in L.
    assert (A : a = 69 \/ a = 101) by (destruct Ha; lia).
    assert (P : forall x p, x <> 69 -> x <> 101 -> prefix (x :: p) ([a; b; c] ++ d ++ r) = false).
    { intros x p X1 X2. cbn. replace (x =? a) with false by lia. reflexivity. }
    unfold portname_abbr. rewrite C.
    change (bs "FastEthernet") with (70 :: bs "astEthernet"). rewrite P by lia.
    change (bs "GigabitEthernet") with (71 :: bs "igabitEthernet"). rewrite P by lia.
    change (bs "TenGigabitEthernet") with (84 :: bs "enGigabitEthernet"). rewrite P by lia.
    change (skipn 8 ([a; b; c] ++ d ++ r)) with (skipn 5 (d ++ r)).
    rewrite skipn_app, <- L, skipn_all, Nat.sub_diag. reflexivity.
  - assert (N : forall p, (forall r, s <> p ++ r) -> prefix p s = false).
    { intros p Hp. destruct (prefix p s) eqn:E; [|reflexivity]. apply prefix_iff in E as [r E]. now contradiction (Hp r). }
    unfold portname_abbr. rewrite !N by assumption.
    destruct (prefix (bs "ethernet") (map lower s)) eqn:E; [|reflexivity].
    apply casefold_iff in E as (w & r & E & H); [|apply eth_letters]. now contradiction (N4 w r).
Qed.
Lemma abbr_iff s r : portname_abbr s = r <-> short_port s r.
Proof. split; [intros <-; apply abbr_short|apply short_abbr]. Qed.
Lemma abbr_length s : zlen (portname_abbr s) <= zlen s.
Proof.
  destruct (abbr_short s); cbn [bs app]; zl; try lia.
  all: pose proof (zlen_nonneg _ d); lia.
Qed.

(** ** Counting neighbours *)
Definition leq (a b : list Z) : {a = b} + {a <> b} := list_eq_dec Z.eq_dec a b.
Fixpoint runs (prev : list Z) (l : list (list Z)) : Z :=
  match l with
  | [] => 0
  | x :: l' => (if leq prev x then 0 else 1) + runs x l'
  end.
Lemma runs_nonneg l : forall prev, 0 <= runs prev l <= zlen l.
Proof.
  induction l as [|x l IH]; intros prev; cbn [runs]; zl; [lia|]. specialize (IH x). destruct (leq prev x); lia.
Qed.
Lemma runs_rest : forall l prev, grouped l -> (~ In prev l \/ exists l', l = prev :: l') ->
  exists u, NoDup u /\ (forall x, In x u <-> In x l /\ x <> prev) /\ zlen u = runs prev l.
Proof.
  induction l as [|x l IH]; intros prev Hg Hp; cbn [runs].
  - exists []. split; [constructor|]. split; [cbn; tauto|reflexivity].
  - inversion Hg as [|? ? Hg' Hx]; subst. destruct (IH x Hg' Hx) as (u & Hu & Hin & Hl).
    destruct (leq prev x) as [->|N].
    + exists u. split; [assumption|]. split; [|lia]. intros y. rewrite Hin. cbn. split; [tauto|].
      intros [[->|H] K]; tauto.
    + assert (Hn : ~ In prev l).
      { destruct Hp as [Hp|[l' [= -> _]]]; [|congruence]. intros K. apply Hp. now right. }
      exists (x :: u). split; [|split].
      * constructor; [|assumption]. intros K. apply Hin in K. tauto.
      * intros y. cbn. rewrite Hin. split.
        -- intros [<-|[H K]]; [split; [now left|congruence]|]. split; [now right|]. intros ->. contradiction.
        -- intros [[->|H] K]; [now left|]. destruct (leq x y) as [->|M]; [now left|]. right. split; [assumption|congruence].
      * zl. lia.
Qed.
Lemma runs_distinct l prev : grouped l -> hd_error l <> Some prev -> distinct l (runs prev l).
Proof.
  intros Hg Hh. destruct l as [|x l].
  - exists []. split; [constructor|]. split; [easy|reflexivity].
  - inversion Hg as [|? ? Hg' Hx]; subst. destruct (runs_rest l x Hg' Hx) as (u & Hu & Hin & Hl).
    cbn in Hh. exists (x :: u). split; [|split].
    + constructor; [|assumption]. intros K. apply Hin in K. tauto.
    + intros y. cbn. rewrite Hin. destruct (leq x y) as [->|N]; [tauto|]. split; [tauto|].
      intros [K|K]; [now left|]. right. split; [assumption|congruence].
    + cbn [runs]. destruct (leq prev x) as [->|]; [congruence|]. zl. lia.
Qed.
Lemma distinct_fun {A} (l : list A) n m : distinct l n -> distinct l m -> n = m.
Proof.
  intros (u & Hu & Iu & <-) (v & Hv & Iv & <-).
  assert (I1 : incl u v) by (intros x Hx; now apply Iv, Iu).
  assert (I2 : incl v u) by (intros x Hx; now apply Iu, Iv).
  apply NoDup_incl_length in I1; [|assumption]. apply NoDup_incl_length in I2; [|assumption].
  unfold zlen. lia.
Qed.
Lemma sources_grouped i q : grouped (map pk q) -> grouped (sources i q).
Proof.
  intros H. unfold sources. apply (filter_grouped pk (fun e => q_index e =? i)) in H.
  assert (A : Forall (fun e => q_index e = i) (filter (fun e => q_index e =? i) q)).
  { apply Forall_forall. intros e He. apply filter_In in He as [_ He]. lia. }
  revert H A. generalize (filter (fun e => q_index e =? i) q). clear q.
  induction l as [|e l IH]; intros H A; [constructor|]. apply grouped_inv in H as [H Hs].
  inversion A as [|? ? Ae Al]; subst. cbn [map]. constructor; [now apply IH|].
  destruct Hs as [Hs|(y & l' & -> & Ey)].
  - left. intros K. apply Hs. apply in_map_iff in K as (z & Ez & Hz). apply in_map_iff. exists z.
    split; [|assumption]. unfold pk. rewrite Forall_forall in Al. rewrite (Al z Hz), Ez. reflexivity.
  - right. unfold pk in Ey. injection Ey as _ Ey. exists (map source l'). cbn [map]. now rewrite Ey.
Qed.

(** ** The scan *)
Lemma first_attr_cons slot i e q : first_attr slot i (e :: q) =
  if q_index e =? i then match nth slot (q_peer e) None with Some s => Some s | None => first_attr slot i q end
  else first_attr slot i q.
Proof.
  unfold first_attr. cbn [filter]. destruct (q_index e =? i); [|reflexivity]. cbn [flat_map].
  now destruct (nth slot (q_peer e) None).
Qed.
Lemma sources_cons i e q : sources i (e :: q) = if q_index e =? i then source e :: sources i q else sources i q.
Proof. unfold sources. cbn [filter]. now destruct (q_index e =? i). Qed.
Lemma scan_parts i slot : forall q d, 0 <= ds_peers d < 65536 ->
  let r := fold_left (descr_step i slot) q d in
  ds_peer r = match ds_peer d with Some p => Some p | None => option_map upto_dot (first_attr 0 i q) end
  /\ ds_suffix r = match ds_suffix d with Some p => Some p | None => first_attr (Z.to_nat slot) i q end
  /\ ds_peers r = (ds_peers d + runs (ds_paddr d) (sources i q)) mod 65536.
Proof.
  induction q as [|e q IH]; intros d Hd; cbn [fold_left].
  - cbn. split; [now destruct (ds_peer d)|]. split; [now destruct (ds_suffix d)|]. rewrite Z.add_0_r, Z.mod_small; lia.
  - rewrite !first_attr_cons, sources_cons.
    assert (E : (i =? q_index e) = (q_index e =? i)) by apply Z.eqb_sym.
    destruct (IH (descr_step i slot d e)) as (I1 & I2 & I3).
    { unfold descr_step. destruct (negb _); [assumption|]. destruct (beq _ _); cbn [ds_peers]; lia. }
    cbv zeta in *. rewrite I1, I2, I3. clear I1 I2 I3 IH. unfold descr_step. rewrite E.
    destruct (q_index e =? i); cbn [negb]; [|now repeat split].
    change (nth (Z.to_nat PEER_HOSTNAME) (q_peer e) None) with (nth 0 (q_peer e) None).
    split; [|split].
    + destruct (beq _ _); cbn [ds_peer]; destruct (ds_peer d), (nth 0 (q_peer e) None); reflexivity.
    + destruct (beq _ _); cbn [ds_suffix]; destruct (ds_suffix d), (nth (Z.to_nat slot) (q_peer e) None); reflexivity.
    + cbn [runs]. change (q_src e) with (source e). destruct (beq (ds_paddr d) (source e)) eqn:B; cbn [ds_peers ds_paddr].
      * apply beq_true in B. rewrite <- B. destruct (leq (ds_paddr d) (ds_paddr d)); [|congruence]. f_equal.
      * destruct (leq (ds_paddr d) (source e)) as [K|_]; [rewrite K, beq_refl in B; discriminate|].
        rewrite Z.add_mod_idemp_l by lia. f_equal. lia.
Qed.
Lemma dot_short h : short_host h (upto_dot h).
Proof.
  induction h as [|b h IH]; [split; [easy|now left]|]. cbn [upto_dot]. destruct (b =? 46) eqn:E.
  - split; [easy|]. right. exists h. cbn. f_equal. lia.
  - destruct IH as [I1 I2]. split.
    + cbn. intros [K|K]; [lia|contradiction].
    + destruct I2 as [I2|[dm I2]]; [left; now f_equal|]. right. exists dm. cbn. now f_equal.
Qed.
Lemma digits_len base f : forall n acc, zlen (digits base f n acc) <= Z.of_nat f + zlen acc.
Proof.
  induction f as [|f IH]; intros n acc; cbn [digits]; [lia|].
  destruct (n / base =? 0); [zl; pose proof (zlen_nonneg _ acc); lia|].
  eapply Z.le_trans; [apply IH|]. zl. lia.
Qed.
Lemma usedescr_bit opts : has opts OPT_USEDESCR = Z.testbit opts 12.
Proof.
  unfold has, OPT_USEDESCR. destruct (Z.testbit opts 12) eqn:E.
  - apply negb_true_iff, Z.eqb_neq. intros K. apply (f_equal (fun z => Z.testbit z 12)) in K.
    rewrite Z.land_spec, E, Z.bits_0 in K. discriminate.
  - apply negb_false_iff, Z.eqb_eq. apply Z.bits_inj'. intros k Hk. rewrite Z.land_spec, Z.bits_0.
    change 4096 with (2 ^ 12). destruct (Z.eq_dec k 12) as [->|N]; [now rewrite E|].
    rewrite Z.pow2_bits_false by lia. apply andb_false_r.
Qed.

(** The number of peers. *)
Lemma peers_count opts i q n : grouped (map pk q) -> hd_error (sources i q) <> Some [0; 0; 0; 0; 0; 0] ->
  distinct (sources i q) n -> ds_peers (descr_scan opts i q) = n mod 65536.
Proof.
  intros Hg Hh Hn. unfold descr_scan. cbv zeta.
  match goal with |- context [fold_left (descr_step i ?s)] => destruct (scan_parts i s q (mkScan None None [0;0;0;0;0;0] 0)) as (_ & _ & E) end;
    [cbn; lia|].
  rewrite E. cbn [ds_peers ds_paddr]. rewrite Z.add_0_l. f_equal.
  eapply distinct_fun; [apply runs_distinct|exact Hn]; [now apply sources_grouped|assumption].
Qed.
(** The text. *)
Lemma descr_describes opts i q n : grouped (map pk q) -> hd_error (sources i q) <> Some [0; 0; 0; 0; 0; 0] ->
  distinct (sources i q) n -> n < 65536 ->
  describes opts i q (descr_text (descr_scan opts i q)).
Proof.
  intros Hg Hh Hn Hlt. pose proof (peers_count opts i q n Hg Hh Hn) as Ep.
  assert (N0 : 0 <= n) by (destruct Hn as (u & _ & _ & <-); apply zlen_nonneg).
  rewrite Z.mod_small in Ep by lia.
  unfold descr_scan in *. cbv zeta in *. rewrite usedescr_bit in *.
  destruct (scan_parts i (if Z.testbit opts 12 then PEER_PORTDESCR else PEER_PORTNAME) q (mkScan None None [0;0;0;0;0;0] 0))
    as (E1 & E2 & _); [cbn; lia|]. cbn [ds_peer ds_suffix] in E1, E2.
  unfold describes. cbv zeta. exists n. split; [exact Hn|].
  assert (Es : Z.to_nat (if Z.testbit opts 12 then PEER_PORTDESCR else PEER_PORTNAME) = if Z.testbit opts 12 then 2%nat else 1%nat)
    by (now destruct (Z.testbit opts 12)).
  rewrite Es in E2. unfold descr_text. rewrite Ep, E1, E2.
  split; [|split].
  - intros ->. reflexivity.
  - intros ->. cbn [Z.eqb Pos.eqb].
    destruct (first_attr 0 i q) as [h|]; cbn [option_map]; [|reflexivity].
    destruct (first_attr _ i q) as [s|].
    + exists (upto_dot h), (portname_abbr s). split; [apply dot_short|]. split; [apply abbr_short|reflexivity].
    + exists (upto_dot h). split; [apply dot_short|reflexivity].
  - intros H1. replace (n =? 0) with false by lia. replace (n =? 1) with false by lia.
    rewrite VisProofs.dec_decimal by lia. apply firstn_all2.
    rewrite <- VisProofs.dec_decimal by lia. pose proof (digits_len 10 20 n []) as L. fold (dec n) in L.
    rewrite !app_length. unfold zlen in L. cbn [length] in *. change (length (bs "connected to ")) with 13%nat.
    change (length (bs " peers")) with 6%nat. lia.
Qed.
Lemma descr_short d : zlen (descr_text d) <= 63.
Proof.
  assert (K : forall l : list Z, zlen (firstn 63 l) <= 63) by (intros l; unfold zlen; rewrite firstn_length; lia).
  unfold descr_text. destruct (_ =? 0); [zl; lia|]. destruct (_ =? 1); [|apply K].
  destruct (ds_peer d), (ds_suffix d); try apply K; zl; lia.
Qed.
