(** Proofs about the texts of addresses. *)
From Verif Require Import Base Types Tlv Spec SpecAddr Lemmas DecProofs.

Definition dig (d : Z) : Z := if d <? 10 then 48 + d else 87 + d.
Lemma digit_dig d : 0 <= d < 16 -> digit (dig d) = Some d.
Proof.
  intros H. unfold digit, dig. destruct (d <? 10) eqn:E.
  - replace ((48 <=? 48 + d) && (48 + d <=? 57)) with true by lia. f_equal. lia.
  - replace ((48 <=? 87 + d) && (87 + d <=? 57)) with false by lia.
    replace ((97 <=? 87 + d) && (87 + d <=? 102)) with true by lia. f_equal. lia.
Qed.
Lemma dig_48 d : 0 <= d < 16 -> (dig d =? 48) = (d =? 0).
Proof. intros H. unfold dig. destruct (d <? 10) eqn:E; lia. Qed.
Lemma value_app base t : forall u acc, value base acc (t ++ u) = match value base acc t with Some v => value base v u | None => None end.
Proof.
  induction t as [|c t IH]; intros u acc; cbn [app value]; [reflexivity|]. destruct (digit c); [|reflexivity].
  destruct (_ <? base); [apply IH|reflexivity].
Qed.
(** Digits of a number. *)
Lemma digits_step base f n acc :
  digits base (S f) n acc = if n / base =? 0 then dig (n mod base) :: acc else digits base f (n / base) (dig (n mod base) :: acc).
Proof. reflexivity. Qed.
Lemma digits_value base : 2 <= base <= 16 -> forall f n acc, (0 < f)%nat -> 0 <= n < base ^ Z.of_nat f ->
  exists t, digits base f n acc = t ++ acc /\ value base 0 t = Some n /\ t <> []
  /\ (match t with c :: _ :: _ => c <> 48 | _ => True end)
  /\ (length t <= f)%nat /\ Forall (fun c => exists d, 0 <= d < base /\ c = dig d) t
  /\ (forall k, 0 < k -> n < base ^ k -> Z.of_nat (length t) <= k)
  /\ (match t with c :: _ => n <> 0 -> c <> 48 | [] => True end).
Proof.
  intros Hb. induction f as [|f IH]; intros n acc Hf Hn; [lia|]. rewrite digits_step.
  assert (Hm : 0 <= n mod base < base) by (apply Z.mod_pos_bound; lia).
  assert (Ed : n = base * (n / base) + n mod base) by (apply Z.div_mod; lia).
  destruct (n / base =? 0) eqn:E.
  - exists [dig (n mod base)]. cbn [app value]. rewrite digit_dig by lia. replace (_ <? base) with true by lia.
    split; [reflexivity|]. split; [f_equal; nia|]. split; [discriminate|]. split; [exact I|]. split; [cbn; lia|].
    split; [repeat constructor; exists (n mod base); split; [lia|reflexivity]|]. split; [intros k Hk _; cbn; lia|].
    intros Hn0. assert (n mod base <> 0) by nia. intros K. apply Z.eqb_eq in K. rewrite dig_48 in K by lia. lia.
  - assert (Hq : 0 <= n / base < base ^ Z.of_nat f).
    { split; [apply Z.div_pos; lia|]. apply Z.div_lt_upper_bound; [lia|].
      replace (base * base ^ Z.of_nat f) with (base ^ Z.of_nat (S f)) by (rewrite Nat2Z.inj_succ, Z.pow_succ_r by lia; reflexivity). lia. }
    assert (Hf' : (0 < f)%nat).
    { destruct f; [|lia]. cbn in Hq. lia. }
    destruct (IH (n / base) (dig (n mod base) :: acc) Hf' Hq) as (t & T1 & T2 & T3 & T4 & T5 & T6 & T7 & T8).
    exists (t ++ [dig (n mod base)]). rewrite T1, <- app_assoc. split; [reflexivity|].
    split. { rewrite value_app, T2. cbn [value]. rewrite digit_dig by lia. replace (_ <? base) with true by lia. f_equal. lia. }
    split; [now destruct t|]. split.
    { destruct t as [|c t]; [now destruct T3|]. cbn [app]. destruct (t ++ [dig (n mod base)]); [exact I|]. apply T8. lia. }
    split; [rewrite app_length; cbn; lia|].
    split; [apply Forall_app; split; [exact T6|]; repeat constructor; exists (n mod base); split; [lia|reflexivity]|].
    split.
    { intros k Hk Hnk. rewrite app_length. cbn [length]. 
      assert (k <> 1) by (intros ->; rewrite Z.pow_1_r in Hnk; rewrite Z.div_small in E; lia).
      specialize (T7 (k - 1) ltac:(lia)). assert (n / base < base ^ (k - 1)); [|lia].
      apply Z.div_lt_upper_bound; [lia|]. replace (base * base ^ (k - 1)) with (base ^ k); [lia|].
      replace k with (Z.succ (k - 1)) at 1 by lia. rewrite Z.pow_succ_r by lia. reflexivity. }
    destruct t as [|c t]; [now destruct T3|]. cbn [app]. intros _. apply T8. lia.
Qed.
Lemma number_of base t n : value base 0 t = Some n -> t <> [] ->
  (match t with c :: _ :: _ => c <> 48 | _ => True end) -> number base t = Some n.
Proof.
  intros V N L. destruct t as [|c [|d t]]; [now destruct N|exact V|]. unfold number. replace (c =? 48) with false by lia. exact V.
Qed.
Definition plain_digits (base : Z) (t : list Z) : Prop := Forall (fun c => exists d, 0 <= d < base /\ c = dig d) t.
Lemma dec_byte n : 0 <= n < 256 -> number 10 (dec n) = Some n /\ plain_digits 10 (dec n) /\ zlen (dec n) <= 3.
Proof.
  intros H. destruct (digits_value 10 ltac:(lia) 20 n [] ltac:(lia)) as (t & T1 & T2 & T3 & T4 & T5 & T6 & T7 & _).
  { change (10 ^ Z.of_nat 20) with 100000000000000000000. lia. }
  unfold dec. rewrite T1, app_nil_r. split; [now apply number_of|]. split; [exact T6|]. apply (T7 3); [lia|]. change (10 ^ 3) with 1000. lia.
Qed.
Lemma hex_word n : 0 <= n < 65536 -> number 16 (hex n) = Some n /\ plain_digits 16 (hex n) /\ zlen (hex n) <= 4 /\ hex n <> [].
Proof.
  intros H. destruct (digits_value 16 ltac:(lia) 16 n [] ltac:(lia)) as (t & T1 & T2 & T3 & T4 & T5 & T6 & T7 & _).
  { change (16 ^ Z.of_nat 16) with 18446744073709551616. lia. }
  unfold hex. rewrite T1, app_nil_r. split; [now apply number_of|]. split; [exact T6|]. split; [|exact T3]. apply (T7 4); [lia|]. change (16 ^ 4) with 65536. lia.
Qed.
Lemma plain_not base t c : plain_digits base t -> base <= 16 -> (c = 46 \/ c = 58) -> ~ In c t.
Proof.
  intros H Hb Hc Hin. unfold plain_digits in H. rewrite Forall_forall in H. destruct (H c Hin) as (d & Hd & E). unfold dig in E.
  destruct (d <? 10) eqn:E1; lia.
Qed.

(** Fields. *)
Fixpoint join (sep : Z) (fs : list (list Z)) : list Z :=
  match fs with
  | [] => []
  | [g] => g
  | g :: fs' => g ++ sep :: join sep fs'
  end.
Lemma fields_one sep g : ~ In sep g -> fields sep g = [g].
Proof.
  induction g as [|c g IH]; intros H; cbn [fields]; [reflexivity|]. replace (c =? sep) with false by (cbn in H; lia).
  rewrite IH; [reflexivity|]. intros K. apply H. now right.
Qed.
Lemma fields_cons sep g t : ~ In sep g -> fields sep (g ++ sep :: t) = g :: fields sep t.
Proof.
  induction g as [|c g IH]; intros H; cbn [app fields]; [now rewrite Z.eqb_refl|]. replace (c =? sep) with false by (cbn in H; lia).
  rewrite IH; [reflexivity|]. intros K. apply H. now right.
Qed.
Lemma fields_join sep fs : fs <> [] -> Forall (fun g => ~ In sep g) fs -> fields sep (join sep fs) = fs.
Proof.
  induction fs as [|g fs IH]; intros Hn H; [now destruct Hn|]. apply Forall_cons_iff in H as [H1 H2]. destruct fs as [|g2 fs].
  - cbn [join]. now apply fields_one.
  - change (join sep (g :: g2 :: fs)) with (g ++ sep :: join sep (g2 :: fs)). rewrite fields_cons by assumption.
    f_equal. apply IH; [discriminate|assumption].
Qed.

(** Dotted quad. *)
Lemma read4_ntop4 a : bytes a -> zlen a = 4 -> read4 (inet_ntop4 a) = Some a /\ zlen (inet_ntop4 a) <= 15.
Proof.
  intros Hb Hl. destruct a as [|a [|b [|c [|d [|? ?]]]]]; try (unfold zlen in Hl; cbn in Hl; lia).
  unfold bytes in Hb. rewrite !Forall_cons_iff in Hb. unfold byte in Hb. destruct Hb as (Ha & Hb & Hc & Hd & _).
  destruct (dec_byte a Ha) as (A1 & A2 & A3). destruct (dec_byte b Hb) as (B1 & B2 & B3).
  destruct (dec_byte c Hc) as (C1 & C2 & C3). destruct (dec_byte d Hd) as (D1 & D2 & D3).
  unfold inet_ntop4. split.
  - unfold read4. change (dec a ++ [46] ++ dec b ++ [46] ++ dec c ++ [46] ++ dec d) with (join 46 [dec a; dec b; dec c; dec d]).
    rewrite fields_join; [|discriminate|repeat constructor; eapply plain_not; eauto; lia].
    cbn [all]. rewrite A1, B1, C1, D1.
    replace ((a <? 256) && (b <? 256) && (c <? 256) && (d <? 256)) with true by lia. reflexivity.
  - rewrite !zlen_app. change (zlen [46]) with 1. lia.
Qed.
(** Ethernet addresses. *)
Lemma octet_hex2 n : 0 <= n < 256 -> octet (hex2 n) = Some n /\ ~ In 58 (hex2 n).
Proof.
  intros H. assert (0 <= n / 16 < 16) by (split; [apply Z.div_pos; lia|apply Z.div_lt_upper_bound; lia]).
  assert (0 <= n mod 16 < 16) by (apply Z.mod_pos_bound; lia).
  change (hex2 n) with [dig ((n / 16) mod 16); dig (n mod 16)]. rewrite (Z.mod_small (n / 16)) by lia. split.
  - unfold octet. change (zlen _ =? 2) with true. cbn [value]. rewrite !digit_dig by lia.
    replace (n / 16 <? 16) with true by lia. replace (n mod 16 <? 16) with true by lia. f_equal. pose proof (Z.div_mod n 16). lia.
  - unfold dig. intros [K|[K|[]]]; [destruct (n / 16 <? 10) eqn:E|destruct (n mod 16 <? 10) eqn:E]; lia.
Qed.
Lemma read802_mac a : bytes a -> zlen a = 6 -> read802 (mac_str a) = Some a /\ zlen (mac_str a) = 17.
Proof.
  intros Hb Hl. destruct a as [|a [|b [|c [|d [|e [|f [|? ?]]]]]]]; try (unfold zlen in Hl; cbn in Hl; lia).
  unfold bytes in Hb. rewrite !Forall_cons_iff in Hb. unfold byte in Hb. destruct Hb as (Ha & Hb & Hc & Hd & He & Hf & _).
  unfold mac_str. split; [|reflexivity]. unfold read802.
  change (hex2 a ++ [58] ++ hex2 b ++ [58] ++ hex2 c ++ [58] ++ hex2 d ++ [58] ++ hex2 e ++ [58] ++ hex2 f)
    with (join 58 [hex2 a; hex2 b; hex2 c; hex2 d; hex2 e; hex2 f]).
  rewrite fields_join; [|discriminate|repeat constructor; now apply octet_hex2].
  cbn [all]. rewrite !(fun n H => proj1 (octet_hex2 n H)) by assumption. reflexivity.
Qed.

(** "::" *)
Lemma cut_skip c u : c <> 58 -> cut (c :: u) = match cut u with Some (l, r) => Some (c :: l, r) | None => None end.
Proof. intros H. cbn [cut]. replace (c =? 58) with false by lia. reflexivity. Qed.
Lemma cut_pass t u : ~ In 58 t -> cut (t ++ u) = match cut u with Some (l, r) => Some (t ++ l, r) | None => None end.
Proof.
  intros H. induction t as [|c t IH]; cbn [app]; [now destruct (cut u) as [[? ?]|]|]. rewrite cut_skip by (cbn in H; lia).
  rewrite IH; [now destruct (cut u) as [[? ?]|]|]. intros K. apply H. now right.
Qed.
Lemma cut_colon u : (forall r, u <> 58 :: r) -> cut (58 :: u) = match cut u with Some (l, r) => Some (58 :: l, r) | None => None end.
Proof.
  intros H. cbn [cut]. change (58 =? 58) with true. cbn [andb]. destruct u as [|d u]; [reflexivity|].
  destruct (d =? 58) eqn:E; [|reflexivity]. exfalso. apply (H u). f_equal. lia.
Qed.
Definition fine (g : list Z) : Prop := g <> [] /\ ~ In 58 g.
Lemma join_head fs u : Forall fine fs -> fs <> [] -> forall r, join 58 fs ++ u <> 58 :: r.
Proof.
  intros H Hn r E. destruct fs as [|g fs]; [now destruct Hn|]. apply Forall_cons_iff in H as [[H1 H2] _].
  destruct g as [|c g]; [now destruct H1|]. destruct fs; cbn in E; injection E as E _; apply H2; now left.
Qed.
Lemma cut_join fs u : Forall fine fs ->
  cut (join 58 fs ++ u) = match cut u with Some (l, r) => Some (join 58 fs ++ l, r) | None => None end.
Proof.
  induction fs as [|g fs IH]; intros H; [cbn [join app]; now destruct (cut u) as [[? ?]|]|].
  apply Forall_cons_iff in H as [[H1 H2] H3]. destruct fs as [|g2 fs]; [now apply cut_pass|].
  change (join 58 (g :: g2 :: fs)) with (g ++ 58 :: join 58 (g2 :: fs)). rewrite <- app_assoc. cbn [app].
  rewrite cut_pass by assumption. rewrite cut_colon by (now apply join_head). rewrite (IH H3).
  destruct (cut u) as [[l r]|]; [|reflexivity]. now rewrite <- app_assoc.
Qed.
Lemma cut_here r : cut ([58; 58] ++ r) = Some ([], r).
Proof. reflexivity. Qed.

(** Runs of zeros. *)
Lemma zrun_nonneg l : 0 <= zrun l <= zlen l.
Proof. induction l as [|w l IH]; cbn [zrun]; [rewrite zlen_nil; lia|]. rewrite zlen_cons. destruct (w =? 0); lia. Qed.
Lemma zrun_split l : l = repeat 0 (Z.to_nat (zrun l)) ++ skipn (Z.to_nat (zrun l)) l.
Proof.
  induction l as [|w l IH]; cbn [zrun]; [reflexivity|]. destruct (w =? 0) eqn:E; [|reflexivity].
  pose proof (zrun_nonneg l). replace (Z.to_nat (1 + zrun l)) with (S (Z.to_nat (zrun l))) by lia. cbn [repeat skipn app].
  replace w with 0 by lia. f_equal. exact IH.
Qed.
Lemma zrun_ge m q : Z.of_nat m <= zrun (repeat 0 m ++ q).
Proof.
  induction m as [|m IH]; [pose proof (zrun_nonneg q); cbn; lia|]. cbn [repeat app zrun]. change (0 =? 0) with true. cbv iota. lia.
Qed.
Lemma skipn_S A (l : list A) : forall k, skipn (S k) l = tl (skipn k l).
Proof. induction l as [|x l IH]; intros [|k]; try reflexivity. cbn [skipn]. apply IH. Qed.
(** [(b, n)] is the first longest run among the positions below [k]. *)
Definition best (ws : list Z) (k : nat) (b n : Z) : Prop :=
  (forall j, (j < k)%nat -> zrun (skipn j ws) <= n /\ (zrun (skipn j ws) = n -> 0 < n -> b <= Z.of_nat j))
  /\ ((b = -1 /\ n = 0) \/ (0 < n /\ 0 <= b /\ zrun (skipn (Z.to_nat b) ws) = n /\ (Z.to_nat b < k)%nat)).
Lemma best_run_ok ws : forall l k b n, l = skipn k ws -> (k <= length ws)%nat -> best ws k b n ->
  let '(b', n') := best_run (Z.of_nat k) l (b, n) in best ws (length ws) b' n'.
Proof.
  induction l as [|w l IH]; intros k b n El Hk H; cbn [best_run].
  - assert (k = length ws); [|subst; exact H]. assert (L : length (skipn k ws) = O) by now rewrite <- El. rewrite skipn_length in L. lia.
  - assert (Lk : (k < length ws)%nat).
    { assert (L : length (skipn k ws) = S (length l)) by now rewrite <- El. rewrite skipn_length in L. lia. }
    assert (El' : l = skipn (S k) ws).
    { rewrite skipn_S, <- El. reflexivity. }
    cbn [snd]. replace (Z.of_nat k + 1) with (Z.of_nat (S k)) by lia. destruct H as [H1 H2].
    destruct (n <? zrun (w :: l)) eqn:E.
    + apply IH; [exact El'|lia|]. split.
      * intros j Hj. destruct (Nat.eq_dec j k) as [->|Hn]; [rewrite <- El; split; [lia|]; intros _ _; lia|].
        destruct (H1 j ltac:(lia)) as [H3 H4]. split; [lia|]. lia.
      * right. destruct H2 as [[-> ->]|(H2 & _)]; (split; [lia|]; split; [lia|]; rewrite Nat2Z.id; split; [now rewrite <- El|lia]).
    + apply IH; [exact El'|lia|]. split; [|destruct H2 as [H2|(H3 & H4 & H5 & H6)]; [now left|right; repeat split; try assumption; lia]]. intros j Hj. destruct (Nat.eq_dec j k) as [->|Hn].
      * rewrite <- El. split; [lia|]. intros _ _. destruct H2 as [[-> ->]|(H3 & H4 & H5 & H6)]; [lia|].
        lia.
      * apply H1. lia.
Qed.
Lemma best_of ws : let '(b, n) := best_run 0 ws (-1, 0) in best ws (length ws) b n.
Proof.
  apply (best_run_ok ws ws 0 (-1) 0); [reflexivity|lia|]. split; [intros j Hj; lia|]. left. now split.
Qed.
Lemma best_bound ws b n p m q : best ws (length ws) b n -> ws = p ++ repeat 0 m ++ q -> (0 < m)%nat ->
  Z.of_nat m <= n /\ (Z.of_nat m = n -> b <= zlen p).
Proof.
  intros [H _] E Hm. destruct (H (length p)) as [H1 H2].
  { rewrite E, !app_length, repeat_length. lia. }
  replace (skipn (length p) ws) with (repeat 0 m ++ q) in * by now rewrite E, skipn_app, skipn_all, Nat.sub_diag.
  pose proof (zrun_ge m q). split; [lia|]. intros En. unfold zlen. apply H2; lia.
Qed.

(** The printer. *)
Lemma go_plain b n w5 l4 ws : forall i, 0 <= i -> (b < 0 \/ (b + n <= i /\ ~ (b = 0 /\ (n = 6 \/ (n = 5 /\ w5 = 65535))))) -> 0 <= n -> ws <> [] ->
  ntop6_go b n w5 l4 i ws = (if i =? 0 then [] else [58]) ++ join 58 (map hex ws).
Proof.
  induction ws as [|w ws IH]; intros i Hi Hb Hn Hw; [now destruct Hw|]. cbn [ntop6_go map].
  replace ((0 <=? b) && (b <=? i) && (i <? b + n)) with false by lia.
  replace ((i =? 6) && (b =? 0) && ((n =? 6) || (n =? 5) && (w5 =? 65535))) with false by lia.
  f_equal. destruct ws as [|w' ws].
  - cbn [ntop6_go map join]. now rewrite app_nil_r.
  - rewrite IH; [|lia|lia|lia|discriminate]. replace (i + 1 =? 0) with false by lia. reflexivity.
Qed.
Lemma go_left b n w5 l4 rest ws : forall i, 0 <= i -> b = i + zlen ws -> 0 <= n ->
  ntop6_go b n w5 l4 i (ws ++ rest)
  = (match ws with [] => [] | _ => (if i =? 0 then [] else [58]) ++ join 58 (map hex ws) end) ++ ntop6_go b n w5 l4 b rest.
Proof.
  induction ws as [|w ws IH]; intros i Hi Hb Hn.
  - rewrite zlen_nil in Hb. cbn [app]. f_equal. lia.
  - rewrite zlen_cons in Hb. pose proof (zlen_nonneg _ ws). cbn [app ntop6_go map].
    replace ((0 <=? b) && (b <=? i) && (i <? b + n)) with false by lia.
    replace ((i =? 6) && (b =? 0) && ((n =? 6) || (n =? 5) && (w5 =? 65535))) with false by lia.
    rewrite <- app_assoc. f_equal. rewrite (IH (i + 1)) by lia. destruct ws as [|w' ws]; [reflexivity|].
    replace (i + 1 =? 0) with false by lia. cbn [map].
    change (join 58 (hex w :: hex w' :: map hex ws)) with (hex w ++ 58 :: join 58 (hex w' :: map hex ws)).
    rewrite <- !app_assoc. reflexivity.
Qed.
Lemma go_zeros b n w5 l4 rest : forall m i, 0 <= b -> b < i -> i + Z.of_nat m <= b + n ->
  ntop6_go b n w5 l4 i (repeat 0 m ++ rest) = ntop6_go b n w5 l4 (i + Z.of_nat m) rest.
Proof.
  induction m as [|m IH]; intros i Hb Hi Hm; [cbn [repeat app]; f_equal; lia|]. cbn [repeat app ntop6_go].
  replace ((0 <=? b) && (b <=? i) && (i <? b + n)) with true by lia. replace (i =? b) with false by lia. cbn [app].
  rewrite IH by lia. f_equal. lia.
Qed.
Lemma go_run b n w5 l4 rest m : 0 <= b -> n = Z.of_nat m -> (0 < m)%nat ->
  ntop6_go b n w5 l4 b (repeat 0 m ++ rest) = 58 :: ntop6_go b n w5 l4 (b + n) rest.
Proof.
  intros Hb Hn Hm. destruct m as [|m]; [lia|]. cbn [repeat app ntop6_go].
  replace ((0 <=? b) && (b <=? b) && (b <? b + n)) with true by lia. rewrite Z.eqb_refl. cbn [app]. f_equal.
  rewrite go_zeros by lia. f_equal. lia.
Qed.
(** Groups read back. *)
Definition word (w : Z) : Prop := 0 <= w < 65536.
Lemma group_hex w : word w -> group (hex w) = Some w.
Proof. intros H. unfold group. rewrite (proj1 (hex_word w H)). unfold word in H. now replace (w <? 65536) with true by lia. Qed.
Lemma all_hex ws : Forall word ws -> all group (map hex ws) = Some ws.
Proof.
  induction ws as [|w ws IH]; intros H; [reflexivity|]. apply Forall_cons_iff in H as [H1 H2]. cbn [map all].
  now rewrite group_hex, IH.
Qed.
Lemma groups_hex ws : Forall word ws -> forall fs r, groups fs = Some r -> fs <> [] -> groups (map hex ws ++ fs) = Some (ws ++ r).
Proof.
  induction ws as [|w ws IH]; intros H fs r Hr Hf; [exact Hr|]. apply Forall_cons_iff in H as [H1 H2]. cbn [map app].
  specialize (IH H2 fs r Hr Hf). cbn [groups]. rewrite group_hex, IH by assumption.
  destruct (map hex ws ++ fs) eqn:E; [|reflexivity]. apply app_eq_nil in E as [_ E]. contradiction.
Qed.
Lemma groups_words ws : Forall word ws -> groups (map hex ws) = Some ws.
Proof.
  intros H. destruct ws as [|w ws] using rev_ind; [reflexivity|]. apply Forall_app in H as [H1 H2]. apply Forall_cons_iff in H2 as [H2 _].
  rewrite map_app. apply groups_hex; [assumption| |discriminate]. cbn [map groups]. now rewrite group_hex.
Qed.
Lemma fine_hex ws : Forall word ws -> Forall fine (map hex ws).
Proof.
  intros H. apply Forall_map. eapply Forall_impl; [|exact H]. intros w Hw. destruct (hex_word w Hw) as (_ & P & _ & N).
  split; [assumption|]. apply (plain_not 16); [assumption|lia|now right].
Qed.
Lemma fine_no fs : Forall fine fs -> Forall (fun g => ~ In 58 g) fs.
Proof. intros H. eapply Forall_impl; [|exact H]. now intros g []. Qed.
Lemma side_join fs : Forall fine fs -> side (join 58 fs) = groups fs.
Proof.
  intros H. destruct fs as [|g fs]; [reflexivity|]. unfold side.
  destruct (join 58 (g :: fs)) as [|c t] eqn:E.
  - exfalso. apply Forall_cons_iff in H as [[H _] _]. destruct g; [now apply H|]. destruct fs; discriminate E.
  - rewrite <- E, fields_join; [reflexivity|discriminate|now apply fine_no].
Qed.
Lemma left_join fs : Forall fine fs ->
  all group (match join 58 fs with [] => [] | _ => fields 58 (join 58 fs) end) = all group fs.
Proof.
  intros H. destruct fs as [|g fs]; [reflexivity|].
  destruct (join 58 (g :: fs)) as [|c t] eqn:E.
  - exfalso. apply Forall_cons_iff in H as [[H _] _]. destruct g; [now apply H|]. destruct fs; discriminate E.
  - rewrite <- E, fields_join; [reflexivity|discriminate|now apply fine_no].
Qed.
(** A text with "::" between groups. *)
Lemma read_cut L n fs R : Forall word L -> Forall fine fs -> groups fs = Some R -> (2 <= n)%nat -> (length L + n + length R = 8)%nat ->
  let t := join 58 (map hex L) ++ [58; 58] ++ join 58 fs in
  cut t = Some (join 58 (map hex L), join 58 fs)
  /\ all group (match join 58 (map hex L) with [] => [] | _ => fields 58 (join 58 (map hex L)) end) = Some L
  /\ side (join 58 fs) = Some R
  /\ read6 t = Some (L ++ repeat 0 n ++ R).
Proof.
  intros HL Hf Hg Hn Hl t.
  assert (C : cut t = Some (join 58 (map hex L), join 58 fs)).
  { unfold t. rewrite cut_join by now apply fine_hex. rewrite cut_here. now rewrite app_nil_r. }
  assert (A : all group (match join 58 (map hex L) with [] => [] | _ => fields 58 (join 58 (map hex L)) end) = Some L).
  { rewrite left_join by now apply fine_hex. now apply all_hex. }
  assert (B : side (join 58 fs) = Some R) by now rewrite side_join.
  split; [exact C|]. split; [exact A|]. split; [exact B|]. unfold read6. rewrite C, A, B.
  replace (zlen L + zlen R <=? 7) with true by (unfold zlen; lia). do 3 f_equal. f_equal. lia.
Qed.
Lemma words16_words a : words16 a = words a.
Proof.
  assert (G : forall n (a : list Z), (length a <= n)%nat -> words16 a = words a).
  { induction n as [|n IH]; intros [|x [|y l]] H; try reflexivity; [cbn in H; lia|]. cbn [words16 words]. f_equal; [lia|]. apply IH. cbn in H. lia. }
  now apply (G (length a)).
Qed.
Lemma words_ok a : bytes a -> Forall word (words a).
Proof.
  assert (G : forall n (a : list Z), (length a <= n)%nat -> bytes a -> Forall word (words a)).
  { induction n as [|n IH]; intros [|x [|y l]] H Hb; cbn [words]; try apply Forall_nil; [cbn in H; lia|]. constructor.
    - unfold bytes in Hb. rewrite !Forall_cons_iff in Hb. unfold byte in Hb. unfold word. lia.
    - apply IH; [cbn in H; lia|]. unfold bytes in *. now rewrite !Forall_cons_iff in Hb. }
  now apply (G (length a)).
Qed.
Lemma join_len fs k : Forall (fun g => zlen g <= k) fs -> 0 <= k -> zlen (join 58 fs) <= (k + 1) * zlen fs - (match fs with [] => 0 | _ => 1 end).
Proof.
  induction fs as [|g fs IH]; intros H Hk; [cbn [join]; rewrite !zlen_nil; lia|]. apply Forall_cons_iff in H as [H1 H2]. specialize (IH H2 Hk).
  destruct fs as [|g2 fs]; [cbn [join]; rewrite zlen_cons, zlen_nil; lia|].
  change (join 58 (g :: g2 :: fs)) with (g ++ 58 :: join 58 (g2 :: fs)). rewrite zlen_app, !zlen_cons in *. lia.
Qed.
Lemma hex_len ws : Forall word ws -> Forall (fun g => zlen g <= 4) (map hex ws).
Proof. intros H. apply Forall_map. eapply Forall_impl; [|exact H]. intros w Hw. now destruct (hex_word w Hw) as (_ & _ & L & _). Qed.
Lemma zlen_map A B (f : A -> B) l : zlen (map f l) = zlen l.
Proof. unfold zlen. now rewrite map_length. Qed.
Lemma quad_fine a : bytes a -> zlen a = 4 -> fine (inet_ntop4 a).
Proof.
  intros Hb Hl. destruct a as [|a [|b [|c [|d [|? ?]]]]]; try (unfold zlen in Hl; cbn in Hl; lia).
  unfold bytes in Hb. rewrite !Forall_cons_iff in Hb. unfold byte in Hb. destruct Hb as (Ha & Hb & Hc & Hd & _). split.
  - destruct (dec_byte a Ha) as (A1 & _). unfold inet_ntop4. destruct (dec a); [discriminate A1|discriminate].
  - unfold inet_ntop4. rewrite !in_app_iff. intros K.
    repeat (destruct K as [K|K]; [(revert K; eapply (plain_not 10); [now apply dec_byte|lia|now right]) || (destruct K as [K|[]]; discriminate K)|]).
    revert K. eapply (plain_not 10); [now apply dec_byte|lia|now right].
Qed.
Lemma value_dot base acc t : In 46 t -> value base acc t = None.
Proof.
  revert acc. induction t as [|c t IH]; intros acc H; [destruct H|]. cbn [value]. destruct H as [->|H]; [reflexivity|].
  destruct (digit c); [|reflexivity]. destruct (_ <? base); [now apply IH|reflexivity].
Qed.
Lemma quad_group a : bytes a -> zlen a = 4 -> groups [inet_ntop4 a] = Some (words a).
Proof.
  intros Hb Hl. pose proof (read4_ntop4 a Hb Hl) as [R _]. cbn [groups]. 
  assert (N : group (inet_ntop4 a) = None).
  { unfold group. assert (number 16 (inet_ntop4 a) = None) as ->; [|reflexivity].
    assert (D : In 46 (inet_ntop4 a)).
    { destruct a as [|a [|b [|c [|d [|? ?]]]]]; try (unfold zlen in Hl; cbn in Hl; lia). unfold inet_ntop4.
      apply in_app_iff. right. now left. }
    unfold number. destruct (inet_ntop4 a) as [|c [|d t]]; [reflexivity|now apply value_dot|]. destruct (c =? 48); [reflexivity|]. now apply value_dot. }
  rewrite N, R. destruct a as [|a [|b [|c [|d [|? ?]]]]]; try (unfold zlen in Hl; cbn in Hl; lia). reflexivity.
Qed.
Lemma eight (a : list Z) : zlen a = 16 -> exists x0 y0 x1 y1 x2 y2 x3 y3 x4 y4 x5 y5 x6 y6 x7 y7,
  a = [x0; y0; x1; y1; x2; y2; x3; y3; x4; y4; x5; y5; x6; y6; x7; y7].
Proof.
  intros H. unfold zlen in H. do 16 (destruct a as [|? a]; [cbn in H; lia|]). destruct a; [|cbn [length] in H; lia].
  repeat eexists.
Qed.
Lemma words_len a : zlen a = 16 -> length (words a) = 8%nat.
Proof. intros H. destruct (eight a H) as (x0 & y0 & x1 & y1 & x2 & y2 & x3 & y3 & x4 & y4 & x5 & y5 & x6 & y6 & x7 & y7 & ->). reflexivity. Qed.
Lemma words_tail a : zlen a = 16 -> words (skipn 12 a) = skipn 6 (words a) /\ zlen (skipn 12 a) = 4.
Proof. intros H. destruct (eight a H) as (x0 & y0 & x1 & y1 & x2 & y2 & x3 & y3 & x4 & y4 & x5 & y5 & x6 & y6 & x7 & y7 & ->). now split. Qed.
(** The text of an IPv6 address. *)
Theorem read6_ntop6 a : bytes a -> zlen a = 16 ->
  read6 (inet_ntop6 a) = Some (words a) /\ shortened (inet_ntop6 a) (words a) /\ zlen (inet_ntop6 a) <= 45.
Proof.
  intros Hb Hl. pose proof (words_ok a Hb) as Hw. pose proof (words_len a Hl) as Lw. destruct (words_tail a Hl) as [Tw Tl].
  assert (Tb : bytes (skipn 12 a)).
  { unfold bytes in *. rewrite <- (firstn_skipn 12 a) in Hb. now apply Forall_app in Hb. }
  unfold inet_ntop6. rewrite words16_words. set (ws := words a) in *. cbv zeta.
  pose proof (best_of ws) as B. destruct (best_run 0 ws (-1, 0)) as [b n].
  destruct (n <? 2) eqn:En.
  - (* nothing to shorten *)
    rewrite go_plain; [|lia|lia|lia|intros K; rewrite K in Lw; discriminate Lw].
    change ((0 <=? -1) && (-1 + 0 =? 8)) with false. change (0 =? 0) with true. cbv iota. rewrite app_nil_r. cbn [app].
    pose proof (cut_join (map hex ws) [] (fine_hex ws Hw)) as C. rewrite app_nil_r in C. cbn [cut] in C. split; [|split].
    + unfold read6. rewrite C, side_join by now apply fine_hex. rewrite groups_words by assumption.
      unfold zlen. rewrite Lw. reflexivity.
    + unfold shortened. rewrite C. intros p m q E. destruct (Nat.lt_ge_cases m 2) as [?|G]; [assumption|].
      destruct (best_bound ws b n p m q B E ltac:(lia)) as [K _]. lia.
    + pose proof (join_len (map hex ws) 4 (hex_len ws Hw) ltac:(lia)) as K. rewrite zlen_map in K. unfold zlen in K at 2. rewrite Lw in K.
      change (Z.of_nat 8) with 8 in K. destruct (map hex ws); lia.
  - (* a run of n zeros at b *)
    pose proof B as [_ [[_ B1]|(B1 & B2 & B3 & B4)]]; [lia|].
    set (L := firstn (Z.to_nat b) ws). set (R := skipn (Z.to_nat n) (skipn (Z.to_nat b) ws)). set (m := Z.to_nat n).
    assert (E : ws = L ++ repeat 0 m ++ R).
    { unfold L, R, m. pose proof (zrun_split (skipn (Z.to_nat b) ws)) as Z0. rewrite B3 in Z0. rewrite <- Z0. symmetry. apply firstn_skipn. }
    assert (Ll : zlen L = b) by (unfold L, zlen; rewrite firstn_length; lia).
    assert (Hm : n = Z.of_nat m) by (unfold m; lia).
    assert (Len : (length L + m + length R = 8)%nat) by (rewrite <- Lw, E, !app_length, repeat_length; lia).
    assert (HL : Forall word L) by (rewrite E in Hw; now apply Forall_app in Hw).
    assert (HR : Forall word R) by (rewrite E in Hw; apply Forall_app in Hw as [_ Hw']; now apply Forall_app in Hw').
    (* the fields behind the run *)
    assert (G : exists fs, Forall fine fs /\ groups fs = Some R
      /\ ntop6_go b n (nth 5 ws 0) (skipn 12 a) 0 ws ++ (if (0 <=? b) && (b + n =? 8) then [58] else [])
         = join 58 (map hex L) ++ [58; 58] ++ join 58 fs
      /\ zlen (join 58 fs) <= 30 /\ (L <> [] -> fs = map hex R)).
    { assert (S : ntop6_go b n (nth 5 ws 0) (skipn 12 a) 0 ws
        = join 58 (map hex L) ++ 58 :: ntop6_go b n (nth 5 ws 0) (skipn 12 a) (b + n) R).
      { rewrite E at 2. rewrite go_left by lia. rewrite go_run by lia. destruct L; reflexivity. }
      rewrite S. rewrite <- app_assoc. cbn [app].
      destruct R as [|r0 R'] eqn:ER.
      - exists []. split; [constructor|]. split; [reflexivity|].
        assert (b + n = 8) by (rewrite <- Ll, Hm; unfold zlen; cbn [length] in Len; lia).
        replace ((0 <=? b) && (b + n =? 8)) with true by lia. cbn [ntop6_go app join map]. split; [reflexivity|]. split; [rewrite zlen_nil; lia|now intros _].
      - assert (b + n < 8) by (rewrite <- Ll, Hm; unfold zlen; cbn [length] in Len; lia).
        replace ((0 <=? b) && (b + n =? 8)) with false by lia. rewrite app_nil_r.
        destruct ((b =? 0) && ((n =? 6) || (n =? 5) && (nth 5 ws 0 =? 65535))) eqn:Q.
        + (* embedded IPv4 *)
          assert (b = 0) by lia. assert (L = []) as EL by (destruct L; [reflexivity|rewrite zlen_cons in Ll; pose proof (zlen_nonneg _ L); lia]).
          rewrite EL in *. cbn [app] in E. cbn [length] in Len.
          assert (C : n = 6 \/ n = 5 /\ nth 5 ws 0 = 65535) by lia. destruct C as [C|[C C5]].
          * assert (m = 6%nat) as Em by lia. rewrite Em in E, Len.
            destruct R' as [|r1 [|? ?]]; try (cbn [length] in Len; lia).
            assert (T : words (skipn 12 a) = [r0; r1]) by (rewrite Tw, E; reflexivity).
            exists [inet_ntop4 (skipn 12 a)]. split; [repeat constructor; now apply quad_fine|].
            split; [rewrite quad_group by assumption; now rewrite T|].
            split; [|split; [cbn [join]; pose proof (read4_ntop4 _ Tb Tl); lia|now intros []]].
            rewrite H0, C. cbn [ntop6_go]. change ((0 <=? 0) && (0 <=? 0 + 6) && (0 + 6 <? 0 + 6)) with false.
            change (0 + 6 =? 0) with false. change ((0 + 6 =? 6) && (0 =? 0) && ((6 =? 6) || (6 =? 5) && (nth 5 ws 0 =? 65535))) with true.
            reflexivity.
          * assert (m = 5%nat) as Em by lia. rewrite Em in E, Len.
            destruct R' as [|r1 [|r2 [|? ?]]]; try (cbn [length] in Len; lia).
            assert (r0 = 65535) as -> by (rewrite E in C5; exact C5).
            assert (T : words (skipn 12 a) = [r1; r2]) by (rewrite Tw, E; reflexivity).
            exists [hex 65535; inet_ntop4 (skipn 12 a)].
            split; [constructor; [split; [discriminate|cbn; lia]|repeat constructor; now apply quad_fine]|].
            split.
            { change [hex 65535; inet_ntop4 (skipn 12 a)] with (map hex [65535] ++ [inet_ntop4 (skipn 12 a)]).
              change [65535; r1; r2] with ([65535] ++ [r1; r2]). apply groups_hex; [repeat constructor; unfold word; lia| |discriminate].
              rewrite quad_group by assumption. now rewrite T. }
            split; [|split; [|now intros []]].
            2:{ change (join 58 [hex 65535; inet_ntop4 (skipn 12 a)]) with ([102; 102; 102; 102] ++ [58] ++ inet_ntop4 (skipn 12 a)).
                rewrite !zlen_app. change (zlen [102; 102; 102; 102]) with 4. change (zlen [58]) with 1. pose proof (read4_ntop4 _ Tb Tl). lia. }
            rewrite H0, C, C5. cbn [ntop6_go map app]. change ((0 <=? 0) && (0 <=? 0 + 5) && (0 + 5 <? 0 + 5)) with false.
            change (0 + 5 =? 0) with false. change ((0 + 5 =? 6) && (0 =? 0) && ((5 =? 6) || (5 =? 5) && (65535 =? 65535))) with false.
            change ((0 <=? 0) && (0 <=? 0 + 5 + 1) && (0 + 5 + 1 <? 0 + 5)) with false. change (0 + 5 + 1 =? 0) with false.
            change ((0 + 5 + 1 =? 6) && (0 =? 0) && ((5 =? 6) || (5 =? 5) && (65535 =? 65535))) with true. reflexivity.
        + exists (map hex (r0 :: R')). split; [now apply fine_hex|]. split; [now apply groups_words|].
          split.
          { rewrite go_plain; [|lia|right; split; [lia|lia]|lia|discriminate]. replace (b + n =? 0) with false by lia. reflexivity. }
          split; [|now intros _].
          pose proof (join_len (map hex (r0 :: R')) 4 (hex_len _ HR) ltac:(lia)) as K. rewrite zlen_map in K.
          assert (zlen (r0 :: R') = 8 - b - n) by (rewrite <- Ll, Hm; unfold zlen; lia).
          cbn [map] in K. cbn [map]. lia. }
    destruct G as (fs & F1 & F2 & F3 & F4 & F5). rewrite F3.
    destruct (read_cut L m fs R HL F1 F2 ltac:(lia) Len) as (C1 & C2 & C3 & C4). cbv zeta in C1, C4. split; [|split].
    + rewrite C4. now rewrite E.
    + unfold shortened. rewrite C1. exists L, m, R. split; [exact C2|]. split; [exact C3|]. split; [lia|]. split; [exact E|].
      intros p k q Ek. destruct k as [|k]; [split; [lia|intros K; lia]|].
      destruct (best_bound ws b n p (S k) q B Ek ltac:(lia)) as [K1 K2]. split; [lia|]. intros K3.
      assert (b <= zlen p) by (apply K2; lia). unfold zlen in *. lia.
    + rewrite !zlen_app. change (zlen [58; 58]) with 2. pose proof (join_len (map hex L) 4 (hex_len L HL) ltac:(lia)) as K. rewrite zlen_map in K.
      destruct L as [|l0 L'] eqn:EL; [change (zlen (join 58 (map hex []))) with 0; lia|]. rewrite F5 in F4 |- * by discriminate.
      pose proof (join_len (map hex R) 4 (hex_len R HR) ltac:(lia)) as K'. rewrite zlen_map in K'.
      assert (zlen (l0 :: L') + zlen R <= 6) by (unfold zlen; lia). cbn [map] in K |- *.
      destruct (map hex R); lia.
Qed.
(** The three kinds together. *)
Lemma mgmt_denotes af s n text a : mgmt_family af s n text -> bytes a -> zlen a = n -> denotes s (text a) a.
Proof.
  intros H Hb Hl. destruct H; cbn [denotes].
  - destruct (read4_ntop4 a Hb Hl). split; [assumption|lia].
  - destruct (read6_ntop6 a Hb Hl) as (H1 & H2 & H3). split; [assumption|]. split; [assumption|lia].
  - now apply read802_mac.
Qed.
Lemma str_addr_denotes type buf pre a post : buf = pre ++ a ++ post -> bytes a ->
  match tlv_str_addr type buf (zlen pre) (zlen a) with
  | DOk (Some t) => exists s, In (type, s, zlen a) [(4, IPv4, 4); (5, IPv6, 16); (6, Mac, 6)] /\ denotes s t a
  | DOk None => forall s, ~ In (type, s, zlen a) [(4, IPv4, 4); (5, IPv6, 16); (6, Mac, 6)]
  | _ => False
  end.
Proof.
  intros E Hb. assert (V : view buf (zlen pre) a) by (exists pre, post; now split).
  rewrite (tlv_str_addr_view _ _ _ _ V). unfold addr_text.
  destruct (type =? 4) eqn:E4; [|destruct (type =? 5) eqn:E5; [|destruct (type =? 6) eqn:E6]].
  - destruct (zlen a =? 4) eqn:El.
    + exists IPv4.
      split; [left; f_equal; [f_equal|]; lia|]. apply (mgmt_denotes _ _ _ _ a mgmt_ip4 Hb). lia.
    + intros s [K|[K|[K|[]]]]; injection K; intros; lia.
  - destruct (zlen a =? 16) eqn:El.
    + exists IPv6.
      split; [right; left; f_equal; [f_equal|]; lia|]. apply (mgmt_denotes _ _ _ _ a mgmt_ip6 Hb). lia.
    + intros s [K|[K|[K|[]]]]; injection K; intros; lia.
  - destruct (zlen a =? 6) eqn:El.
    + exists Mac.
      split; [right; right; left; f_equal; [f_equal|]; lia|]. apply (mgmt_denotes _ _ _ _ a mgmt_mac Hb). lia.
    + intros s [K|[K|[K|[]]]]; injection K; intros; lia.
  - intros s [K|[K|[K|[]]]]; injection K; intros; lia.
Qed.
Lemma addr_means_denotes r s t : addr_means r [(s, t)] -> bytes (snd r) -> denotes s t (snd r).
Proof.
  intros H Hb. remember [(s, t)] as l eqn:El. destruct H as [a Ha|a Ha|]; [| |discriminate El]; injection El as <- <-; cbn [snd] in *.
  - exact (mgmt_denotes _ _ _ _ a mgmt_ip4 Hb Ha).
  - exact (mgmt_denotes _ _ _ _ a mgmt_ip6 Hb Ha).
Qed.
