(** Capture files. *)
From Verif Require Import Base Types Wire Parent Child Cli Post Spec SpecNet SpecChild SpecCli SpecPost Lemmas.

Lemma number4 a b c d : number [a; b; c; d] = ((a * 256 + b) * 256 + c) * 256 + d.
Proof. cbn. unfold zlen. cbn. lia. Qed.
Lemma number2 a b : number [a; b] = a * 256 + b.
Proof. cbn. unfold zlen. cbn. lia. Qed.
Lemma be32_number n : 0 <= n < 4294967296 -> number (be32 n) = n.
Proof. intros H. unfold be32. rewrite number4. zify. Z.to_euclidean_division_equations. lia. Qed.
Lemma put32_ordered big n : 0 <= n < 4294967296 -> ordered big (put32 big n) = n.
Proof. intros H. unfold ordered, put32. destruct big; rewrite ?rev_involutive; now apply be32_number. Qed.
Lemma put32_four big n : exists a b c d, put32 big n = [a; b; c; d].
Proof. unfold put32, be32. destruct big; cbn; eauto 6. Qed.
Lemma put32_len big n : length (put32 big n) = 4%nat.
Proof. destruct (put32_four big n) as (a & b & c & d & ->). reflexivity. Qed.

Lemma firstn_app_l A (a b : list A) n : n = length a -> firstn n (a ++ b) = a.
Proof. intros ->. rewrite firstn_app, Nat.sub_diag, firstn_all. cbn. apply app_nil_r. Qed.
Lemma skipn_app_l A (a b : list A) n : n = length a -> skipn n (a ++ b) = b.
Proof. intros ->. rewrite skipn_app, Nat.sub_diag, skipn_all. reflexivity. Qed.

Section cap.
Variables (big : bool) (clock : nat -> option (Z * Z)).
Hypothesis (Hclock : clock_ok clock).
Definition time_of (n : nat) : Z * Z := match clock n with Some t => t | None => (0, 0) end.
Lemma time_range n : 0 <= fst (time_of n) < 4294967296 /\ 0 <= snd (time_of n) < 4294967296.
Proof.
  unfold time_of. destruct (clock n) as [[s u]|] eqn:E; [|cbn; lia]. apply Hclock in E. cbn. lia.
Qed.
Definition cap_of (n : nat) (f : list Z) : captured := mkCap (fst (time_of n)) (snd (time_of n)) (zlen f) f.
Lemma record_read k n f l t : 0 <= l <= zlen f -> l < 4294967296 -> (16 <= k)%nat ->
  forall k', k = S k' ->
  records k big (pcap_record big (clock n) f l ++ t)
  = match records k' big t with Some r => Some (cap_of n (firstn (Z.to_nat l) f) :: r) | None => None end.
Proof.
  intros Hl Hl2 Hk k' ->. destruct (time_range n) as [H1 H2]. unfold pcap_record. fold (time_of n).
  destruct (time_of n) as [s u] eqn:Et. cbn [fst snd] in *. rewrite (Z.mod_small s) by lia.
  set (d := firstn (Z.to_nat l) f). assert (Hd : zlen d = l) by (unfold d, zlen in *; rewrite firstn_length; lia).
  pose proof (put32_ordered big s H1) as O1. pose proof (put32_ordered big u H2) as O2.
  pose proof (put32_ordered big l ltac:(lia)) as O3.
  assert (Hz : zlen ((put32 big s ++ put32 big u ++ put32 big l ++ put32 big l ++ d) ++ t) = 16 + l + zlen t).
  { rewrite !zlen_app, Hd. unfold zlen at 1 2 3 4. rewrite !put32_len. lia. }
  destruct (put32_four big s) as (a1 & a2 & a3 & a4 & E1). destruct (put32_four big u) as (b1 & b2 & b3 & b4 & E2).
  destruct (put32_four big l) as (c1 & c2 & c3 & c4 & E3). rewrite E1, E2, E3 in *.
  set (T := (_ ++ _) ++ t) in *. assert (ET : T = a1 :: a2 :: a3 :: a4 :: b1 :: b2 :: b3 :: b4 :: c1 :: c2 :: c3 :: c4
    :: c1 :: c2 :: c3 :: c4 :: d ++ t) by (unfold T; now cbn [app]).
  pose proof (zlen_nonneg _ t).
  assert (G : records (S k') big T = (let at_ i := ordered big (firstn 4 (skipn i T)) in let got := at_ 8%nat in
    if (zlen T <? 16) || (zlen T <? 16 + got) then None
    else match records k' big (skipn (16 + Z.to_nat got) T) with
         | Some r => Some (mkCap (at_ 0%nat) (at_ 4%nat) (at_ 12%nat) (firstn (Z.to_nat got) (skipn 16 T)) :: r)
         | None => None end)) by (rewrite ET; reflexivity).
  rewrite G. clear G. cbv beta zeta.
  assert (S8 : firstn 4 (skipn 8 T) = [c1; c2; c3; c4]) by now rewrite ET.
  assert (S0 : firstn 4 (skipn 0 T) = [a1; a2; a3; a4]) by now rewrite ET.
  assert (S4 : firstn 4 (skipn 4 T) = [b1; b2; b3; b4]) by now rewrite ET.
  assert (S12 : firstn 4 (skipn 12 T) = [c1; c2; c3; c4]) by now rewrite ET.
  assert (S16 : skipn 16 T = d ++ t) by now rewrite ET.
  rewrite S8, S0, S4, S12, O3, O1, O2. replace (zlen T <? 16) with false by lia. replace (zlen T <? 16 + l) with false by lia.
  cbn [orb]. rewrite Nat.add_comm. replace (skipn (Z.to_nat l + 16) T) with t.
  - rewrite S16, firstn_app_l by (unfold zlen in Hd; lia). unfold cap_of. rewrite Et, Hd. reflexivity.
  - rewrite ET. replace (Z.to_nat l + 16)%nat with (16 + Z.to_nat l)%nat by lia. cbn [skipn Nat.add].
    symmetry. apply skipn_app_l. unfold zlen in Hd. lia.
Qed.
Fixpoint caps_of (n : nat) (fs : list (list Z * Z)) : list captured :=
  match fs with [] => [] | (f, l) :: fs' => cap_of n (firstn (Z.to_nat l) f) :: caps_of (S n) fs' end.
Lemma record_len n f l : (16 <= length (pcap_record big (clock n) f l))%nat.
Proof.
  unfold pcap_record. destruct (match clock n with Some t => t | None => _ end) as [s u].
  rewrite !app_length, !put32_len. lia.
Qed.
Lemma records_read fs : forall k n, Forall (fun '(f, l) => 0 <= l <= zlen f /\ l < 4294967296) fs ->
  (length (pcap_records big clock n fs) <= k)%nat ->
  records k big (pcap_records big clock n fs) = Some (caps_of n fs).
Proof.
  induction fs as [|[f l] fs IH]; intros k n H Hk; cbn [pcap_records caps_of].
  - now destruct k.
  - apply Forall_cons_iff in H as [[H1 H2] H3]. cbn [pcap_records] in Hk. rewrite app_length in Hk. pose proof (record_len n f l).
    destruct k as [|k]; [lia|]. rewrite (record_read (S k) n f l _ H1 H2 ltac:(lia) k eq_refl).
    rewrite IH; [reflexivity|assumption|lia].
Qed.
Lemma header_read t : capture_read (pcap_header big ++ t) = records (24 + length t) big t.
Proof.
  destruct big; unfold capture_read; change (pcap_header _) with
    (ltac:(let x := eval vm_compute in (pcap_header true) in exact x)) || change (pcap_header _) with
    (ltac:(let x := eval vm_compute in (pcap_header false) in exact x)); cbn [app firstn skipn length];
    unfold zlen; cbn [length]; rewrite ?Nat2Z.inj_succ.
  - change (ordered true [161; 178; 195; 212] =? 2712847316) with true. cbv iota.
    change (ordered true [0; 2] =? 2) with true. change (ordered true [0; 4] =? 4) with true.
    change (ordered true [0; 0; 0; 1] =? 1) with true. cbn [andb].
    destruct (24 <=? _) eqn:E; [reflexivity|lia].
  - change (ordered true [212; 195; 178; 161] =? 2712847316) with false. change (ordered false [212; 195; 178; 161] =? 2712847316) with true. cbv iota.
    change (ordered false [2; 0] =? 2) with true. change (ordered false [4; 0] =? 4) with true.
    change (ordered false [1; 0; 0; 0] =? 1) with true. cbn [andb].
    destruct (24 <=? _) eqn:E; [reflexivity|lia].
Qed.
Lemma capture_caps fs : Forall (fun '(f, l) => 0 <= l <= zlen f /\ l < 4294967296) fs ->
  capture_read (pcap_header big ++ pcap_records big clock 0 fs) = Some (caps_of 0 fs).
Proof. intros H. rewrite header_read. apply records_read; [exact H|lia]. Qed.
Lemma caps_nth fs : forall n i d, (i < length fs)%nat ->
  nth i (caps_of n fs) d = cap_of (n + i) (nth i (map (fun '(f, l) => firstn (Z.to_nat l) f) fs) []).
Proof.
  induction fs as [|[f l] fs IH]; intros n i d Hi; cbn [length] in Hi; [lia|]. cbn [caps_of map].
  destruct i as [|i]; cbn [nth]; [now rewrite Nat.add_0_r|]. rewrite IH by lia. f_equal. lia.
Qed.
Lemma caps_len fs : forall n, length (caps_of n fs) = length fs.
Proof. induction fs as [|[f l] fs IH]; intros n; cbn [caps_of length]; [reflexivity|]. now rewrite IH. Qed.
(** What is written can be read back: the frames, in order, with the times. *)
Lemma capture_good fs : Forall (fun '(f, l) => 0 <= l <= zlen f /\ l < 4294967296) fs ->
  exists ks, capture_read (pcap_header big ++ pcap_records big clock 0 fs) = Some ks
  /\ capture_of clock (map (fun '(f, l) => firstn (Z.to_nat l) f) fs) ks.
Proof.
  intros H. exists (caps_of 0 fs). split; [now apply capture_caps|]. split; [now rewrite caps_len, map_length|].
  rewrite map_length. intros i Hi. cbv zeta. rewrite caps_nth by assumption. cbn [Nat.add]. unfold cap_of. cbn [k_frame k_len].
  split; [reflexivity|]. split; [reflexivity|]. unfold clocked. cbn [k_sec k_usec]. unfold time_of. now destruct (clock i) as [[s u]|].
Qed.
End cap.
