(** The receive filter accepts exactly the frames of the specification. *)
From Verif Require Import Base Types Checks Bpf Wire Parent Spec SpecRound SpecNet Lemmas.

(** One protocol block of proto_filter. *)
Definition blk (a b w p : Z) : list bpf_insn :=
  [LdW_abs 0; Jeq a 0 7; LdH_abs 4; Jeq b 0 5; LdW_ind ETH_LLC_CONTROL; Jeq w 0 3;
   LdH_ind ETH_LLC_PROTOID; Jeq p 0 1; Ret BPF_ALL].
(** The block of a frame matches. *)
Definition blk_hit (x : Z) (f : list Z) (a b w p : Z) : bool :=
  match ld4 f 0, ld2 f 4, ld4 f (x + 16), ld2 f (x + 20) with
  | Some d4, Some d2, Some c, Some q => (d4 =? a) && (d2 =? b) && (c =? w) && (q =? p)
  | _, _, _, _ => false
  end.
(** Programs that ignore the accumulator and reject short frames. *)
Definition rejects_short (prog : list bpf_insn) (f : list Z) (x : Z) : Prop :=
  (forall a a', bpf_run prog 0 f a x = bpf_run prog 0 f a' x)
  /\ (ld4 f (x + 16) = None \/ ld2 f (x + 20) = None -> forall a, bpf_run prog 0 f a x = 0).

Lemma blk_run a b w p rest f x acc : ld4 f 0 <> None -> ld2 f 4 <> None ->
  rejects_short rest f x ->
  bpf_run (blk a b w p ++ rest) 0 f acc x =
    if blk_hit x f a b w p then BPF_ALL else bpf_run rest 0 f 0 x.
Proof.
  intros H0 H1 [Hr Hs]. unfold blk_hit.
  change (blk a b w p ++ rest) with
    (LdW_abs 0 :: Jeq a 0 7 :: LdH_abs 4 :: Jeq b 0 5 :: LdW_ind 16 :: Jeq w 0 3 ::
     LdH_ind 20 :: Jeq p 0 1 :: Ret BPF_ALL :: rest).
  cbn [bpf_run]. destruct (ld4 f 0) as [d4|]; [|easy]. cbn [bpf_run].
  destruct (ld2 f 4) as [d2|]; [|easy].
  destruct (d4 =? a); cbn [bpf_run andb].
  2:{ destruct (ld4 f (x + 16)), (ld2 f (x + 20)); apply Hr. }
  destruct (d2 =? b); cbn [bpf_run andb].
  2:{ destruct (ld4 f (x + 16)), (ld2 f (x + 20)); apply Hr. }
  destruct (ld4 f (x + 16)) as [c|] eqn:Ec.
  2:{ symmetry. apply Hs. now left. }
  destruct (c =? w); cbn [bpf_run andb].
  2:{ destruct (ld2 f (x + 20)); apply Hr. }
  destruct (ld2 f (x + 20)) as [q|] eqn:Eq.
  2:{ symmetry. apply Hs. now right. }
  destruct (q =? p); cbn [bpf_run]; [reflexivity|apply Hr].
Qed.
Lemma blk_short a b w p rest f x : ld4 f 0 <> None -> ld2 f 4 <> None ->
  rejects_short rest f x -> rejects_short (blk a b w p ++ rest) f x.
Proof.
  intros H0 H1 H. split.
  - intros c c'. now rewrite !blk_run.
  - intros Hn c. rewrite blk_run by easy. unfold blk_hit.
    replace (match ld4 f 0 with Some _ => _ | None => false end) with false.
    + destruct H as [_ H]. now apply H.
    + destruct (ld4 f 0), (ld2 f 4), (ld4 f (x + 16)), (ld2 f (x + 20)); try easy.
      now destruct Hn.
Qed.
Lemma ret_short f x : rejects_short [Ret 0] f x.
Proof. now split. Qed.

Definition tail_prog : list bpf_insn :=
  blk 0x01000CCC 0xCCCC 0x0300000C 0x2000 ++ blk 0x000E2B00 0 0x03000E2B 0xbb ++
  blk 0x01E052CC 0xCCCC 0x0300E052 0x2000 ++ blk 0x01008100 0x100 0x03000081 0x1a2 ++ [Ret 0].
Lemma tail_run f x acc : ld4 f 0 <> None -> ld2 f 4 <> None ->
  bpf_run tail_prog 0 f acc x =
    if blk_hit x f 0x01000CCC 0xCCCC 0x0300000C 0x2000 || blk_hit x f 0x000E2B00 0 0x03000E2B 0xbb
       || blk_hit x f 0x01E052CC 0xCCCC 0x0300E052 0x2000 || blk_hit x f 0x01008100 0x100 0x03000081 0x1a2
    then BPF_ALL else 0.
Proof.
  intros H0 H1. unfold tail_prog.
  rewrite !blk_run by (try easy; repeat (apply blk_short; [easy|easy|]); apply ret_short).
  cbn [bpf_run].
  destruct (blk_hit x f 0x01000CCC 0xCCCC 0x0300000C 0x2000); try reflexivity.
  destruct (blk_hit x f 0x000E2B00 0 0x03000E2B 0xbb); try reflexivity.
  destruct (blk_hit x f 0x01E052CC 0xCCCC 0x0300E052 0x2000); reflexivity.
Qed.

(** The whole filter as one condition, [x] being the tag offset. *)
Definition hit (x : Z) (f : list Z) : bool :=
  match ld4 f 0, ld2 f 4, ld2 f (x + 12) with
  | Some d4, Some d2, Some ty => (d4 =? 0x0180C200) && (d2 =? 0xE) && (ty =? 0x88cc)
  | _, _, _ => false
  end
  || match ld2 f (x + 14) with Some v => v =? 0xAAAA | None => false end
     && (blk_hit x f 0x01000CCC 0xCCCC 0x0300000C 0x2000 || blk_hit x f 0x000E2B00 0 0x03000E2B 0xbb
       || blk_hit x f 0x01E052CC 0xCCCC 0x0300E052 0x2000
       || blk_hit x f 0x01008100 0x100 0x03000081 0x1a2).
Definition rest_prog : list bpf_insn := skipn 3 proto_filter.
Lemma ld2_mono f x n : (0 <= x -> 0 <= n -> x + n + 2 <= zlen f) -> 0 <= x -> 0 <= n -> ld2 f (x + n) <> None.
Proof.
  intros H Hx Hn. specialize (H Hx Hn). unfold ld2.
  assert (E : (2 <= length (skipn (Z.to_nat (x + n)) f))%nat)
    by (rewrite skipn_length; unfold zlen in H; lia).
  destruct (skipn _ f) as [|a [|b r]]; cbn in E; [lia|lia|easy].
Qed.
Lemma rest_run f x acc : 0 <= x -> ld4 f 0 <> None -> ld2 f 4 <> None ->
  bpf_run rest_prog 0 f acc x = if hit x f then BPF_ALL else 0.
Proof.
  intros Hx H0 H1. unfold hit.
  change rest_prog with
    (LdW_abs 0 :: Jeq 0x0180C200 0 5 :: LdH_abs 4 :: Jeq 0xE 0 3 :: LdH_ind 12 :: Jeq 0x88cc 0 1 ::
     Ret BPF_ALL :: LdH_ind 14 :: Jeq 0xAAAA 1 0 :: Ret 0 :: tail_prog).
  assert (T : forall acc, bpf_run (LdH_ind 14 :: Jeq 0xAAAA 1 0 :: Ret 0 :: tail_prog) 0 f acc x =
    if match ld2 f (x + 14) with Some v => v =? 0xAAAA | None => false end
     && (blk_hit x f 0x01000CCC 0xCCCC 0x0300000C 0x2000 || blk_hit x f 0x000E2B00 0 0x03000E2B 0xbb
       || blk_hit x f 0x01E052CC 0xCCCC 0x0300E052 0x2000
       || blk_hit x f 0x01008100 0x100 0x03000081 0x1a2) then BPF_ALL else 0).
  { intros a. remember tail_prog as tp. cbn [bpf_run]. destruct (ld2 f (x + 14)) as [v|]; [|reflexivity].
    destruct (v =? 0xAAAA); cbn [bpf_run andb]; [|reflexivity]. subst. now apply tail_run. }
  remember (LdH_ind 14 :: Jeq 0xAAAA 1 0 :: Ret 0 :: tail_prog) as tp eqn:Etp.
  cbn [bpf_run]. destruct (ld4 f 0) as [d4|]; [|easy]. cbn [bpf_run].
  destruct (ld2 f 4) as [d2|] eqn:E2; [|easy].
  destruct (d4 =? 0x0180C200); cbn [bpf_run andb orb].
  2:{ destruct (ld2 f (x + 12)); apply T. }
  destruct (d2 =? 0xE); cbn [bpf_run andb orb].
  2:{ destruct (ld2 f (x + 12)); apply T. }
  destruct (ld2 f (x + 12)) as [ty|] eqn:Et.
  - destruct (ty =? 0x88cc); cbn [bpf_run orb]; [reflexivity|apply T].
  - assert (E14 : ld2 f (x + 14) = None).
    { destruct (ld2 f (x + 14)) eqn:E; [|reflexivity]. exfalso. revert Et. apply ld2_mono; try lia.
      intros _ _. unfold ld2 in E. destruct (skipn (Z.to_nat (x + 14)) f) as [|? [|? r]] eqn:Es; try easy.
      apply (f_equal (@length Z)) in Es. rewrite skipn_length in Es. cbn in Es. unfold zlen. lia. }
    rewrite E14. reflexivity.
Qed.
Lemma proto_filter_eq : proto_filter = LdH_abs 12 :: Jeq 0x8100 0 1 :: LdX_imm 4 :: rest_prog.
Proof. reflexivity. Qed.
Lemma head_run tp f : bpf_run (LdH_abs 12 :: Jeq 0x8100 0 1 :: LdX_imm 4 :: tp) 0 f 0 0 =
  match ld2 f 12 with
  | None => 0
  | Some ty => if ty =? 0x8100 then bpf_run tp 0 f ty 4 else bpf_run tp 0 f ty 0
  end.
Proof. cbn [bpf_run]. destruct (ld2 f 12) as [ty|]; [|reflexivity]. now destruct (ty =? 0x8100). Qed.
Lemma proto_filter_run f :
  bpf_run proto_filter 0 f 0 0 =
    match ld2 f 12 with
    | None => 0
    | Some ty => if hit (if ty =? 0x8100 then 4 else 0) f then BPF_ALL else 0
    end.
Proof.
  rewrite proto_filter_eq, head_run.
  destruct (ld2 f 12) as [ty|] eqn:E; [|reflexivity].
  assert (L : (14 <= length f)%nat).
  { unfold ld2 in E. destruct (skipn (Z.to_nat 12) f) as [|? [|? r]] eqn:Es; try easy.
    apply (f_equal (@length Z)) in Es. rewrite skipn_length in Es. cbn in Es. lia. }
  assert (H0 : ld4 f 0 <> None).
  { unfold ld4. cbn [Z.to_nat skipn]. destruct f as [|a [|b [|c [|d r]]]]; cbn in L; (lia || easy). }
  assert (H1 : ld2 f 4 <> None).
  { apply (ld2_mono f 0 4); unfold zlen; lia. }
  destruct (ty =? 0x8100); apply rest_run; (lia || assumption).
Qed.

Lemma accept_bool opts f : Z.testbit opts 2 = true ->
  socket_filter opts f =
    match ld2 f 12 with
    | None => false
    | Some ty => hit (if ty =? 0x8100 then 4 else 0) f
    end.
Proof.
  intros H. unfold socket_filter. replace (has opts OPT_RECV) with true.
  - rewrite proto_filter_run. destruct (ld2 f 12); [|reflexivity]. now destruct (hit _ f).
  - symmetry. unfold has, OPT_RECV. apply negb_true_iff, Z.eqb_neq. intros E.
    apply (f_equal (fun z => Z.testbit z 2)) in E. rewrite Z.land_spec, H in E. discriminate.
Qed.

(** ** Loads and frames *)
Lemma bytes_inv a l : bytes (a :: l) -> byte a /\ bytes l.
Proof. intros H. inversion H; now split. Qed.
Lemma U16_of a b : byte a -> byte b -> U16 (a * 256 + b) = [a; b].
Proof. unfold byte, U16. intros. repeat f_equal; lia. Qed.

Lemma skipn_past A (l r : list A) k : 0 <= k -> skipn (Z.to_nat (zlen l + k)) (l ++ r) = skipn (Z.to_nat k) r.
Proof.
  intros H. replace (Z.to_nat (zlen l + k)) with (length l + Z.to_nat k)%nat by (unfold zlen; lia).
  rewrite skipn_app, skipn_all2 by lia. cbn [app]. f_equal. lia.
Qed.
Lemma U16_split2 l : bytes l -> zlen l = 2 -> exists v, l = U16 v /\ 0 <= v < 65536.
Proof.
  intros Hb Hl. destruct l as [|a [|b [|]]]; try discriminate Hl; [|exfalso; zlia].
  apply bytes_inv in Hb as [Ha Hb]. apply bytes_inv in Hb as [Hb _]. exists (a * 256 + b).
  rewrite U16_of by assumption. unfold byte in *. split; [reflexivity|lia].
Qed.
Ltac split_bytes :=
  repeat match goal with H : bytes (_ :: _) |- _ => apply bytes_inv in H as [? H] end.
Ltac pop l x := destruct l as [|x l]; [discriminate|].

(** Four and two bytes. *)
Lemma quad a b c d v : byte a -> byte b -> byte c -> byte d ->
  ((a * 256 + b) * 256 + c) * 256 + d = v -> [a; b; c; d] = U32 v.
Proof. unfold byte, U32. intros. subst. repeat f_equal; lia. Qed.
Lemma pair2 a b v : byte a -> byte b -> a * 256 + b = v -> [a; b] = U16 v.
Proof. unfold byte, U16. intros. subst. repeat f_equal; lia. Qed.

Lemma hit_frame x t f : bytes t ->
  (t = [] /\ x = 0) \/ (zlen t = 4 /\ x = 4) ->
  forall d s ty rest, bytes (d ++ s ++ t ++ ty ++ rest) -> zlen d = 6 -> zlen s = 6 -> zlen ty = 2 ->
  f = d ++ s ++ t ++ ty ++ rest ->
  hit x f = true <->
  (d = [1; 128; 194; 0; 0; 14] /\ ty = U16 35020)
  \/ exists org pid payload, rest = [170; 170; 3] ++ org ++ U16 pid ++ payload /\
       In (d, org, pid) [([1; 0; 12; 204; 204; 204], [0; 0; 12], 8192);
                         ([0; 14; 43; 0; 0; 0], [0; 14; 43], 187);
                         ([1; 224; 82; 204; 204; 204], [0; 224; 82], 8192);
                         ([1; 0; 129; 0; 1; 0], [0; 0; 129], 418)].
Proof.
  intros _ Ht d s ty rest Hb Hd Hs Hty ->.
  assert (Hx : x = zlen t) by (destruct Ht as [[-> ->]|[-> ->]]; reflexivity).
  assert (Bd : bytes d) by (apply Forall_app in Hb as [? _]; assumption).
  assert (Bty : bytes ty) by (do 3 apply Forall_app in Hb as [_ Hb]; apply Forall_app in Hb as [? _]; assumption).
  assert (Br : bytes rest) by (do 4 apply Forall_app in Hb as [_ Hb]; assumption).
  unfold hit, blk_hit.
  assert (S12 : skipn (Z.to_nat (x + 12)) (d ++ s ++ t ++ ty ++ rest) = ty ++ rest).
  { replace (x + 12) with (zlen (d ++ s ++ t)) by zlia.
    replace (d ++ s ++ t ++ ty ++ rest) with ((d ++ s ++ t) ++ ty ++ rest) by now rewrite <- !app_assoc.
    apply skipn_zlen_app. }
  assert (S14 : forall k, 0 <= k -> skipn (Z.to_nat (x + (14 + k))) (d ++ s ++ t ++ ty ++ rest) = skipn (Z.to_nat k) rest).
  { intros k Hk. replace (d ++ s ++ t ++ ty ++ rest) with ((d ++ s ++ t ++ ty) ++ rest) by now rewrite <- !app_assoc.
    replace (x + (14 + k)) with (zlen (d ++ s ++ t ++ ty) + k) by zlia. now apply skipn_past. }
  assert (L12 : ld2 (d ++ s ++ t ++ ty ++ rest) (x + 12) = ld2 (ty ++ rest) 0) by (unfold ld2; now rewrite S12).
  assert (L14 : ld2 (d ++ s ++ t ++ ty ++ rest) (x + 14) = ld2 rest 0) by (unfold ld2; change 14 with (14 + 0); now rewrite S14).
  assert (L16 : ld4 (d ++ s ++ t ++ ty ++ rest) (x + 16) = ld4 rest 2) by (unfold ld4; change 16 with (14 + 2); now rewrite S14).
  assert (L20 : ld2 (d ++ s ++ t ++ ty ++ rest) (x + 20) = ld2 rest 6) by (unfold ld2; change 20 with (14 + 6); now rewrite S14).
  rewrite L12, L14, L16, L20. clear L12 L14 L16 L20 S12 S14 Hb Ht Hx.
  do 6 (destruct d as [|?d d]; [discriminate Hd|]).
  do 2 (destruct ty as [|?y ty]; [discriminate Hty|]).
  assert (d = []) as -> by (apply zlen_0; zlia). assert (ty = []) as -> by (apply zlen_0; zlia).
  split_bytes. clear Hd Hty.
  assert (E0 : ld4 ([d0; d1; d2; d3; d4; d5] ++ s ++ t ++ [y; y0] ++ rest) 0 =
               Some (((d0 * 256 + d1) * 256 + d2) * 256 + d3)) by reflexivity.
  assert (E4 : ld2 ([d0; d1; d2; d3; d4; d5] ++ s ++ t ++ [y; y0] ++ rest) 4 = Some (d4 * 256 + d5)) by reflexivity.
  rewrite E0, E4. change (ld2 ([y; y0] ++ rest) 0) with (Some (y * 256 + y0)). clear E0 E4.
  split.
  - intros [HH|HH]%orb_true_iff.
    + left. apply andb_prop in HH as [[G1 G2]%andb_prop G3].
      apply Z.eqb_eq in G1, G2, G3. unfold byte in *. split.
      * repeat f_equal; lia.
      * now apply pair2.
    + right. apply andb_prop in HH as [HA HH].
      do 8 (destruct rest as [|?r rest]; [cbn in HA, HH; try discriminate; repeat rewrite orb_false_r in HH; discriminate|]).
      change (ld2 _ 0) with (Some (r * 256 + r0)) in HA.
      change (ld4 (r :: r0 :: r1 :: r2 :: r3 :: r4 :: r5 :: r6 :: rest) 2)
        with (Some (((r1 * 256 + r2) * 256 + r3) * 256 + r4)) in HH.
      change (ld2 (r :: r0 :: r1 :: r2 :: r3 :: r4 :: r5 :: r6 :: rest) 6) with (Some (r5 * 256 + r6)) in HH.
      cbv beta iota in HA, HH. apply Z.eqb_eq in HA. split_bytes.
      exists [r2; r3; r4], (r5 * 256 + r6), rest.
      split.
      * rewrite U16_of by assumption. cbn [app]. unfold byte in *.
        rewrite !orb_true_iff, !andb_true_iff, !Z.eqb_eq in HH.
        repeat f_equal; lia.
      * rewrite !orb_true_iff, !andb_true_iff, !Z.eqb_eq in HH. unfold byte in *.
        destruct HH as [[[HH|HH]|HH]|HH];
          [left|right; left|right; right; left|right; right; right; left];
          repeat f_equal; lia.
  - intros [[Ed Et]|(org & pid & payload & -> & Hin)]; apply orb_true_iff.
    + left. injection Ed as -> -> -> -> -> ->. injection Et as -> ->. reflexivity.
    + right. cbn [In] in Hin.
      destruct Hin as [E|[E|[E|[E|[]]]]]; injection E as <- <- <- <- <- <- <- <-; reflexivity.
Qed.

Lemma filter_iff opts f : Z.testbit opts 2 = true -> bytes f ->
  socket_filter opts f = true <-> named_frame f.
Proof.
  intros Ho Hb. rewrite accept_bool by assumption. unfold named_frame, cdp_frame, fdp_frame, ndp_frame.
  split.
  - destruct (ld2 f 12) as [ty|] eqn:E; [|discriminate]. intros H.
    assert (L : 14 <= zlen f).
    { unfold ld2 in E. destruct (skipn (Z.to_nat 12) f) as [|? [|? r]] eqn:Es; try easy.
      apply (f_equal (@length Z)) in Es. rewrite skipn_length in Es. cbn in Es. unfold zlen. lia. }
    destruct (split_at _ f 6) as (d & f1 & -> & Hd); [lia|].
    destruct (split_at _ f1 6) as (s & f2 & -> & Hs); [zlia|].
    destruct (split_at _ f2 2) as (t & f3 & -> & Ht); [zlia|].
    assert (Bt : bytes t) by (do 2 apply Forall_app in Hb as [_ Hb]; apply Forall_app in Hb as [? _]; assumption).
    assert (Et : t = U16 ty /\ 0 <= ty < 65536).
    { unfold ld2 in E. replace (d ++ s ++ t ++ f3) with ((d ++ s) ++ t ++ f3) in E by now rewrite <- !app_assoc.
      replace 12 with (zlen (d ++ s)) in E by zlia. rewrite skipn_zlen_app in E.
      destruct t as [|a [|b [|]]]; try discriminate Ht.
      - cbn [app] in E. injection E as <-. split_bytes. rewrite U16_of by assumption. unfold byte in *. split; [reflexivity|lia].
      - exfalso. zlia. }
    destruct Et as [-> Hty]. destruct (ty =? 0x8100) eqn:E8.
    + apply Z.eqb_eq in E8. subst ty.
      assert (L2 : 4 <= zlen f3).
      { destruct (Z_lt_le_dec (zlen f3) 4) as [Hl|]; [|assumption]. exfalso. revert H.
        assert (N16 : ld2 (d ++ s ++ U16 33024 ++ f3) (4 + 12) = None \/
                      exists v, ld2 (d ++ s ++ U16 33024 ++ f3) (4 + 12) = Some v).
        { destruct (ld2 _ (4 + 12)); eauto. }
        assert (S : forall k, 0 <= k -> skipn (Z.to_nat (14 + k)) (d ++ s ++ U16 33024 ++ f3) = skipn (Z.to_nat k) f3).
        { intros k Hk. replace (d ++ s ++ U16 33024 ++ f3) with ((d ++ s ++ U16 33024) ++ f3) by now rewrite <- !app_assoc.
          replace 14 with (zlen (d ++ s ++ U16 33024)) by (unfold U16; zlia). now apply skipn_past. }
        unfold hit, blk_hit, ld2, ld4.
        change (4 + 12) with (14 + 2). change (4 + 14) with (14 + 4). change (4 + 16) with (14 + 6).
        rewrite !S by lia. clear -Hl.
        destruct f3 as [|a [|b [|c [|]]]]; cbn; try (exfalso; zlia);
          repeat (match goal with |- context [match ?x with _ => _ end] => destruct x end; try discriminate). }
      destruct (split_at _ f3 2) as (tag & f4 & -> & Htag); [zlia|].
      destruct (split_at _ f4 2) as (ty & rest & -> & Hty2); [zlia|].
      apply (hit_frame 4 (U16 33024 ++ tag) (d ++ s ++ U16 33024 ++ tag ++ ty ++ rest)) with (d := d) (s := s) (ty := ty) (rest := rest) in H;
        try assumption; try reflexivity.
      * destruct H as [[-> ->]|(org & pid & payload & -> & Hin)].
        -- exists rest. left. now apply lldp_tagged.
        -- destruct (U16_split2 ty) as (v & -> & Hv); [|exact Hty2|].
           { do 4 apply Forall_app in Hb as [_ Hb]. apply Forall_app in Hb as [? _]. assumption. }
           exists payload. cbn [In] in Hin.
           destruct Hin as [E1|[E1|[E1|[E1|[]]]]]; injection E1 as <- <- <-.
           ++ right. left. now apply snap_tagged.
           ++ do 4 right. now apply snap_tagged.
           ++ do 2 right. left. now apply snap_tagged.
           ++ do 3 right. left. now apply snap_tagged.
      * do 2 apply Forall_app in Hb as [_ Hb]. apply Forall_app in Hb as [Hb0 Hb]. apply Forall_app in Hb as [Hb1 _].
        now apply Forall_app.
      * right. split; [unfold U16; zlia|reflexivity].
    + apply Z.eqb_neq in E8.
      apply (hit_frame 0 [] (d ++ s ++ U16 ty ++ f3)) with (d := d) (s := s) (ty := U16 ty) (rest := f3) in H;
        try assumption; try reflexivity.
      * destruct H as [[-> ->]|(org & pid & payload & -> & Hin)].
        -- exists f3. left. now apply lldp_untagged.
        -- exists payload. cbn [In] in Hin.
           destruct Hin as [E1|[E1|[E1|[E1|[]]]]]; injection E1 as <- <- <-.
           ++ right. left. now apply snap_untagged.
           ++ do 4 right. now apply snap_untagged.
           ++ do 2 right. left. now apply snap_untagged.
           ++ do 3 right. left. now apply snap_untagged.
      * constructor.
      * left. now split.
  - intros (payload & H).
    assert (U : forall d s ty rest, zlen d = 6 -> zlen s = 6 -> 0 <= ty < 65536 ->
      ld2 (d ++ s ++ U16 ty ++ rest) 12 = Some ty).
    { intros d s ty rest Hd Hs Hty. unfold ld2.
      replace (d ++ s ++ U16 ty ++ rest) with ((d ++ s) ++ U16 ty ++ rest) by now rewrite <- !app_assoc.
      replace 12 with (zlen (d ++ s)) by zlia. rewrite skipn_zlen_app. cbn [U16 app]. f_equal. lia. }
    assert (S : forall dst org pid, zlen dst = 6 ->
       In (dst, org, pid) [([1; 0; 12; 204; 204; 204], [0; 0; 12], 8192);
                         ([0; 14; 43; 0; 0; 0], [0; 14; 43], 187);
                         ([1; 224; 82; 204; 204; 204], [0; 224; 82], 8192);
                         ([1; 0; 129; 0; 1; 0], [0; 0; 129], 418)] ->
       snap_frame dst org pid f payload ->
       match ld2 f 12 with Some ty => hit (if ty =? 33024 then 4 else 0) f | None => false end = true).
    { intros dst org pid Hd Hin Hf. destruct Hf as [src ty payload Hs Hty Hn|src tag ty payload Hs Htag Hty].
      - rewrite U by (assumption || lia). replace (ty =? 33024) with false by lia.
        apply (hit_frame 0 [] _) with (d := dst) (s := src) (ty := U16 ty)
          (rest := [170; 170; 3] ++ org ++ U16 pid ++ payload); try assumption; try reflexivity.
        + constructor.
        + left. now split.
        + right. exists org, pid, payload. now split.
      - rewrite U by (assumption || lia). change (33024 =? 33024) with true. cbv iota.
        apply (hit_frame 4 (U16 33024 ++ tag) _) with (d := dst) (s := src) (ty := U16 ty)
          (rest := [170; 170; 3] ++ org ++ U16 pid ++ payload); try assumption; try reflexivity.
        + do 2 apply Forall_app in Hb as [_ Hb]. apply Forall_app in Hb as [Hb0 Hb]. apply Forall_app in Hb as [Hb1 _].
          now apply Forall_app.
        + right. split; [unfold U16; zlia|reflexivity].
        + right. exists org, pid, payload. now split. }
    destruct H as [H|[H|[H|[H|H]]]].
    + destruct H as [src payload Hs|src tag payload Hs Htag]; rewrite U by (try assumption; reflexivity || lia).
      * change (35020 =? 33024) with false. cbv iota.
        apply (hit_frame 0 [] _) with (d := [1; 128; 194; 0; 0; 14]) (s := src) (ty := U16 35020)
          (rest := payload); try assumption; try reflexivity.
        -- constructor.
        -- left. now split.
        -- left. now split.
      * change (33024 =? 33024) with true. cbv iota.
        apply (hit_frame 4 (U16 33024 ++ tag) _) with (d := [1; 128; 194; 0; 0; 14]) (s := src) (ty := U16 35020)
          (rest := payload); try assumption; try reflexivity.
        -- do 2 apply Forall_app in Hb as [_ Hb]. apply Forall_app in Hb as [Hb0 Hb]. apply Forall_app in Hb as [Hb1 _].
           now apply Forall_app.
        -- right. split; [unfold U16; zlia|reflexivity].
        -- left. now split.
    + apply S in H; [exact H|reflexivity|cbn [In]; tauto].
    + apply S in H; [exact H|reflexivity|cbn [In]; tauto].
    + apply S in H; [exact H|reflexivity|cbn [In]; tauto].
    + apply S in H; [exact H|reflexivity|cbn [In]; tauto].
Qed.
(** Every EDP frame is rejected. *)
Lemma edp_rejected opts f payload : bytes f -> edp_frame f payload -> socket_filter opts f = false.
Proof.
  intros Hb Hf. destruct (socket_filter opts f) eqn:E; [|reflexivity]. exfalso.
  destruct (Z.testbit opts 2) eqn:Ho.
  - apply filter_iff in E; [|assumption|assumption]. destruct E as (p & H).
    assert (Hd : firstn 6 f = [0; 224; 43; 0; 0; 0]) by (inversion Hf; reflexivity).
    destruct H as [H|[H|[H|[H|H]]]]; inversion H; subst; discriminate Hd.
  - unfold socket_filter in E. replace (has opts OPT_RECV) with false in E; [discriminate|].
    symmetry. unfold has, OPT_RECV. apply negb_false_iff, Z.eqb_eq. apply Z.bits_inj'. intros i Hi.
    rewrite Z.land_spec, Z.bits_0. destruct (Z.eq_dec i 2) as [->|Hn]; [now rewrite Ho|].
    change 4 with (2 ^ 2). rewrite Z.pow2_bits_false by lia. apply andb_false_r.
Qed.
(** Without OPT_RECV everything is rejected. *)
Lemma reject_all opts f : Z.testbit opts 2 = false -> socket_filter opts f = false.
Proof.
  intros Ho. unfold socket_filter. replace (has opts OPT_RECV) with false; [reflexivity|].
  symmetry. unfold has, OPT_RECV. apply negb_false_iff, Z.eqb_eq. apply Z.bits_inj'. intros i Hi.
  rewrite Z.land_spec, Z.bits_0. destruct (Z.eq_dec i 2) as [->|Hn]; [now rewrite Ho|].
  change 4 with (2 ^ 2). rewrite Z.pow2_bits_false by lia. apply andb_false_r.
Qed.
