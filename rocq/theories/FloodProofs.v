(** Proofs of C133. *)
From Verif Require Import Base Tlv Types Msg Protos Util Wire Parent Child Spec SpecAdv SpecRound SpecNet SpecChild SpecHold SpecFlood Lemmas ChildProofs ChildProofs2
  NetProofs HoldProofs HoldProofs2 CliProofs4.

(** ** At most one entry per frame *)
Lemma pigeon {A B} (R : A -> B -> Prop) : forall (a : list A) (b : list B), NoDup a -> (forall x, In x a -> exists y, In y b /\ R x y) ->
  (forall x x' y, In x a -> In x' a -> R x y -> R x' y -> x = x') -> (length a <= length b)%nat.
Proof.
  induction a as [|x a IH]; intros b D H J; [cbn; lia|]. inversion D as [|? ? D1 D2]; subst.
  destruct (H x (or_introl eq_refl)) as (y & Hy & Rx). apply in_split in Hy as (b1 & b2 & ->). rewrite app_length. cbn [length].
  assert (L : (length a <= length (b1 ++ b2))%nat).
  { apply IH; [assumption| |intros u v z Hu Hv; apply J; now right]. intros u Hu. destruct (H u (or_intror Hu)) as (z & Hz & Rz). exists z. split; [|exact Rz].
    apply in_app_iff in Hz as [Hz|[<-|Hz]]; apply in_app_iff; [now left| |now right].
    exfalso. apply D1. now rewrite (J x u y (or_introl eq_refl) (or_intror Hu) Rx Rz). }
  rewrite app_length in L. lia.
Qed.
Lemma news_same c c' e x y : news c e x -> news c' e y -> who x = who y.
Proof.
  intros A B. pose proof B as (d & now & now2 & i & p & f & s & pr & ttl & at_ & E & B1 & B2 & B3 & B4 & B5 & _). subst e.
  rewrite (news_who _ _ _ _ _ A i p f pr ttl at_ B2 B3 B1 B4 B5). symmetry. exact (news_who _ _ _ _ _ B i p f pr ttl at_ B2 B3 B1 B4 B5).
Qed.
Lemma bounded opts es t c eff : reached opts (es ++ [CTick t]) c eff -> Forall ordinary (es ++ [CTick t]) -> Forall unblocked (es ++ [CTick t]) ->
  zlen (c_queue c) <= zlen (filter (since (t - 65535)) es).
Proof.
  intros R O U. pose proof (reached_ok _ _ _ _ R) as [T1 T2 T3 T4].
  assert (L : (length (c_queue c) <= length (filter (since (t - 65535)) es))%nat); [|unfold zlen; lia].
  apply (pigeon (fun x e => exists c en, news c e en /\ who en = who x)).
  - apply (NoDup_map_inv who). exact T3.
  - intros x Hx. pose proof (listed_known _ _ O U _ _ _ R Hx) as K. apply known_inv in K as (es1 & e & es2 & c1 & eff1 & E & R1 & N & T & _ & Cl).
    destruct es2 as [|z es2] using rev_ind.
    { apply app_inj_tail in E as [_ <-]. destruct N as (? & ? & ? & ? & ? & ? & ? & ? & ? & ? & K & _). discriminate. }
    clear IHes2. change (e :: es2 ++ [z]) with ((e :: es2) ++ [z]) in E. rewrite app_assoc in E. apply app_inj_tail in E as [-> <-].
    assert (Q : t <= q_received x + q_ttl x).
    { change (t <= q_received (content x) + q_ttl (content x)). apply Cl.
      assert (R' := R). rewrite <- app_assoc in R'. apply run_unsnoc in R as (c2 & e3 & e4 & R2 & St).
      exists es2, (CTick t), [], c2, e3. split; [reflexivity|]. split; [now rewrite <- app_assoc|]. now left. }
    exists e. split; [|exists c1, (content x); now split]. apply filter_In. split; [apply in_app_iff; right; now left|].
    destruct N as (d & now & now2 & i & p & f & s & pr & ttl & at_ & -> & B1 & B2 & B3 & B4 & B5 & _ & _ & Ex). cbn [since].
    pose proof (advert_ttl _ _ _ _ _ B3 B1 B5) as Lt. apply (f_equal q_ttl) in Ex as E1. apply (f_equal q_received) in Ex as E2. cbn in E1, E2. lia.
  - intros x x' e Hx Hx' (c1 & y & N1 & W1) (c2 & y' & N2 & W2). apply (who_inj (c_queue c)); try assumption. rewrite <- W1, <- W2. exact (news_same _ _ _ _ _ N1 N2).
Qed.

(** ** As many entries as frames *)
Lemma put_new new q fresh : (forall x, In x q -> source x <> source new) ->
  queue_put new q fresh = (q ++ [with_id fresh new], fresh + 1).
Proof.
  intros H. unfold queue_put. destruct (queue_find _ _ _ _ _) as [[i|] pp] eqn:E.
  - apply find_hit in E as (x & Hx & _ & W). exfalso. apply (H x Hx). apply (f_equal snd) in W. cbn [who snd] in W. rewrite slice_0_12 in W.
    unfold source. rewrite <- !src_of_hdr. now rewrite W.
  - apply find_miss in E as (_ & [[-> _]|(a & x & b & -> & -> & W & _)]); [reflexivity|]. exfalso. apply (H x); [apply in_app_iff; right; now left|].
    apply (f_equal snd) in W. cbn [pk snd] in W. rewrite W. rewrite slice_0_12. unfold source. now rewrite <- src_of_hdr.
Qed.
Lemma made_up_inj k k' : 0 <= k < 4294967296 -> 0 <= k' < 4294967296 -> made_up k = made_up k' -> k = k'.
Proof.
  unfold made_up. intros H H' E. injection E as E1 E2 E3 E4.
  pose proof (Z.div_mod k 256). pose proof (Z.div_mod k' 256). 
  assert (A : k / 65536 = k / 256 / 256) by now rewrite Z.div_div. assert (B : k / 16777216 = k / 256 / 256 / 256) by now rewrite !Z.div_div.
  assert (A' : k' / 65536 = k' / 256 / 256) by now rewrite Z.div_div. assert (B' : k' / 16777216 = k' / 256 / 256 / 256) by now rewrite !Z.div_div.
  rewrite A, A' in E2. rewrite B, B' in E1. lia.
Qed.
Lemma made_up_bytes k : bytes (made_up k).
Proof. unfold made_up. repeat constructor; unfold byte; try lia; apply Z.mod_pos_bound; lia. Qed.
Section Flood.
Context (opts index now ttl : Z) (nfs : list netif) (sub : netif) (frame dgram : Z -> list Z).
Hypothesis Hnow : now <> -1.
Hypothesis Httl : ttl <> 0.
Hypothesis Hopts : has opts OPT_AUTO = false /\ has opts OPT_IFDESCR = false.
Hypothesis Hsub : netif_byindex nfs index = Some sub.
Hypothesis Hf : forall k, bytes (frame k) /\ 60 <= zlen (frame k) <= 1518 /\ carries (dgram k) index 0 0 (frame k)
  /\ firstn 6 (skipn 6 (frame k)) = made_up k /\ netif_byaddr nfs (made_up k) = None /\ exists attrs, advert 0 (frame k) 0 ttl attrs.
Fixpoint burst (n : nat) : list cevent :=
  match n with O => [CFetch nfs] | S n' => burst n' ++ [CRecv (dgram (Z.of_nat n')) now now] end.
Lemma run_snoc es e c c1 c2 eff1 eff2 : child_run opts c es = DOk (c1, eff1) -> child_step opts c1 e = DOk (c2, eff2) ->
  child_run opts c (es ++ [e]) = DOk (c2, eff1 ++ eff2).
Proof.
  revert c c1 eff1. induction es as [|x es IH]; intros c c1 eff1 H St; cbn [child_run app] in *.
  - injection H as <- <-. rewrite St. cbn [dbind]. now rewrite app_nil_r.
  - apply dbind_ok in H as ([ca ea] & Ha & H). apply dbind_ok in H as ([cb eb] & Hb & H). injection H as <- <-.
    rewrite Ha. cbn [dbind]. rewrite (IH _ _ _ Hb St). cbn [dbind]. now rewrite app_assoc.
Qed.
Lemma flood n : Z.of_nat n <= 4294967296 -> exists c, reached opts (burst n) c [] /\ c_nfs c = nfs /\ zlen (c_queue c) = Z.of_nat n
  /\ (forall x, In x (c_queue c) -> exists j, 0 <= j < Z.of_nat n /\ source x = made_up j /\ q_received x = now /\ q_ttl x = ttl).
Proof.
  induction n as [|n IH]; intros L.
  { exists (set_nfs child_start nfs). split; [reflexivity|]. split; [reflexivity|]. split; [reflexivity|]. intros x []. }
  destruct IH as (c & R & N & Z & P); [lia|]. set (k := Z.of_nat n) in *.
  destruct (Hf k) as (B & Lf & Ca & Sr & Ow & attrs & Ad). destruct Hopts as [H1 H2].
  set (new := fresh_entry sub index 0 now ttl (frame k) attrs).
  assert (Sn : source new = made_up k).
  { unfold new, source, fresh_entry. cbn [q_msg]. rewrite <- Sr. rewrite skipn_app, firstn_app. rewrite skipn_length.
    replace (6 - length (frame k))%nat with 0%nat by (unfold zlen in Lf; lia). replace (6 - (length (frame k) - 6))%nat with 0%nat by (unfold zlen in Lf; lia).
    cbn [firstn]. apply app_nil_r. }
  assert (Pn : queue_put new (c_queue c) (c_next c) = (c_queue c ++ [with_id (c_next c) new], c_next c + 1)).
  { apply put_new. intros x Hx E. destruct (P x Hx) as (j & Hj & Ej & _). rewrite Ej, Sn in E. apply made_up_inj in E; lia. }
  assert (Nb : netif_byindex (c_nfs c) index = Some sub) by now rewrite N.
  assert (Na : netif_byaddr (c_nfs c) (firstn 6 (skipn 6 (frame k))) = None) by now rewrite N, Sr.
  assert (H0 : 0 <= 0 < 6) by lia.
  pose proof (rcv_good opts c (dgram k) index 0 0 (frame k) now now B Ca H0 Lf Hnow sub 0 ttl attrs Nb Na Ad) as G.
  replace (ttl =? 0) with false in G by lia. fold new in G. rewrite Pn, H1, H2 in G. cbn [negb orb] in G.
  eexists. split; [cbn [burst]; apply (run_snoc _ _ _ _ _ [] [] R); exact G|]. split; [exact N|]. cbn [c_queue]. split.
  - rewrite zlen_app, Z. change (zlen [with_id (c_next c) new]) with 1. unfold k. lia.
  - intros x Hx. apply in_app_iff in Hx as [Hx|[<-|[]]].
    + destruct (P x Hx) as (j & Hj & Q). exists j. split; [lia|exact Q].
    + exists k. split; [lia|]. split; [exact Sn|]. now split.
Qed.
End Flood.
Lemma lldp_payload f pl : lldp_frame f pl -> nth 12 f 0 = 136 -> pl = skipn 14 f.
Proof.
  intros H. destruct H as [src pl L|src tag pl L L']; intros N.
  - destruct src as [|a [|b [|c [|d [|e [|g [|z s]]]]]]]; try discriminate L; [reflexivity|]. exfalso. rewrite !zlen_cons in L. pose proof (zlen_nonneg _ s). lia.
  - destruct src as [|a [|b [|c [|d [|e [|g [|z s]]]]]]]; try discriminate L; [discriminate N|]. exfalso. rewrite !zlen_cons in L. pose proof (zlen_nonneg _ s). lia.
Qed.
