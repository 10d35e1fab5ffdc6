(** The neighbour table as a function of what was heard. *)
From Verif Require Import Base Types Tlv Msg Protos Wire Util Child Spec SpecAdv SpecRound SpecNet SpecChild SpecHold
  Lemmas WireProofs DecProofs NetProofs ChildProofs ChildProofs2 ChildProofs5.
From Coq Require Import Lia.

(** ** What an event says *)
Lemma carries_inj d i p r f i' p' r' f' : zlen f <= 1518 -> zlen f' <= 1518 -> carries d i p r f -> carries d i' p' r' f' -> i = i' /\ p = p' /\ f = f'.
Proof.
  intros L L' (A1 & A2 & A3 & A4 & A5 & A6) (B1 & B2 & B3 & B4 & B5 & B6).
  split; [congruence|]. split; [congruence|].
  assert (E : length f = length f') by (unfold zlen in *; lia).
  rewrite A6 in B6. apply (f_equal (firstn (length f))) in B6. rewrite firstn_app, Nat.sub_diag, firstn_all in B6. cbn [firstn] in B6.
  rewrite app_nil_r, E, firstn_app, Nat.sub_diag, firstn_all in B6. cbn [firstn] in B6. now rewrite app_nil_r in B6.
Qed.
Lemma advert_fun p f proto ttl attrs proto' ttl' attrs' : 0 <= p < 6 -> bytes f -> 60 <= zlen f <= 1518 ->
  advert p f proto ttl attrs -> advert p f proto' ttl' attrs' -> proto = proto' /\ ttl = ttl' /\ report attrs = report attrs'.
Proof.
  intros Hp Hb Hl A B.
  set (x := mkCtx (f ++ repeat 0 (Z.to_nat (1518 - zlen f))) (zlen f) DECODE_STR [] 0 0).
  assert (I : in_buffer x f).
  { exists (repeat 0 (Z.to_nat (1518 - zlen f))). cbn [d_buf d_len x]. split; [reflexivity|].
    split; [zl; lia|]. split; [reflexivity|]. split; assumption. }
  destruct (advert_decode p x f (mkDst no_peers 0 p []) proto ttl attrs Hp I eq_refl eq_refl eq_refl eq_refl A) as (n & _ & E).
  destruct (advert_decode p x f (mkDst no_peers 0 p []) proto' ttl' attrs' Hp I eq_refl eq_refl eq_refl eq_refl B) as (n' & _ & E').
  rewrite E in E'.
  split; [exact (f_equal (fun r => match r with DOk (_, s) => s_proto s | _ => proto' end) E')|].
  split; [exact (f_equal (fun r => match r with DOk (_, s) => s_ttl s | _ => ttl' end) E')|].
  exact (f_equal (fun r => match r with DOk (_, s) => s_peer s | _ => [] end) E').
Qed.
Lemma news_fun c e a b : news c e a -> news c e b -> a = b.
Proof.
  intros (d & now & now2 & i & p & f & s & pr & ttl & at_ & E & A1 & A2 & A3 & A4 & A5 & A6 & A7 & ->).
  intros (d' & now' & now2' & i' & p' & f' & s' & pr' & ttl' & at' & E' & B1 & B2 & B3 & B4 & B5 & B6 & B7 & ->).
  rewrite E in E'. injection E' as <- <- <-.
  destruct (carries_inj _ _ _ _ _ _ _ _ _ (proj2 A2) (proj2 B2) A4 B4) as (<- & <- & <-).
  destruct (advert_fun _ _ _ _ _ _ _ _ A3 A1 A2 A5 B5) as (<- & <- & <-). congruence.
Qed.
Lemma news_content c e en : news c e en -> content en = en.
Proof. intros (d & now & now2 & i & p & f & s & pr & ttl & at_ & H). destruct H as (_ & _ & _ & _ & _ & _ & _ & _ & ->). reflexivity. Qed.

(** ** The table after an event *)
Lemma content_who x : who (content x) = who x. Proof. reflexivity. Qed.
Lemma content_id i x : content (with_id i x) = content x. Proof. reflexivity. Qed.
Lemma add_lock_content i d q : map content (add_lock i d q) = map content q.
Proof. unfold add_lock. rewrite map_map. apply map_ext. intros e. now destruct (q_id e =? i). Qed.
Lemma write_content c sid t ws c' eff : child_cli_write c sid t ws = DOk (c', eff) ->
  map content (c_queue c') = map content (c_queue c).
Proof.
  unfold child_cli_write. destruct (find _ _) as [s|]; [|intros H; injection H as <- _; reflexivity].
  destruct t; [intros H; injection H as <- _; reflexivity|]. cbv zeta. intros H.
  apply dbind_ok in H as ([q1 l] & H1 & H2).
  assert (E : map content q1 = map content (c_queue c)).
  { destruct (ss_msg s) as [i|]; [|injection H1 as <- _; reflexivity].
    destruct (queue_from _ _); [|discriminate]. injection H1 as <- _. apply add_lock_content. }
  destruct (write_loop _ _ _) as [eff' [r|]]; injection H2 as <- _; cbn [c_queue]; [rewrite add_lock_content|]; exact E.
Qed.

Definition silent (c : child) (e : cevent) : Prop := forall x, ~ news c e x.
Lemma news_who c d now now2 en : news c (CRecv d now now2) en -> forall index p f proto ttl attrs,
  60 <= zlen f <= 1518 -> 0 <= p < 6 -> bytes f -> carries d index p 0 f -> advert p f proto ttl attrs -> who en = (index, proto, firstn 12 f).
Proof.
  intros (d' & now' & now2' & i' & p' & f' & s' & pr' & ttl' & at' & E' & B1 & B2 & B3 & B4 & B5 & B6 & B7 & ->) i p f pr ttl at_ A2 A3 A1 A4 A5.
  injection E' as <- <- <-. destruct (carries_inj _ _ _ _ _ _ _ _ _ (proj2 A2) (proj2 B2) A4 B4) as (<- & <- & <-).
  destruct (advert_fun _ _ _ _ _ _ _ _ A3 A1 A2 A5 B5) as (<- & <- & E3). unfold who. cbn [q_index q_proto q_msg]. f_equal.
  rewrite firstn_app. replace (12 - length f)%nat with 0%nat by (unfold zlen in A2; lia). apply app_nil_r.
Qed.
Lemma step_cases opts c e c' eff : table_ok (c_queue c) (c_next c) -> ordinary e -> child_step opts c e = DOk (c', eff) ->
  (exists en, news c e en /\ q_ttl en <> 0 /\ (exists x, In x (c_queue c') /\ content x = en)
     /\ (forall x, In x (c_queue c') -> who x = who en -> content x = en)
     /\ (forall x, who x <> who en -> In x (c_queue c') <-> In x (c_queue c)))
  \/ (exists en d now now2, e = CRecv d now now2 /\ news c e en /\ q_ttl en = 0
     /\ (forall x, In x (c_queue c') -> who x <> who en)
     /\ (forall x, who x <> who en -> In x (c_queue c') <-> In x (c_queue c) /\ stays now2 x = true))
  \/ (exists t, e = CTick t /\ c_queue c' = filter (stays t) (c_queue c))
  \/ (silent c e /\ (forall t, e <> CTick t) /\ map content (c_queue c') = map content (c_queue c)).
Proof.
  intros Ht Ho H.
  assert (Sil : (forall d now now2, e <> CRecv d now now2) -> silent c e).
  { intros N x (d & now & now2 & i & p & f & s & pr & ttl & at_ & E & _). now apply N in E. }
  destruct e as [d now now2|t|nfs|sid|sid ws|sid]; cbn [child_step] in H.
  - destruct Ho as (Hn & Hn2 & index & p & f & payload & Hb & Hl & Hp & Hc & Hf).
    assert (N1 : now <> -1) by lia.
    assert (Known : forall sub, netif_byindex (c_nfs c) index = Some sub ->
       netif_byaddr (c_nfs c) (firstn 6 (skipn 6 f)) = None -> forall proto ttl attrs, advert p f proto ttl attrs ->
       news c (CRecv d now now2) (fresh_entry sub index proto now ttl f attrs)).
    { intros sub E1 E2 pr ttl at_ Ad. exists d, now, now2, index, p, f, sub, pr, ttl, at_. now repeat (split; [first [reflexivity|assumption]|]). }
    assert (Quiet : (forall x, news c (CRecv d now now2) x -> exists sub proto ttl attrs, netif_byindex (c_nfs c) index = Some sub
        /\ netif_byaddr (c_nfs c) (firstn 6 (skipn 6 f)) = None /\ advert p f proto ttl attrs)).
    { intros x (d' & now' & now2' & i' & p' & f' & s' & pr' & ttl' & at' & E' & B1 & B2 & B3 & B4 & B5 & B6 & B7 & _).
      injection E' as <- <- <-. destruct (carries_inj _ _ _ _ _ _ _ _ _ (proj2 Hl) (proj2 B2) Hc B4) as (<- & <- & <-). eauto 8. }
    destruct (netif_byindex (c_nfs c) index) as [sub|] eqn:Ei.
    2:{ rewrite (rcv_unknown opts c d index p 0 f now now2 Hc Hp Hl N1 Ei) in H. injection H as <- _.
        right. right. right. split; [|split; [discriminate|reflexivity]]. intros x K. destruct (Quiet x K) as (s & pr & ttl & at_ & E & _). discriminate. }
    destruct (netif_byaddr (c_nfs c) (firstn 6 (skipn 6 f))) as [o|] eqn:Ea.
    { rewrite (rcv_own opts c d index p 0 f now now2 Hc Hp Hl N1 o Ea) in H. injection H as <- _.
      right. right. right. split; [|split; [discriminate|reflexivity]]. intros x K. destruct (Quiet x K) as (s & pr & ttl & at_ & _ & E & _). discriminate. }
    assert (Dec : (c' = c /\ forall proto ttl attrs, ~ advert p f proto ttl attrs) \/ exists proto ttl attrs, advert p f proto ttl attrs).
    { pose proof Hc as (L & E1 & E2 & E3 & E4 & E5). revert H. unfold child_queue. cbv zeta.
      rewrite (rcv_size d index p 0 f Hc Hl), E2, E4, E1, E3, E5. cbn [negb]. replace (now =? -1) with false by lia.
      replace (p <? PROTO_MAX) with true by (unfold PROTO_MAX; lia).
      replace (zlen f <=? ETHER_MAX_LEN) with true by (unfold ETHER_MAX_LEN; lia). cbn [negb].
      rewrite Ei, (rcv_src f Hl), Ea. intros H.
      destruct (proto_decode _ _ _) as [[n s]| | | |] eqn:E; try discriminate.
      - right. apply (decode_advert p _ f payload) in E as (proto & ttl & attrs & Ha & _); try assumption; try reflexivity; [eauto|].
        exact (rcv_in 0 f now Hb Hl sub).
      - left. split; [now injection H as <- _|]. intros pr ttl at_ Ad.
        destruct (advert_decode p _ f (mkDst no_peers 0 p []) pr ttl at_ Hp (rcv_in 0 f now Hb Hl sub) eq_refl eq_refl eq_refl eq_refl Ad) as (n & _ & E').
        rewrite E in E'. discriminate. }
    destruct Dec as [[-> No]|(proto & ttl & attrs & Ad)].
    + right. right. right. split; [|split; [discriminate|reflexivity]]. intros x K.
      destruct (Quiet x K) as (s & pr & ttl & at_ & _ & _ & Ad). exact (No _ _ _ Ad).
    + pose proof (Known sub eq_refl eq_refl proto ttl attrs Ad) as Nw.
      pose proof (news_who _ _ _ _ _ Nw _ _ _ _ _ _ Hl Hp Hb Hc Ad) as W.
      assert (Ht' : table_ok (c_queue c') (c_next c')) by exact (step_ok opts c (CRecv d now now2) c' eff Ht H).
      destruct (Z.eq_dec ttl 0) as [->|T].
      * right. left. destruct (rcv_shutdown opts c d index p f now now2 sub proto attrs c' eff Ht Hb Hc Hp Hl N1 Hn2 Ei Ea Ad H) as [K1 K2].
        eexists _, d, now, now2. split; [reflexivity|]. split; [exact Nw|]. split; [reflexivity|]. rewrite W. now split.
      * left. destruct (rcv_table opts c d index p 0 f now now2 sub proto ttl attrs c' eff Ht Hb Hc Hp Hl N1 Ei Ea Ad T H) as [(x & K0 & K1 & K2 & K3 & K4 & K5 & K6 & K7 & K8) K].
        assert (Cx : content x = fresh_entry sub index proto now ttl f attrs) by (unfold content, fresh_entry; now rewrite K1, K2, K3, K4, K5, K6, K7, K8).
        eexists. split; [exact Nw|]. split; [exact T|]. split; [exists x; now split|]. rewrite W. split; [|exact K].
        intros y Hy Wy. replace y with x; [exact Cx|]. apply (who_inj (c_queue c')); [apply Ht'|assumption|assumption|].
        rewrite Wy, <- (content_who x), Cx. exact W.
  - cbn [ordinary] in Ho. right. right. left. exists t. split; [reflexivity|]. injection H as H.
    pose proof (proj1 (child_expire_queue opts t c ltac:(lia))) as E. now rewrite H in E.
  - right. right. right. split; [apply Sil; discriminate|]. split; [discriminate|]. now injection H as <- _.
  - right. right. right. split; [apply Sil; discriminate|]. split; [discriminate|]. destruct (existsb _ _); now injection H as <- _.
  - right. right. right. split; [apply Sil; discriminate|]. split; [discriminate|]. exact (write_content _ _ _ _ _ _ H).
  - right. right. right. split; [apply Sil; discriminate|]. split; [discriminate|]. exact (write_content _ _ _ _ _ _ H).
Qed.

(** ** Histories *)
Lemma run_unsnoc opts e : forall es c c2 eff, child_run opts c (es ++ [e]) = DOk (c2, eff) ->
  exists c1 eff1 eff2, child_run opts c es = DOk (c1, eff1) /\ child_step opts c1 e = DOk (c2, eff2).
Proof.
  induction es as [|a es IH]; intros c c2 eff H; cbn [app child_run] in H; apply dbind_ok in H as ([c1 e1] & H1 & H);
    apply dbind_ok in H as ([c3 e3] & H2 & H).
  - cbn [child_run] in H2. injection H2 as <- <-. injection H as <- _. exists c, [], e1. now split.
  - injection H as <- _. apply IH in H2 as (c4 & e4 & e5 & K1 & K2). exists c4, (e1 ++ e4), e5. split; [|assumption].
    cbn [child_run]. rewrite H1. cbn [dbind]. rewrite K1. reflexivity.
Qed.
Lemma reached_unsnoc opts es e c eff c' eff' : reached opts es c eff -> reached opts (es ++ [e]) c' eff' ->
  exists eff2, child_step opts c e = DOk (c', eff2).
Proof.
  intros H K. apply run_unsnoc in K as (c1 & e1 & e2 & K1 & K2). unfold reached in H. rewrite K1 in H. injection H as <- _. eauto.
Qed.
Lemma content_fresh x t : q_lock x = 0 -> stays t x = true -> t <= q_received (content x) + q_ttl (content x).
Proof. intros L H. unfold stays in H. rewrite L in H. cbn in *. lia. Qed.
Lemma fresh_content x t : t <= q_received (content x) + q_ttl (content x) -> stays t x = true.
Proof. intros H. unfold stays. cbn in *. apply orb_true_iff. left. lia. Qed.

Theorem known_listed opts es en : known opts es en -> Forall ordinary es -> forall c eff, reached opts es c eff ->
  exists x, In x (c_queue c) /\ content x = en.
Proof.
  induction 1 as [es c eff e en R N T|es c eff e en K IH R N T]; intros O c' eff' R';
    apply Forall_app in O as [O Oe]; apply Forall_inv in Oe;
    destruct (reached_unsnoc _ _ _ _ _ _ _ R R') as (eff2 & St); pose proof (reached_ok _ _ _ _ R) as Tk;
    destruct (step_cases _ _ _ _ _ Tk Oe St) as [(y & Y1 & Y2 & Y3 & Y4 & Y5)|[(y & d & now & now2 & Y0 & Y1 & Y2 & Y3 & Y4)|[(t & -> & Y)|(Y1 & Y2 & Y3)]]].
  - now rewrite (news_fun _ _ _ _ N Y1).
  - rewrite (news_fun _ _ _ _ N Y1) in T. contradiction.
  - destruct N as (d & now & now2 & i & p & f & s & pr & ttl & at_ & E & _). discriminate.
  - now apply Y1 in N.
  - destruct (IH O _ _ R) as (x & X1 & X2). exists x. split; [|exact X2]. apply Y5; [|exact X1].
    intros W. apply (N _ Y1). rewrite <- W, <- X2. reflexivity.
  - destruct (IH O _ _ R) as (x & X1 & X2). exists x. split; [|exact X2]. apply Y4.
    + intros W. apply (N _ Y1). rewrite <- W, <- X2. reflexivity.
    + split; [exact X1|]. apply fresh_content. rewrite X2. apply T. right. exists d, now, y. now rewrite Y0 in *.
  - destruct (IH O _ _ R) as (x & X1 & X2). exists x. split; [|exact X2]. rewrite Y. apply filter_In. split; [exact X1|].
    apply fresh_content. rewrite X2. apply T. now left.
  - destruct (IH O _ _ R) as (x & X1 & X2).
    assert (I : In en (map content (c_queue c'))) by (rewrite Y3, <- X2; now apply in_map).
    apply in_map_iff in I as (z & Z1 & Z2). eauto.
Qed.

(** ** Without waiting clients *)
Definition idle (c : child) : Prop := Forall (fun s => ss_msg s = None) (c_sess c) /\ Forall (fun x => q_lock x = 0) (c_queue c).
Lemma put_unlocked new q fresh q' fresh' : table_ok q fresh -> queue_put new q fresh = (q', fresh') -> q_lock new = 0 ->
  Forall (fun x => q_lock x = 0) q -> Forall (fun x => q_lock x = 0) q'.
Proof.
  intros T P L F. destruct (put_content _ _ _ _ _ T P) as (_ & A & B). rewrite Forall_forall in *. intros x Hx.
  assert (D : {who x = who new} + {who x <> who new}) by (repeat decide equality).
  destruct D as [D|D]; [destruct (A x Hx D) as (i & ->); exact L|]. apply F. now apply B.
Qed.
Lemma expire_idle opts t c : idle c -> idle (fst (child_expire opts t c)).
Proof.
  intros [A B]. destruct (Z.eq_dec t (-1)) as [->|N]; [now split|].
  destruct (child_expire_queue opts t c N) as (E1 & E2 & _). split; [now rewrite E2|]. rewrite E1.
  rewrite Forall_forall in *. intros x Hx. apply filter_In in Hx as [Hx _]. now apply B.
Qed.
Lemma loop_done sid : forall q ws, ~ In WAgain ws -> snd (write_loop sid q ws) = None.
Proof.
  induction q as [|e q IH]; intros ws N; [reflexivity|]. cbn [write_loop]. destruct ws as [|w ws].
  - specialize (IH [] (fun x => x)). cbn [tl]. destruct (write_loop _ _ _). exact IH.
  - assert (N' : ~ In WAgain ws) by (intros K; apply N; now right).
    destruct w; [|contradiction N; now left|reflexivity]. specialize (IH ws N'). cbn [tl]. destruct (write_loop _ _ _). exact IH.
Qed.
Lemma drop_idle sid l : Forall (fun s => ss_msg s = None) l -> Forall (fun s => ss_msg s = None) (drop_sess sid l).
Proof. intros F. rewrite Forall_forall in *. intros s Hs. apply filter_In in Hs as [Hs _]. now apply F. Qed.
Lemma step_idle opts c e c' eff : table_ok (c_queue c) (c_next c) -> idle c -> ordinary e -> unblocked e ->
  child_step opts c e = DOk (c', eff) -> idle c'.
Proof.
  intros T [A B] O U H. destruct e as [d now now2|t|nfs|sid|sid ws|sid]; cbn [child_step] in H.
  - destruct O as (_ & _ & index & p & f & payload & Hb & Hl & Hp & Hc & Hf).
    destruct (ChildProofs5.rcv_result opts c d index p f now now2 c' eff Hc (proj1 Hl) H) as [->|(new & q & fresh & nfs' & N1 & N2 & N3 & Hput & Hc')]; [now split|].
    pose proof (put_unlocked _ _ _ _ _ T Hput N3 B) as Q.
    destruct Hc' as [->| ->]; [now split|]. apply expire_idle. now split.
  - injection H as H. pose proof (expire_idle opts t c (conj A B)) as E. now rewrite H in E.
  - injection H as <- _. now split.
  - destruct (existsb _ _); injection H as <- _; [now split|]. split; [|exact B]. cbn. apply Forall_app. split; [exact A|]. now repeat constructor.
  - unfold child_cli_write in H. destruct (find _ _) as [s|] eqn:Ef; [|injection H as <- _; now split].
    cbv zeta in H. apply find_some in Ef as [Ef _]. rewrite Forall_forall in A. rewrite (A _ Ef) in H. rewrite <- Forall_forall in A.
    cbn [dbind] in H. pose proof (loop_done sid (c_queue c) ws U) as W. destruct (write_loop _ _ _) as [eff' r]. cbn in W. subst r.
    injection H as <- _. split; [now apply drop_idle|exact B].
  - unfold child_cli_write in H. destruct (find _ _) as [s|]; injection H as <- _; [|now split]. split; [now apply drop_idle|exact B].
Qed.
Lemma run_idle opts es : Forall ordinary es -> Forall unblocked es -> forall c eff, reached opts es c eff -> idle c.
Proof.
  induction es as [|e es IH] using rev_ind; intros O U c eff R; [injection R as <- _; split; constructor|].
  apply Forall_app in O as [O Oe]. apply Forall_inv in Oe. apply Forall_app in U as [U Ue]. apply Forall_inv in Ue.
  pose proof R as R0. apply run_unsnoc in R as (c1 & e1 & e2 & R1 & St).
  exact (step_idle _ _ _ _ _ (reached_ok _ _ _ _ R1) (IH O U _ _ R1) Oe Ue St).
Qed.

Theorem listed_known opts es : Forall ordinary es -> Forall unblocked es -> forall c eff x, reached opts es c eff ->
  In x (c_queue c) -> known opts es (content x).
Proof.
  induction es as [|e es IH] using rev_ind; intros O U c' eff x R Hx; [injection R as <- _; easy|].
  apply Forall_app in O as [O Oe]. apply Forall_inv in Oe. apply Forall_app in U as [U Ue]. apply Forall_inv in Ue.
  pose proof R as R0. apply run_unsnoc in R as (c & e1 & e2 & R1 & St).
  pose proof (run_idle _ _ O U _ _ R1) as [_ L]. rewrite Forall_forall in L.
  pose proof (reached_ok _ _ _ _ R1) as Tk.
  assert (NoClean : (forall t, e <> CTick t) -> (forall y, news c e y -> q_ttl y <> 0) -> forall t, ~ cleans c e t).
  { intros N1 N2 t [K|(d & now & y & K1 & K2 & K3)]; [now apply N1 in K|]. now apply N2 in K2. }
  destruct (step_cases _ _ _ _ _ Tk Oe St) as [(y & Y1 & Y2 & Y3 & Y4 & Y5)|[(y & d & now & now2 & Y0 & Y1 & Y2 & Y3 & Y4)|[(t & -> & Y)|(Y1 & Y2 & Y3)]]].
  - assert (D : {who x = who y} + {who x <> who y}) by (repeat decide equality). destruct D as [D|D].
    + rewrite (Y4 x Hx D). now apply (known_new opts es c e1 e y).
    + apply (known_still opts es c e1); [apply (IH O U c e1 x R1); now apply Y5|exact R1| |].
      * intros z Hz. rewrite (news_fun _ _ _ _ Hz Y1). intros K. apply D. now rewrite K.
      * intros t K. exfalso. revert K. apply NoClean.
        -- intros t' ->. destruct Y1 as (? & ? & ? & ? & ? & ? & ? & ? & ? & ? & K & _). discriminate.
        -- intros z Hz. now rewrite (news_fun _ _ _ _ Hz Y1).
  - assert (D : who x <> who y) by now apply Y3. apply Y4 in Hx as [Hx Hs]; [|exact D].
    apply (known_still opts es c e1); [now apply (IH O U c e1 x R1)|exact R1| |].
    + intros z Hz. rewrite (news_fun _ _ _ _ Hz Y1). intros K. apply D. now rewrite K.
    + intros t [K|(d' & now' & z & K1 & K2 & K3)]; [rewrite Y0 in K; discriminate|]. rewrite Y0 in K1. injection K1 as <- <- <-.
      apply content_fresh; [now apply L|exact Hs].
  - rewrite Y in Hx. apply filter_In in Hx as [Hx Hs].
    apply (known_still opts es c e1); [now apply (IH O U c e1 x R1)|exact R1| |].
    + intros z (? & ? & ? & ? & ? & ? & ? & ? & ? & ? & K & _). discriminate.
    + intros u [K|(d' & now' & z & K1 & _)]; [|discriminate]. injection K as <-. apply content_fresh; [now apply L|exact Hs].
  - assert (I : In (content x) (map content (c_queue c))) by (rewrite <- Y3; now apply in_map).
    apply in_map_iff in I as (z & Z1 & Z2). rewrite <- Z1.
    apply (known_still opts es c e1); [now apply (IH O U c e1 z R1)|exact R1| |].
    + intros y Hy. now apply Y1 in Hy.
    + intros t K. exfalso. revert K. apply NoClean; [exact Y2|]. intros y Hy. now apply Y1 in Hy.
Qed.
