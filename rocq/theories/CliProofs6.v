(** The daemon only has genuine entries in its table. *)
From Verif Require Import Base Tlv Types Checks Msg Protos Wire Util Child Cli Spec SpecAdv SpecRound SpecNet SpecChild SpecCli Lemmas.
From Verif Require Import WireProofs DecProofs ChildProofs ChildProofs2 CliProofs4.

Lemma advert_self p f proto ttl attrs : 0 <= p < 6 -> SpecChild.advert p f proto ttl attrs -> SpecChild.advert proto f proto ttl attrs.
Proof.
  intros Hp (payload & Hf & H). assert (C : p = 0 \/ p = 1 \/ p = 2 \/ p = 3 \/ p = 4 \/ p = 5) by lia.
  exists payload. destruct C as [->|[->|[->|[->|[->| ->]]]]]; cbn [proto_frame] in Hf.
  1: { destruct H as (u & H & ->). split; [exact Hf|]. now exists u. }
  1,5: destruct H as (v & H & E); assert (K : proto = 1 \/ proto = 5) by (destruct (v =? 1); lia);
    destruct K as [->| ->]; (split; [exact Hf|]); now exists v.
  - destruct H as (H & H1 & ->). now repeat split.
  - destruct H as (H & ->). now repeat split.
  - destruct H as (H & H1 & H2 & ->). now repeat split.
Qed.
Definition nice (n : netif) : Prop := 0 <= nf_index n < 4294967296 /\ cstring 16 (nf_name n).
Definition honest (c : child) : Prop := Forall nice (c_nfs c) /\ Forall genuine (c_queue c).
Lemma nice_assign f i nfs : (forall n, nice n -> nice (f n)) -> Forall nice nfs -> Forall nice (nf_assign f i nfs).
Proof.
  intros Hf H. induction H as [|n nfs Hn H IH]; cbn [nf_assign]; [constructor|].
  destruct (_ =? _); constructor; auto.
Qed.
Lemma nice_expire now q : forall nfs, Forall nice nfs -> Forall nice (snd (expire_loop now q nfs)).
Proof.
  induction q as [|e q IH]; intros nfs H; cbn [expire_loop]; [exact H|]. destruct (keeps now e).
  - specialize (IH nfs H). now destruct (expire_loop now q nfs).
  - apply IH. now apply nice_assign.
Qed.
Lemma nice_update opts q nfs : Forall nice nfs -> Forall nice (fst (update_loop opts q nfs)).
Proof.
  intros H. unfold update_loop. generalize (map nf_index nfs). intros l. generalize (@nil ceff). revert nfs H.
  induction l as [|i l IH]; intros nfs H eff; cbn [fold_left]; [exact H|].
  unfold update_one at 2. destruct (netif_byindex nfs i) as [sub|]; [|now apply IH].
  destruct (nf_update sub =? 0); [now apply IH|]. apply IH. apply nice_assign; [easy|].
  destruct (has opts OPT_AUTO); [|assumption]. now apply nice_assign.
Qed.
Lemma honest_expire opts now c : honest c -> honest (fst (child_expire opts now c)).
Proof.
  intros [H1 H2]. unfold child_expire. destruct (now =? -1); [now split|].
  pose proof (expire_queue now (c_queue c) (c_nfs c)) as E. pose proof (nice_expire now (c_queue c) (c_nfs c) H1) as N.
  destruct (expire_loop now (c_queue c) (c_nfs c)) as [q nfs]. cbn in E, N. subst q.
  pose proof (nice_update opts (filter (stays now) (c_queue c)) nfs N) as U. destruct (update_loop _ _ _) as [nfs' eff].
  split; [exact U|]. cbn. apply Forall_forall. intros e He. apply filter_In in He. rewrite Forall_forall in H2. now apply H2.
Qed.
Lemma genuine_id i e : genuine e -> genuine (with_id i e).
Proof. easy. Qed.
Lemma genuine_put new q fresh : genuine new -> Forall genuine q -> Forall genuine (fst (queue_put new q fresh)).
Proof.
  intros Hn Hq. unfold queue_put. destruct (queue_find _ _ _ _ _) as [[i|] [j|]]; cbn [fst].
  1,2: unfold queue_replace; apply Forall_forall; intros e He; apply in_map_iff in He as (x & <- & Hx);
    rewrite Forall_forall in Hq; destruct (_ =? _); [now apply genuine_id|now apply Hq].
  - induction Hq as [|e q He Hq IH]; cbn [insert_after]; [constructor|]. destruct (_ =? _); constructor; auto.
  - apply Forall_app. split; [assumption|]. now repeat constructor.
Qed.
Lemma genuine_lock i k q : Forall genuine q -> Forall genuine (add_lock i k q).
Proof.
  intros Hq. unfold add_lock. apply Forall_forall; intros e He; apply in_map_iff in He as (x & <- & Hx).
  rewrite Forall_forall in Hq. specialize (Hq x Hx). now destruct (_ =? _).
Qed.
Lemma byindex_in nfs i n : netif_byindex nfs i = Some n -> In n nfs /\ nf_index n = i.
Proof. intros H. apply find_some in H as [H1 H2]. apply Z.eqb_eq in H2. now split. Qed.
Lemma honest_recv opts c d now now2 c' eff : daemon_event (CRecv d now now2) -> honest c ->
  child_queue opts c d now now2 = DOk (c', eff) -> honest c'.
Proof.
  intros (Hnow & index & p & f & payload & Hb & Hl & Hp & Hc & Hf) [H1 H2].
  pose proof Hc as (L & Ei & Ep & Er & El & Em). unfold child_queue. cbv zeta.
  rewrite (rcv_size d index p 0 f Hc Hl), Ep, El, Ei, Er, Em. cbn [negb].
  replace (now =? -1) with false by lia.
  replace (p <? PROTO_MAX) with true by (unfold PROTO_MAX; lia).
  replace (zlen f <=? ETHER_MAX_LEN) with true by (unfold ETHER_MAX_LEN; lia). cbn [negb].
  assert (Same : forall (x : child) (y : list ceff), DOk (c, @nil ceff) = DOk (x, y) -> honest x)
    by (intros x y [= <- <-]; now split).
  destruct (netif_byindex _ _) as [sub|] eqn:Eb; [|apply Same]. destruct (netif_byaddr _ _); [apply Same|].
  destruct (proto_decode _ _ _) as [[n s]| | | |] eqn:E; try discriminate; [|apply Same].
  destruct (n =? 0); [apply Same|].
  apply (decode_advert p _ f payload) in E as (proto & ttl & attrs & Ha & ->); try assumption; try reflexivity; [|now apply rcv_in].
  cbn [s_ttl s_proto s_peer].
  assert (G : genuine (mkEnt 0 index (nf_name sub) proto (if ttl =? 0 then 0 else now) (zlen f)
                         (f ++ repeat 0 (Z.to_nat (1518 - zlen f))) ttl (report attrs) 0)).
  { apply byindex_in in Eb as [Hin Hix]. rewrite Forall_forall in H1. destruct (H1 sub Hin) as [Hr Hn].
    exists f, attrs. cbn. pose proof (advert_range p f proto ttl attrs Hp Hb Ha) as Hpr.
    apply advert_self in Ha; [|assumption]. rewrite Hix in Hr.
    repeat (split; [first [assumption|reflexivity|lia]|]). split; [|now split]. destruct (ttl =? 0); lia. }
  pose proof (genuine_put _ (c_queue c) (c_next c) G H2) as Q.
  destruct (queue_put _ _ _) as [q fr]. cbn [fst] in Q.
  destruct (ttl =? 0).
  - intros K. injection K as K. rewrite <- (f_equal fst K : fst _ = c'). apply honest_expire. now split.
  - destruct (_ || _); [intros [= <- <-]; now split|]. destruct (_ && _); intros [= <- <-]; [now split|].
    split; [|exact Q]. cbn. now apply nice_assign.
Qed.
Lemma honest_write c sid t ws c' eff : honest c -> child_cli_write c sid t ws = DOk (c', eff) -> honest c'.
Proof.
  intros [H1 H2]. unfold child_cli_write. destruct (find _ _) as [s|]; [|intros [= <- <-]; now split].
  destruct t; [intros [= <- <-]; now split|].
  intros K. apply dbind_ok in K as ([q1 l] & E & K).
  assert (Q : Forall genuine q1).
  { destruct (ss_msg s) as [i|]; [|injection E as <- <-; assumption].
    destruct (queue_from _ _); [|discriminate]. injection E as <- <-. now apply genuine_lock. }
  destruct (write_loop sid l ws) as [eff' [i|]]; injection K as <- <-; (split; [exact H1|]); [now apply genuine_lock|exact Q].
Qed.
Lemma honest_step opts c e c' eff : daemon_event e -> honest c -> child_step opts c e = DOk (c', eff) -> honest c'.
Proof.
  intros He H. destruct e; cbn [child_step].
  - now apply honest_recv.
  - intros E. injection E as E. rewrite <- (f_equal fst E : fst _ = c'). now apply honest_expire.
  - intros [= <- <-]. split; [|apply H]. cbn. apply Forall_forall. exact He.
  - destruct (existsb _ _); intros [= <- <-]; exact H.
  - now apply honest_write.
  - now apply honest_write.
Qed.
Lemma honest_run opts es : Forall daemon_event es -> forall c c' eff, honest c ->
  child_run opts c es = DOk (c', eff) -> honest c'.
Proof.
  induction 1 as [|e es He _ IH]; intros c c' eff H Hr; cbn [child_run] in Hr; [now injection Hr as <- <-|].
  apply dbind_ok in Hr as ((c1 & eff1) & E1 & Hr). apply dbind_ok in Hr as ((c2 & eff2) & E2 & Hr).
  injection Hr as <- <-. eapply IH; [|exact E2]. eapply honest_step; eauto.
Qed.
Theorem table_genuine opts es c eff : Forall daemon_event es -> reached opts es c eff -> Forall genuine (c_queue c).
Proof. intros He Hr. apply (honest_run opts es He child_start c eff); [|exact Hr]. split; constructor. Qed.
