(** What is logged about neighbours (C136). *)
From Verif Require Import Base Types Tlv Checks Msg Protos Wire Util Child Log Spec SpecAdv SpecRound SpecNet SpecNetif SpecNetif2 SpecChild SpecHold SpecLog.
From Verif Require Import Lemmas WireProofs DecProofs NetProofs ChildProofs ChildProofs2 ChildProofs4 HoldProofs.
From Coq Require Import Lia.

Definition intro (e : entry) (top : netif) : list lmsg :=
  match nth 0 (q_peer e) None with Some h => [LNew h (q_proto e) (nf_name top)] | None => [] end.
Definition outro (e : entry) : list lmsg :=
  match nth 0 (q_peer e) None with Some h => [LGone h (q_proto e)] | None => [] end.
Definition on (opts : Z) (n top : netif) (p : Z) : list lmsg :=
  if negb (has opts OPT_AUTO) || has (nf_protos top) (Z.shiftl 1 p) then []
  else if has opts OPT_ARGV && (nf_argv n =? 0) && (nf_argv top =? 0) then []
  else [LOn p (nf_name top)].
Lemma hostname_nth e : hostname e = nth 0 (q_peer e) None. Proof. reflexivity. Qed.
Lemma expire_log_eq t q : t <> -1 -> expire_log t q = flat_map (fun e => if stays t e then [] else outro e) q.
Proof. intros H. unfold expire_log. replace (t =? -1) with false by lia. reflexivity. Qed.
Lemma find_listed en q : (exists x, In x q /\ who x = who en) \/ (forall x, In x q -> who x <> who en).
Proof.
  induction q as [|e q IH]; [now right|].
  assert (D : {who e = who en} + {who e <> who en}) by (repeat decide equality).
  destruct D as [D|D]; [left; exists e; split; [now left|assumption]|].
  destruct IH as [(x & H & E)|IH]; [left; exists x; split; [now right|assumption]|].
  right. intros x [<-|K]; [assumption|now apply IH].
Qed.

Section receive.
Variables (opts : Z) (c : child) (d : list Z) (index p : Z) (f payload : list Z) (now now2 : Z).
Hypotheses (Hb : bytes f) (Hc : carries d index p 0 f) (Hp : 0 <= p < 6) (Hl : 60 <= zlen f <= 1518)
  (Hnow : now <> -1).
Lemma log_unknown : netif_byindex (c_nfs c) index = None -> queue_log opts c d now now2 = [].
Proof.
  intros Hn. pose proof Hc as (L & Ei & Ep & Er & El & Em). unfold queue_log. cbv zeta. rewrite Ei, Hn.
  repeat (destruct (negb _); [reflexivity|]). destruct (now =? -1); [reflexivity|]. 
  repeat (destruct (negb _); [reflexivity|]). reflexivity.
Qed.
Lemma log_own n : netif_byaddr (c_nfs c) (firstn 6 (skipn 6 f)) = Some n -> queue_log opts c d now now2 = [].
Proof.
  intros Hn. pose proof Hc as (L & Ei & Ep & Er & El & Em). unfold queue_log. cbv zeta. rewrite Ei, Em.
  rewrite (rcv_src f Hl), Hn.
  repeat (destruct (negb _); [reflexivity|]). destruct (now =? -1); [reflexivity|]. 
  repeat (destruct (negb _); [reflexivity|]). destruct (netif_byindex _ _); reflexivity.
Qed.
Lemma log_bad sub : netif_byindex (c_nfs c) index = Some sub -> proto_frame p f payload ->
  (forall proto ttl attrs, ~ advert p f proto ttl attrs) -> queue_log opts c d now now2 = [].
Proof.
  intros Hn Hf Hbad. pose proof Hc as (L & Ei & Ep & Er & El & Em). unfold queue_log. cbv zeta.
  rewrite (rcv_size d index p 0 f Hc Hl), Ep, El, Ei, Er, Em, Hn. cbn [negb].
  destruct (now =? -1); [reflexivity|]. repeat (destruct (negb _); [reflexivity|]).
  destruct (netif_byaddr _ _); [reflexivity|].
  destruct (proto_decode _ _ _) as [[n s]| | | |] eqn:E; try reflexivity.
  apply (decode_advert p _ f payload) in E as (proto & ttl & attrs & Ha & _); try assumption; try reflexivity.
  - now apply Hbad in Ha.
  - exact (rcv_in 0 f now Hb Hl sub).
Qed.
Lemma log_good sub proto ttl attrs : netif_byindex (c_nfs c) index = Some sub ->
  netif_byaddr (c_nfs c) (firstn 6 (skipn 6 f)) = None -> advert p f proto ttl attrs ->
  let new := fresh_entry sub index proto (if ttl =? 0 then 0 else now) ttl f attrs in
  queue_log opts c d now now2 =
    match fst (queue_find (q_index new) (q_proto new) (slice (q_msg new) 0 12) (c_queue c) None) with
    | Some _ => [] | None => intro new (top_of (c_nfs c) sub) end
    ++ (if ttl =? 0 then expire_log now2 (fst (queue_put new (c_queue c) (c_next c)))
        else on opts sub (top_of (c_nfs c) sub) proto).
Proof.
  intros Hn Ha Had. pose proof Hc as (L & Ei & Ep & Er & El & Em). unfold queue_log. cbv zeta.
  rewrite (rcv_size d index p 0 f Hc Hl), Ep, El, Ei, Er, Em. rewrite (rcv_src f Hl), Hn, Ha. cbn [negb].
  replace (now =? -1) with false by lia.
  replace (p <? PROTO_MAX) with true by (unfold PROTO_MAX; lia).
  replace (zlen f <=? ETHER_MAX_LEN) with true by (unfold ETHER_MAX_LEN; lia). cbn [negb].
  destruct (advert_decode p _ f (mkDst no_peers 0 p []) proto ttl attrs Hp (rcv_in 0 f now Hb Hl sub) eq_refl eq_refl eq_refl eq_refl Had)
    as (n & Hn0 & ->).
  replace (n =? 0) with false by lia. cbn [s_ttl s_proto s_peer]. fold (fresh_entry sub index proto (if ttl =? 0 then 0 else now) ttl f attrs).
  change (f ++ repeat 0 (Z.to_nat (1518 - zlen f))) with (q_msg (fresh_entry sub index proto (if ttl =? 0 then 0 else now) ttl f attrs)).
  unfold on, intro. set (new := fresh_entry _ _ _ _ _ _ _).
  change (mkEnt 0 index (nf_name sub) proto (if ttl =? 0 then 0 else now) (zlen f) (q_msg new) ttl (report attrs) 0) with new.
  rewrite hostname_nth.
  destruct (ttl =? 0); [reflexivity|].
  destruct (negb (has opts OPT_AUTO) || has (nf_protos (top_of (c_nfs c) sub)) (Z.shiftl 1 proto)); [symmetry; apply app_nil_r|].
  destruct (has opts OPT_ARGV && (nf_argv sub =? 0) && (nf_argv (top_of (c_nfs c) sub) =? 0)); [symmetry; apply app_nil_r|reflexivity].
Qed.
End receive.

(** ** One event *)
Definition put_by (opts : Z) (c : child) (e : cevent) (c' : child) (en en' : entry) (sub : netif) (q' : list entry) (l1 l2 : list lmsg) : Prop :=
  news c e en /\ netif_byindex (c_nfs c) (q_index en) = Some sub
  /\ who en' = who en /\ q_peer en' = q_peer en /\ q_proto en' = q_proto en /\ q_ttl en' = q_ttl en /\ q_lock en' = 0
  /\ (q_ttl en = 0 -> q_received en' = 0)
  /\ (exists fresh, queue_put en' (c_queue c) (c_next c) = (q', fresh))
  /\ log_step opts c e = l1 ++ l2
  /\ ((exists x, In x (c_queue c) /\ who x = who en) /\ l1 = []
      \/ (forall x, In x (c_queue c) -> who x <> who en) /\ l1 = intro en (top_of (c_nfs c) sub))
  /\ ((exists d now now2, e = CRecv d now now2 /\ q_ttl en = 0 /\ l2 = expire_log now2 q' /\ now2 <> -1 /\ 0 < now2 /\ c_queue c' = filter (stays now2) q')
      \/ q_ttl en <> 0 /\ l2 = on opts sub (top_of (c_nfs c) sub) (q_proto en) /\ c_queue c' = q').

Lemma log_cases opts c e c' eff : table_ok (c_queue c) (c_next c) -> ordinary e -> child_step opts c e = DOk (c', eff) ->
  (exists en en' sub q' l1 l2, put_by opts c e c' en en' sub q' l1 l2)
  \/ (exists t, e = CTick t /\ t <> -1 /\ log_step opts c e = expire_log t (c_queue c) /\ c_queue c' = filter (stays t) (c_queue c))
  \/ (silent c e /\ log_step opts c e = [] /\ map content (c_queue c') = map content (c_queue c)).
Proof.
  intros Ht Ho H.
  destruct (step_cases opts c e c' eff Ht Ho H) as [(en & Nw & T0 & _)|[(en & d & now & now2 & -> & Nw & T0 & _)|[(t & -> & Q)|(Q1 & Q2 & Q3)]]].
  1,2: left.
  3:{ right. left. exists t. split; [reflexivity|]. cbn [ordinary] in Ho. split; [lia|]. split; [reflexivity|exact Q]. }
  3:{ right. right. split; [exact Q1|]. split; [|exact Q3].
      destruct e as [d now now2|t|nfs|sid|sid ws|sid]; try reflexivity; [|now contradiction (Q2 t)].
      cbn [log_step]. destruct Ho as (Hn & Hn2 & index & p & f & payload & Hb & Hl & Hp & Hc & Hf).
      destruct (netif_byindex (c_nfs c) index) as [sub|] eqn:Ei; [|exact (log_unknown opts c d index p f now now2 Hc Ei)].
      destruct (netif_byaddr (c_nfs c) (firstn 6 (skipn 6 f))) as [o|] eqn:Ea; [exact (log_own opts c d index p f now now2 Hc Hl o Ea)|].
      apply (log_bad opts c d index p f payload now now2 Hb Hc Hp Hl sub Ei Hf). intros proto ttl attrs Ad.
      apply (Q1 (fresh_entry sub index proto now ttl f attrs)). exists d, now, now2, index, p, f, sub, proto, ttl, attrs.
      now repeat (split; [first [reflexivity|assumption]|]). }
  all: pose proof Nw as (d' & now' & now2' & i & p & f & sub & pr & ttl & at_ & E' & B1 & B2 & B3 & B4 & B5 & B6 & B7 & En).
  - subst e. cbn [ordinary] in Ho. destruct Ho as (Hn & Hn2 & _). assert (N1 : now' <> -1) by lia.
    cbn [child_step] in H.
    rewrite (rcv_good opts c d' i p 0 f now' now2' B1 B4 B3 B2 N1 sub pr ttl at_ B6 B7 B5) in H.
    pose proof (log_good opts c d' i p f now' now2' B1 B4 B3 B2 N1 sub pr ttl at_ B6 B7 B5) as Lg. cbv zeta in Lg.
    assert (T1 : (ttl =? 0) = false) by (subst en; cbn [q_ttl] in T0; lia). rewrite T1 in H, Lg.
    set (new := fresh_entry sub i pr now' ttl f at_) in *.
    assert (En' : en = new) by exact En. clear En. subst en.
    destruct (queue_put new (c_queue c) (c_next c)) as [q' fresh] eqn:Ep.
    exists new, new, sub, q', (match fst (queue_find (q_index new) (q_proto new) (slice (q_msg new) 0 12) (c_queue c) None) with
      | Some _ => [] | None => intro new (top_of (c_nfs c) sub) end), (on opts sub (top_of (c_nfs c) sub) pr).
    split; [exact Nw|]. split; [exact B6|]. do 5 (split; [reflexivity|]). split; [intros K; contradiction|].
    split; [exists fresh; exact Ep|]. split; [exact Lg|]. split.
    + rewrite slice_0_12. destruct (queue_find _ _ _ (c_queue c) None) as [[k|] pp] eqn:Ef; cbn [fst].
      * left. split; [|reflexivity]. apply find_hit in Ef as (x & X1 & _ & X2). exists x. split; assumption.
      * right. split; [|reflexivity]. apply find_miss in Ef as [X _]. exact X.
    + right. split; [exact T0|]. split; [reflexivity|]. cbv zeta in H.
      destruct (negb (has opts OPT_AUTO) || _); [now injection H as <- _|]. destruct (_ && _); injection H as <- _; reflexivity.
  - injection E' as <- <- <-. cbn [ordinary] in Ho. destruct Ho as (Hn & Hn2 & _). assert (N1 : now <> -1) by lia.
    cbn [child_step] in H.
    rewrite (rcv_good opts c d i p 0 f now now2 B1 B4 B3 B2 N1 sub pr ttl at_ B6 B7 B5) in H.
    pose proof (log_good opts c d i p f now now2 B1 B4 B3 B2 N1 sub pr ttl at_ B6 B7 B5) as Lg. cbv zeta in Lg.
    assert (T1 : (ttl =? 0) = true) by (subst en; cbn [q_ttl] in T0; lia). rewrite T1 in H, Lg.
    set (new := fresh_entry sub i pr 0 ttl f at_) in *.
    destruct (queue_put new (c_queue c) (c_next c)) as [q' fresh] eqn:Ep. cbn [fst] in Lg.
    exists en, new, sub, q', (match fst (queue_find (q_index new) (q_proto new) (slice (q_msg new) 0 12) (c_queue c) None) with
      | Some _ => [] | None => intro new (top_of (c_nfs c) sub) end), (expire_log now2 q').
    split; [exact Nw|]. assert (W : who new = who en) by (subst en; reflexivity).
    split; [subst en; exact B6|]. split; [exact W|]. do 4 (split; [subst en; reflexivity|]). split; [intros _; reflexivity|].
    split; [exists fresh; exact Ep|]. split; [exact Lg|]. split.
    + rewrite slice_0_12. rewrite <- W. destruct (queue_find _ _ _ (c_queue c) None) as [[k|] pp] eqn:Ef; cbn [fst].
      * left. split; [|reflexivity]. apply find_hit in Ef as (x & X1 & _ & X2). exists x. split; assumption.
      * right. split; [apply find_miss in Ef as [X _]; exact X|]. subst en. reflexivity.
    + left. exists d, now, now2. split; [reflexivity|]. split; [exact T0|]. split; [reflexivity|]. split; [lia|]. split; [exact Hn2|].
      cbv zeta in H. injection H as H. 
      pose proof (proj1 (child_expire_queue opts now2 (mkChild (c_nfs c) q' (c_sess c) fresh) ltac:(lia))) as E. rewrite H in E. exact E.
Qed.
