(** Receiving a frame: what becomes of the neighbour table. *)
From Verif Require Import Base Types Tlv Checks Msg Cdp Edp Fdp Ndp Lldp Protos Wire Util Child Spec SpecAdv SpecRound SpecNet SpecChild
  Lemmas WireProofs DecProofs DecCdp2 DecEdp DecLldp2 DecSafe NetProofs ChildProofs.

(** ** Decoding a valid advertisement *)
Lemma advert_decode p c f s proto ttl attrs : 0 <= p < 6 -> in_buffer c f -> d_mode c = 1 ->
  s_peer s = no_peers -> s_proto s = p -> s_out s = [] ->
  advert p f proto ttl attrs -> exists n, 0 < n /\ proto_decode p c s = DOk (n, mkDst (report attrs) ttl proto []).
Proof.
  intros Hp Hin Hm Hs Hsp Ho (payload & Hf & H).
  pose proof Hin as (tail & _ & _ & _ & Hl & _).
  assert (C : p = 0 \/ p = 1 \/ p = 2 \/ p = 3 \/ p = 4 \/ p = 5) by lia.
  assert (Cdp : forall version, cdp_frame f payload -> cdp_packet_means payload version ttl attrs ->
    proto = (if version =? 1 then 5 else 1) ->
    exists n, 0 < n /\ cdp_decode c s = DOk (n, mkDst (report attrs) ttl proto [])).
  { intros v Hf' Hc ->. exists (zlen f). split; [lia|].
    apply (cdp_decode_iff c f payload s (zlen f) _ Hin Hf'); [now rewrite Hm|assumption|].
    split; [reflexivity|]. exists v, ttl, attrs. now rewrite Ho. }
  destruct C as [->|[->|[->|[->|[->| ->]]]]]; cbn [proto_frame] in Hf; unfold proto_decode;
    cbn [Z.eqb Pos.eqb PROTO_LLDP PROTO_CDP PROTO_EDP PROTO_FDP PROTO_NDP PROTO_CDP1].
  - destruct H as (used & Hu & ->). exists (zlen f - zlen payload + used).
    assert (0 < used).
    { destruct Hu. subst used. cbn [app flat_map]. rewrite !zlen_app.
      pose proof (zlen_nonneg _ (flat_map lldp_bytes (tlvs ++ [(0, [])]))).
      pose proof (lldp_bytes_len (1, chassis)). pose proof (lldp_bytes_len (2, port)).
      pose proof (lldp_bytes_len (3, U16 ttl)). lia. }
    split; [destruct (lldp_frame_payload c f payload Hin Hf) as [_ K]; lia|].
    apply (lldp_decode_iff c f payload s _ _ Hin Hf Hm Hs). exists used, ttl, attrs. now rewrite Ho, Hsp.
  - destruct H as (v & Hc & Hv). now apply (Cdp v).
  - destruct H as (He & -> & ->). exists (zlen f). split; [lia|].
    apply (edp_decode_iff c f payload s _ _ Hin Hf Hs). split; [reflexivity|]. exists attrs. now rewrite Ho, Hsp.
  - destruct H as (He & ->). exists (zlen f). split; [lia|].
    apply (fdp_decode_iff c f payload s _ _ Hin Hf Hs). split; [reflexivity|]. exists ttl, attrs. now rewrite Ho, Hsp.
  - destruct H as (Hn & -> & -> & ->). exists (zlen f - zlen payload + 11).
    rewrite (ndp_decode_pure c f payload s Hin Hf). replace (zlen payload <? 11) with false by lia.
    split; [pose proof (snap_payload_le _ _ _ _ _ Hf eq_refl eq_refl); lia|].
    unfold set_ttl. now rewrite Hs, Ho, Hsp.
  - destruct H as (v & Hc & Hv). now apply (Cdp v).
Qed.
Lemma decode_advert p c f payload s n s' : 0 <= p < 6 -> in_buffer c f -> d_mode c = 1 ->
  s_peer s = no_peers -> s_proto s = p -> s_out s = [] -> proto_frame p f payload ->
  proto_decode p c s = DOk (n, s') ->
  exists proto ttl attrs, advert p f proto ttl attrs /\ s' = mkDst (report attrs) ttl proto [].
Proof.
  intros Hp Hin Hm Hs Hsp Ho Hf.
  assert (C : p = 0 \/ p = 1 \/ p = 2 \/ p = 3 \/ p = 4 \/ p = 5) by lia.
  destruct C as [->|[->|[->|[->|[->| ->]]]]]; cbn [proto_frame] in Hf; unfold proto_decode;
    cbn [Z.eqb Pos.eqb PROTO_LLDP PROTO_CDP PROTO_EDP PROTO_FDP PROTO_NDP PROTO_CDP1]; intros H.
  - apply (lldp_decode_iff c f payload s _ _ Hin Hf Hm Hs) in H as (u & t & a & Hu & _ & ->). rewrite Ho, Hsp.
    exists 0, t, a. split; [|reflexivity]. exists payload. split; [exact Hf|]. now exists u.
  - apply (cdp_decode_iff c f payload s n s' Hin Hf) in H as (_ & v & t & a & Hu & ->); [|now rewrite Hm|assumption].
    rewrite Ho. eexists _, t, a. split; [|reflexivity]. exists payload. split; [exact Hf|]. now exists v.
  - apply (edp_decode_iff c f payload s _ _ Hin Hf Hs) in H as (_ & a & Ha & ->). rewrite Ho, Hsp.
    exists 2, 180, a. split; [|reflexivity]. exists payload. split; [exact Hf|]. now split.
  - apply (fdp_decode_iff c f payload s _ _ Hin Hf Hs) in H as (_ & t & a & Ha & ->). rewrite Ho, Hsp.
    exists 3, t, a. split; [|reflexivity]. exists payload. split; [exact Hf|]. now split.
  - rewrite (ndp_decode_pure c f payload s Hin Hf) in H. destruct (_ <? 11) eqn:E; [discriminate|].
    injection H as <- <-. exists 4, 180, []. split; [|unfold set_ttl; now rewrite Hs, Ho, Hsp].
    exists payload. split; [exact Hf|]. repeat split. lia.
  - apply (cdp_decode_iff c f payload s n s' Hin Hf) in H as (_ & v & t & a & Hu & ->); [|now rewrite Hm|assumption].
    rewrite Ho. eexists _, t, a. split; [|reflexivity]. exists payload. split; [exact Hf|]. now exists v.
Qed.
Lemma advert_range p f proto ttl attrs : 0 <= p < 6 -> bytes f -> advert p f proto ttl attrs -> 0 <= proto < 6.
Proof.
  intros Hp Hb (payload & Hf & H).
  assert (C : p = 0 \/ p = 1 \/ p = 2 \/ p = 3 \/ p = 4 \/ p = 5) by lia.
  destruct C as [->|[->|[->|[->|[->| ->]]]]].
  - destruct H as (? & _ & ->). lia.
  - destruct H as (v & _ & ->). destruct (v =? 1); lia.
  - destruct H as (_ & _ & ->). lia.
  - destruct H as (_ & ->). lia.
  - destruct H as (_ & _ & _ & ->). lia.
  - destruct H as (v & _ & ->). destruct (v =? 1); lia.
Qed.

(** ** child_queue by cases *)
(** The new table entry for a frame. *)
Definition fresh_entry (sub : netif) (index proto received ttl : Z) (f : list Z) (attrs : list (slot * list Z)) : entry :=
  mkEnt 0 index (nf_name sub) proto received (zlen f) (f ++ repeat 0 (Z.to_nat (1518 - zlen f))) ttl (report attrs) 0.

Section receive.
Variables (opts : Z) (c : child) (d : list Z) (index p received : Z) (f payload : list Z) (now now2 : Z).
Hypotheses (Hb : bytes f) (Hc : carries d index p received f) (Hp : 0 <= p < 6) (Hl : 60 <= zlen f <= 1518)
  (Hnow : now <> -1).

Let buf := f ++ repeat 0 (Z.to_nat (1518 - zlen f)).
Lemma rcv_size : msg_size_ok (Z.min (zlen d) PARENT_MSG_MAX) (msg_mem d) = true.
Proof.
  destruct Hc as (L & Ei & Ep & Er & El & Em). unfold msg_size_ok. rewrite El.
  unfold PARENT_MSG_MAX, PARENT_MSG_MIN. rewrite L. rewrite Z.min_l by lia.
  rewrite Z.mod_small by lia. rewrite Z.eqb_refl, andb_true_r. lia.
Qed.
Lemma rcv_in sub : in_buffer (mkCtx buf (zlen f) DECODE_STR (nf_name sub) received now) f.
Proof.
  exists (repeat 0 (Z.to_nat (1518 - zlen f))). cbn [d_buf d_len]. unfold buf. split; [reflexivity|].
  split; [zl; lia|]. split; [reflexivity|]. split; assumption.
Qed.
Lemma rcv_src : slice buf 6 6 = firstn 6 (skipn 6 f).
Proof.
  unfold slice, buf. change (Z.to_nat 6) with 6%nat. rewrite skipn_app, firstn_app.
  rewrite skipn_length. replace (6 - length f)%nat with 0%nat by (unfold zlen in Hl; lia).
  replace (6 - (length f - 6))%nat with 0%nat by (unfold zlen in Hl; lia). cbn [firstn]. apply app_nil_r.
Qed.
Lemma rcv_unknown : netif_byindex (c_nfs c) index = None -> child_queue opts c d now now2 = DOk (c, []).
Proof.
  intros Hn. pose proof Hc as (L & Ei & Ep & Er & El & Em). unfold child_queue. cbv zeta.
  rewrite rcv_size, Ep, El, Ei, Hn. cbn [negb]. replace (now =? -1) with false by lia.
  replace (p <? PROTO_MAX) with true by (unfold PROTO_MAX; lia).
  now replace (zlen f <=? ETHER_MAX_LEN) with true by (unfold ETHER_MAX_LEN; lia).
Qed.
Lemma rcv_own n : netif_byaddr (c_nfs c) (firstn 6 (skipn 6 f)) = Some n -> child_queue opts c d now now2 = DOk (c, []).
Proof.
  intros Hn. pose proof Hc as (L & Ei & Ep & Er & El & Em). unfold child_queue. cbv zeta.
  rewrite rcv_size, Ep, El, Ei, Em. fold buf. rewrite rcv_src, Hn. cbn [negb]. replace (now =? -1) with false by lia.
  replace (p <? PROTO_MAX) with true by (unfold PROTO_MAX; lia).
  replace (zlen f <=? ETHER_MAX_LEN) with true by (unfold ETHER_MAX_LEN; lia). cbn [negb].
  now destruct (netif_byindex _ _).
Qed.
Lemma rcv_bad : proto_frame p f payload -> zlen f < 1518 -> (forall proto ttl attrs, ~ advert p f proto ttl attrs) ->
  child_queue opts c d now now2 = DOk (c, []).
Proof.
  intros Hf Hl' Hbad. pose proof Hc as (L & Ei & Ep & Er & El & Em).
  destruct (queue_no_abort opts c d index p received f payload now now2 Hb Hc Hp Hl Hf) as (A & Lp & U).
  specialize (U Hl'). revert A Lp U. unfold child_queue. cbv zeta.
  rewrite rcv_size, Ep, El, Ei, Er, Em. fold buf. cbn [negb]. replace (now =? -1) with false by lia.
  replace (p <? PROTO_MAX) with true by (unfold PROTO_MAX; lia).
  replace (zlen f <=? ETHER_MAX_LEN) with true by (unfold ETHER_MAX_LEN; lia). cbn [negb].
  destruct (netif_byindex _ _) as [sub|]; [|reflexivity]. destruct (netif_byaddr _ _); [reflexivity|].
  destruct (proto_decode _ _ _) as [[n s]| | | |] eqn:E; intros A Lp U; try congruence.
  exfalso. apply (decode_advert p _ f payload) in E as (proto & ttl & attrs & Ha & _); try assumption; try reflexivity.
  - now apply Hbad in Ha.
  - apply rcv_in.
Qed.
Lemma rcv_good sub proto ttl attrs : netif_byindex (c_nfs c) index = Some sub ->
  netif_byaddr (c_nfs c) (firstn 6 (skipn 6 f)) = None -> advert p f proto ttl attrs ->
  child_queue opts c d now now2 =
  let '(q, fresh) := queue_put (fresh_entry sub index proto (if ttl =? 0 then received else now) ttl f attrs)
                       (c_queue c) (c_next c) in
  let c1 := mkChild (c_nfs c) q (c_sess c) fresh in
  if ttl =? 0 then DOk (child_expire opts now2 c1)
  else
    let eff := if has opts OPT_IFDESCR then descr_eff opts sub q else [] in
    let top := top_of (c_nfs c) sub in
    if negb (has opts OPT_AUTO) || has (nf_protos top) (Z.shiftl 1 proto)
    then DOk (c1, eff)
    else if has opts OPT_ARGV && (nf_argv sub =? 0) && (nf_argv top =? 0)
    then DOk (c1, eff)
    else DOk (set_nfs c1 (nf_assign (set_protos (Z.lor (nf_protos top) (Z.shiftl 1 proto) mod 256))
                (nf_index top) (c_nfs c)), eff).
Proof.
  intros Hn Ha Had. pose proof Hc as (L & Ei & Ep & Er & El & Em). unfold child_queue. cbv zeta.
  rewrite rcv_size, Ep, El, Ei, Er, Em. fold buf. rewrite rcv_src, Hn, Ha. cbn [negb].
  replace (now =? -1) with false by lia.
  replace (p <? PROTO_MAX) with true by (unfold PROTO_MAX; lia).
  replace (zlen f <=? ETHER_MAX_LEN) with true by (unfold ETHER_MAX_LEN; lia). cbn [negb].
  destruct (advert_decode p _ f (mkDst no_peers 0 p []) proto ttl attrs Hp (rcv_in sub) eq_refl eq_refl eq_refl eq_refl Had)
    as (n & Hn0 & ->).
  replace (n =? 0) with false by lia. cbn [s_ttl s_proto s_peer]. reflexivity.
Qed.
End receive.

(** C27: the table after a valid frame. *)
Lemma rcv_table opts c d index p received f now now2 sub proto ttl attrs c' eff :
  table_ok (c_queue c) (c_next c) ->
  bytes f -> carries d index p received f -> 0 <= p < 6 -> 60 <= zlen f <= 1518 -> now <> -1 ->
  netif_byindex (c_nfs c) index = Some sub -> netif_byaddr (c_nfs c) (firstn 6 (skipn 6 f)) = None ->
  advert p f proto ttl attrs -> ttl <> 0 ->
  child_queue opts c d now now2 = DOk (c', eff) ->
  (exists e, In e (c_queue c') /\ q_index e = index /\ q_proto e = proto /\ q_name e = nf_name sub
     /\ q_received e = now /\ q_len e = zlen f /\ q_msg e = f ++ repeat 0 (Z.to_nat (1518 - zlen f))
     /\ q_ttl e = ttl /\ q_peer e = report attrs)
  /\ (forall e, who e <> (index, proto, firstn 12 f) -> In e (c_queue c') <-> In e (c_queue c)).
Proof.
  intros Ht Hb Hc Hp Hl Hnow Hn Ha Had H0 H.
  rewrite (rcv_good opts c d index p received f now now2 Hb Hc Hp Hl Hnow sub proto ttl attrs Hn Ha Had) in H.
  replace (ttl =? 0) with false in H by lia.
  destruct (queue_put _ _ _) as [q fresh] eqn:Ep.
  assert (Eq : c_queue c' = q).
  { cbv zeta in H. destruct (_ || _); [now injection H as <- <-|]. destruct (_ && _); injection H as <- <-; reflexivity. }
  apply put_content in Ep; [|exact Ht]. destruct Ep as ((i & Hi) & _ & Hother). rewrite Eq. split.
  - eexists. split; [exact Hi|]. cbn. now repeat split.
  - intros e He. apply Hother. intros K. apply He. rewrite K. unfold who, fresh_entry. cbn [q_index q_proto q_msg].
    f_equal. rewrite firstn_app. replace (12 - length f)%nat with 0%nat by (unfold zlen in Hl; lia). apply app_nil_r.
Qed.

(** C29: a shutdown. *)
Lemma rcv_shutdown opts c d index p f now now2 sub proto attrs c' eff :
  table_ok (c_queue c) (c_next c) ->
  bytes f -> carries d index p 0 f -> 0 <= p < 6 -> 60 <= zlen f <= 1518 -> now <> -1 -> 0 < now2 ->
  netif_byindex (c_nfs c) index = Some sub -> netif_byaddr (c_nfs c) (firstn 6 (skipn 6 f)) = None ->
  advert p f proto 0 attrs ->
  child_queue opts c d now now2 = DOk (c', eff) ->
  (forall e, In e (c_queue c') -> who e <> (index, proto, firstn 12 f))
  /\ (forall e, who e <> (index, proto, firstn 12 f) -> In e (c_queue c') <-> In e (c_queue c) /\ stays now2 e = true).
Proof.
  intros Ht Hb Hc Hp Hl Hnow Hnow2 Hn Ha Had H.
  rewrite (rcv_good opts c d index p 0 f now now2 Hb Hc Hp Hl Hnow sub proto 0 attrs Hn Ha Had) in H.
  cbn [Z.eqb] in H. destruct (queue_put _ _ _) as [q fresh] eqn:Ep. cbv zeta in H.
  set (c1 := mkChild _ _ _ _) in H. apply put_content in Ep; [|exact Ht]. destruct Ep as (_ & Hnew & Hother).
  assert (N2 : now2 <> -1) by lia. injection H as H.
  destruct (child_expire_queue opts now2 c1 N2) as (Eq & _). rewrite H in Eq. cbn [fst c1 c_queue] in Eq.
  assert (W : who (fresh_entry sub index proto 0 0 f attrs) = (index, proto, firstn 12 f)).
  { unfold who, fresh_entry. cbn [q_index q_proto q_msg]. f_equal. rewrite firstn_app.
    replace (12 - length f)%nat with 0%nat by (unfold zlen in Hl; lia). apply app_nil_r. }
  rewrite Eq, <- W. split.
  - intros e He K. apply filter_In in He as [He Hs]. apply Hnew in He as [i ->]; [|assumption].
    unfold stays in Hs. cbn in Hs. lia.
  - intros e Hne. rewrite filter_In. now rewrite (Hother e Hne).
Qed.
