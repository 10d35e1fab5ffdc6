(** Proofs about the full text of CDP advertisements. *)
From Verif Require Import Base Vis Tlv Types Checks Msg Cdp Lldp Spec SpecAddr SpecPrint Lemmas VisProofs EncProofs
  DecProofs DecCheck DecCdp DecCdp2 AddrProofs.

(** [s'] is [s] with [text] printed. *)
Definition outs (s : dst) (text : list Z) (s' : dst) : Prop :=
  concat (s_out s') = concat (s_out s) ++ text /\ s_peer s' = s_peer s /\ s_ttl s' = s_ttl s /\ s_proto s' = s_proto s.
Lemma outs_nil s : outs s [] s.
Proof. unfold outs. now rewrite app_nil_r. Qed.
Lemma outs_trans s a s1 b s2 : outs s a s1 -> outs s1 b s2 -> outs s (a ++ b) s2.
Proof.
  intros (H1 & H2 & H3 & H4) (K1 & K2 & K3 & K4). unfold outs. rewrite K1, H1, app_assoc. repeat split; congruence.
Qed.
Lemma outs_print s l : outs s l (print s l).
Proof. unfold outs, print. cbn [s_out s_peer s_ttl s_proto]. now rewrite concat_app, concat_cons, concat_nil, app_nil_r. Qed.
Lemma outs_show c s l i v : d_mode c = 2 -> outs s l (show_or_store c s l i v).
Proof. intros Hm. unfold show_or_store. rewrite Hm. change (2 =? DECODE_PRINT) with true. apply outs_print. Qed.

(** Descriptions. *)
Lemma fields_cons sep t : exists g gs, fields sep t = g :: gs.
Proof. destruct t as [|c t]; cbn [fields]; [eauto|]. destruct (c =? sep); [eauto|]. destruct (fields sep t); eauto. Qed.
Lemma strsep_fields l : forall cur, strsep_nl l cur = match fields 10 l with g :: gs => (rev cur ++ g) :: gs | [] => [] end.
Proof.
  induction l as [|c l IH]; intros cur; cbn [strsep_nl fields]; [now rewrite app_nil_r|].
  destruct (c =? 10).
  - rewrite app_nil_r, IH. destruct (fields_cons 10 l) as (g & gs & ->). reflexivity.
  - rewrite IH. destruct (fields_cons 10 l) as (g & gs & ->). cbn [rev]. now rewrite <- app_assoc.
Qed.
Lemma fields_plain l : existsb (fun b => b =? 10) l = false -> fields 10 l = [l].
Proof.
  induction l as [|c l IH]; [reflexivity|]. cbn [existsb fields]. intros [-> H]%orb_false_iff. now rewrite (IH H).
Qed.
Lemma fields_more l : existsb (fun b => b =? 10) l = true -> exists g h gs, fields 10 l = g :: h :: gs.
Proof.
  induction l as [|c l IH]; [discriminate|]. cbn [existsb fields]. destruct (c =? 10) eqn:E.
  - intros _. destruct (fields_cons 10 l) as (g & gs & ->). eauto.
  - cbn [orb]. intros H. destruct (IH H) as (g & h & gs & ->). eauto.
Qed.
Lemma outs_fold l : forall s, outs s (flat_map (fun t => bs "  " ++ t ++ [10]) l)
  (fold_left (fun s t => print s (bs "  " ++ t ++ [10])) l s).
Proof.
  induction l as [|x l IH]; intros s; [apply outs_nil|]. cbn [flat_map fold_left].
  eapply outs_trans; [apply outs_print|apply IH].
Qed.
Lemma outs_descr s label v : outs s (paragraph label v) (descr_print s label v).
Proof.
  unfold descr_print, paragraph. destruct (existsb _ v) eqn:E.
  - destruct (fields_more v E) as (g & h & gs & Ef). rewrite strsep_fields, Ef. change (rev [] ++ g) with g.
    replace (label ++ bs ":" ++ [10] ++ flat_map (fun l => bs "  " ++ l ++ [10]) (g :: h :: gs))
      with ((label ++ bs ":" ++ [10]) ++ flat_map (fun l => bs "  " ++ l ++ [10]) (g :: h :: gs)) by now rewrite <- !app_assoc.
    eapply outs_trans; [apply outs_print|apply outs_fold].
  - rewrite (fields_plain v E). apply outs_print.
Qed.

(** ** Addresses *)
Lemma addr1_says c pt proto a s s' : d_mode c = 2 -> p_addr1 c (p_af pt proto) a s = Some s' ->
  exists text, addr_says (pt, proto, a) text /\ outs s text s'.
Proof.
  intros Hm. unfold p_addr1, p_af, addr_text.
  destruct ((pt =? 1) && beq proto [204]) eqn:E1.
  { apply andb_prop in E1 as [E1 E2]. apply Z.eqb_eq in E1. apply beq_true in E2. subst.
    change (4 =? 0) with false. change (4 =? 4) with true. cbv iota.
    destruct (zlen a =? 4) eqn:E3; [|easy]. cbn [obind]. intros [= <-].
    eexists. split; [apply addr_says_ip4; lia|]. apply (outs_show c s _ _ _ Hm). }
  destruct ((pt =? 2) && beq proto [170; 170; 3; 0; 0; 0; 134; 221]) eqn:E2.
  { apply andb_prop in E2 as [E3 E2]. apply Z.eqb_eq in E3. apply beq_true in E2. subst.
    change (5 =? 0) with false. change (5 =? 4) with false. change (5 =? 5) with true. cbv iota.
    destruct (zlen a =? 16) eqn:E3; [|easy]. cbn [obind]. intros [= <-].
    eexists. split; [apply addr_says_ip6; lia|]. apply (outs_show c s _ _ _ Hm). }
  change (0 =? 0) with true. cbv iota. intros [= <-]. exists []. split; [|apply outs_nil]. apply addr_says_other.
  - intros [= -> ->]. now rewrite beq_refl in E1.
  - intros [= -> ->]. now rewrite beq_refl in E2.
Qed.
Lemma addr_says_1 c pt proto a s text : d_mode c = 2 -> addr_says (pt, proto, a) text ->
  exists s', p_addr1 c (p_af pt proto) a s = Some s' /\ outs s text s'.
Proof.
  intros Hm H. unfold p_addr1. inversion H as [a' Ha|a' Ha|pt' proto' a' N1 N2]; subst.
  - change (p_af 1 [204]) with 4. change (4 =? 0) with false. unfold addr_text. rewrite Ha. cbn [Z.eqb Pos.eqb obind].
    eexists. split; [reflexivity|]. apply (outs_show c s _ _ _ Hm).
  - change (p_af 2 [170; 170; 3; 0; 0; 0; 134; 221]) with 5. change (5 =? 0) with false. unfold addr_text. rewrite Ha.
    cbn [Z.eqb Pos.eqb obind]. eexists. split; [reflexivity|]. apply (outs_show c s _ _ _ Hm).
  - exists s. split; [|apply outs_nil]. unfold p_af.
    destruct ((pt =? 1) && beq proto [204]) eqn:E1.
    { exfalso. apply N1. apply andb_prop in E1 as [E1 E2]. apply beq_true in E2. f_equal; [lia|easy]. }
    destruct ((pt =? 2) && _) eqn:E2; [|reflexivity].
    exfalso. apply N2. apply andb_prop in E2 as [E3 E2]. apply beq_true in E2. f_equal; [lia|easy].
Qed.
Lemma addr_loop_says c : d_mode c = 2 -> forall fuel count r s s',
  bytes r -> zlen r < 100000 -> 0 <= count < 4294967296 -> p_addr_loop fuel c count r s = Some s' ->
  exists recs texts rest,
    r = flat_map addr_rec_bytes recs ++ rest /\ recs <> []
    /\ (zlen recs = count \/ (rest = [] /\ (zlen recs < count \/ count = 0)))
    /\ Forall addr_rec_fits recs /\ Forall2 addr_says recs texts /\ outs s (concat texts) s'.
Proof.
  intros Hm. induction fuel as [|fuel IH]; intros count r s s' Hb Hr Hc H; [easy|].
  destruct (addr_loop_shape _ _ _ _ _ _ Hb H) as (pt & proto & a & r' & -> & Hfit).
  rewrite addr_loop_rec in H by easy.
  apply obind_some in H as (s1 & H1 & H). apply (addr1_says c pt proto a s s1 Hm) in H1 as (at1 & Hm1 & Ho).
  pose proof (addr_rec_bytes_bytes _ _ _ _ Hb) as Hb'. pose proof (addr_rec_len (pt, proto, a)) as Hlen.
  rewrite zlen_app in Hr. set (count' := (count - 1) mod 4294967296) in *.
  destruct (negb (zlen r' =? 0) && (0 <? count')) eqn:Ec.
  - apply (IH count' r' _ _) in H; [|easy|lia|lia].
    destruct H as (recs & attrs & rest & -> & Hne & Hn & HF & HF2 & Ho2).
    exists ((pt, proto, a) :: recs), (at1 :: attrs), rest.
    split; [cbn [flat_map]; now rewrite <- app_assoc|]. split; [easy|]. split.
    + rewrite zlen_cons. pose proof (addr_recs_len recs). rewrite zlen_app in Hr.
      pose proof (zlen_nonneg _ rest). unfold count' in *. destruct Hn as [Hn|[-> Hn]].
      * destruct (Z.eq_dec count 0); [exfalso; lia | left; lia].
      * right. split; [easy|]. lia.
    + split; [now constructor|]. split; [now constructor|]. cbn [concat]. exact (outs_trans _ _ _ _ _ Ho Ho2).
  - injection H as <-. exists [(pt, proto, a)], [at1], r'.
    split; [cbn [flat_map]; now rewrite app_nil_r|]. split; [easy|]. split.
    + change (zlen [(pt, proto, a)]) with 1. unfold count' in *.
      destruct (Z.eq_dec count 1); [now left|right]. split; [|lia]. apply zlen_0. lia.
    + split; [now constructor|]. split; [now constructor|]. cbn [concat]. now rewrite app_nil_r.
Qed.
Lemma says_addr_loop c : d_mode c = 2 -> forall recs fuel count rest texts s,
  zlen (flat_map addr_rec_bytes recs) < 100000 -> 0 <= count < 4294967296 -> recs <> [] ->
  (zlen recs = count \/ (rest = [] /\ (zlen recs < count \/ count = 0))) ->
  Forall addr_rec_fits recs -> Forall2 addr_says recs texts -> (length recs <= fuel)%nat ->
  exists s', p_addr_loop fuel c count (flat_map addr_rec_bytes recs ++ rest) s = Some s' /\ outs s (concat texts) s'.
Proof.
  intros Hm. induction recs as [|[[pt proto] a] recs IH]; intros fuel count rest texts s Hr Hc Hne Hn HF HF2 Hfuel; [easy|].
  destruct fuel as [|fuel]; [cbn in Hfuel; lia|].
  inversion HF as [|? ? Hfit HF']; subst. inversion HF2 as [|? at1 ? attrs' Hm1 HF2']; subst.
  cbn [flat_map]. rewrite <- app_assoc. rewrite addr_loop_rec by easy.
  cbn [flat_map] in Hr. rewrite zlen_app in Hr. pose proof (addr_rec_len (pt, proto, a)) as Hlen.
  destruct (addr_says_1 c pt proto a s at1 Hm Hm1) as (s1 & -> & Ho). cbn [obind]. rewrite zlen_cons in Hn.
  pose proof (zlen_nonneg _ recs).
  set (count' := (count - 1) mod 4294967296) in *. unfold count' in *.
  destruct recs as [|r2 recs].
  - inversion HF2'; subst. cbn [flat_map app concat]. rewrite app_nil_r.
    replace (negb (zlen rest =? 0) && (0 <? (count - 1) mod 4294967296)) with false; [eauto|].
    rewrite zlen_nil in Hn. destruct Hn as [Hn|[-> Hn]].
    + subst. now rewrite andb_false_r.
    + reflexivity.
  - pose proof (addr_recs_len (r2 :: recs)). rewrite zlen_cons in *.
    pose proof (zlen_nonneg _ recs).
    assert (Hpos : 4 <= zlen (flat_map addr_rec_bytes (r2 :: recs) ++ rest)).
    { cbn [flat_map]. pose proof (addr_rec_len r2). zlia. }
    replace (negb _ && _) with true by lia.
    destruct (IH fuel count' rest attrs' s1) as (s2 & E2 & Ho2); try easy.
    + lia.
    + unfold count'. lia.
    + unfold count'. destruct Hn as [Hn|[-> Hn]]; [left; lia|right; split; [easy|lia]].
    + cbn [length] in *. lia.
    + exists s2. split; [exact E2|]. cbn [concat]. exact (outs_trans _ _ _ _ _ Ho Ho2).
Qed.

(** ** TLVs *)
Ltac not_in := cbn; intuition lia.
Lemma cdp_tlv_says c t v s s' : d_mode c = 2 -> bytes v -> zlen v < 100000 -> 0 <= t ->
  p_cdp_tlv c t v s = Some s' -> exists text, cdp_says (d_name c) (t, v) text /\ outs s text s'.
Proof.
  intros Hm Hb Hv Ht. unfold p_cdp_tlv, DECODE_PRINT. rewrite Hm. change (2 =? 2) with true. cbv iota.
  destruct ((t =? 1) || (t =? 20)) eqn:E1.
  { intros [= <-]. assert (t = 1 \/ t = 20) as [->| ->] by lia; (eexists; split; [constructor|apply (outs_show c s _ _ _ Hm)]). }
  destruct (t =? 3) eqn:E2.
  { apply Z.eqb_eq in E2. subst. intros [= <-]. eexists. split; [constructor|].
    replace (bs "Interface: " ++ d_name c ++ bs ", " ++ line (bs "Port ID (outgoing port)") (shown show_safe v))
      with (bs "Interface: " ++ d_name c ++ bs ", Port ID (outgoing port): " ++ shown show_safe v ++ [10]) by reflexivity.
    apply (outs_show c s _ _ _ Hm). }
  destruct (t =? 4) eqn:E3.
  { apply Z.eqb_eq in E3. subst. destruct v as [|a [|b [|d [|e [|x v]]]]]; try easy. cbv zeta.
    rewrite cdp_caps_decode. intros [= <-].
    do 4 (let H := fresh in apply bytes_cons_inv in Hb as [H Hb]).
    rewrite U32_split by lia. eexists. split; [apply cdp_says_caps; lia|]. apply (outs_show c s _ _ _ Hm). }
  destruct ((t =? 2) || (t =? 22)) eqn:E4.
  { destruct v as [|a [|b [|d [|e r]]]]; try easy. intros H.
    do 4 (let H := fresh in apply bytes_cons_inv in Hb as [H Hb]).
    apply (addr_loop_says c Hm) in H; [|easy|zlia|lia].
    destruct H as (recs & texts & rest & -> & Hne & Hn & HF & HF2 & Ho).
    change (a :: b :: d :: e :: flat_map addr_rec_bytes recs ++ rest)
      with ([a; b; d; e] ++ flat_map addr_rec_bytes recs ++ rest).
    rewrite U32_split by lia.
    assert (K : exists label, In (t, label) [(2, bs "Entry"); (22, bs "Management")] /\ (if t =? 22 then bs "Management" else bs "Entry") = label).
    { assert (t = 2 \/ t = 22) as [->| ->] by lia; eexists; (split; [|reflexivity]); cbn [In Z.eqb Pos.eqb]; auto. }
    destruct K as (label & Hin & El). rewrite El in Ho. eexists. split.
    - apply (cdp_says_addrs _ t label _ recs texts rest); try easy. lia.
    - replace (label ++ bs " address(es):" ++ [10] ++ concat texts) with ((label ++ bs " address(es):" ++ [10]) ++ concat texts)
        by now rewrite <- !app_assoc.
      exact (outs_trans _ _ _ _ _ (outs_print s _) Ho). }
  destruct ((t =? 5) || (t =? 6)) eqn:E5.
  { intros [= <-]. assert (t = 5 \/ t = 6) as [->| ->] by lia; (eexists; split; [constructor|apply outs_descr]). }
  destruct (t =? 9) eqn:E6.
  { apply Z.eqb_eq in E6. subst. intros [= <-]. eexists. split; [constructor|].
    replace (line (bs "VTP Management Domain") (bs "'" ++ shown show_safe v ++ bs "'"))
      with (bs "VTP Management Domain: '" ++ shown show_safe v ++ bs "'" ++ [10]); [apply outs_print|].
    unfold line. rewrite <- !app_assoc. reflexivity. }
  destruct (t =? 10) eqn:E7.
  { apply Z.eqb_eq in E7. subst. destruct v as [|a [|b [|x v]]]; try easy.
    do 2 (let H := fresh in apply bytes_cons_inv in Hb as [H Hb]). intros [= <-].
    rewrite dec_decimal by lia.
    replace [a; b] with (U16 (a * 256 + b)) by (unfold U16; f_equal; [lia|f_equal; lia]).
    eexists. split; [apply cdp_says_vlan; lia|]. apply (outs_show c s _ _ _ Hm). }
  destruct (t =? 11) eqn:E8.
  { apply Z.eqb_eq in E8. subst. destruct v as [|d [|x v]]; try easy. intros [= <-].
    eexists. split; [constructor|apply outs_print]. }
  intros [= <-]. exists []. split; [apply cdp_says_other; not_in|apply outs_nil].
Qed.
Lemma says_cdp_tlv c t v s text : d_mode c = 2 -> zlen v < 100000 -> cdp_says (d_name c) (t, v) text ->
  exists s', p_cdp_tlv c t v s = Some s' /\ outs s text s'.
Proof.
  intros Hm Hv H. unfold p_cdp_tlv, DECODE_PRINT. rewrite Hm. change (2 =? 2) with true.
  inversion H; subst; cbn [Z.eqb Pos.eqb orb]; cbv iota.
  - eexists. split; [reflexivity|]. apply (outs_show c s _ _ _ Hm).
  - eexists. split; [reflexivity|]. apply (outs_show c s _ _ _ Hm).
  - eexists. split; [reflexivity|].
    replace (bs "Interface: " ++ d_name c ++ bs ", " ++ line (bs "Port ID (outgoing port)") (shown show_safe v))
      with (bs "Interface: " ++ d_name c ++ bs ", Port ID (outgoing port): " ++ shown show_safe v ++ [10]) by reflexivity.
    apply (outs_show c s _ _ _ Hm).
  - unfold U32. rewrite U32_value, cdp_caps_decode. cbv zeta. generalize (cdp_caps w). intros caps. eexists. split; [reflexivity|].
    apply (outs_show c s _ _ _ Hm).
  - unfold U32 in *. cbn [app] in *. rewrite U32_value.
    assert (Hle : zlen (flat_map addr_rec_bytes recs) < 100000) by zlia.
    set (s0 := print s ((if t =? 22 then bs "Management" else bs "Entry") ++ bs " address(es):" ++ [10])).
    destruct (says_addr_loop c Hm recs (S (length (n / 16777216 :: n / 65536 mod 256 :: n / 256 mod 256 :: n mod 256 :: flat_map addr_rec_bytes recs ++ rest))) n rest texts s0)
      as (s' & E & Ho); try easy.
    { pose proof (addr_recs_len recs) as Hl. cbn [length]. rewrite app_length. unfold zlen in *. lia. }
    exists s'. replace (if (t =? 1) || (t =? 20) then _ else _) with (Some s').
    + split; [reflexivity|].
      replace (label ++ bs " address(es):" ++ 10 :: concat texts) with ((label ++ bs " address(es):" ++ [10]) ++ concat texts)
        by now rewrite <- !app_assoc.
      eapply outs_trans; [|exact Ho]. unfold s0.
      match goal with H : In _ _ |- _ => destruct H as [K|[K|[]]]; injection K as <- <- end; apply outs_print.
    + symmetry. match goal with H : In _ _ |- _ => destruct H as [K|[K|[]]]; injection K as <- <- end; exact E.
  - eexists. split; [reflexivity|]. apply outs_descr.
  - eexists. split; [reflexivity|]. apply outs_descr.
  - eexists. split; [reflexivity|].
    replace (line (bs "VTP Management Domain") (bs "'" ++ shown show_safe v ++ bs "'"))
      with (bs "VTP Management Domain: '" ++ shown show_safe v ++ bs "'" ++ [10]); [apply outs_print|].
    unfold line. rewrite <- !app_assoc. reflexivity.
  - unfold U16. replace (w / 256 * 256 + w mod 256) with w by lia. rewrite dec_decimal by easy.
    eexists. split; [reflexivity|]. apply (outs_show c s _ _ _ Hm).
  - eexists. split; [reflexivity|]. apply outs_print.
  - match goal with H : ~ In t _ |- _ => cbn in H end.
    replace ((t =? 1) || (t =? 20)) with false by lia. replace (t =? 3) with false by lia. replace (t =? 4) with false by lia.
    replace ((t =? 2) || (t =? 22)) with false by lia. replace ((t =? 5) || (t =? 6)) with false by lia.
    replace (t =? 9) with false by lia. replace (t =? 10) with false by lia. replace (t =? 11) with false by lia.
    exists s. split; [reflexivity|apply outs_nil].
Qed.
Lemma cdp_loop_says c : d_mode c = 2 -> forall fuel r s s',
  bytes r -> zlen r < 65532 -> p_cdp_loop fuel c r s = Some s' ->
  exists tlvs texts, r = flat_map cdp_bytes tlvs /\ Forall cdp_fits tlvs
    /\ Forall2 (cdp_says (d_name c)) tlvs texts /\ outs s (concat texts) s'.
Proof.
  intros Hm. induction fuel as [|fuel IH]; intros r s s' Hb Hl H; [easy|].
  destruct (cdp_loop_shape _ _ _ _ _ Hb Hl H) as [->|(t & v & r' & -> & Hfit)].
  - injection H as <-. exists [], []. split; [reflexivity|]. split; [constructor|]. split; [constructor|]. apply outs_nil.
  - rewrite cdp_loop_tlv in H by easy. apply obind_some in H as (s1 & H1 & H).
    pose proof (cdp_bytes_len (t, v)). rewrite zlen_app in Hl. pose proof (zlen_nonneg _ r').
    pose proof Hb as Hb'. apply bytes_app in Hb' as [Hbv Hbr]. unfold cdp_bytes in Hbv.
    apply bytes_app_r, bytes_app_r in Hbv. cbn [snd] in Hbv.
    apply (cdp_tlv_says c t v s s1) in H1; try easy.
    2:{ unfold cdp_bytes in Hl. cbn [fst snd] in Hl. zlia. }
    2:{ destruct Hfit as [Hf _]. cbn [fst] in Hf. lia. }
    destruct H1 as (at1 & Hm1 & Ho).
    apply (IH r') in H; try easy; [|lia].
    destruct H as (tlvs & attrs & -> & HF & HF2 & Ho2).
    exists ((t, v) :: tlvs), (at1 :: attrs). split; [reflexivity|]. split; [now constructor|]. split; [now constructor|].
    cbn [concat]. exact (outs_trans _ _ _ _ _ Ho Ho2).
Qed.
Lemma says_cdp_loop c : d_mode c = 2 -> forall tlvs fuel s texts,
  zlen (flat_map cdp_bytes tlvs) < 65532 ->
  Forall cdp_fits tlvs -> Forall2 (cdp_says (d_name c)) tlvs texts -> (length tlvs < fuel)%nat ->
  exists s', p_cdp_loop fuel c (flat_map cdp_bytes tlvs) s = Some s' /\ outs s (concat texts) s'.
Proof.
  intros Hm. induction tlvs as [|[t v] tlvs IH]; intros fuel s texts Hl HF HF2 Hf;
    (destruct fuel as [|fuel]; [cbn in Hf; lia|]).
  - inversion HF2; subst. cbn [flat_map p_cdp_loop concat]. exists s. split; [reflexivity|apply outs_nil].
  - inversion HF as [|? ? Hfit HF']; subst. inversion HF2 as [|? at1 ? attrs' Hm1 HF2']; subst.
    cbn [flat_map] in *. rewrite cdp_loop_tlv by easy.
    pose proof (cdp_bytes_len (t, v)). rewrite zlen_app in Hl.
    pose proof (zlen_nonneg _ (flat_map cdp_bytes tlvs)).
    destruct (says_cdp_tlv c t v s at1 Hm) as (s1 & -> & Ho); [unfold cdp_bytes in Hl; cbn [fst snd] in Hl; zlia|exact Hm1|].
    cbn [obind]. destruct (IH fuel s1 attrs') as (s2 & E2 & Ho2); try easy; [lia|cbn [length] in Hf; lia|].
    exists s2. split; [exact E2|]. cbn [concat]. exact (outs_trans _ _ _ _ _ Ho Ho2).
Qed.
Lemma cdp_header_says c version ttl s : d_mode c = 2 -> version = 1 \/ version = 2 ->
  outs (set_ttl (set_proto s (if version =? 1 then 5 else 1)) ttl)
    (line (bs "CDP Version") (decimal version) ++ line (bs "Holdtime") (left ttl (d_now c - d_received c)))
    (p_cdp_header c version ttl s).
Proof.
  intros Hm Hv. unfold p_cdp_header. rewrite Hm. change (2 =? DECODE_PRINT) with true. cbv iota zeta.
  set (s0 := set_ttl _ ttl).
  replace (line _ _ ++ line _ _) with (bs "CDP Version: " ++ dec version ++ [10] ++ bs "Holdtime: " ++ dec (holdtime c s0) ++ [10]);
    [apply outs_print|].
  unfold holdtime, line, left. rewrite !dec_decimal by (try lia; apply Z.mod_pos_bound; lia).
  rewrite <- !app_assoc. reflexivity.
Qed.
Lemma cdp_prints c f payload s text :
  in_buffer c f -> cdp_frame f payload -> d_mode c = 2 ->
  cdp_packet_says (d_name c) (d_now c - d_received c) payload text ->
  exists s', cdp_decode c s = DOk (zlen f, s') /\ concat (s_out s') = concat (s_out s) ++ text
    /\ s_peer s' = s_peer s /\ s_ttl s' = nth 1 payload 0.
Proof.
  intros Hin Hf Hm. rewrite (cdp_decode_pure c f payload s Hin Hf).
  assert (Hb : bytes payload /\ zlen payload < 65532).
  { destruct Hin as (tail & _ & _ & _ & Hl & Hb).
    destruct Hf; (split; [rewrite !bytes_app in Hb; apply Hb|zlia]). }
  destruct Hb as [Hb Hl]. unfold p_cdp.
  intros H. inversion H as [v ttl chk tlvs texts Hv Hchk HF HF2]; subst.
    destruct chk as [|x [|y [|? ?]]]; try (exfalso; zlia). cbn [app] in *.
    replace ((v <? 1) || (2 <? v)) with false by lia.
    destruct (says_cdp_loop c Hm tlvs (S (length (flat_map cdp_bytes tlvs))) (p_cdp_header c v ttl s) texts) as (s' & -> & Ho); try easy.
    + zlia.
    + pose proof (cdp_tlvs_count tlvs). unfold zlen in *. lia.
    + exists s'. split; [reflexivity|].
      pose proof (outs_trans _ _ _ _ _ (cdp_header_says c v ttl s Hm ltac:(lia)) Ho) as (Ho3 & Hp3 & Ht3 & _).
      cbn [set_ttl set_proto s_out s_peer s_ttl] in *. rewrite Ho3, <- app_assoc. now rewrite Hp3, Ht3.
Qed.
Theorem cdp_full c f payload s text :
  in_buffer c f -> cdp_frame f payload -> d_mode c = 2 ->
  (exists s', cdp_decode c s = DOk (zlen f, s') /\ concat (s_out s') = concat (s_out s) ++ text)
  <-> cdp_packet_says (d_name c) (d_now c - d_received c) payload text.
Proof.
  intros Hin Hf Hm. split.
  - rewrite (cdp_decode_pure c f payload s Hin Hf).
  assert (Hb : bytes payload /\ zlen payload < 65532).
  { destruct Hin as (tail & _ & _ & _ & Hl & Hb).
    destruct Hf; (split; [rewrite !bytes_app in Hb; apply Hb|zlia]). }
  destruct Hb as [Hb Hl]. unfold p_cdp.
    intros (s' & H & Ho). destruct payload as [|v [|ttl [|x [|y r]]]]; try easy.
    destruct ((v <? 1) || (2 <? v)) eqn:E; [easy|].
    destruct (p_cdp_loop _ _ _ _) as [s2|] eqn:E2; [|easy]. injection H as <-.
    do 4 (let H := fresh in apply bytes_cons_inv in Hb as [H Hb]).
    apply (cdp_loop_says c Hm) in E2; [|easy|zlia]. destruct E2 as (tlvs & texts & -> & HF & HF2 & Ho2).
    pose proof (outs_trans _ _ _ _ _ (cdp_header_says c v ttl s Hm ltac:(lia)) Ho2) as [Ho3 _].
    cbn [set_ttl set_proto s_out] in Ho3. rewrite Ho3 in Ho. apply app_inv_head in Ho. subst text. rewrite <- app_assoc.
    change (v :: ttl :: x :: y :: flat_map cdp_bytes tlvs) with ([v; ttl] ++ [x; y] ++ flat_map cdp_bytes tlvs).
    apply cdp_packet_says_intro; try easy. lia.
  - intros H. now destruct (cdp_prints c f payload s text Hin Hf Hm H) as (s' & E & Ho & _); exists s'.
Qed.
