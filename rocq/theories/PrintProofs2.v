(** Proofs about the full text of LLDP advertisements. *)
From Verif Require Import Base Vis Tlv Types Checks Msg Cdp Lldp Spec SpecAddr SpecPrint Lemmas VisProofs EncProofs
  DecProofs DecCheck DecCdp DecCdp2 DecLldp DecLldp2 AddrProofs PrintProofs.

(** Printed text, hold time, and whether a host name is known. *)
Definition notes (named : bool) (s : dst) (text : list Z) (named' : bool) (s' : dst) : Prop :=
  concat (s_out s') = concat (s_out s) ++ text /\ s_ttl s' = s_ttl s
  /\ ((pget (s_peer s) 0 = None <-> named = false) -> (pget (s_peer s') 0 = None <-> named' = false))
  /\ zlen (s_peer s') = zlen (s_peer s).
Lemma notes_outs b s text s' : outs s text s' -> notes b s text b s'.
Proof. intros (H1 & H2 & H3 & _). split; [exact H1|]. split; [exact H3|]. rewrite H2. now split. Qed.
Lemma notes_trans b s x b1 s1 y b2 s2 : notes b s x b1 s1 -> notes b1 s1 y b2 s2 -> notes b s (x ++ y) b2 s2.
Proof.
  intros (H1 & H2 & H3 & H4) (K1 & K2 & K3 & K4). split; [now rewrite K1, H1, app_assoc|]. split; [congruence|]. split; [auto|congruence].
Qed.
Lemma outs_print' s l x : l = x -> outs s x (print s l).
Proof. intros <-. apply outs_print. Qed.

(** ** Chassis and port *)
Definition no_network (chassis : list Z) : Prop := forall af a, In af [1; 2; 4; 5] -> chassis <> 5 :: af :: a.
Lemma chassis_notes c v s s' : d_mode c = 2 -> no_network v -> p_chassis c v s = DOk s' ->
  2 <= zlen v <= 256 /\ exists text, chassis_says v text /\ outs s text s'.
Proof.
  intros Hm Hn. unfold p_chassis. rewrite Hm. change (negb (2 =? DECODE_PRINT)) with false. cbv iota.
  destruct ((zlen v <=? 1) || (256 <? zlen v)) eqn:El; [easy|]. intros H. split; [lia|].
  destruct v as [|sub v]; [easy|]. unfold addr_text in H.
  destruct ((sub =? 1) || (sub =? 2) || (sub =? 3) || (sub =? 6) || (sub =? 7)) eqn:E1.
  { injection H as <-. eexists. split; [apply chassis_says_text; cbn; lia|apply outs_print]. }
  destruct (sub =? 4) eqn:E4.
  { apply Z.eqb_eq in E4. subst. change (6 =? 4) with false in H. change (6 =? 5) with false in H. change (6 =? 6) with true in H.
    cbv iota in H. destruct (zlen v =? 6) eqn:E6; cbn [dbind] in H; injection H as <-.
    - eexists. split; [apply chassis_says_mac; lia|apply outs_print].
    - exists []. split; [|apply outs_nil]. apply chassis_says_other; [not_in|intros _; lia|]. discriminate. }
  destruct (sub =? 5) eqn:E5.
  { apply Z.eqb_eq in E5. subst. destruct v as [|af v]; [easy|].
    destruct (af =? 4) eqn:A4; [exfalso; apply (Hn af v); [not_in|reflexivity]|].
    destruct (af =? 5) eqn:A5; [exfalso; apply (Hn af v); [not_in|reflexivity]|].
    assert (A1 : af <> 1) by (intros ->; apply (Hn 1 v); [not_in|reflexivity]).
    assert (A2 : af <> 2) by (intros ->; apply (Hn 2 v); [not_in|reflexivity]).
    destruct (af =? 6) eqn:A6.
    - apply Z.eqb_eq in A6. subst. destruct (zlen v =? 6) eqn:E6; cbn [dbind] in H; injection H as <-.
      + eexists. split; [apply (chassis_says_net 6 Mac 6 mac_str v); [constructor|lia]|apply outs_print].
      + exists []. split; [|apply outs_nil]. apply chassis_says_other; [not_in|lia|].
        intros af sl size text a HF Hz [= <- <-]. inversion HF; subst. lia.
    - cbn [dbind] in H. injection H as <-. exists []. split; [|apply outs_nil]. apply chassis_says_other; [not_in|lia|].
      intros af' sl size text a HF Hz [= <- <-]. inversion HF; subst; lia. }
  cbn [dbind] in H. injection H as <-. exists []. split; [|apply outs_nil]. apply chassis_says_other; [not_in|lia|].
  intros af' sl size text a HF Hz [= K _]. lia.
Qed.
Lemma notes_chassis c v s text : d_mode c = 2 -> no_network v -> 2 <= zlen v <= 256 -> chassis_says v text ->
  exists s', p_chassis c v s = DOk s' /\ outs s text s'.
Proof.
  intros Hm Hn Hl H. unfold p_chassis. rewrite Hm. change (negb (2 =? DECODE_PRINT)) with false. cbv iota.
  replace ((zlen v <=? 1) || (256 <? zlen v)) with false by lia.
  inversion H as [sub id Hi|id Hi|af sl size tx a HF Hi|sub id Hi H4 H5]; subst.
  - replace ((sub =? 1) || (sub =? 2) || (sub =? 3) || (sub =? 6) || (sub =? 7)) with true by (cbn in Hi; lia).
    cbn [dbind]. eexists. split; [reflexivity|apply outs_print].
  - cbn [Z.eqb Pos.eqb orb]. unfold addr_text. rewrite Hi. cbn [Z.eqb Pos.eqb dbind]. eexists. split; [reflexivity|apply outs_print].
  - inversion HF; subst.
    + exfalso. apply (Hn 1 a); [not_in|reflexivity].
    + exfalso. apply (Hn 2 a); [not_in|reflexivity].
    + cbn [Z.eqb Pos.eqb orb]. unfold addr_text.
      replace (zlen a =? 6) with true by lia. cbn [Z.eqb Pos.eqb dbind]. eexists. split; [reflexivity|apply outs_print].
  - replace ((sub =? 1) || (sub =? 2) || (sub =? 3) || (sub =? 6) || (sub =? 7)) with false by (cbn in Hi; lia).
    exists s. split; [|apply outs_nil]. unfold addr_text. destruct (sub =? 4) eqn:E4.
    { apply Z.eqb_eq in E4. specialize (H4 E4). change (6 =? 4) with false. change (6 =? 5) with false. change (6 =? 6) with true.
      cbv iota. replace (zlen id =? 6) with false by lia. reflexivity. }
    destruct (sub =? 5) eqn:E5; [|reflexivity]. apply Z.eqb_eq in E5. subst.
    destruct id as [|af a]; [exfalso; rewrite zlen_cons, zlen_nil in Hl; lia|].
    destruct (af =? 4) eqn:A4; [exfalso; apply (Hn af a); [not_in|reflexivity]|].
    destruct (af =? 5) eqn:A5; [exfalso; apply (Hn af a); [not_in|reflexivity]|].
    destruct (af =? 6) eqn:A6; [|reflexivity].
    apply Z.eqb_eq in A6. subst. destruct (zlen a =? 6) eqn:E6; [|reflexivity].
    exfalso. apply (H5 6 Mac 6 mac_str a); [constructor|lia|reflexivity].
Qed.
Lemma port_notes c v s s' : d_mode c = 2 -> p_port c v s = DOk s' ->
  2 <= zlen v <= 256 /\ exists text, port_says v text /\ outs s text s'.
Proof.
  intros Hm. unfold p_port. rewrite Hm. change (2 =? DECODE_PRINT) with true.
  destruct ((zlen v <=? 1) || (256 <? zlen v)) eqn:El; [easy|].
  destruct v as [|sub v]; [easy|]. unfold addr_text. change (6 =? 4) with false. change (6 =? 5) with false. change (6 =? 6) with true.
  cbv iota. destruct ((sub =? 1) || (sub =? 2) || (sub =? 5) || (sub =? 6) || (sub =? 7)) eqn:E1.
  { intros [= <-]. split; [lia|]. eexists. split; [apply port_says_text; cbn; lia|apply (outs_show c s _ _ _ Hm)]. }
  destruct (sub =? 3) eqn:E3.
  { apply Z.eqb_eq in E3. subst. destruct (zlen v =? 6) eqn:E6; [|easy]. intros [= <-]. split; [lia|].
    eexists. split; [apply port_says_mac; lia|apply outs_print]. }
  intros [= <-]. split; [lia|]. exists []. split; [apply port_says_other; not_in|apply outs_nil].
Qed.
Lemma notes_port c v s text : d_mode c = 2 -> 2 <= zlen v <= 256 -> port_says v text ->
  exists s', p_port c v s = DOk s' /\ outs s text s'.
Proof.
  intros Hm Hl H. unfold p_port. rewrite Hm. change (2 =? DECODE_PRINT) with true. rewrite ?andb_true_r.
  replace ((zlen v <=? 1) || (256 <? zlen v)) with false by lia.
  inversion H as [sub id Hi|id Hi|sub id Hi]; subst.
  - replace ((sub =? 1) || (sub =? 2) || (sub =? 5) || (sub =? 6) || (sub =? 7)) with true by (cbn in Hi; lia).
    eexists. split; [reflexivity|apply (outs_show c s _ _ _ Hm)].
  - cbn [Z.eqb Pos.eqb orb andb]. unfold addr_text. rewrite Hi. cbn [Z.eqb Pos.eqb]. eexists. split; [reflexivity|apply outs_print].
  - replace ((sub =? 1) || (sub =? 2) || (sub =? 5) || (sub =? 6) || (sub =? 7)) with false by (cbn in Hi; lia).
    rewrite andb_true_r. replace (sub =? 3) with false by (cbn in Hi; lia). exists s. split; [reflexivity|apply outs_nil].
Qed.

(** ** TLVs *)
Lemma cap_notes c v s s' b : d_mode c = 2 -> bytes v -> p_lldp_cap c v s = DOk s' ->
  exists text, lldp_says b (7, v) text /\ outs s text s'.
Proof.
  intros Hm Hb. unfold p_lldp_cap. rewrite Hm. change (2 =? DECODE_PRINT) with true. cbv iota.
  destruct v as [|a [|b' [|d [|e [|? ?]]]]]; try easy.
  do 4 (let H := fresh in apply bytes_cons_inv in Hb as [H Hb]).
  set (avail := a * 256 + b'). set (cap := d * 256 + e).
  destruct (negb (avail =? Z.lor cap avail)) eqn:E1; [easy|].
  destruct (has avail 128 && has avail 65407) eqn:E2; [easy|]. cbv zeta. intros [= <-]. rewrite !lldp_caps_decode.
  exists (line (bs "System Capabilities") (lldp_caps avail) ++ line (bs "Enabled Capabilities") (lldp_caps cap)). split.
  - replace [a; b'; d; e] with (U16 avail ++ U16 cap).
    + apply lldp_says_caps; unfold avail, cap; try lia. split.
      * apply caps_subset. unfold avail, cap in *. lia.
      * apply caps_station; [lia|easy].
    + unfold U16, avail, cap. cbn [app]. f_equal; [lia|f_equal; [lia|f_equal; [lia|f_equal; lia]]].
  - eapply outs_trans; [apply outs_print|apply (outs_show c _ _ _ _ Hm)].
Qed.
Lemma family_of n : (if n =? 1 then 4 else if n =? 2 then 5 else if n =? 6 then 6 else 0) <> 0 ->
  exists sl size text, mgmt_family n sl size text /\ 0 < size < 255
    /\ family_name n = (if n =? 1 then bs "IPv4" else if n =? 2 then bs "IPv6" else bs "Ethernet")
    /\ forall x, addr_text (if n =? 1 then 4 else if n =? 2 then 5 else if n =? 6 then 6 else 0) x
                 = if zlen x =? size then Some (text x) else None.
Proof.
  intros Ha. unfold family_name. destruct (n =? 1) eqn:E1.
  { apply Z.eqb_eq in E1. subst. exists IPv4, 4, inet_ntop4. split; [constructor|]. split; [lia|]. split; reflexivity. }
  destruct (n =? 2) eqn:E2.
  { apply Z.eqb_eq in E2. subst. exists IPv6, 16, inet_ntop6. split; [constructor|]. split; [lia|]. split; reflexivity. }
  destruct (n =? 6) eqn:E6; [|easy].
  apply Z.eqb_eq in E6. subst. exists Mac, 6, mac_str. split; [constructor|]. split; [lia|]. split; reflexivity.
Qed.
Lemma mgmt_notes c v s s' b : d_mode c = 2 -> bytes v -> p_mgmt c v s = DOk s' ->
  exists text, lldp_says b (8, v) text /\ outs s text s'.
Proof.
  intros Hm Hb. unfold p_mgmt. rewrite Hm. change (2 =? DECODE_STR) with false. cbn [andb].
  destruct v as [|l [|n v]]; try easy.
  do 2 (let H := fresh in apply bytes_cons_inv in Hb as [H Hb]).
  cbv zeta. set (af := if n =? 1 then 4 else _). destruct (af =? 0) eqn:Eaf; [easy|].
  set (al := (l - 1) mod 256). destruct (negb (al <? zlen v)) eqn:El; [easy|].
  destruct (family_of n) as (sl & size & text & Hfam & Hsz & Hnm & Htext); [fold af; lia|]. fold af in Htext. rewrite Htext, <- Hnm.
  assert (Ls : zlen (sized al v) = al) by (apply zlen_sized; lia).
  rewrite Ls. destruct (al =? size) eqn:Esz; [|easy]. intros [= <-].
  exists (line (bs "Management Address " ++ family_name n) (text (sized al v))). apply Z.eqb_eq in Esz. split.
  - replace (l :: n :: v) with ([1 + size; n] ++ sized al v ++ after al v).
    + apply (lldp_says_mgmt b n sl size text); try easy; [congruence|].
      assert (La : zlen (after al v) = zlen v - al) by (apply zlen_after; lia).
      intros E. rewrite E, zlen_nil in La. lia.
    + rewrite sized_after. cbn [app]. f_equal. rewrite <- Esz. unfold al. unfold al in Esz. lia.
  - replace (line (bs "Management Address " ++ family_name n) (text (sized al v)))
      with (bs "Management Address " ++ family_name n ++ bs ": " ++ text (sized al v) ++ [10])
      by (unfold line; now rewrite <- !app_assoc).
    apply (outs_show c s _ _ _ Hm).
Qed.
Lemma private_notes c v s s' b : d_mode c = 2 -> bytes v -> p_private c v s = DOk s' ->
  exists text, lldp_says b (127, v) text /\ outs s text s'.
Proof.
  intros Hm Hb. unfold p_private.
  destruct v as [|o1 [|o2 [|o3 v]]]; try easy.
  destruct (beq [o1; o2; o3] [0; 128; 194]) eqn:Eo.
  - apply beq_true in Eo. injection Eo as -> -> ->. destruct v as [|sub v]; [easy|].
    destruct (sub =? 1) eqn:Es.
    + destruct v as [|a [|b' [|? ?]]]; try easy. apply Z.eqb_eq in Es. subst sub.
      do 6 (let H := fresh in apply bytes_cons_inv in Hb as [H Hb]).
      intros [= <-]. rewrite dec_decimal by lia.
      exists (line (bs "Port VLAN ID") (decimal (a * 256 + b'))). split; [|apply (outs_show c s _ _ _ Hm)].
      replace [0; 128; 194; 1; a; b'] with ([0; 128; 194; 1] ++ U16 (a * 256 + b')).
      { apply lldp_says_pvid. lia. }
      unfold U16. cbn [app]. do 4 f_equal. f_equal; [lia|f_equal; lia].
    + intros [= <-]. exists []. split; [|apply outs_nil]. apply (lldp_says_8021 b sub v). lia.
  - intros [= <-]. exists []. split; [|apply outs_nil].
    apply (lldp_says_org b [o1; o2; o3] v); [easy|]. intros E. now rewrite E, beq_refl in Eo.
Qed.
Lemma name_notes b s l x : pget (s_peer s) 0 = None -> 1 <= zlen (s_peer s) ->
  notes b s l true (peer_str (print s l) 0 x) /\ 1 <= zlen (s_peer (peer_str (print s l) 0 x)).
Proof.
  intros Ef Hp. destruct (outs_print s l) as (O1 & O2 & O3 & _). unfold notes.
  change (s_out (peer_str (print s l) 0 x)) with (s_out (print s l)).
  change (s_ttl (peer_str (print s l) 0 x)) with (s_ttl (print s l)).
  change (s_peer (peer_str (print s l) 0 x)) with (PEER_STR (s_peer s) 0 x).
  unfold PEER_STR. rewrite Ef. destruct (s_peer s) as [|h p]; [rewrite zlen_nil in Hp; lia|].
  change (upd (h :: p) (Z.to_nat 0) (Some x)) with (Some x :: p).
  split; [|rewrite zlen_cons in *; exact Hp]. split; [exact O1|]. split; [exact O3|]. split; [|now rewrite !zlen_cons]. intros _.
  change (pget (Some x :: p) 0) with (Some x). now split.
Qed.
Lemma tlv_notes c t v s s' b : d_mode c = 2 -> bytes v -> 0 < t < 128 -> (pget (s_peer s) 0 = None <-> b = false) ->
  (1 <= zlen (s_peer s)) ->
  p_lldp_tlv c t v s = DOk s' ->
  exists text, lldp_says b (t, v) text /\ notes b s text (b || (t =? 5)) s' /\ 1 <= zlen (s_peer s').
Proof.
  intros Hm Hb Ht Hn Hp. unfold p_lldp_tlv.
  assert (W : forall text, lldp_says b (t, v) text /\ outs s text s' -> (t =? 5) = false ->
    exists text, lldp_says b (t, v) text /\ notes b s text (b || (t =? 5)) s' /\ 1 <= zlen (s_peer s')).
  { intros text [H1 H2] ->. exists text. rewrite orb_false_r. split; [exact H1|]. split; [now apply notes_outs|].
    destruct H2 as (_ & -> & _). exact Hp. }
  destruct (t =? 5) eqn:E5.
  { apply Z.eqb_eq in E5. subst. rewrite Hm. change (2 =? DECODE_PRINT) with true. cbv iota zeta.
    destruct (255 <? zlen v) eqn:El; [easy|]. destruct (pget (s_peer s) 0) eqn:Ef; [easy|].
    intros H. apply (f_equal (fun r => match r with DOk x => x | _ => s end)) in H. cbv beta iota in H. subst s'.
    eexists. split; [apply lldp_says_name; [lia|now apply Hn]|]. change (5 =? 5) with true. rewrite orb_true_r.
    exact (name_notes b s (bs "System Name: " ++ shown show_safe v ++ [10]) (shown show_safe v) Ef Hp). }
  destruct (t =? 4) eqn:E4.
  { apply Z.eqb_eq in E4. subst. rewrite Hm. change (2 =? DECODE_STR) with false.
    change (2 =? DECODE_PRINT) with true. cbv iota zeta. intros [= <-]. eapply W; [split; [constructor|apply outs_descr]|reflexivity]. }
  destruct (t =? 6) eqn:E6.
  { apply Z.eqb_eq in E6. subst. rewrite Hm. change (2 =? DECODE_PRINT) with true. cbv iota zeta. intros [= <-].
    eapply W; [split; [constructor|apply outs_descr]|reflexivity]. }
  destruct (t =? 7) eqn:E7.
  { apply Z.eqb_eq in E7. subst. intros H. destruct (cap_notes c v s s' b Hm Hb H) as (x & Hx). now apply (W x). }
  destruct (t =? 8) eqn:E8.
  { apply Z.eqb_eq in E8. subst. intros H. destruct (mgmt_notes c v s s' b Hm Hb H) as (x & Hx). now apply (W x). }
  destruct (t =? 127) eqn:E127.
  { apply Z.eqb_eq in E127. subst. intros H. destruct (private_notes c v s s' b Hm Hb H) as (x & Hx). now apply (W x). }
  destruct ((8 <? t) && (t <? 127)) eqn:Er; [easy|].
  intros [= <-]. apply (W []); [|reflexivity]. split; [apply lldp_says_other; cbn; lia|apply outs_nil].
Qed.
Lemma notes_tlv c t v s b text : d_mode c = 2 -> (pget (s_peer s) 0 = None <-> b = false) -> 1 <= zlen (s_peer s) ->
  lldp_says b (t, v) text ->
  exists s', p_lldp_tlv c t v s = DOk s' /\ notes b s text (b || (t =? 5)) s' /\ 1 <= zlen (s_peer s').
Proof.
  intros Hm Hn Hp H.
  assert (W : forall s', p_lldp_tlv c t v s = DOk s' /\ outs s text s' -> (t =? 5) = false ->
    exists s', p_lldp_tlv c t v s = DOk s' /\ notes b s text (b || (t =? 5)) s' /\ 1 <= zlen (s_peer s')).
  { intros s' [H1 H2] ->. exists s'. rewrite orb_false_r. split; [exact H1|]. split; [now apply notes_outs|].
    destruct H2 as (_ & -> & _). exact Hp. }
  unfold p_lldp_tlv in *. rewrite Hm in *. change (2 =? DECODE_STR) with false in *. change (2 =? DECODE_PRINT) with true in *. cbv iota zeta in *.
  inversion H; subst; cbn [Z.eqb Pos.eqb] in *; cbv iota in *.
  - replace (255 <? zlen v) with false by lia. assert (Ef : pget (s_peer s) 0 = None) by now apply Hn. rewrite Ef.
    eexists. split; [reflexivity|]. exact (name_notes false s (bs "System Name: " ++ shown show_safe v ++ [10]) (shown show_safe v) Ef Hp).
  - eapply W; [split; [reflexivity|apply outs_descr]|reflexivity].
  - eapply W; [split; [reflexivity|apply outs_descr]|reflexivity].
  - eapply W; [|reflexivity]. unfold p_lldp_cap, U16. rewrite Hm. change (2 =? DECODE_PRINT) with true. cbn [app]. cbv iota zeta.
    replace (avail / 256 * 256 + avail mod 256) with avail by lia.
    replace (enabled / 256 * 256 + enabled mod 256) with enabled by lia.
    match goal with H : lldp_caps_ok _ _ |- _ => destruct H as [Hsub Hst] end.
    apply caps_subset in Hsub. rewrite <- Hsub, Z.eqb_refl. cbn [negb].
    apply caps_station in Hst; [|easy]. rewrite Hst. rewrite !lldp_caps_decode. split; [reflexivity|].
    eapply outs_trans; [apply outs_print|apply (outs_show c _ _ _ _ Hm)].
  - eapply W; [|reflexivity]. unfold p_mgmt. rewrite Hm. change (2 =? DECODE_STR) with false. cbn [andb app]. cbv zeta.
    assert (Haf : (if af =? 1 then 4 else if af =? 2 then 5 else if af =? 6 then 6 else 0) <> 0)
      by (match goal with H : mgmt_family _ _ _ _ |- _ => destruct H; cbn; lia end).
    destruct (family_of af Haf) as (sl' & size' & text' & Hfam & Hsz & Hnm & Htext).
    assert (size' = zlen addr /\ text' = text0) as [-> ->].
    { match goal with H : mgmt_family af sl _ _ |- _ => revert H end. destruct Hfam; intros K; inversion K; subst; split; congruence. }
    replace (_ =? 0) with false by lia. rewrite Htext.
    match goal with |- context [(?m - 1) mod 256] => change m with (1 + zlen addr) end.
    replace ((1 + zlen addr - 1) mod 256) with (zlen addr) by lia.
    assert (0 < zlen rest) by (destruct rest; [easy|zlia]).
    replace (negb (zlen addr <? zlen (addr ++ rest))) with false by zlia.
    rewrite (sized_app _ (zlen addr) addr rest eq_refl). rewrite Z.eqb_refl. split; [reflexivity|].
    replace (line (bs "Management Address " ++ family_name af) (text0 addr))
      with (bs "Management Address " ++ (if af =? 1 then bs "IPv4" else if af =? 2 then bs "IPv6" else bs "Ethernet") ++ bs ": " ++ text0 addr ++ [10])
      by (unfold line; rewrite Hnm; now rewrite <- !app_assoc).
    apply (outs_show c s _ _ _ Hm).
  - eapply W; [|reflexivity]. unfold p_private, U16. cbn [app]. change (beq [0; 128; 194] [0; 128; 194]) with true. change (1 =? 1) with true. cbv iota.
    replace (w / 256 * 256 + w mod 256) with w by lia. rewrite dec_decimal by easy. split; [reflexivity|apply (outs_show c s _ _ _ Hm)].
  - eapply W; [|reflexivity]. unfold p_private. cbn [app]. change (beq [0; 128; 194] [0; 128; 194]) with true. cbv iota.
    replace (sub =? 1) with false by lia. split; [reflexivity|apply outs_nil].
  - eapply W; [|reflexivity]. unfold p_private. destruct oui as [|o1 [|o2 [|o3 [|? ?]]]]; try (exfalso; zlia). cbn [app].
    replace (beq [o1; o2; o3] [0; 128; 194]) with false by (symmetry; now apply beq_false). split; [reflexivity|apply outs_nil].
  - match goal with H : In t _ |- _ => cbn in H end.
    eapply W; [|lia]. replace (t =? 5) with false by lia. replace (t =? 4) with false by lia. replace (t =? 6) with false by lia.
    replace (t =? 7) with false by lia. replace (t =? 8) with false by lia. replace (t =? 127) with false by lia.
    replace ((8 <? t) && (t <? 127)) with false by lia. split; [reflexivity|apply outs_nil].
Qed.
Lemma loop_notes c : d_mode c = 2 -> forall fuel n r s b m s',
  bytes r -> (pget (s_peer s) 0 = None <-> b = false) -> 1 <= zlen (s_peer s) ->
  p_lldp_loop fuel n c r s = DOk (m, s') ->
  exists tlvs text trailer, r = flat_map lldp_bytes (tlvs ++ [(0, [])]) ++ trailer
    /\ Forall lldp_fits tlvs /\ lldp_lines b tlvs text
    /\ m = n - zlen trailer /\ concat (s_out s') = concat (s_out s) ++ text.
Proof.
  intros Hm. induction fuel as [|fuel IH]; intros n r s b m s' Hb Hn Hp H; [easy|].
  cbn [p_lldp_loop] in H. destruct r as [|a [|b' r]]; [easy| |].
  { unfold p_short in H. destruct (_ <=? _) in H; discriminate. }
  destruct (zlen r <? Z.land (a * 256 + b') 511) eqn:E1; [easy|].
  destruct (lldp_shape a b' r Hb E1) as (Er & Hfit & Ht & Hl & Ls & La & Hbs & Hba).
  rewrite Er. revert H Er Hfit Ht Hl Ls La Hbs Hba E1.
  generalize (Z.shiftr (a * 256 + b') 9). intros t.
  generalize (Z.land (a * 256 + b') 511). intros l H Er Hfit Ht Hl Ls La Hbs Hba E1.
  destruct (t =? 0) eqn:Et.
  - destruct (l =? 0) eqn:E0; [|easy]. apply Z.eqb_eq in Et, E0. subst t l. injection H as <- <-.
    exists [], [], r. cbn [app flat_map]. rewrite !app_nil_r.
    split; [reflexivity|]. split; [constructor|]. split; [constructor|]. now split.
  - apply dbind_ok in H as (s1 & H1 & H).
    apply (tlv_notes c t _ s s1 b) in H1; [|easy|easy|lia|easy|easy].
    destruct H1 as (x & Hx & (N1 & N2 & N3 & N4) & Hp1).
    apply (IH n _ _ (b || (t =? 5))) in H; [|easy|auto|easy].
    destruct H as (tlvs & text & trailer & Etr & HF & HB & -> & Ho).
    exists ((t, sized l r) :: tlvs), (x ++ text), trailer.
    split; [cbn [app flat_map]; now rewrite Etr, app_assoc|].
    split; [now constructor|]. split; [now apply (lldp_lines_cons b (t, sized l r) tlvs x)|].
    split; [reflexivity|]. now rewrite Ho, N1, app_assoc.
Qed.
Lemma lldp_says_nz b t v text : lldp_says b (t, v) text -> t <> 0.
Proof. intros H ->. inversion H; subst. cbn in *. lia. Qed.
Lemma notes_loop c : d_mode c = 2 -> forall tlvs fuel n s b text trailer,
  (pget (s_peer s) 0 = None <-> b = false) -> 1 <= zlen (s_peer s) ->
  Forall lldp_fits tlvs -> lldp_lines b tlvs text -> (length tlvs < fuel)%nat ->
  exists s', p_lldp_loop fuel n c (flat_map lldp_bytes (tlvs ++ [(0, [])]) ++ trailer) s = DOk (n - zlen trailer, s')
    /\ concat (s_out s') = concat (s_out s) ++ text /\ s_ttl s' = s_ttl s /\ zlen (s_peer s') = zlen (s_peer s).
Proof.
  intros Hm. induction tlvs as [|[t v] tlvs IH]; intros fuel n s b text trailer Hn Hp HF HB Hf;
    (destruct fuel as [|fuel]; [cbn in Hf; lia|]).
  - inversion HB; subst. cbn [app flat_map]. rewrite app_nil_r, lldp_loop_end. exists s. split; [reflexivity|]. now rewrite app_nil_r.
  - inversion HF as [|? ? Hfit HF']; subst. inversion HB as [|? ? ? x texts Hm1 HB']; subst.
    cbn [app flat_map] in *. rewrite <- app_assoc.
    rewrite lldp_loop_tlv by (try easy; eapply lldp_says_nz, Hm1).
    destruct (notes_tlv c t v s b x Hm Hn Hp Hm1) as (s1 & -> & (N1 & N2 & N3 & N4) & Hp1). cbn [dbind].
    destruct (IH fuel n s1 (b || (t =? 5)) texts trailer (N3 Hn) Hp1 HF' HB' ltac:(cbn [length] in Hf; lia)) as (s2 & E2 & Ho & Ho2 & Ho3).
    exists s2. split; [exact E2|]. split; [now rewrite Ho, N1, app_assoc|]. split; congruence.
Qed.
Lemma set_ttl_print c s ttl : d_mode c = 2 -> 0 <= ttl < 65536 ->
  concat (s_out (print (set_ttl s ttl) (bs "Time remaining: " ++ dec (holdtime c (set_ttl s ttl)) ++ bs " seconds" ++ [10])))
  = concat (s_out s) ++ line (bs "Time remaining") (left ttl (d_now c - d_received c) ++ bs " seconds").
Proof.
  intros Hm Ht. destruct (outs_print (set_ttl s ttl) (bs "Time remaining: " ++ dec (holdtime c (set_ttl s ttl)) ++ bs " seconds" ++ [10])) as [-> _].
  unfold set_ttl. cbn [s_out]. unfold holdtime, line, left. cbn [s_ttl]. rewrite dec_decimal by (apply Z.mod_pos_bound; lia).
  now rewrite <- !app_assoc.
Qed.
Lemma no_network_of payload chassis r : payload = lldp_bytes (1, chassis) ++ r -> zlen chassis <= 256 ->
  (forall af, In af [1; 2; 4; 5] -> ~ network_chassis af payload) -> no_network chassis.
Proof.
  intros -> Hl H af a Hin ->. apply (H af Hin). exists a, r. split; [reflexivity|]. rewrite !zlen_cons in Hl. lia.
Qed.
Lemma ttl_unique c p t r c' p' t' r' :
  flat_map lldp_bytes [(1, c); (2, p); (3, U16 t)] ++ r = flat_map lldp_bytes [(1, c'); (2, p'); (3, U16 t')] ++ r' ->
  zlen c <= 256 -> zlen p <= 256 -> zlen c' <= 256 -> zlen p' <= 256 -> 0 <= t < 65536 -> 0 <= t' < 65536 -> t = t'.
Proof.
  intros H L1 L2 L3 L4 T1 T2.
  apply (f_equal (fun x => p_head 0 1 x (fun _ r => p_head 0 2 r (fun _ r => p_head 0 3 r (fun v _ => DOk v))))) in H.
  cbn [flat_map] in H. rewrite <- !app_assoc in H.
  do 2 (rewrite (head_tlv _ 0 1) in H by (try lia; split; cbn [fst snd U16]; try lia; zlia)).
  change (1 =? 1) with true in H. cbv beta iota in H.
  do 2 (rewrite (head_tlv _ 0 2) in H by (try lia; split; cbn [fst snd U16]; try lia; zlia)).
  change (2 =? 2) with true in H. cbv beta iota in H.
  do 2 (rewrite (head_tlv _ 0 3) in H by (try lia; split; cbn [fst snd U16]; try lia; zlia)).
  change (3 =? 3) with true in H. cbv beta iota in H.
  unfold U16 in H. injection H as H1 H2. lia.
Qed.
Lemma lldp_prints c f payload s used text :
  in_buffer c f -> lldp_frame f payload -> d_mode c = 2 -> s_peer s = no_peers ->
  (forall af, In af [1; 2; 4; 5] -> ~ network_chassis af payload) ->
  lldp_packet_says (d_now c - d_received c) payload used text ->
  exists s', lldp_decode c s = DOk (zlen f - zlen payload + used, s') /\ concat (s_out s') = concat (s_out s) ++ text
    /\ zlen (s_peer s') = 8
    /\ forall chassis port ttl r, payload = flat_map lldp_bytes [(1, chassis); (2, port); (3, U16 ttl)] ++ r ->
       zlen chassis <= 256 -> zlen port <= 256 -> 0 <= ttl < 65536 -> s_ttl s' = ttl.
Proof.
  intros Hin Hf Hm Hs Hnet. rewrite (lldp_decode_pure c f payload s Hin Hf).
  destruct (lldp_frame_payload _ _ _ Hin Hf) as [Hb Hn]. clear Hin Hf. set (N := zlen f) in *. clearbody N. unfold p_lldp.
  intros Hp. inversion Hp as [chassis port ttl tlvs t1 t2 t3 trailer L1 L2 Ht HF T1 T2 HB]; subst. subst used0.
  assert (Hc : no_network chassis).
  { eapply no_network_of; [|lia|exact Hnet]. cbn [app flat_map]. rewrite <- !app_assoc. reflexivity. }
  cbn [app flat_map] in *. rewrite <- !app_assoc in *.
  rewrite head_tlv by (try lia; split; cbn [fst snd]; lia).
  change (1 =? 1) with true. cbv iota. destruct (notes_chassis c chassis s t1 Hm Hc L1 T1) as (s1 & -> & O1). cbn [dbind].
  rewrite head_tlv by (try lia; split; cbn [fst snd]; lia).
  change (2 =? 2) with true. cbv iota. destruct (notes_port c port s1 t2 Hm L2 T2) as (s2 & -> & O2). cbn [dbind].
  rewrite head_tlv by (try lia; split; cbn [fst snd U16]; zlia).
  change (3 =? 3) with true. cbv iota. cbn [U16].
  replace (ttl / 256 * 256 + ttl mod 256) with ttl by lia. rewrite Hm.
  change (2 =? DECODE_PRINT) with true. cbv iota zeta.
  destruct (outs_trans _ _ _ _ _ O1 O2) as (O3 & P3 & _).
  destruct (notes_loop c Hm tlvs (S (Z.to_nat N)) N
    (print (set_ttl s2 ttl) (bs "Time remaining: " ++ dec (holdtime c (set_ttl s2 ttl)) ++ bs " seconds" ++ [10])) false t3 trailer)
    as (s' & E & Ho & Ho2 & Ho3); [| |assumption|assumption| |].
  + unfold print, set_ttl. cbn [s_peer]. rewrite P3, Hs. now split.
  + unfold print, set_ttl. cbn [s_peer]. rewrite P3, Hs. unfold zlen. cbn. lia.
  + pose proof (lldp_tlvs_count tlvs). rewrite !zlen_app, flat_map_app, zlen_app in Hn.
    assert (0 <= zlen (lldp_bytes (1, chassis)) /\ 0 <= zlen (lldp_bytes (2, port))
     /\ 0 <= zlen (lldp_bytes (3, U16 ttl)) /\ 0 <= zlen (flat_map lldp_bytes [(0, [])])
     /\ 0 <= zlen trailer) by (repeat split; apply zlen_nonneg).
    change (zlen (flat_map lldp_bytes [(0, [])])) with 2 in *. unfold zlen in *. lia.
  + exists s'. split; [|split; [|split]].
    * rewrite E. do 2 f_equal. rewrite !zlen_app. lia.
    * rewrite Ho, set_ttl_print by easy. now rewrite O3, <- !app_assoc.
    * rewrite Ho3. unfold print, set_ttl. cbn [s_peer]. now rewrite P3, Hs.
    * rewrite Ho2. unfold print, set_ttl. cbn [s_ttl]. intros chassis' port' ttl' r Hp' H1 H2 H3.
      apply (ttl_unique chassis port ttl (flat_map lldp_bytes (tlvs ++ [(0, [])]) ++ trailer) chassis' port' ttl' r); try lia.
      cbn [flat_map app] in *. rewrite <- !app_assoc in *. exact Hp'.
Qed.
Theorem lldp_full c f payload s n text :
  in_buffer c f -> lldp_frame f payload -> d_mode c = 2 -> s_peer s = no_peers ->
  (forall af, In af [1; 2; 4; 5] -> ~ network_chassis af payload) ->
  (exists s', lldp_decode c s = DOk (n, s') /\ concat (s_out s') = concat (s_out s) ++ text)
  <-> exists used, n = zlen f - zlen payload + used /\ lldp_packet_says (d_now c - d_received c) payload used text.
Proof.
  intros Hin Hf Hm Hs Hnet. split.
  - rewrite (lldp_decode_pure c f payload s Hin Hf).
    destruct (lldp_frame_payload _ _ _ Hin Hf) as [Hb Hn]. clear Hin Hf. set (N := zlen f) in *. clearbody N. unfold p_lldp.
    intros (s' & H & Ho).
    apply head_ok in H as (chassis & r1 & E0 & F1 & H & B1 & Hb1); [|easy].
    apply dbind_ok in H as (s1 & H1 & H).
    assert (Hc : no_network chassis).
    { apply (no_network_of payload chassis r1 E0); [|exact Hnet]. unfold p_chassis in H1.
      destruct ((zlen chassis <=? 1) || (256 <? zlen chassis)) eqn:El; [easy|]. lia. }
    destruct (chassis_notes c chassis s s1 Hm Hc H1) as (L1 & t1 & T1 & O1). subst payload.
    apply head_ok in H as (port & r2 & -> & F2 & H & B2 & Hb2); [|easy].
    apply dbind_ok in H as (s2 & H2 & H). destruct (port_notes c port s1 s2 Hm H2) as (L2 & t2 & T2 & O2).
    apply head_ok in H as (tv & r3 & -> & F3 & H & B3 & Hb3); [|easy].
    destruct tv as [|x [|y [|? ?]]]; try discriminate H. rewrite Hm in H. change (2 =? DECODE_PRINT) with true in H.
    cbv iota zeta in H.
    do 2 (let H := fresh in apply bytes_cons_inv in B3 as [H B3]).
    destruct (outs_trans _ _ _ _ _ O1 O2) as (O3 & P3 & _).
    apply (loop_notes c Hm _ _ _ _ false) in H; [|easy| |].
    2:{ unfold print, set_ttl. cbn [s_peer]. rewrite P3, Hs. now split. }
    2:{ unfold print, set_ttl. cbn [s_peer]. rewrite P3, Hs. unfold zlen. cbn. lia. }
    destruct H as (tlvs & t3 & trailer & -> & HF & HB & -> & Ho3).
    rewrite set_ttl_print in Ho3 by (try easy; lia). rewrite O3 in Ho3. rewrite Ho3, <- !app_assoc in Ho. apply app_inv_head in Ho. subst text.
    set (used := flat_map lldp_bytes ([(1, chassis); (2, port); (3, U16 (x * 256 + y))] ++ tlvs ++ [(0, [])])).
    exists (zlen used).
    assert (Eu : lldp_bytes (1, chassis) ++ lldp_bytes (2, port) ++ lldp_bytes (3, [x; y])
       ++ flat_map lldp_bytes (tlvs ++ [(0, [])]) ++ trailer = used ++ trailer).
    { unfold used. cbn [app flat_map]. rewrite <- !app_assoc.
      replace (U16 (x * 256 + y)) with [x; y] by (unfold U16; f_equal; [lia|f_equal; lia]). reflexivity. }
    rewrite Eu. split; [rewrite zlen_app; lia|]. apply lldp_packet_says_intro; solve [assumption|lia].
  - intros (used & -> & Hp).
    destruct (lldp_prints c f payload s used text Hin Hf Hm Hs Hnet Hp) as (s' & E & Ho & _). now exists s'.
Qed.
