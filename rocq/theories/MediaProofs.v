(** Proofs about the media details. *)
From Verif Require Import Base Types Tlv Protos Util Netif Spec SpecAdv SpecNetif SpecMedia.
From Verif Require Import Lemmas VisProofs VisProps EncProps TlvInj EncProofs EncProofs2 EncProofs3 EncProofs4
  ChildProofs ChildProofs4 NetifProofs1 NetifProofs2 NetifProofs3 NetifProofs4 NetifProofs5 NetifProofs6.

Definition pmd_word (e : ecmd) : Z :=
  fold_left (fun acc x => if has (ec_advertising e) (fst x) then Z.lor acc (snd x) else acc) ecmd_to_lldp_pmd 0.
Lemma pmd_fold e i l : forall acc,
  Z.testbit (fold_left (fun acc x => if has (ec_advertising e) (fst x) then Z.lor acc (snd x) else acc) l acc) i
  = Z.testbit acc i || existsb (fun x => has (ec_advertising e) (fst x) && Z.testbit (snd x) i) l.
Proof.
  induction l as [|x l IH]; intros acc; cbn [fold_left existsb]; [now rewrite orb_false_r|].
  rewrite IH. destruct (has _ (fst x)); cbn [andb orb]; [|reflexivity]. now rewrite Z.lor_spec, orb_assoc.
Qed.
Lemma pmd_range e : 0 <= pmd_word e < 65536.
Proof.
  unfold pmd_word. assert (K : forall l acc, Forall (fun x => 0 <= snd x < 65536) l -> 0 <= acc < 65536 ->
    0 <= fold_left (fun acc x => if has (ec_advertising e) (fst x) then Z.lor acc (snd x) else acc) l acc < 65536).
  { induction l as [|x l IH]; intros acc H Ha; cbn [fold_left]; [exact Ha|]. apply Forall_cons_iff in H as [H1 H2].
    apply IH; [exact H2|]. destruct (has _ _); [|exact Ha]. split; [apply Z.lor_nonneg; lia|].
    change 65536 with (2 ^ 16). destruct (Z.eq_dec (Z.lor acc (snd x)) 0) as [->|Hn]; [lia|].
    assert (0 <= Z.lor acc (snd x)) by (apply Z.lor_nonneg; lia).
    apply Z.log2_lt_pow2; [lia|]. rewrite Z.log2_lor by lia.
    apply Z.max_lub_lt.
    - destruct (Z.eq_dec acc 0) as [->|]; [cbn; lia|]. apply Z.log2_lt_pow2; cbn; lia.
    - destruct (Z.eq_dec (snd x) 0) as [->|]; [cbn; lia|]. apply Z.log2_lt_pow2; cbn; lia. }
  apply K; [|lia]. unfold ecmd_to_lldp_pmd. repeat constructor; cbn; lia.
Qed.
Lemma pmd_bits e b : 0 <= b < 16 ->
  (Z.testbit (pmd_word e) (15 - b) = true <-> exists m, In m (modes_of b) /\ Z.testbit (ec_advertising e) m = true).
Proof.
  intros Hb. unfold pmd_word. rewrite pmd_fold. rewrite Z.bits_0. cbn [orb]. rewrite existsb_exists. split.
  - intros ((a & w) & Hin & H). apply andb_true_iff in H as [H1 H2]. cbn [fst snd] in *.
    cbn in Hin. repeat (destruct Hin as [Hin|Hin]; [injection Hin as <- <-;
      match type of H2 with Z.testbit ?w _ = true =>
        let k := eval vm_compute in (Z.log2 w) in
        assert (E : b = 15 - k) by (change w with (2 ^ k) in H2; rewrite Z.pow2_bits_eqb in H2 by lia; lia) end;
      match type of H1 with has _ ?a = true =>
        let k := eval vm_compute in (Z.log2 a) in
        change a with (2 ^ k) in H1; rewrite has_bit in H1 by lia; exists k end;
      subst b; split; [cbn; tauto|exact H1]|]). easy.
  - intros (m & Hm & Ht).
    assert (D : exists a w, In (a, w) ecmd_to_lldp_pmd /\ a = 2 ^ m /\ 0 <= m /\ Z.testbit w (15 - b) = true).
    { assert (C : b = 0 \/ b = 1 \/ b = 2 \/ b = 3 \/ b = 4 \/ b = 5 \/ b = 6 \/ b = 7 \/ b = 8 \/ b = 9 \/ b = 10 \/ b = 11
                  \/ b = 12 \/ b = 13 \/ b = 14 \/ b = 15) by lia.
      repeat (destruct C as [C|C]; [subst b; cbn [modes_of] in Hm;
        repeat (destruct Hm as [Hm|Hm]; [subst m; do 2 eexists; split; [|split; [vm_compute; reflexivity|split; [lia|]]];
          [unfold ecmd_to_lldp_pmd; cbn [In]; tauto|reflexivity]|]); easy|]).
      subst b; cbn [modes_of] in Hm.
      repeat (destruct Hm as [Hm|Hm]; [subst m; do 2 eexists; split; [|split; [vm_compute; reflexivity|split; [lia|]]];
          [unfold ecmd_to_lldp_pmd; cbn [In]; tauto|reflexivity]|]); easy. }
    destruct D as (a & w & D1 & -> & D3 & D4). exists (2 ^ m, w). split; [exact D1|]. cbn [fst snd].
    now rewrite has_bit, Ht, D4.
Qed.
Lemma mau_said e : says_mau e (mau_type e (if ec_duplex e =? 1 then 1 else 0)).
Proof.
  unfold says_mau, plug_of, mau_type. cbv zeta.
  change ADVERTISED_TP with (2 ^ 7). rewrite has_bit by lia.
  set (full := ec_duplex e =? 1). set (tp := Z.testbit (ec_advertising e) 7).
  assert (N : forall p (tab : list (plug * Z * bool * Z)),
    (forall q s f m, In (q, s, f, m) tab -> q = p -> s = ec_speed e -> False) -> forall x, ~ In (p, ec_speed e, full, x) tab).
  { intros p tab H x K. exact (H _ _ _ _ K eq_refl eq_refl). }
  assert (G : forall p m, In (p, ec_speed e, full, m) mau_table -> 
     In (p, ec_speed e, full, m) mau_table \/ m = 0 /\ forall x, ~ In (p, ec_speed e, full, x) mau_table) by (intros; now left).
  assert (Z0 : forall p, (forall q s f m, In (q, s, f, m) mau_table -> q = p -> s = ec_speed e -> False) ->
     In (p, ec_speed e, full, 0) mau_table \/ 0 = 0 /\ forall x, ~ In (p, ec_speed e, full, x) mau_table).
  { intros p H. right. split; [reflexivity|]. now apply N. }
  assert (P : ec_port e < 0 \/ 5 < ec_port e \/ ec_port e = 0 \/ ec_port e = 1 \/ ec_port e = 2 \/ ec_port e = 3
              \/ ec_port e = 4 \/ ec_port e = 5) by lia.
  assert (T : In (TwistedPair, ec_speed e, full,
      (if ec_speed e =? 10 then if (if full then 1 else 0) =? 0 then 10 else 11
       else if ec_speed e =? 100 then if (if full then 1 else 0) =? 0 then 15 else 16
       else if ec_speed e =? 1000 then if (if full then 1 else 0) =? 0 then 29 else 30
       else if ec_speed e =? 10000 then 54 else 0)) mau_table
     \/ (if ec_speed e =? 10 then if (if full then 1 else 0) =? 0 then 10 else 11
       else if ec_speed e =? 100 then if (if full then 1 else 0) =? 0 then 15 else 16
       else if ec_speed e =? 1000 then if (if full then 1 else 0) =? 0 then 29 else 30
       else if ec_speed e =? 10000 then 54 else 0) = 0 /\ forall x, ~ In (TwistedPair, ec_speed e, full, x) mau_table).
  { destruct (ec_speed e =? 10) eqn:E1; [left; replace (ec_speed e) with 10 by lia; destruct full; cbn; tauto|].
    destruct (ec_speed e =? 100) eqn:E2; [left; replace (ec_speed e) with 100 by lia; destruct full; cbn; tauto|].
    destruct (ec_speed e =? 1000) eqn:E3; [left; replace (ec_speed e) with 1000 by lia; destruct full; cbn; tauto|].
    destruct (ec_speed e =? 10000) eqn:E4; [left; replace (ec_speed e) with 10000 by lia; destruct full; cbn; tauto|].
    apply Z0. intros q s f m H Hq Hs. cbn in H.
    repeat (destruct H as [H|H]; [injection H; intros; subst; (discriminate || lia)|]). exact H. }
  destruct P as [P|[P|[P|[P|[P|[P|[P|P]]]]]]].
  - replace (ec_port e =? 2) with false by lia. replace (ec_port e =? 0) with false by lia.
    replace (ec_port e =? 3) with false by lia. replace (ec_port e =? 4) with false by lia.
    replace (ec_port e =? 1) with false by lia. replace (ec_port e =? 5) with false by lia.
    replace (match ec_port e with 0 => TwistedPair | 1 => Aui | 2 => if tp then TwistedPair else Other
      | 3 => Fibre | 4 => Bnc | 5 => DirectAttach | _ => Other end) with Other by (destruct (ec_port e); (lia || reflexivity)).
    apply Z0. intros q s f m H Hq Hs. cbn in H.
    repeat (destruct H as [H|H]; [injection H; intros; subst; (discriminate || lia)|]). exact H.
  - replace (ec_port e =? 2) with false by lia. replace (ec_port e =? 0) with false by lia.
    replace (ec_port e =? 3) with false by lia. replace (ec_port e =? 4) with false by lia.
    replace (ec_port e =? 1) with false by lia. replace (ec_port e =? 5) with false by lia.
    replace (match ec_port e with 0 => TwistedPair | 1 => Aui | 2 => if tp then TwistedPair else Other
      | 3 => Fibre | 4 => Bnc | 5 => DirectAttach | _ => Other end) with Other
      by (destruct (ec_port e) as [|[[[?|?|]|[?|?|]|]|[[?|?|]|[?|?|]|]|]|]; (lia || reflexivity)).
    apply Z0. intros q s f m H Hq Hs. cbn in H.
    repeat (destruct H as [H|H]; [injection H; intros; subst; (discriminate || lia)|]). exact H.
  - rewrite P. cbn [Z.eqb]. exact T.
  - rewrite P. reflexivity.
  - rewrite P. cbn [Z.eqb Pos.eqb]. destruct tp; [exact T|].
    apply Z0. intros q s f m H Hq Hs. cbn in H.
    repeat (destruct H as [H|H]; [injection H; intros; subst; (discriminate || lia)|]). exact H.
  - rewrite P. cbn [Z.eqb Pos.eqb].
    destruct (ec_speed e =? 10) eqn:E1; [left; replace (ec_speed e) with 10 by lia; destruct full; cbn; tauto|].
    destruct (ec_speed e =? 100) eqn:E2; [left; replace (ec_speed e) with 100 by lia; destruct full; cbn; tauto|].
    destruct (ec_speed e =? 1000) eqn:E3; [left; replace (ec_speed e) with 1000 by lia; destruct full; cbn; tauto|].
    destruct (ec_speed e =? 10000) eqn:E4; [left; replace (ec_speed e) with 10000 by lia; destruct full; cbn; tauto|].
    apply Z0. intros q s f m H Hq Hs. cbn in H.
    repeat (destruct H as [H|H]; [injection H; intros; subst; (discriminate || lia)|]). exact H.
  - rewrite P. cbn [Z.eqb Pos.eqb].
    destruct (ec_speed e =? 10) eqn:E1; [left; replace (ec_speed e) with 10 by lia; destruct full; cbn; tauto|].
    apply Z0. intros q s f m H Hq Hs. cbn in H.
    repeat (destruct H as [H|H]; [injection H; intros; subst; (discriminate || lia)|]). exact H.
  - rewrite P. cbn [Z.eqb Pos.eqb].
    destruct (ec_speed e =? 10000) eqn:E4; [left; replace (ec_speed e) with 10000 by lia; destruct full; cbn; tauto|].
    apply Z0. intros q s f m H Hq Hs. cbn in H.
    repeat (destruct H as [H|H]; [injection H; intros; subst; (discriminate || lia)|]). exact H.
Qed.
Lemma media_details os opts count n par mgmt nfs si f tlvs e :
  inputs_ok count (netif_media os n) par mgmt nfs si ->
  proto_build 0 opts count (netif_media os n) par mgmt nfs si = Some f -> Forall lldp_fits tlvs ->
  skipn 14 f = flat_map lldp_bytes tlvs ->
  nf_type n = 0 -> no_ecmd os (nf_index n) = Some e ->
  exists octet word mau, macphy tlvs = [octet :: U16 word ++ U16 mau] /\ says_modes e word /\ says_mau e mau.
Proof.
  intros Hi Hb Hf E Ht He. rewrite proto_build_spec in Hb by (lia || assumption). cbv zeta in Hb.
  destruct (_ <=? 1518); [|discriminate]. injection Hb as <-.
  rewrite (lldp_frame_tlvs _ _ _ _ _ _ _ _ _ Hi eq_refl Hf E). rewrite !macphy_app, macphy_content.
  match goal with |- context [macphy [(1, ?a); ?b; ?c]] => change (macphy [(1, a); b; c]) with (@nil (list Z)) end.
  change (macphy [(0, [])]) with (@nil (list Z)). rewrite app_nil_r. cbn [app].
  unfold netif_media. change NETIF_REGULAR with 0. rewrite Ht, He. cbn [Z.eqb negb].
  assert (B : has (ec_supported e) SUPPORTED_Autoneg = an_supported e).
  { change SUPPORTED_Autoneg with (2 ^ 6). apply has_bit. lia. }
  rewrite B. fold (pmd_word e). destruct (an_supported e) eqn:Es.
  - cbn [nf_autoneg_supported nf_autoneg_enabled set_media nf_autoneg_pmd nf_mau].
    change (1 =? -1) with false. cbv iota.
    eexists. exists (pmd_word e), (mau_type e (if ec_duplex e =? 1 then 1 else 0)). split; [reflexivity|].
    split; [|apply mau_said]. split; [apply pmd_range|]. intros b Hb. rewrite pmd_bits by assumption.
    split; [now split|now intros []].
  - cbn [nf_autoneg_supported nf_autoneg_enabled set_media nf_autoneg_pmd nf_mau].
    change (0 =? -1) with false. cbv iota.
    eexists. exists 0, (mau_type e (if ec_duplex e =? 1 then 1 else 0)). split; [reflexivity|].
    split; [|apply mau_said]. split; [lia|]. intros b Hb. rewrite Z.bits_0, Es. split; [discriminate|now intros []].
Qed.
