(** LLDP-MED capabilities. *)
From Verif Require Import Base Types Tlv Msg Protos Wire Util Child Netif Sysinfo Send Spec SpecChild SpecAdv SpecNetif SpecSend SpecSys.
From Verif Require Import Lemmas VisProofs TypesProofs EncProofs TlvInj SendProofs1 SendProofs2 SendProofs4 SendProofs5 SysProofs1.

Definition inv_list (h : hinv) : list (Z * list Z) :=
  [(5, hi_hw h); (6, hi_fw h); (7, hi_sw h); (8, hi_serial h); (9, hi_manuf h); (10, hi_model h); (11, hi_asset h)].
Lemma content_tia opts n p m nfs si sub body a z : In (tia sub body) ([(1, fst (fst a)); (2, snd (fst a)); (3, snd a)] ++ lldp_content opts n p m nfs si ++ [(0, z)]) ->
  (sub = 1 /\ body = U16 (si_cap_lldpmed si) ++ [si_lldpmed_devtype si mod 256])
  \/ (sub = 3 /\ zlen (si_country si) = 2 /\ 0 < zlen (si_location si))
  \/ (In (sub, body) (inv_list (si_hinv si)) /\ 0 < zlen body).
Proof.
  intros H. unfold lldp_content in H. cbv zeta in H. rewrite !in_app_iff in H. cbn [In] in H. unfold org_tlv, mgmt_tlv, tia in H.
  unfold inv_list. cbn [In].
  repeat match goal with
  | H : _ \/ _ |- _ => destruct H as [H|H]
  | H : In _ (when _ _) |- _ => apply in_when in H as [? H]; cbn [In] in H
  | H : (_, _) = (_, _) |- _ => discriminate H || (injection H as; try discriminate)
  | H : False |- _ => contradiction
  | H : In _ (map _ _) |- _ => apply in_map_iff in H as (? & H & _)
  end; subst.
  - left. now split.
  - right. left. split; [reflexivity|]. match goal with H : _ && _ = true |- _ => apply andb_true_iff in H as [X Y] end. lia.
  - right. right. split; [auto 20|lia].
  - right. right. split; [auto 20|lia].
  - right. right. split; [auto 20|lia].
  - right. right. split; [auto 20|lia].
  - right. right. split; [auto 20|lia].
  - right. right. split; [auto 20|lia].
  - right. right. split; [auto 20|lia].
Qed.
Lemma content_has1 opts n p m nfs si : In (tia 1 (U16 (si_cap_lldpmed si) ++ [si_lldpmed_devtype si mod 256])) (lldp_content opts n p m nfs si).
Proof. unfold lldp_content. cbv zeta. rewrite !in_app_iff. do 9 right. left. now left. Qed.
Lemma content_has3 opts n p m nfs si : zlen (si_country si) = 2 -> 0 < zlen (si_location si) -> exists body, In (tia 3 body) (lldp_content opts n p m nfs si).
Proof.
  intros A B. eexists. unfold lldp_content. cbv zeta. rewrite !in_app_iff. do 10 right. left.
  replace (zlen (si_country si) =? 2) with true by lia. replace (0 <? zlen (si_location si)) with true by lia. cbn [andb when]. left. reflexivity.
Qed.
Lemma content_has_inv opts n p m nfs si sub s : In (sub, s) (inv_list (si_hinv si)) -> 0 < zlen s -> In (tia sub s) (lldp_content opts n p m nfs si).
Proof.
  intros H L. unfold lldp_content. cbv zeta. rewrite !in_app_iff. do 11 right. unfold inv_list in H. cbn [In] in H.
  apply Z.ltb_lt in L. repeat (destruct H as [H|H]; [injection H as <- <-; rewrite L; cbn [when In]; auto 20|]). easy.
Qed.
Lemma bits_if b x i : Z.testbit (if b : bool then x else 0) i = b && Z.testbit x i.
Proof. destruct b; [reflexivity|apply Z.testbit_0_l]. Qed.
Lemma pow_bit k i : 0 <= k -> 0 <= i -> Z.testbit (2 ^ k) i = (i =? k).
Proof. intros. rewrite Z.pow2_bits_eqb by assumption. apply Z.eqb_sym. Qed.
Lemma sum_bits b1 b2 i : 0 <= i -> Z.testbit (Z.lor (Z.lor 1 (if b1 : bool then 4 else 0)) (if b2 : bool then 32 else 0)) i = true
  <-> i = 0 \/ i = 2 /\ b1 = true \/ i = 5 /\ b2 = true.
Proof.
  intros H. rewrite !Z.lor_spec, !bits_if. change 1 with (2 ^ 0) at 1. change 4 with (2 ^ 2). change 32 with (2 ^ 5). rewrite !pow_bit by lia.
  rewrite !orb_true_iff, !andb_true_iff, !Z.eqb_eq. intuition.
Qed.

Lemma med_frame cfg os country location st e st' eff i f tlvs :
  running_on cfg os country location st -> zlen country = 0 \/ zlen country = 2 -> event_ok e ->
  send_step cfg st e = DOk (st', eff) -> In (SFrame i 0 f) eff -> Forall lldp_fits tlvs -> skipn 14 f = flat_map lldp_bytes tlvs ->
  med_true tlvs.
Proof.
  intros R CO Oe H K F E. pose proof (on_running _ _ _ _ _ R) as R1. destruct (on_keeps _ _ _ _ _ R) as (S0 & C0 & L0 & K0 & _).
  destruct (sent_frame _ _ _ _ _ _ _ _ R1 Oe H K) as (nos' & nfs & si & seq & top & sub & W & S & K1 & _ & _ & Hs & _ & _ & Q & Ef & Lf).
  pose proof (keeps_trans _ _ _ K0 K1) as KE. clear K0 K1 R R1.
  pose proof (well_in _ _ W Hs) as Ok. unfold frame_due in Ef.
  assert (Hat : forall o q, at_index nfs o = Some q -> netif_ok q).
  { intros [x|] q X; [|discriminate]. apply find_some in X as [X _]. now apply (well_in nfs). }
  set (n := netif_media nos' sub) in *. set (par := at_index nfs (nf_parent sub)). set (mgmt := at_index nfs (si_mnetif si)).
  assert (Hin : inputs_ok seq n par mgmt nfs si).
  { split; [now apply ok_probed|]. split; [apply Hat|]. split; [apply Hat|]. split; [intros v; now apply well_in|]. now split. }
  assert (Hn : netif_ok n) by now apply ok_probed. clearbody n.
  fold par mgmt in Ef. set (g := advert 0 (nc_opts (sc_net cfg)) seq n par mgmt nfs si) in *.
  change (advert 0 (nc_opts (sc_net cfg)) seq n par mgmt nfs si) with g in Ef.
  assert (G : skipn 14 f = skipn 14 g).
  { rewrite Ef. destruct (_ && _); [|reflexivity]. unfold blanked.
    assert (LG : 14 <= zlen g) by (apply advert_len; exact Hn).
    change 14%nat with (6 + (6 + 2))%nat. replace 6%nat with (length (firstn 6 g)) at 1 by (rewrite firstn_length; unfold zlen in LG; lia).
    rewrite skipn_app, skipn_all2 by lia. replace (length (firstn 6 g) + (6 + 2) - length (firstn 6 g))%nat with (6 + 2)%nat by lia.
    cbn [skipn app Nat.add]. clear. do 12 (destruct g as [|? g]; [reflexivity|]). reflexivity. }
  rewrite G in E. pose proof (lldp_frame_tlvs _ _ _ _ _ _ _ g tlvs Hin eq_refl F E) as T.
  set (q := up n par) in *. set (mg := up q mgmt) in *. clearbody q mg.
  match type of T with _ = [(1, ?x); (2, ?y); (3, ?z)] ++ _ => set (a := (x, y, z)) in *; change [(1, x); (2, y); (3, z)] with [(1, fst (fst a)); (2, snd (fst a)); (3, snd a)] in T end.
  clearbody a. assert (In1 : forall x, In x (lldp_content (nc_opts (sc_net cfg)) n q mg nfs si) -> In x tlvs).
  { intros x X. rewrite T. apply in_or_app. right. apply in_or_app. now left. }
  assert (MED : si_cap_lldpmed si = Z.lor (Z.lor 1 (if (0 <? zlen (si_country si)) && (0 <? zlen (si_location si)) then 4 else 0))
                 (if existsb (fun s => 0 <? zlen s) (map snd (inv_list (si_hinv si))) then 32 else 0)).
  { destruct KE as [_ _ _ _ E1 E2 E3 _ E4]. rewrite E1, E2, E3, E4. clear. unfold sysinfo_fetch. cbv zeta.
    destruct (sysinfo_forwarding os CAP_HOST CAP_HOST) as [cap act]. cbn [si_cap_lldpmed si_country si_location si_hinv].
    unfold inv_list. cbn [map snd hi_hw hi_fw hi_sw hi_serial hi_manuf hi_model hi_asset existsb]. change (0 <? zlen (@nil Z)) with false. cbn [orb]. rewrite ?orb_false_r. reflexivity. }
  assert (CO' : zlen (si_country si) = 0 \/ zlen (si_country si) = 2).
  { assert (X : si_country si = country). { destruct KE as [_ _ _ _ E1 _ _ _ _]. rewrite E1. unfold sysinfo_fetch. cbv zeta. now destruct (sysinfo_forwarding os CAP_HOST CAP_HOST). } now rewrite X. }
  exists (si_cap_lldpmed si), (si_lldpmed_devtype si mod 256). split; [unfold sysinfo_ok in S; tauto|]. split; [apply In1, content_has1|]. split.
  - intros body B. rewrite T in B. apply content_tia in B as [[_ B]|[[B _]|[B _]]]; [assumption|discriminate|].
    unfold inv_list in B. cbn [In] in B. repeat (destruct B as [B|B]; [discriminate|]). easy.
  - intros b Hb. rewrite MED, sum_bits by assumption.
    assert (X2 : (0 <? zlen (si_country si)) && (0 <? zlen (si_location si)) = true <-> exists body, In (tia 3 body) tlvs).
    { rewrite andb_true_iff, !Z.ltb_lt. split.
      - intros [B1 B2]. destruct (content_has3 (nc_opts (sc_net cfg)) n q mg nfs si ltac:(lia) B2) as (body & B). exists body. now apply In1.
      - intros (body & B). rewrite T in B. apply content_tia in B as [[B _]|[(_ & B1 & B2)|[B _]]]; [discriminate|split; lia|].
        unfold inv_list in B. cbn [In] in B. repeat (destruct B as [B|B]; [discriminate|]). easy. }
    assert (X5 : existsb (fun s => 0 <? zlen s) (map snd (inv_list (si_hinv si))) = true <-> exists sub body, 5 <= sub <= 11 /\ In (tia sub body) tlvs).
    { rewrite existsb_exists. split.
      - intros (s & B1 & B2). apply in_map_iff in B1 as ([k s'] & B0 & B1). cbn [snd] in B0. subst s'. exists k, s. split.
        + unfold inv_list in B1. cbn [In] in B1. repeat (destruct B1 as [B1|B1]; [injection B1 as <- _; lia|]). easy.
        + apply In1. apply content_has_inv; [assumption|lia].
      - intros (k & body & B1 & B). rewrite T in B. apply content_tia in B as [[B _]|[[B _]|[B2 B3]]]; [lia|lia|].
        exists body. split; [|lia]. apply in_map_iff. exists (k, body). now split. }
    rewrite X2, X5. tauto.
Qed.
