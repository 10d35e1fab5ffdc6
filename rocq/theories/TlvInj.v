(** The TLV encodings can be read in one way only. *)
From Verif Require Import Base Types Protos Spec SpecAdv Lemmas VisProofs EncProofs EncProofs2 EncProofs3
  EncProofs4 EncProps.

Lemma U16_inj a b : 0 <= a < 65536 -> 0 <= b < 65536 -> U16 a = U16 b -> a = b.
Proof. unfold U16. intros Ha Hb [= H1 H2]. lia. Qed.

Lemma cdp_bytes_inj x y r r' : cdp_fits x -> cdp_fits y ->
  cdp_bytes x ++ r = cdp_bytes y ++ r' -> x = y /\ r = r'.
Proof.
  destruct x as [t v], y as [u w]. intros [H1 H2] [H3 H4]. cbn [fst snd] in *.
  unfold cdp_bytes. cbn [fst snd]. rewrite <- !app_assoc. intros E.
  apply app_inj_len in E as [Et E]; [|reflexivity]. apply app_inj_len in E as [El E]; [|reflexivity].
  pose proof (zlen_nonneg _ v). pose proof (zlen_nonneg _ w).
  apply U16_inj in Et; [|lia|lia]. apply U16_inj in El; [|lia|lia].
  apply app_inj_len in E as [-> ->]; [|lia]. now subst.
Qed.
Lemma edp_bytes_inj x y r r' : edp_fits x -> edp_fits y ->
  edp_bytes x ++ r = edp_bytes y ++ r' -> x = y /\ r = r'.
Proof.
  destruct x as [m [t v]], y as [m' [u w]]. intros (H0 & H1 & H2) (H3 & H4 & H5).
  cbn [fst snd] in *. unfold edp_bytes. rewrite <- !app_assoc. intros E.
  apply app_inj_len in E as [Em E]; [|reflexivity]. injection Em as -> ->.
  apply app_inj_len in E as [El E]; [|reflexivity].
  pose proof (zlen_nonneg _ v). pose proof (zlen_nonneg _ w).
  apply U16_inj in El; [|lia|lia]. apply app_inj_len in E as [-> ->]; [|lia]. now subst.
Qed.
Lemma lldp_bytes_inj x y r r' : lldp_fits x -> lldp_fits y ->
  lldp_bytes x ++ r = lldp_bytes y ++ r' -> x = y /\ r = r'.
Proof.
  destruct x as [t v], y as [u w]. intros [H1 H2] [H3 H4]. cbn [fst snd] in *.
  unfold lldp_bytes. cbn [fst snd]. rewrite <- !app_assoc. intros E.
  apply app_inj_len in E as [Et E]; [|reflexivity].
  pose proof (zlen_nonneg _ v). pose proof (zlen_nonneg _ w).
  apply U16_inj in Et; [|lia|lia]. assert (t = u /\ zlen v = zlen w) as [-> Hl] by lia.
  apply app_inj_len in E as [-> ->]; [|lia]. now subst.
Qed.

Lemma flat_map_inj A (enc : A -> list Z) (fits : A -> Prop) :
  (forall x, enc x <> []) ->
  (forall x y r r', fits x -> fits y -> enc x ++ r = enc y ++ r' -> x = y /\ r = r') ->
  forall l l', Forall fits l -> Forall fits l' -> flat_map enc l = flat_map enc l' -> l = l'.
Proof.
  intros Hne Hi. induction l as [|x l IH]; intros [|y l'] Hl Hl' E; cbn [flat_map] in E.
  - easy.
  - exfalso. symmetry in E. apply app_eq_nil in E as [E _]. now apply (Hne y).
  - exfalso. apply app_eq_nil in E as [E _]. now apply (Hne x).
  - inversion Hl; inversion Hl'; subst. apply Hi in E as [-> E]; [|easy|easy].
    f_equal. now apply IH.
Qed.
Lemma lldp_list_inj l l' : Forall lldp_fits l -> Forall lldp_fits l' ->
  flat_map lldp_bytes l = flat_map lldp_bytes l' -> l = l'.
Proof. apply flat_map_inj; [now intros [t v]|apply lldp_bytes_inj]. Qed.

Lemma skip14 a h t x : zlen a = 6 -> zlen h = 6 -> skipn 14 (a ++ h ++ U16 t ++ x) = x.
Proof.
  intros. rewrite !app_assoc.
  replace 14%nat with (Z.to_nat (zlen ((a ++ h) ++ U16 t))) by (zl; lia).
  apply skipn_zlen_app.
Qed.
(** The LLDP content of a frame. *)
Lemma lldp_frame_tlvs opts count n par mgmt nfs si f tlvs :
  inputs_ok count n par mgmt nfs si ->
  f = advert 0 opts count n par mgmt nfs si -> Forall lldp_fits tlvs ->
  skipn 14 f = flat_map lldp_bytes tlvs ->
  tlvs = [(1, 4 :: (if Z.testbit opts 13 then nf_hwaddr n else si_hwaddr si));
          (2, 5 :: nf_name n); (3, U16 180)]
         ++ lldp_content opts n (up n par) (up (up n par) mgmt) nfs si ++ [(0, [])].
Proof.
  intros Hi -> Hf E. pose proof (inputs_up _ _ _ _ _ _ Hi) as Hp.
  destruct Hi as (Hn & _ & Hm & Hv & Hs & Hc).
  assert (Hmg : netif_ok (up (up n par) mgmt)) by (destruct mgmt; [now apply Hm|easy]).
  assert (Lh : zlen (nf_hwaddr n) = 6) by apply Hn.
  assert (Lh' : zlen (si_hwaddr si) = 6) by apply Hs.
  assert (Bs : cstring 16 (nf_name n)) by apply Hn. apply cstring_len in Bs.
  cbn [advert] in E. unfold lldp_advert in E. cbv zeta in E.
  rewrite skip14 in E by easy. symmetry in E. apply lldp_list_inj in E; [easy|easy|].
  apply Forall_app. split.
  - assert (zlen (if Z.testbit opts 13 then nf_hwaddr n else si_hwaddr si) = 6)
      by (now destruct (Z.testbit opts 13)).
    repeat constructor; cbn [fst snd]; zlia.
  - apply Forall_app. split; [now apply small_lldp_fits, lldp_content_small|].
    repeat constructor; cbn [fst snd]; zlia.
Qed.

Lemma build_advert p opts count n par mgmt nfs si f :
  0 <= p < 6 -> inputs_ok count n par mgmt nfs si ->
  proto_build p opts count n par mgmt nfs si = Some f ->
  f = advert p opts count n par mgmt nfs si /\ zlen f <= 1518.
Proof.
  intros Hr Hi. rewrite proto_build_spec by assumption. cbv zeta.
  destruct (_ <=? 1518) eqn:E; [|discriminate]. intros [= <-]. split; [easy|lia].
Qed.

Lemma in_when A (x : A) c l : In x (when c l) -> c = true /\ In x l.
Proof. destruct c; cbn; [easy|contradiction]. Qed.

Lemma location_size opts count n par mgmt nfs si f tlvs l rest :
  inputs_ok count n par mgmt nfs si -> zlen (si_location si) <= 250 ->
  proto_build 0 opts count n par mgmt nfs si = Some f -> Forall lldp_fits tlvs ->
  skipn 14 f = flat_map lldp_bytes tlvs ->
  In (127, [0; 18; 187; 3; 2; l] ++ rest) tlvs -> l = zlen rest.
Proof.
  intros Hi Hl Hb Hf E Hin. apply build_advert in Hb as [Hb _]; [|easy|easy].
  pose proof (lldp_frame_tlvs _ _ _ _ _ _ _ _ _ Hi Hb Hf E) as Ht. subst tlvs.
  assert (Hco : zlen (si_country si) < 3).
  { destruct Hi as (_ & _ & _ & _ & Hs & _). assert (H : cstring 3 (si_country si)) by apply Hs.
    apply cstring_len in H. lia. }
  clear Hb Hf E Hi. unfold lldp_content in Hin. cbv zeta in Hin.
  remember ((5 + zlen (si_location si)) mod 256) as L eqn:EL.
  rewrite !in_app_iff in Hin. cbn [In] in Hin. unfold org_tlv, mgmt_tlv in Hin.
  repeat match goal with
  | H : _ \/ _ |- _ => destruct H as [H|H]
  | H : In _ (when _ _) |- _ => apply in_when in H as [? H]; cbn [In] in H
  | H : (_, _) = (_, _) |- _ => discriminate H || (injection H as; try discriminate)
  | H : False |- _ => contradiction
  | H : In _ (map _ _) |- _ => apply in_map_iff in H as (? & H & _)
  end.
  subst l L rest. rewrite Z.mod_small; zlia.
Qed.
