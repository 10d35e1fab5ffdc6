(** The media of BSD in the advertisement. *)
From Verif Require Import Base Types Tlv Util Protos Sysinfo Netif Bsd Spec SpecAdv SpecNetif SpecSend SpecNetif2 SpecSys SpecBsd.
From Verif Require Import Lemmas EncProps TlvInj EncProofs EncProofs2 EncProofs3 EncProofs4 NetifProofs6.

Definition pmd_fold (l : list (medium * bool)) (acc : Z) : Z :=
  fold_left (fun acc x => if is_auto (fst x) then acc else Z.lor acc (pmd_of (fst x) (snd x))) l acc.
Lemma pmd_fold_bit j : 0 <= j -> forall l acc, Z.testbit (pmd_fold l acc) j = true
  <-> Z.testbit acc j = true \/ exists m f, In (m, f) l /\ Z.testbit (pmd_of m f) j = true.
Proof.
  intros J. induction l as [|[m f] l IH]; intros acc; [firstorder|]. unfold pmd_fold. cbn [fold_left fst snd]. fold (pmd_fold l).
  change (fold_left _ l ?a) with (pmd_fold l a). rewrite IH. destruct (is_auto m) eqn:A.
  - destruct m; try discriminate A. split.
    + intros [H|(m & g & H & K)]; [now left|right; exists m, g; split; [now right|assumption]].
    + intros [H|(m & g & [H|H] & K)]; [now left| |right; now exists m, g]. injection H as <- <-. cbn [pmd_of] in K. rewrite Z.bits_0 in K. discriminate.
  - rewrite Z.lor_spec, orb_true_iff. split.
    + intros [[H|H]|(m' & g & H & K)]; [now left|right; exists m, f; split; [now left|assumption]|right; exists m', g; split; [now right|assumption]].
    + intros [H|(m' & g & [H|H] & K)]; [left; now left|injection H as <- <-; left; now right|right; now exists m', g].
Qed.
Lemma pmd_range m f : 0 <= pmd_of m f < 65536.
Proof. destruct m, f; cbn; lia. Qed.
Lemma pmd_fold_range : forall l acc, 0 <= acc < 65536 -> 0 <= pmd_fold l acc < 65536.
Proof.
  induction l as [|[m f] l IH]; intros acc H; [exact H|]. unfold pmd_fold. cbn [fold_left fst snd].
  change (fold_left _ l ?a) with (pmd_fold l a). apply IH. destruct (is_auto m); [assumption|]. pose proof (pmd_range m f) as P.
  split; [apply Z.lor_nonneg; lia|]. destruct (Z.eq_dec (Z.lor acc (pmd_of m f)) 0) as [->|N]; [lia|].
  change 65536 with (2 ^ 16). apply Z.log2_lt_pow2; [pose proof (proj2 (Z.lor_nonneg acc (pmd_of m f))); lia|]. rewrite Z.log2_lor by lia.
  assert (L : forall z, 0 <= z < 65536 -> Z.log2 z < 16).
  { intros z Hz. destruct (Z.eq_dec z 0) as [->|]; [cbn; lia|]. apply Z.log2_lt_pow2; [lia|]. change (2 ^ 16) with 65536. lia. }
  apply Z.max_lub_lt; now apply L.
Qed.
Definition meq (x y : medium) : {x = y} + {x <> y}. Proof. decide equality. Defined.
Definition mfeq (x y : medium * bool) : {x = y} + {x <> y}. Proof. decide equality; [apply Bool.bool_dec|apply meq]. Defined.
Definition mem {A} (dec : forall x y : A, {x = y} + {x <> y}) (x : A) (l : list A) : bool := if in_dec dec x l then true else false.
Lemma mem_in {A} (dec : forall x y : A, {x = y} + {x <> y}) x l : mem dec x l = true <-> In x l.
Proof. unfold mem. now destruct (in_dec dec x l). Qed.
Definition others : list medium := [M10_2; M10_5; M10_FL; M100_FX; M10G_LR; M10G_SR; M10G_CX4; M10G_T; M40G_CR4; M40G_SR4; M40G_LR4; MOther].
Lemma pmd_table m f : forallb (fun k => Bool.eqb (Z.testbit (pmd_of m f) (15 - k)) (mem mfeq (m, f) (media_bit k) || (k =? 0) && mem meq m others))
  [0;1;2;3;4;5;6;7;8;9;10;11;12;13;14;15] = true.
Proof. destruct m, f; vm_compute; reflexivity. Qed.
Lemma pmd_bit m f k : 0 <= k < 16 ->
  (Z.testbit (pmd_of m f) (15 - k) = true <-> In (m, f) (media_bit k) \/ k = 0 /\ media_other m).
Proof.
  intros H. pose proof (pmd_table m f) as T. rewrite forallb_forall in T. specialize (T k ltac:(cbn; lia)). apply Bool.eqb_prop in T. rewrite T.
  rewrite orb_true_iff, andb_true_iff, !mem_in. unfold media_other. fold others. rewrite Z.eqb_eq. reflexivity.
Qed.
Lemma pmd_says l : says_media l (pmd_fold l 0).
Proof.
  split; [apply pmd_fold_range; lia|]. intros k Hk. rewrite pmd_fold_bit by lia. rewrite Z.bits_0. split.
  - intros [H|(m & f & H & K)]; [discriminate|]. exists m, f. split; [assumption|]. now apply pmd_bit.
  - intros (m & f & H & K). right. exists m, f. split; [assumption|]. now apply pmd_bit.
Qed.
Definition mau_dec (x y : medium * bool * Z) : {x = y} + {x <> y}. Proof. decide equality; [apply Z.eq_dec|apply mfeq]. Defined.
Lemma mau_says m f : b_says_mau m f (bsd_mau m f).
Proof.
  unfold b_says_mau. destruct m, f; try (left; apply (proj1 (mem_in mau_dec _ _)); vm_compute; reflexivity); right; (split; [reflexivity|]);
    intros x H; apply (in_map fst) in H; apply (proj2 (mem_in mfeq _ _)) in H; vm_compute in H; discriminate H.
Qed.
Lemma auto_iff l : existsb (fun x : medium * bool => is_auto (fst x)) l = true <-> auto_listed l.
Proof.
  rewrite existsb_exists. unfold auto_listed. split.
  - intros ([m f] & H & K). destruct m; try discriminate K. now exists f.
  - intros (f & H). exists (MAuto, f). now split.
Qed.
Lemma b_media_frame b opts count n par mgmt nfs si f tlvs :
  inputs_ok count (bsd_media b n) par mgmt nfs si ->
  proto_build 0 opts count (bsd_media b n) par mgmt nfs si = Some f -> Forall lldp_fits tlvs ->
  skipn 14 f = flat_map lldp_bytes tlvs ->
  match linked_media b n with
  | Some (im, l) => exists octet word mau, macphy tlvs = [octet :: U16 word ++ U16 mau] /\ says_media l word
      /\ b_says_mau (im_active im) (im_fdx im) mau /\ (auto_listed l -> b_truthful im l octet)
  | None => macphy tlvs = []
  end.
Proof.
  intros Hi Hb Hf E. rewrite proto_build_spec in Hb by (lia || assumption). cbv zeta in Hb.
  destruct (_ <=? 1518); [|discriminate]. injection Hb as <-.
  rewrite (lldp_frame_tlvs _ _ _ _ _ _ _ _ _ Hi eq_refl Hf E). rewrite !macphy_app, macphy_content.
  match goal with |- context [macphy [(1, ?a); ?b; ?c]] => change (macphy [(1, a); b; c]) with (@nil (list Z)) end.
  change (macphy [(0, [])]) with (@nil (list Z)). rewrite app_nil_r. cbn [app]. clear.
  unfold bsd_media, linked_media. change NETIF_REGULAR with 0. destruct (nf_type n =? 0); cbn [negb andb].
  2:{ destruct (bo_media b (nf_name n)) as [im|]; [|reflexivity]. now destruct (im_list im). }
  destruct (bo_media b (nf_name n)) as [im|]; [|reflexivity].
  destruct (im_ether im); cbn [negb andb]; [|now destruct (im_list im)].
  destruct (im_up im); cbn [negb andb]; [|now destruct (im_list im)].
  destruct (im_count im =? 0); cbn [negb andb]; [now destruct (im_list im)|].
  destruct (im_list im) as [l|]; [|reflexivity]. fold (pmd_fold l 0).
  cbn [nf_autoneg_supported nf_autoneg_enabled set_media nf_autoneg_pmd nf_mau]. pose proof (auto_iff l) as A.
  destruct (existsb _ l).
  - change (1 =? -1) with false. cbv iota. eexists. exists (pmd_fold l 0), (bsd_mau (im_active im) (im_fdx im)).
    split; [reflexivity|]. split; [apply pmd_says|]. split; [apply mau_says|]. intros H. unfold b_truthful.
    destruct (im_current im); cbn [is_auto]; [left; now repeat split| | | | | | | | | | | | | | | | | | | |]; right; left; now repeat split.
  - change (0 =? -1) with false. cbv iota. eexists. exists (pmd_fold l 0), (bsd_mau (im_active im) (im_fdx im)).
    split; [reflexivity|]. split; [apply pmd_says|]. split; [apply mau_says|]. intros H. apply A in H. discriminate H.
Qed.
