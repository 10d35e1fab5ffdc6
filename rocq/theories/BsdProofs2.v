(** Kinds of interfaces on BSD, and what the table holds. *)
From Verif Require Import Base Types Tlv Util Sysinfo Netif Bsd Spec SpecAdv SpecNetif SpecSend SpecNetif2 SpecSys SpecBsd.
From Verif Require Import Lemmas ChildProofs ChildProofs4 NetifProofs1 NetifProofs2 NetifProofs3 NetifProofs6 NetifProofs9 BsdProofs1 VisProofs.

(** ** Stems and units *)
Lemma isdigit_iff c : isdigit c = true <-> digit c.
Proof. unfold isdigit, digit. lia. Qed.
Lemma skip_digits_split l : exists u, l = u ++ skip_digits l /\ Forall digit u
  /\ match skip_digits l with c :: _ => ~ digit c | [] => True end.
Proof.
  induction l as [|c l (u & E & F & H)]; [now exists []|]. cbn [skip_digits]. destruct (isdigit c) eqn:D.
  - exists (c :: u). cbn [app]. rewrite <- E. split; [reflexivity|]. split; [constructor; [now apply isdigit_iff|assumption]|assumption].
  - exists []. split; [reflexivity|]. split; [constructor|]. rewrite <- isdigit_iff, D. discriminate.
Qed.
Lemma skip_digits_stop u l : Forall digit u -> match l with c :: _ => ~ digit c | [] => True end -> skip_digits (u ++ l) = l.
Proof.
  intros F H. induction F as [|c u D F IH]; cbn [app skip_digits].
  - destruct l as [|c l]; [reflexivity|]. cbn [skip_digits]. destruct (isdigit c) eqn:D; [|reflexivity]. apply isdigit_iff in D. contradiction.
  - apply isdigit_iff in D. now rewrite D.
Qed.
Lemma zap_split d : stem_unit d (zap_unit d) (skipn (length (zap_unit d)) d).
Proof.
  unfold zap_unit. destruct (skip_digits_split (rev d)) as (u & E & F & H). set (r := skip_digits (rev d)) in *.
  assert (Ed : d = rev r ++ rev u) by (rewrite <- rev_app_distr, <- E; now rewrite rev_involutive).
  assert (Es : skipn (length (rev r)) d = rev u).
  { rewrite Ed at 1. rewrite skipn_app, skipn_all2, Nat.sub_diag by lia. reflexivity. }
  rewrite Es. split; [assumption|]. split; [now apply Forall_rev|].
  intros q c K. apply (f_equal (@rev Z)) in K. rewrite rev_involutive, rev_app_distr in K. cbn in K. rewrite K in H. exact H.
Qed.
Lemma stem_zap d s u : stem_unit d s u -> s = zap_unit d /\ u = skipn (length (zap_unit d)) d.
Proof.
  intros (E & F & H). assert (S : zap_unit d = s).
  { unfold zap_unit. rewrite E, rev_app_distr. rewrite skip_digits_stop; [apply rev_involutive|now apply Forall_rev|].
    destruct (rev s) as [|c r] eqn:R; [exact I|]. apply (H (rev r) c). rewrite <- (rev_involutive s), R. reflexivity. }
  rewrite S. split; [reflexivity|]. rewrite E, skipn_app, skipn_all2, Nat.sub_diag by lia. reflexivity.
Qed.
Lemma stem_in_iff pf b i x l : stem_in pf b i x l <-> In (zap_unit (driver_text pf b i x)) l.
Proof.
  unfold stem_in. split.
  - intros (s & u & H & K). apply stem_zap in H as [-> _]. exact K.
  - intros H. eexists. eexists. split; [apply zap_split|exact H].
Qed.
(** ** Kinds *)
Section kinds.
Variables (pf : platform) (b : bos) (i : Z) (x : list Z).
Hypothesis sx : zlen x <= 15.
Lemma driver_eq : bsd_driver pf b i (firstn 15 x) = driver_text pf b i x.
Proof. unfold bsd_driver, driver_text. rewrite (short15 _ sx), (short15 _ sx). now rewrite cstr_before_nul. Qed.
Lemma beq_dec_in (d : list Z) (l : list (list Z)) : existsb (beq d) l = true <-> In d l.
Proof.
  rewrite existsb_exists. split.
  - intros (y & H & K). apply beq_true in K. now subst.
  - intros H. exists d. split; [assumption|apply beq_refl].
Qed.
Lemma taps_test : (beq (zap_unit (driver_text pf b i x)) (bs "tun") || beq (zap_unit (driver_text pf b i x)) (bs "tap")
    || beq (zap_unit (driver_text pf b i x)) (bs "vxlan")) = true <-> stem_in pf b i x taps.
Proof. rewrite stem_in_iff, <- beq_dec_in. unfold taps. cbn [existsb]. rewrite orb_false_r, orb_assoc. reflexivity. Qed.
Lemma ipfw_test : ((match pf with FreeBSD => true | OpenBSD => false end) && beq (zap_unit (driver_text pf b i x)) (bs "ipfw")) = true
  <-> stem_in pf b i x (unwanted pf).
Proof.
  rewrite stem_in_iff, <- beq_dec_in. unfold unwanted. destruct pf; cbn [existsb andb]; [|easy]. now rewrite orb_false_r.
Qed.
Lemma stem_in_app l m : stem_in pf b i x (l ++ m) <-> stem_in pf b i x l \/ stem_in pf b i x m.
Proof. rewrite !stem_in_iff. apply in_app_iff. Qed.
Lemma bsd_type_kind : bsd_type pf b i x <> NETIF_INVALID -> b_kind pf b i x (bsd_type pf b i x).
Proof.
  unfold bsd_type. rewrite driver_eq, (short15 _ sx). pose proof taps_test as TT. pose proof ipfw_test as IT.
  set (t := _ || _ || _) in *. set (w := _ && beq _ (bs "ipfw")) in *. clearbody t w.
  destruct (bo_wireless b x) eqn:W; [intros _; now apply bk_wireless|].
  destruct (bo_iftype b x =? IFT_ETHER) eqn:E.
  { assert (E6 : bo_iftype b x = 6) by (unfold IFT_ETHER in E; lia).
    destruct (bo_vlan b x) as [v|] eqn:V; [intros _; now apply (bk_vlan _ _ _ _ v)|].
    destruct t; [intros _; apply bk_tap; try assumption; now apply TT|].
    destruct w; [intros K; now contradiction K|].
    assert (N : ~ stem_in pf b i x (taps ++ unwanted pf)).
    { rewrite stem_in_app, <- TT, <- IT. intros [K|K]; discriminate K. }
    destruct (bo_lagg b x) as [l|] eqn:L; intros _; [now apply (bk_bond _ _ _ _ l)|now apply bk_ether]. }
  destruct (bo_iftype b x =? IFT_BRIDGE) eqn:E1; [intros _; apply bk_bridge; [assumption|unfold IFT_BRIDGE in E1; lia]|].
  destruct (bo_iftype b x =? IFT_IEEE8023ADLAG) eqn:E2; [intros _; apply bk_port; [assumption|unfold IFT_IEEE8023ADLAG in E2; lia]|].
  destruct (bo_iftype b x =? IFT_L2VLAN) eqn:E3; [intros _; apply bk_l2vlan; [assumption|unfold IFT_L2VLAN in E3; lia]|].
  intros K. now contradiction K.
Qed.
Lemma kind_bsd_type ty : b_kind pf b i x ty -> bsd_type pf b i x = ty /\ ty <> NETIF_INVALID.
Proof.
  unfold bsd_type. rewrite driver_eq, (short15 _ sx). pose proof taps_test as TT. pose proof ipfw_test as IT.
  set (t := _ || _ || _) in *. set (w := _ && beq _ (bs "ipfw")) in *. clearbody t w. unfold NETIF_INVALID.
  assert (N : ~ stem_in pf b i x (taps ++ unwanted pf) -> t = false /\ w = false).
  { rewrite stem_in_app. intros K. destruct t, w; split; try reflexivity; exfalso; apply K; tauto. }
  intros H. destruct H as [W|v W E V|W E V S|l W E V S L|W E V S L|W E|W E|W E]; rewrite W; [now split| | | | | | |]; rewrite E; cbn [Z.eqb Pos.eqb IFT_ETHER IFT_BRIDGE IFT_IEEE8023ADLAG IFT_L2VLAN].
  - rewrite V. now split.
  - rewrite V. apply TT in S. rewrite S. now split.
  - rewrite V, L. destruct (N S) as [-> ->]. now split.
  - rewrite V, L. destruct (N S) as [-> ->]. now split.
  - now split.
  - now split.
  - now split.
Qed.
End kinds.
