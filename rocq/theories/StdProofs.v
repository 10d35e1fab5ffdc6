(** Proofs of C131. *)
From Verif Require Import Base Tlv Types Protos Util Netif Child Sysinfo Send Spec SpecAdv SpecRound SpecNetif SpecChild SpecSend SpecMtu SpecTags SpecStd SpecE2E Lemmas ChildProofs ChildProofs2 ChildProofs4
  VisProofs EncProofs EncProofs2 EncProofs3 EncProofs4 EncProps TlvInj SendProofs1 SendProofs2 SendProofs3 SendProofs4 SendProofs5 SendProofs6 SysProofs1 SysProofs2 E2EProofs MtuProofs TagProofs2.

(** ** Lists of optional parts *)
Lemma vals_org k b c d s body : k <> 127 -> values k [org_tlv [b; c; d] s body] = [].
Proof. intros H. unfold values, org_tlv. cbn [filter fst]. now replace (127 =? k) with false by lia. Qed.
Lemma vals_orgs {A} k b c d s (g : A -> list Z) l : k <> 127 -> values k (map (fun v => org_tlv [b; c; d] s (g v)) l) = [].
Proof.
  intros H. induction l as [|v l IH]; [reflexivity|]. cbn [map]. change (?x :: ?y) with ([x] ++ y). now rewrite values_app, IH, vals_org.
Qed.
Lemma vals_mgmt k af a i : k <> 8 -> values k [mgmt_tlv af a i] = [].
Proof. intros H. unfold values, mgmt_tlv. cbn [filter fst]. now replace (8 =? k) with false by lia. Qed.
Lemma vals_one k t v : values k [(t, v)] = if t =? k then [v] else [].
Proof. unfold values. cbn [filter fst]. now destruct (t =? k). Qed.
Lemma if_nil {A} (b : bool) : (if b then @nil A else []) = []. Proof. now destruct b. Qed.

Definition texts k opts n p si : list (list Z) :=
  (if 0 <? zlen (port_descr opts n p) then if 4 =? k then [port_descr opts n p] else [] else [])
  ++ (if 5 =? k then [si_hostname si] else []) ++ (if 6 =? k then [si_uts_str si] else [])
  ++ (if 7 =? k then [U16 (lldp_capword (si_cap si =? 4) (si_cap si)) ++ U16 (lldp_capword (si_cap si =? 4) (si_cap_active si))] else []).
Lemma content_texts k opts n p m nfs si : k <> 127 -> k <> 8 -> values k (lldp_content opts n p m nfs si) = texts k opts n p si.
Proof.
  intros H1 H2. unfold lldp_content, texts. cbv zeta.
  change ([(5, si_hostname si); (6, si_uts_str si); ?x]) with ([(5, si_hostname si)] ++ [(6, si_uts_str si)] ++ [x]).
  rewrite !values_app, !values_when, !vals_orgs, !vals_org, !vals_mgmt, !vals_one, !if_nil by assumption. cbn [app]. now rewrite !app_nil_r.
Qed.
Lemma content_mgmt opts n p m nfs si : values 8 (lldp_content opts n p m nfs si)
  = map (fun x => snd (mgmt_tlv (fst x) (snd x) (nf_index m)))
      (when (is_set (nf_ipaddr4 m)) [(1, nf_ipaddr4 m)] ++ when (is_set (nf_ipaddr6 m)) [(2, nf_ipaddr6 m)] ++ [(6, nf_hwaddr m)]).
Proof.
  unfold lldp_content. cbv zeta.
  change ([(5, si_hostname si); (6, si_uts_str si); ?x]) with ([(5, si_hostname si)] ++ [(6, si_uts_str si)] ++ [x]).
  rewrite !values_app, !values_when, !vals_orgs, !vals_org, !vals_one, !if_nil by discriminate. cbn [app]. rewrite !app_nil_r.
  destruct (is_set (nf_ipaddr4 m)), (is_set (nf_ipaddr6 m)); reflexivity.
Qed.
(** The organisation specific TLVs: kinds and values. *)
Definition orgs opts n p nfs si : list (bool * (list Z * list Z)) :=
  map (fun v => (true, ([0; 128; 194; 3], U16 (nf_vlan_id v) ++ [zlen (nf_name v)] ++ nf_name v))) (vlans_of opts n p nfs)
  ++ [(negb (nf_autoneg_supported n =? -1), ([0; 18; 15; 1], [(nf_autoneg_supported n + 2 * nf_autoneg_enabled n) mod 256]
             ++ U16 (nf_autoneg_pmd n) ++ U16 (nf_mau n)));
      (nf_bonding_mode p =? 1, ([0; 18; 15; 3], [3] ++ U32 (nf_lacp_index n)));
      (negb (nf_mtu n =? 0), ([0; 18; 15; 4], U16 ((nf_mtu n + 22) mod 65536)));
      (true, ([0; 18; 187; 1], U16 (si_cap_lldpmed si) ++ [si_lldpmed_devtype si mod 256]));
      ((zlen (si_country si) =? 2) && (0 <? zlen (si_location si)), ([0; 18; 187; 3],
          ([2; (5 + zlen (si_location si)) mod 256; 2] ++ si_country si
             ++ [22; zlen (si_location si)] ++ si_location si)));
      (0 <? zlen (hi_hw (si_hinv si)), ([0; 18; 187; 5], hi_hw (si_hinv si)));
      (0 <? zlen (hi_fw (si_hinv si)), ([0; 18; 187; 6], hi_fw (si_hinv si)));
      (0 <? zlen (hi_sw (si_hinv si)), ([0; 18; 187; 7], hi_sw (si_hinv si)));
      (0 <? zlen (hi_serial (si_hinv si)), ([0; 18; 187; 8], hi_serial (si_hinv si)));
      (0 <? zlen (hi_manuf (si_hinv si)), ([0; 18; 187; 9], hi_manuf (si_hinv si)));
      (0 <? zlen (hi_model (si_hinv si)), ([0; 18; 187; 10], hi_model (si_hinv si)));
      (0 <? zlen (hi_asset (si_hinv si)), ([0; 18; 187; 11], hi_asset (si_hinv si)))].
Definition chosen {A} (l : list (bool * A)) : list A := flat_map (fun x => when (fst x) [snd x]) l.
Definition joined (x : list Z * list Z) : list Z := fst x ++ snd x.
Lemma chosen_app {A} (a b : list (bool * A)) : chosen (a ++ b) = chosen a ++ chosen b.
Proof. apply flat_map_app. Qed.
Lemma chosen_cons {A} b (x : A) l : chosen ((b, x) :: l) = when b [x] ++ chosen l. Proof. reflexivity. Qed.
Lemma chosen_all {A B} (g : A -> B) l : chosen (map (fun v => (true, g v)) l) = map g l.
Proof. induction l as [|x l IH]; [reflexivity|]. cbn [map]. rewrite chosen_cons, IH. reflexivity. Qed.
Lemma map_when {A B} (g : A -> B) b l : map g (when b l) = when b (map g l). Proof. now destruct b. Qed.
Lemma vals_org' b c d s body : values 127 [org_tlv [b; c; d] s body] = [joined ([b; c; d; s], body)].
Proof. reflexivity. Qed.
Lemma vals_orgs' {A} b c d s (g : A -> list Z) l : values 127 (map (fun v => org_tlv [b; c; d] s (g v)) l) = map joined (map (fun v => ([b; c; d; s], g v)) l).
Proof.
  induction l as [|v l IH]; [reflexivity|]. cbn [map]. change (?x :: ?y) with ([x] ++ y) at 1. rewrite values_app, IH, vals_org'. reflexivity.
Qed.
Lemma content_orgs opts n p m nfs si : values 127 (lldp_content opts n p m nfs si) = map joined (chosen (orgs opts n p nfs si)).
Proof.
  unfold lldp_content, orgs. cbv zeta.
  change ([(5, si_hostname si); (6, si_uts_str si); ?x]) with ([(5, si_hostname si)] ++ [(6, si_uts_str si)] ++ [x]).
  rewrite !values_app, !values_when, !vals_orgs', !vals_org', !vals_mgmt, !vals_one, !if_nil by discriminate. cbn [app].
  rewrite chosen_app, chosen_all, !chosen_cons, !map_app, !map_when. cbn [chosen flat_map map]. rewrite !app_nil_r. reflexivity.
Qed.
Lemma chosen_in {A} (l : list (bool * A)) x : In x (chosen l) <-> In (true, x) l.
Proof.
  unfold chosen. rewrite in_flat_map. split.
  - intros ([b y] & H & K). destruct b; [|destruct K]. cbn in K. now destruct K as [<-|[]].
  - intros H. exists (true, x). split; [assumption|now left].
Qed.
Lemma orgs_kind opts n p nfs si b k v : In (b, (k, v)) (orgs opts n p nfs si) -> length k = 4%nat.
Proof.
  unfold orgs. rewrite in_app_iff, in_map_iff. intros [(w & H & _)|H]; [now injection H as _ <- _|].
  cbn [In] in H. repeat (destruct H as [H|H]; [now injection H as _ <- _|]). destruct H.
Qed.
Lemma org_values_of h tlvs : org_values h tlvs
  = map (skipn 4) (filter (fun v => if list_eq_dec Z.eq_dec (firstn 4 v) h then true else false) (values 127 tlvs)).
Proof.
  unfold org_values, values. induction tlvs as [|[t v] l IH]; [reflexivity|]. cbn [filter fst snd]. destruct (t =? 127); cbn [andb map]; [|exact IH].
  cbn [filter snd]. destruct (list_eq_dec Z.eq_dec (firstn 4 v) h); cbn [map snd]; now rewrite IH.
Qed.
Lemma org_in h tlvs l v : values 127 tlvs = map joined (chosen l) -> (forall b k w, In (b, (k, w)) l -> length k = 4%nat) ->
  In v (org_values h tlvs) -> In (true, (h, v)) l.
Proof.
  intros E L H. rewrite org_values_of, E in H. apply in_map_iff in H as (x & <- & H). apply filter_In in H as [H K].
  apply in_map_iff in H as ([k w] & <- & H). apply chosen_in in H. pose proof (L _ _ _ H) as Lk. unfold joined in *. cbn [fst snd] in *.
  destruct (list_eq_dec Z.eq_dec (firstn 4 (k ++ w)) h) as [D|]; [|discriminate]. rewrite <- Lk in D. rewrite firstn_app, firstn_all, Nat.sub_diag, app_nil_r in D. subst h.
  rewrite <- Lk, skipn_app, skipn_all, Nat.sub_diag. exact H.
Qed.
(** Kinds of the chosen ones other than VLAN names. *)
Lemma kinds_of l (P : list Z -> bool) : (forall b k w, In (b, (k, w)) l -> length k = 4%nat) ->
  map kind_of (filter (fun v => P (kind_of v)) (map joined (chosen l))) = filter P (map fst (chosen l)).
Proof.
  intros L. assert (L' : forall x, In x (chosen l) -> kind_of (joined x) = fst x).
  { intros [k w] H. apply chosen_in in H. apply L in H. unfold kind_of, joined. cbn [fst snd]. now rewrite <- H, firstn_app, firstn_all, Nat.sub_diag, app_nil_r. }
  clear L. induction (chosen l) as [|x r IH]; [reflexivity|]. cbn [map filter]. rewrite (L' x (or_introl eq_refl)).
  destruct (P (fst x)); cbn [map]; rewrite IH by (intros y Hy; apply L'; now right); [rewrite (L' x (or_introl eq_refl))|]; reflexivity.
Qed.
Lemma chosen_nodup {A} (l : list (bool * A)) : NoDup (map snd l) -> NoDup (chosen l).
Proof.
  induction l as [|[b x] l IH]; [constructor|]. cbn [map]. intros H. inversion H; subst. rewrite chosen_cons. destruct b; cbn [when app]; [|auto].
  constructor; [|auto]. intros K. apply chosen_in in K. apply (in_map snd) in K. auto.
Qed.
Lemma chosen_map {A B} (g : A -> B) (l : list (bool * A)) : map g (chosen l) = chosen (map (fun x => (fst x, g (snd x))) l).
Proof. induction l as [|[b x] l IH]; [reflexivity|]. cbn [map fst snd]. rewrite !chosen_cons, map_app, IH, map_when. reflexivity. Qed.
Lemma filter_all {A} (f : A -> bool) l : (forall x, In x l -> f x = true) -> filter f l = l.
Proof. induction l as [|x l IH]; intros H; [reflexivity|]. cbn. rewrite (H x (or_introl eq_refl)), IH; [reflexivity|]. intros y Hy. apply H. now right. Qed.
Lemma filter_none {A} (f : A -> bool) l : (forall x, In x l -> f x = false) -> filter f l = [].
Proof. induction l as [|x l IH]; intros H; [reflexivity|]. cbn. rewrite (H x (or_introl eq_refl)). apply IH. intros y Hy. apply H. now right. Qed.
Definition not_vlan (k : list Z) : bool := if list_eq_dec Z.eq_dec k [0; 128; 194; 3] then false else true.
Lemma orgs_nodup opts n p nfs si : NoDup (filter not_vlan (map fst (chosen (orgs opts n p nfs si)))).
Proof.
  unfold orgs. rewrite chosen_app, map_app, filter_app, chosen_all. rewrite filter_none; [cbn [app]|].
  2: { intros x Hx. rewrite map_map in Hx. apply in_map_iff in Hx as (w & <- & _). reflexivity. }
  apply NoDup_filter. rewrite chosen_map. apply chosen_nodup. cbn [map fst snd].
  repeat (constructor; [cbn [In]; intuition discriminate|]). constructor.
Qed.
Lemma med_hd opts n p nfs si tlvs : values 127 tlvs = map joined (chosen (orgs opts n p nfs si)) -> hd_error (med_kinds tlvs) = Some 1.
Proof.
  intros E. unfold med_kinds. rewrite E. unfold orgs. rewrite chosen_app, chosen_all, !chosen_cons, !map_app, !filter_app.
  rewrite filter_none. 2: { intros x Hx. apply in_map_iff in Hx as (y & <- & Hy). apply in_map_iff in Hy as (w & <- & _). reflexivity. }
  assert (W : forall (P : list Z -> bool) b k v, P (joined (k, v)) = false -> filter P (map joined (when b [(k, v)])) = []).
  { intros P b k v H. destruct b; [|reflexivity]. cbn [when map filter]. now rewrite H. }
  rewrite W by reflexivity. rewrite W by reflexivity. rewrite W by reflexivity. reflexivity.
Qed.

(** ** The whole frame *)
Lemma cap_good si : caps_consistent si ->
  capabilities (U16 (lldp_capword (si_cap si =? 4) (si_cap si)) ++ U16 (lldp_capword (si_cap si =? 4) (si_cap_active si))).
Proof.
  intros C. assert (X : forall a b, Z.land b a = b -> forall i, Z.testbit b i = true -> Z.testbit a i = true).
  { intros a b E i H. rewrite <- E, Z.land_spec in H. now apply andb_prop in H. }
  eexists _, _. split; [reflexivity|]. destruct (si_cap si =? 4); cbn [lldp_capword].
  - split; [lia|]. split; [lia|]. split; [auto|reflexivity].
  - pose proof (C 1) as C1. pose proof (C 3) as C3. pose proof (C 4) as C4. pose proof (C 5) as C5. unfold lldp_capword, cap_word. cbn [fold_right fst snd].
    destruct (Z.testbit (si_cap si) 1), (Z.testbit (si_cap_active si) 1); try (specialize (C1 eq_refl); discriminate);
    (destruct (Z.testbit (si_cap si) 4), (Z.testbit (si_cap_active si) 4); try (specialize (C4 eq_refl); discriminate));
    (destruct (Z.testbit (si_cap si) 3), (Z.testbit (si_cap_active si) 3); try (specialize (C3 eq_refl); discriminate));
    (destruct (Z.testbit (si_cap si) 5), (Z.testbit (si_cap_active si) 5); try (specialize (C5 eq_refl); discriminate));
    (cbn [orb]; split; [lia|]; split; [lia|]; split; [apply X; reflexivity|try discriminate; vm_compute; discriminate]).
Qed.
Lemma in_one {A} (b : bool) (x y : A) : In x (if b then [y] else []) -> b = true /\ x = y.
Proof. destruct b; [intros [<-|[]]; now split|intros []]. Qed.
Lemma vlan_entry_good v : netif_ok v -> vlan_name (U16 (nf_vlan_id v) ++ [zlen (nf_name v)] ++ nf_name v).
Proof.
  intros K. exists (nf_vlan_id v), (nf_name v). destruct K as (K1 & K2 & K). apply cstring_len in K1. split; [reflexivity|]. split; [lia|].
  destruct (nf_name v); [congruence|]. rewrite zlen_cons in *. pose proof (zlen_nonneg _ l). lia.
Qed.
Lemma content_conforming opts n p m nfs si chassis :
  netif_ok n -> netif_ok p -> netif_ok m -> (forall v, In v nfs -> netif_ok v) -> sysinfo_ok si -> caps_consistent si -> zlen chassis = 6 ->
  conforming ([(1, 4 :: chassis); (2, 5 :: nf_name n); (3, U16 180)] ++ lldp_content opts n p m nfs si ++ [(0, [])]).
Proof.
  intros Hn Hp Hm Hv Hs C Hc. set (tlvs := [_; _; _] ++ _).
  assert (VK : forall k, 3 < k -> values k tlvs = values k (lldp_content opts n p m nfs si)).
  { intros k Hk. unfold tlvs. rewrite !values_app. change ([(1, ?a); (2, ?b); (3, ?d)]) with ([(1, a)] ++ [(2, b)] ++ [(3, d)]). rewrite !values_app, !vals_one.
    replace (1 =? k) with false by lia. replace (2 =? k) with false by lia. replace (3 =? k) with false by lia. replace (0 =? k) with false by lia.
    cbn [app]. now rewrite app_nil_r. }
  assert (OV : values 127 tlvs = map joined (chosen (orgs opts n p nfs si))) by (rewrite VK by lia; apply content_orgs).
  pose proof (orgs_kind opts n p nfs si) as OK.
  pose proof (fun h v => org_in h tlvs _ v OV OK) as OI.
  assert (Tx : forall k, In k [4; 5; 6; 7] -> values k tlvs = texts k opts n p si).
  { intros k Hk. cbn [In] in Hk. rewrite VK by lia. apply content_texts; lia. }
  assert (Ln : 1 <= zlen (nf_name n) <= 15).
  { destruct Hn as (K1 & K2 & _). apply cstring_len in K1. destruct (nf_name n); [congruence|]. rewrite zlen_cons in *. pose proof (zlen_nonneg _ l). lia. }
  constructor.
  - exists (4 :: chassis), (5 :: nf_name n), (U16 180), (lldp_content opts n p m nfs si). split; [reflexivity|].
    split; [exists 4, chassis; split; [reflexivity|]; lia|]. split; [exists 5, (nf_name n); split; [reflexivity|]; lia|]. split; [reflexivity|]. split; [discriminate|].
    assert (FW : forall (Q : tlv -> Prop) b l, Forall Q l -> Forall Q (when b l)) by (intros Q b l; destruct b; [auto|constructor]).
    unfold lldp_content. cbv zeta. repeat (rewrite Forall_app; split); try apply FW; try (repeat (constructor; [cbn; tauto|]); constructor).
    apply Forall_forall. intros t Ht. apply in_map_iff in Ht as (v & <- & _). cbn. tauto.
  - intros k Hk. rewrite (Tx k Hk). unfold texts. cbn [In] in Hk. destruct Hk as [<-|[<-|[<-|[<-|[]]]]]; destruct (0 <? _); unfold zlen; cbn [Z.eqb Pos.eqb app length]; lia.
  - intros k v Hk H. rewrite (Tx k) in H by (cbn [In] in *; tauto). unfold texts in H. rewrite !in_app_iff in H.
    destruct H as [H|[H|[H|H]]].
    + destruct (0 <? _); [|destruct H]. apply in_one in H as [_ ->]. unfold port_descr.
      destruct Hn as (_ & _ & N1 & N2 & _). destruct Hp as (_ & _ & P1 & _). apply cstring_len in N1, N2, P1.
      destruct (Z.testbit opts 11); [lia|]. destruct (0 <? zlen (nf_description n)); [lia|]. destruct (0 <? zlen (nf_description p)); lia.
    + apply in_one in H as [_ ->]. destruct Hs as (_ & _ & S1 & _). apply cstring_len in S1. lia.
    + apply in_one in H as [_ ->]. destruct Hs as (S1 & _). apply cstring_len in S1. lia.
    + apply in_one in H as [H _]. cbn [In] in Hk. lia.
  - intros v H. rewrite (Tx 7) in H by (cbn; tauto). unfold texts in H. rewrite !in_app_iff in H.
    destruct H as [H|[H|[H|H]]]; [destruct (0 <? _); [now apply in_one in H as [H _]|destruct H]|now apply in_one in H as [H _]|now apply in_one in H as [H _]|].
    apply in_one in H as [_ ->]. now apply cap_good.
  - rewrite (VK 8) by lia. rewrite content_mgmt.
    set (l := when _ _ ++ _). exists (map (fun x => fst x :: snd x) l).
    assert (HL : Forall (fun x => zlen (snd x) = 4 \/ zlen (snd x) = 6 \/ zlen (snd x) = 16) l).
    { destruct Hm as (_ & _ & _ & _ & _ & M1 & _ & M2 & _ & M3 & _). unfold l.
      rewrite !Forall_app. split; [destruct (is_set (nf_ipaddr4 m)); [|constructor]|split; [destruct (is_set (nf_ipaddr6 m)); [|constructor]|]];
        (apply Forall_cons; [cbn [snd]; lia|apply Forall_nil]). }
    split.
    + clearbody l. induction HL as [|x l H HL IH]; [constructor|]. cbn [map]. constructor; [|exact IH].
      exists 2, (U32 (nf_index m)). split; [|rewrite zlen_cons; split; [lia|]; split; [lia|reflexivity]].
      unfold mgmt_tlv. cbn [snd]. rewrite zlen_cons. reflexivity.
    + unfold l. destruct (is_set (nf_ipaddr4 m)), (is_set (nf_ipaddr6 m)); cbn [when app map fst snd];
        repeat (constructor; [cbn [In]; intuition discriminate|]); constructor.
  - assert (HF : Forall lldp_fits (lldp_content opts n p m nfs si)) by now apply small_lldp_fits, lldp_content_small.
    rewrite Forall_forall. intros v H. split.
    + rewrite OV in H. apply in_map_iff in H as ([k w] & <- & H). apply chosen_in, OK in H. unfold joined. cbn [fst snd]. rewrite zlen_app.
      pose proof (zlen_nonneg _ w). unfold zlen at 1. lia.
    + rewrite VK in H by lia. unfold values in H. apply in_map_iff in H as (t & <- & H). apply filter_In in H as [H _].
      rewrite Forall_forall in HF. apply HF in H as [_ H]. lia.
  - rewrite OV. match goal with |- NoDup ?x => assert (E : x = filter not_vlan (map fst (chosen (orgs opts n p nfs si)))) end; [|rewrite E; apply orgs_nodup].
    exact (kinds_of _ not_vlan OK).
  - apply Forall_forall. intros v H. unfold vlan_names in H. apply OI in H. unfold orgs in H. rewrite in_app_iff, in_map_iff in H.
    destruct H as [(w & E & Hw)|H]; [|cbn [In] in H; repeat (destruct H as [H|H]; [discriminate H|]); destruct H].
    injection E as <-. apply filter_In in Hw as [Hw _]. apply vlan_entry_good. auto.
  - split; [|split]; intros v H; apply OI in H; unfold orgs in H; rewrite in_app_iff, in_map_iff in H;
      (destruct H as [(w & E & Hw)|H]; [discriminate E|cbn [In] in H; repeat (destruct H as [H|H]; [try discriminate H; injection H as _ <-; zl; reflexivity|]); destruct H]).
  - exact (med_hd _ _ _ _ _ _ OV).
  - intros k v Hk H. apply OI in H. unfold orgs in H. rewrite in_app_iff, in_map_iff in H.
    destruct H as [(w & E & _)|H]; [discriminate E|].
    destruct Hs as (_ & _ & _ & _ & _ & _ & _ & _ & _ & _ & _ & _ & _ & _ & H1 & H2 & H3 & H4 & H5 & H6 & H7).
    apply cstring_len in H1, H2, H3, H4, H5, H6, H7. cbn [In] in H.
    repeat (destruct H as [H|H]; [try discriminate H; injection H as; subst; lia|]). destruct H.
Qed.

(** ** The frames sent *)
Lemma running_consistent cfg st : running cfg st -> caps_consistent (st_si st).
Proof.
  induction 1 as [os country location A B C|st e st' eff R IH O H]; [apply boot_consistent|].
  apply running_inv in R. exact (step_consistent _ _ _ _ _ R O H IH).
Qed.
Definition origin_names cfg (st st' : sstate) p f : Prop :=
  exists nos nfs si seq top sub, well nfs /\ sysinfo_ok si /\ caps_consistent si /\ 0 <= seq < 65536 /\ In sub nfs
    /\ f = frame_due cfg nos nfs si seq (top, sub, p) /\ map nf_name nfs = map nf_name (table st').
Lemma send_names cfg os index timeout now st st' eff i p f : os_ok os -> inv st -> caps_consistent (st_si st) ->
  child_send cfg os index timeout now st = (st', eff) -> In (SFrame i p f) eff -> origin_names cfg st st' p f.
Proof.
  intros O Iv CS H K. apply in_frames in K. destruct (send_core _ _ _ _ _ _ _ _ O Iv H) as (st1 & eff1 & C & F & E1 & _ & E3). rewrite F in K.
  pose proof (core_consistent _ _ _ _ _ _ Iv C CS) as CC. pose proof (core_inv _ _ _ _ _ _ O Iv C) as I1.
  assert (E4 : map fixed (table st') = map fixed (table st1)) by (unfold table; destruct (_ && _); rewrite E3; [apply expire_fixed|reflexivity]).
  destruct C as [F1|ret nfs si gone eff1 FL F1 Z E5|ret nfs si gone T eff1 FL F1 Z G W N S HT HL E5]; [easy|rewrite E5 in K; easy|].
  rewrite E5 in K. destruct Iv as [_ _ _ _ _ _ Q]. destruct I1 as [_ _ _ J1 J2 J3 _]. cbn [st_si] in *.
  apply due_from in K; [|assumption]. destruct K as (top & sub & seq & Q' & X1 & X2 & X3 & X4). apply all_due_in in X1 as (X1 & _ & X5 & X6 & _).
  exists os, nfs, si, seq, top, sub. split; [assumption|]. split; [assumption|]. split; [assumption|]. split; [assumption|]. split; [assumption|]. split; [congruence|].
  pose proof (touches_bare _ _ _ HT) as B.
  assert (M1 : map nf_name nfs = map nf_name T).
  { assert (X : forall a b : list netif, map bare a = map bare b -> map nf_name a = map nf_name b); [|symmetry; now apply X].
    induction a as [|x a IH]; intros [|y b] E; try discriminate; [reflexivity|]. cbn [map] in E. apply cons_inj in E as [Ex Ea]. cbn [map].
    destruct (bare_fields _ _ Ex) as (_ & B2 & _). now rewrite B2, (IH _ Ea). }
  rewrite M1. change (table (mkSt (set_nfs (st_child st) T) si (after (st_edp st) (all_due cfg index nfs)))) with T in E4.
  apply (f_equal (map nf_name)) in E4. rewrite !map_map in E4. symmetry. exact E4.
Qed.
Lemma sent_names cfg st e st' eff i p f : running cfg st -> event_ok e -> send_step cfg st e = DOk (st', eff) -> In (SFrame i p f) eff ->
  origin_names cfg st st' p f.
Proof.
  intros R O H K. pose proof (running_consistent _ _ R) as CS. apply running_inv in R. destruct e as [os now|os hatype flags index now|e].
  - cbn in H. injection H as H. exact (send_names _ _ _ _ _ _ _ _ _ _ _ O R CS H K).
  - cbn in H. injection H as H. unfold child_link in H. destruct (negb _); [injection H as <- <-; easy|]. destruct (negb _); [injection H as <- <-; easy|].
    exact (send_names _ _ _ _ _ _ _ _ _ _ _ O R CS H K).
  - apply in_frames in K. destruct (child_frames _ _ _ _ _ R H) as (_ & E & _). rewrite E in K. easy.
Qed.
Lemma names_nodup opts n p nfs : NoDup (map nf_name nfs) -> (forall v, In v nfs -> netif_ok v) ->
  NoDup (map (fun v => U16 (nf_vlan_id v) ++ [zlen (nf_name v)] ++ nf_name v) (vlans_of opts n p nfs)).
Proof.
  intros H Hv. unfold vlans_of. induction nfs as [|v nfs IH]; [constructor|]. cbn [map] in H. inversion H; subst.
  assert (IH' := IH H3 (fun w Hw => Hv w (or_intror Hw))). cbn [filter].
  destruct (_ && _); [|exact IH']. cbn [map]. constructor; [|exact IH']. intros K. apply in_map_iff in K as (w & E & Hw). apply filter_In in Hw as [Hw _].
  apply H2. apply (f_equal (skipn 3)) in E. cbn in E. rewrite <- E. now apply in_map.
Qed.
Lemma std_sent cfg st e st' eff i f : running cfg st -> event_ok e -> send_step cfg st e = DOk (st', eff) -> In (SFrame i 0 f) eff ->
  exists tlvs, lldp_tlvs f tlvs /\ conforming tlvs /\ (NoDup (map nf_name (table st')) -> NoDup (vlan_names tlvs)).
Proof.
  intros R O H K. destruct (sent_names _ _ _ _ _ _ _ _ R O H K) as (nos & nfs & si & seq & top & sub & W & S & C & Q & Hs & E & N).
  assert (Hat : forall o q, at_index nfs o = Some q -> netif_ok q).
  { intros [j|] q X; [|discriminate]. apply find_some in X as [X _]. now apply (well_in nfs). }
  assert (Hi : inputs_ok seq (netif_media nos sub) (at_index nfs (nf_parent sub)) (at_index nfs (si_mnetif si)) nfs si).
  { split; [apply ok_probed; now apply (well_in nfs)|]. split; [apply Hat|]. split; [apply Hat|]. split; [intros v; now apply well_in|]. now split. }
  unfold frame_due in E. set (n := netif_media nos sub) in *. set (par := at_index nfs (nf_parent sub)) in *. set (mg := at_index nfs (si_mnetif si)) in *.
  set (opts := nc_opts (sc_net cfg)) in *.
  pose proof (inputs_up _ _ _ _ _ _ Hi) as Hp. destruct Hi as (Hn & _ & Hm & Hv & _ & _).
  assert (Hmg : netif_ok (SpecAdv.up (SpecAdv.up n par) mg)) by (destruct mg; [now apply Hm|easy]).
  assert (Lh : zlen (nf_hwaddr n) = 6) by apply Hn. assert (Lh' : zlen (si_hwaddr si) = 6) by apply S.
  set (chassis := if Z.testbit opts 13 then nf_hwaddr n else si_hwaddr si).
  assert (Lc : zlen chassis = 6) by (unfold chassis; now destruct (Z.testbit opts 13)).
  set (tlvs := [(1, 4 :: chassis); (2, 5 :: nf_name n); (3, U16 180)] ++ lldp_content opts n (SpecAdv.up n par) (SpecAdv.up (SpecAdv.up n par) mg) nfs si ++ [(0, [])]).
  exists tlvs. split; [|split].
  - assert (A : skipn 14 (SpecAdv.advert 0 opts seq n par mg nfs si) = flat_map lldp_bytes tlvs).
    { cbn [SpecAdv.advert]. unfold lldp_advert. cbv zeta. fold chassis. fold tlvs. set (T := flat_map lldp_bytes tlvs). rewrite !app_assoc.
      match goal with |- skipn 14 (?a ++ _) = _ => replace 14%nat with (Z.to_nat (zlen a)) by (rewrite !zlen_app, Lh; reflexivity) end.
      apply skipn_zlen_app. }
    split.
    + unfold tlvs. rewrite !Forall_app. split; [|split; [now apply small_lldp_fits, lldp_content_small|repeat constructor; cbn; lia]].
      assert (Ln : zlen (nf_name n) < 16) by (destruct Hn as (K1 & _); apply cstring_len in K1; lia).
      repeat (apply Forall_cons; [split; cbn [fst snd]; [lia|rewrite ?zlen_cons; try lia; reflexivity]|]). apply Forall_nil.
    + rewrite E. destruct (_ && _); [|exact A]. rewrite skip_blank; [exact A|lia|]. pose proof (advert_len nfs si 0 opts seq n par mg Hn) as La. lia.
  - now apply content_conforming.
  - intros ND. unfold tlvs, vlan_names. rewrite !ov_app.
    change ([(1, ?a); (2, ?b); (3, ?d)]) with ([(1, a)] ++ [(2, b)] ++ [(3, d)]). rewrite !ov_app, !ov_other by discriminate. cbn [app]. rewrite app_nil_r.
    rewrite (ov_content [0; 128; 194; 3] _ _ _ _ _ _ (or_introl eq_refl)). destruct (list_eq_dec _ _ _) as [_|X]; [|now destruct X].
    apply names_nodup; [now rewrite N|exact Hv].
Qed.
