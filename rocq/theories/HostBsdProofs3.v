(** The host on BSD (C110). *)
From Verif Require Import Base Types Tlv Checks Wire Util Child Parent Mreq Netif Sysinfo Bsd HostBsd Spec SpecAdv SpecNetif SpecSend SpecSys SpecBsd SpecHostBsd
  Lemmas SendProofs1 SysProofs1 BsdProofs3 NetifProofs6 MreqProofs.

(** ** Refreshes *)
Lemma fetch_keeps cfg os nfs si ret nfs' si' gone : netif_fetch cfg os nfs si = (ret, nfs', si', gone) -> si_keeps si si'.
Proof.
  unfold netif_fetch. destruct (no_ifaddrs os) as [ias|]; [|intros E; injection E as _ _ <- _; apply keeps_refl]. cbv zeta.
  set (si0 := set_caps _ _ 0 si). set (nfs0 := map (set_type NETIF_OLD) nfs).
  pose proof (step_ones cfg os ias nfs0 si0 0) as [_ K1].
  destruct (fold_left (fetch_one cfg os) ias (nfs0, si0, 0)) as [[nfs1 si1] count]. cbn [fst snd] in K1.
  pose proof (step_remove nfs1 si1) as [_ K2]. destruct (remove_old nfs1 si1) as [[nfs2 si2] g]. cbn [fst snd] in K2.
  set (nfs3 := fold_left (detect_one os) _ nfs2) in *.
  pose proof (step_addrs cfg ias nfs3 si2) as [_ K4]. destruct (netif_addrs cfg ias nfs3 si2) as [nfs4 si4]. cbn [fst snd] in K4.
  set (si5 := match nfs4 with [] => si4 | n :: _ => set_chassis (nf_hwaddr n) si4 end).
  assert (S5 : si_keeps si si5).
  { assert (K : si_keeps si si4).
    { eapply keeps_trans; [|exact K4]. eapply keeps_trans; [|exact K2]. eapply keeps_trans; [|exact K1]. apply keeps_caps. }
    subst si5. destruct nfs4 as [|n nfs4]; [exact K|]. eapply keeps_trans; [exact K|apply keeps_chassis]. }
  destruct (0 <? zlen (nc_ifl cfg)).
  - destruct (argv_loop (nc_ifl cfg) nfs4 0) as [nfs5 c]. intros E. injection E as _ _ <- _. exact S5.
  - intros E. injection E as _ _ <- _. exact S5.
Qed.
Lemma b_host_refreshed cfg pf b country location nfs si : b_host cfg pf b country location nfs si -> b_refreshed cfg pf nfs si.
Proof.
  induction 1 as [|nfs nfs1 si o ret nfs' si' gone H IH E K F]; [|eapply bref_fetch; eassumption].
  apply bref_start. unfold bsd_sysinfo. cbv zeta. now destruct (bsd_forwarding b CAP_HOST CAP_HOST).
Qed.
Lemma b_host_keeps cfg pf b country location nfs si : b_host cfg pf b country location nfs si ->
  si_keeps (bsd_sysinfo pf b country location) si /\ same_caps (bsd_sysinfo pf b country location) si.
Proof.
  induction 1 as [|nfs nfs1 si o ret nfs' si' gone H IH E K F]; [split; [apply keeps_refl|intros i _; now split]|].
  apply b_host_refreshed in H. destruct (b_refreshed_linux _ _ _ _ H) as (oss & H'). pose proof (proj1 (refreshed_inv _ _ _ _ H')) as D. rewrite <- E in D.
  destruct (as_linux cfg pf o nfs1 si K D) as (os & X & _). rewrite X in F. destruct IH as [IH1 IH2].
  split; [eapply keeps_trans; [exact IH1|exact (fetch_keeps _ _ _ _ _ _ _ _ F)]|].
  pose proof (fetch_same _ _ _ _ _ _ _ _ D F) as S. intros i Hi. destruct (IH2 i Hi), (S i Hi). split; congruence.
Qed.

(** ** Names *)
Lemma b_boot_named pf b country location : b_named b (bsd_sysinfo pf b country location).
Proof.
  unfold b_named, bsd_sysinfo. cbv zeta. destruct (bsd_forwarding b CAP_HOST CAP_HOST) as [cap act]. cbn [si_hostname].
  destruct (bh_host b) as [h|]; [|right; split; [now left|reflexivity]].
  destruct (beq h (bs "localhost")) eqn:E; [apply beq_true in E; subst h; right; split; [now right|reflexivity]|].
  left. exists h. split; [reflexivity|]. split; [|reflexivity]. intros ->. now rewrite beq_refl in E.
Qed.
Lemma b_boot_described pf b country location : b_described pf b (bsd_sysinfo pf b country location).
Proof.
  unfold b_described, bsd_sysinfo. cbv zeta. destruct (bsd_forwarding b CAP_HOST CAP_HOST) as [cap act]. cbn [si_uts_str si_platform].
  split; [destruct pf|]; reflexivity.
Qed.

(** ** Forwarding *)
Lemma b_boot_router pf b country location : let si := bsd_sysinfo pf b country location in
  (Z.testbit (si_cap si) 3 = true <-> bh_ip4 b <> None \/ bh_ip6 b <> None)
  /\ (Z.testbit (si_cap_active si) 3 = true <-> bh_ip4 b = Some 1 \/ bh_ip6 b = Some 1)
  /\ Z.testbit (si_cap si) 2 = true /\ Z.testbit (si_cap_active si) 2 = true.
Proof.
  cbv zeta. unfold bsd_sysinfo. cbv zeta. unfold bsd_forwarding. cbv zeta.
  assert (X : forall n, n =? 1 = true -> Some n = Some 1) by (intros n H; f_equal; lia).
  assert (Y : forall n, n =? 1 = false -> Some n = Some 1 -> False) by (intros n H K; injection K as ->; discriminate).
  destruct (bh_ip4 b) as [n4|], (bh_ip6 b) as [n6|]; try (destruct (n4 =? 1) eqn:E4); try (destruct (n6 =? 1) eqn:E6);
    cbn [si_cap si_cap_active]; (split; [|split; [|split; reflexivity]]); split; intros K; try reflexivity;
    try (left; discriminate); try (right; discriminate); try (left; now apply X); try (right; now apply X); try discriminate K;
    exfalso; destruct K as [K|K]; try discriminate K; try (now apply (Y _ E4) in K); try (now apply (Y _ E6) in K); now contradiction K.
Qed.

(** ** The inventory *)
Lemma skip_fields n : forall (F : list (list Z)) k, Forall (fun f => length f = n) F -> (k <= length F)%nat ->
  skipn (n * k) (concat F) = concat (skipn k F).
Proof.
  induction F as [|f F IH]; intros [|k] H L; cbn [length concat skipn] in *; try (rewrite Nat.mul_0_r; reflexivity); [lia|].
  apply Forall_cons_iff in H as [Hf H]. rewrite Nat.mul_succ_r, Nat.add_comm, <- Hf, skipn_app, skipn_all2 by lia.
  replace (length f + length f * k - length f)%nat with (length f * k)%nat by lia. cbn [app]. rewrite Hf. apply IH; [assumption|lia].
Qed.
Lemma string_field F k s r : Forall (fun f => length f = 33%nat) F -> nth_error F k = Some (s ++ 0 :: r) -> ~ In 0 s ->
  inv_string (concat F) k = s.
Proof.
  intros L N H. unfold inv_string. assert (K : (k < length F)%nat) by (apply nth_error_Some; congruence).
  rewrite skip_fields; [|exact L|lia].
  assert (E : exists F', skipn k F = (s ++ 0 :: r) :: F').
  { clear -N. revert k N. induction F as [|f F IH]; intros [|k] N; cbn in *; try discriminate; [injection N as ->; now eexists|now apply IH]. }
  destruct E as (F' & ->). cbn [concat]. rewrite <- app_assoc. cbn [app]. now apply cstr_stop.
Qed.
Lemma pad_stop s n : 0 < n -> s ++ zeros n = s ++ 0 :: zeros (n - 1).
Proof. intros H. f_equal. unfold zeros. replace (Z.to_nat n) with (S (Z.to_nat (n - 1))) by lia. reflexivity. Qed.
Lemma field_len pf b x : length (inv_field pf b x) = 33%nat.
Proof.
  unfold inv_field. set (w := match x with Some _ => _ | None => _ end).
  assert (L : zlen w <= 33).
  { subst w. destruct x as [x|]; [|rewrite zlen_nil; lia]. destruct (bh_text b x) as [v|]; [|rewrite zlen_nil; lia]. unfold inv_stored. destruct pf.
    - unfold zlen. rewrite firstn_length. lia.
    - destruct (_ <=? 33) eqn:E; [zl; lia|]. destruct (bh_fits b); [unfold zlen; rewrite firstn_length; lia|rewrite zlen_nil; lia]. }
  rewrite app_length. unfold zeros. rewrite repeat_length. unfold zlen in *. lia.
Qed.
Lemma in_firstn {A} n (x : A) l : In x (firstn n l) -> In x l.
Proof. revert l. induction n as [|n IH]; intros [|y l] H; cbn in *; try easy. destruct H as [->|H]; [now left|right; auto]. Qed.
Lemma field_text pf b x : bsios_ok b -> (pf = OpenBSD -> match x with Some y => forall v, bh_text b y = Some v -> zlen v <= 32 | None => True end) ->
  let s := match x with Some y => text32 b y | None => [] end in
  (exists r, inv_field pf b x = s ++ 0 :: r) /\ ~ In 0 s.
Proof.
  intros [_ T] S. cbv zeta. unfold inv_field, text32. destruct x as [y|]; [|split; [eexists; reflexivity|easy]].
  destruct (bh_text b y) as [v|] eqn:E; [|split; [eexists; reflexivity|easy]]. destruct (T _ _ E) as [_ N].
  split; [|intros K; apply N; now apply in_firstn in K]. unfold inv_stored. pose proof (zlen_nonneg _ v). destruct pf.
  - destruct (Z_le_gt_dec 32 (zlen v)) as [G|G].
    + rewrite firstn_app. replace (32 - length v)%nat with 0%nat by (unfold zlen in G; lia). rewrite firstn_O, app_nil_r.
      rewrite pad_stop; [eexists; reflexivity|]. unfold zlen in *. rewrite firstn_length. lia.
    + rewrite (firstn_all2 (n := 32) v) by (unfold zlen in G; lia). rewrite firstn_all2 by (rewrite app_length; cbn; unfold zlen in G; lia).
      rewrite <- app_assoc. eexists. reflexivity.
  - specialize (S eq_refl v eq_refl). replace (zlen v + 1 <=? 33) with true by lia.
    rewrite firstn_all2 by (unfold zlen in S; lia). rewrite <- app_assoc. eexists. reflexivity.
Qed.
Lemma b_boot_inventoried pf b country location : bsios_ok b -> (pf = OpenBSD -> short_texts b) ->
  b_inventoried pf b (si_hinv (bsd_sysinfo pf b country location)).
Proof.
  intros O S. set (F := map (fun k => if Nat.eqb k 2 then firstn 32 (ut_release (bh_uts b)) ++ zeros (33 - zlen (firstn 32 (ut_release (bh_uts b))))
                       else inv_field pf b (nth k (inv_names pf) None)) (seq 0 7)).
  assert (R : zlen (firstn 32 (ut_release (bh_uts b))) <= 32) by (unfold zlen; rewrite firstn_length; lia).
  assert (L : Forall (fun f => length f = 33%nat) F).
  { apply Forall_forall. intros f Hf. apply in_map_iff in Hf as (k & <- & _). destruct (Nat.eqb k 2); [|apply field_len].
    rewrite app_length. unfold zeros. rewrite repeat_length. unfold zlen in *. lia. }
  assert (T : forall k x, (k < 7)%nat -> k <> 2%nat -> nth k (inv_names pf) None = x ->
            inv_string (concat F) k = match x with Some y => text32 b y | None => [] end).
  { intros k x K K2 <-. destruct (field_text pf b (nth k (inv_names pf) None) O) as [(r & E) N].
    - intros ->. specialize (S eq_refl). destruct k as [|[|[|[|[|[|[|k]]]]]]]; cbn [nth inv_names]; try exact I; try lia; intros v; apply S; cbn; auto.
    - apply (string_field F k _ r L); [|exact N]. unfold F. rewrite nth_error_map, (nth_error_nth' _ 0%nat) by (rewrite seq_length; exact K).
      rewrite seq_nth by exact K. cbn [option_map Nat.add]. replace (Nat.eqb k 2) with false by (symmetry; now apply Nat.eqb_neq). now rewrite E. }
  assert (T2 : inv_string (concat F) 2 = firstn 32 (ut_release (bh_uts b))).
  { apply (string_field F 2 _ (zeros (33 - zlen (firstn 32 (ut_release (bh_uts b))) - 1)) L).
    - rewrite <- pad_stop by lia. reflexivity.
    - intros K. apply in_firstn in K. destruct O as [O _]. cbv zeta in O. rewrite Forall_forall in O.
      apply (proj2 (O (ut_release (bh_uts b)) (or_intror (or_intror (or_introl eq_refl))))), K. }
  assert (E : si_hinv (bsd_sysinfo pf b country location)
              = mkHinv (inv_string (concat F) 0) (inv_string (concat F) 1) (inv_string (concat F) 2) (inv_string (concat F) 3) (inv_string (concat F) 4)
                  (inv_string (concat F) 5) (inv_string (concat F) 6)).
  { unfold bsd_sysinfo. cbv zeta. destruct (bsd_forwarding b CAP_HOST CAP_HOST). reflexivity. }
  rewrite E. clear E. unfold b_inventoried. cbn [hi_hw hi_fw hi_sw hi_serial hi_manuf hi_model hi_asset].
  rewrite T2. rewrite (T 6%nat None) by (try lia; now destruct pf). split; [|now split].
  destruct pf; cbn [inv_names] in T.
  - rewrite (T 0%nat _ ltac:(lia) ltac:(lia) eq_refl), (T 1%nat _ ltac:(lia) ltac:(lia) eq_refl), (T 3%nat _ ltac:(lia) ltac:(lia) eq_refl),
      (T 4%nat _ ltac:(lia) ltac:(lia) eq_refl), (T 5%nat _ ltac:(lia) ltac:(lia) eq_refl). cbn [nth]. now repeat split.
  - rewrite (T 0%nat _ ltac:(lia) ltac:(lia) eq_refl), (T 1%nat _ ltac:(lia) ltac:(lia) eq_refl), (T 3%nat _ ltac:(lia) ltac:(lia) eq_refl),
      (T 4%nat _ ltac:(lia) ltac:(lia) eq_refl), (T 5%nat _ ltac:(lia) ltac:(lia) eq_refl). cbn [nth]. now repeat split.
Qed.

(** ** Theorems *)
Lemma b_host_identity cfg pf b country location nfs si : b_host cfg pf b country location nfs si ->
  b_named b si /\ b_described pf b si /\ si_country si = country /\ si_location si = location.
Proof.
  intros H. destruct (b_host_keeps _ _ _ _ _ _ _ H) as [K _]. pose proof (b_boot_named pf b country location) as N.
  destruct (b_boot_described pf b country location) as [D1 D2].
  assert (CL : si_country (bsd_sysinfo pf b country location) = country /\ si_location (bsd_sysinfo pf b country location) = location).
  { unfold bsd_sysinfo. cbv zeta. now destruct (bsd_forwarding b CAP_HOST CAP_HOST). }
  destruct CL as [C L]. destruct K. unfold b_named, b_described in *. split; [|split; [split|split]]; try congruence.
  destruct N as [(h & X & Y & Z)|[X Y]]; [left; exists h; split; [exact X|]; split; [exact Y|]|right; split; [exact X|]]; congruence.
Qed.
Lemma b_host_free cfg b country location nfs si : b_host cfg FreeBSD b country location nfs si -> bsios_ok b ->
  b_inventoried FreeBSD b (si_hinv si).
Proof.
  intros H O. destruct (b_host_keeps _ _ _ _ _ _ _ H) as [K _].
  assert (E : si_hinv si = si_hinv (bsd_sysinfo FreeBSD b country location)) by (destruct K; congruence).
  rewrite E. apply b_boot_inventoried; [exact O|discriminate].
Qed.
Lemma b_host_open cfg b country location nfs si : b_host cfg OpenBSD b country location nfs si -> bsios_ok b ->
  short_texts b -> b_inventoried OpenBSD b (si_hinv si).
Proof.
  intros H O S. destruct (b_host_keeps _ _ _ _ _ _ _ H) as [K _].
  assert (E : si_hinv si = si_hinv (bsd_sysinfo OpenBSD b country location)) by (destruct K; congruence).
  rewrite E. apply b_boot_inventoried; [exact O|intros _; exact S].
Qed.
Lemma b_host_router cfg pf b country location nfs si : b_host cfg pf b country location nfs si ->
  (Z.testbit (si_cap si) 3 = true <-> bh_ip4 b <> None \/ bh_ip6 b <> None)
  /\ (Z.testbit (si_cap_active si) 3 = true <-> bh_ip4 b = Some 1 \/ bh_ip6 b = Some 1).
Proof.
  intros H. destruct (b_host_keeps _ _ _ _ _ _ _ H) as [_ S]. destruct (S 3 (or_intror eq_refl)) as [S1 S2].
  pose proof (b_boot_router pf b country location) as (R1 & R2 & _). rewrite S1, S2. now split.
Qed.
