(** Runs and states of the child on BSD, as in SendProofs3 to SendProofs6. *)
From Verif Require Import Base Types Tlv Msg Protos Wire Util Child Netif Parent Sysinfo Send Bsd HostBsd BsdSend Spec SpecRound SpecNet SpecChild SpecAdv SpecNetif SpecSend SpecSys SpecBsd SpecHostBsd SpecBsdSend.
From Verif Require Import Lemmas VisProofs ChkProofs EncProofs EncProofs2 EncProofs3 EncProofs4 EncProps NetProofs ParentProofs TypesProofs ChildProofs4 ChildProofs7 NetifProofs1 NetifProofs2 NetifProofs5
  BsdProofs1 BsdProofs3 HostBsdProofs3 SendProofs1 SendProofs2 SendProofs3 SendProofs4 SendProofs5 SendProofs6 BsdSendProofs1.

Inductive b_core (cfg : scfg) (pf : platform) (os : bos) (index : Z) (st : sstate) : sstate -> list seff -> Prop :=
| b_core_flap : flapping index st = true -> b_core cfg pf os index st st []
| b_core_none ret nfs si gone eff :
    flapping index st = false -> bsd_fetch (sc_net cfg) pf os (table st) (st_si st) = (ret, nfs, si, gone) ->
    ret = 0 \/ (index <> NETIF_INDEX_MAX /\ ~ In index (indices nfs)) -> frames eff = [] ->
    b_core cfg pf os index st (mkSt (set_nfs (st_child st) nfs) si (st_edp st)) eff
| b_core_loop ret nfs si gone T eff :
    flapping index st = false -> bsd_fetch (sc_net cfg) pf os (table st) (st_si st) = (ret, nfs, si, gone) -> ret <> 0 ->
    (index = NETIF_INDEX_MAX \/ In index (indices nfs)) ->
    well nfs -> NoDup (indices nfs) -> sysinfo_ok si -> b_touches os nfs T ->
    fst (fst (bc_loop cfg os index nfs si (st_edp st))) = T ->
    frames eff = b_frames_due cfg os nfs si (st_edp st) (all_due cfg index nfs) ->
    b_core cfg pf os index st (mkSt (set_nfs (st_child st) T) si (after (st_edp st) (all_due cfg index nfs))) eff.


Lemma b_fetch_none cfg pf os nfs si : bo_ifaddrs os = None -> bsd_fetch cfg pf os nfs si = (0, nfs, si, []).
Proof. intros H. unfold bsd_fetch. now rewrite H. Qed.
Lemma b_fetch_inv cfg pf os st ret nfs si gone : b_ok os -> inv st -> bsd_fetch (sc_net cfg) pf os (table st) (st_si st) = (ret, nfs, si, gone) ->
  inv (mkSt (set_nfs (st_child st) nfs) si (st_edp st)).
Proof.
  intros O I F. destruct (bo_ifaddrs os) as [ias|] eqn:A.
  - rewrite (fetch_lin pf os ias A O (sc_net cfg) _ _ (inv_nodup _ I)) in F.
    exact (fetch_inv cfg (lin pf os ias) st ret nfs si gone (lin_os_ok pf os ias A O) I F).
  - rewrite (b_fetch_none _ _ _ _ _ A) in F. injection F as _ <- <- _. destruct I as [I1 I2 I3 I4 I5 I6 I7]. now constructor.
Qed.

Lemma b_send_core cfg pf os index timeout now st st' eff : b_ok os -> inv st -> bc_send cfg pf os index timeout now st = (st', eff) ->
  exists st1 eff1, b_core cfg pf os index st st1 eff1 /\ frames eff = frames eff1
    /\ st_si st' = st_si st1 /\ st_edp st' = st_edp st1
    /\ (if timeout && has (sc_opts cfg) OPT_RECV then st_child st' = fst (child_expire (sc_opts cfg) now (st_child st1))
        else st_child st' = st_child st1).
Proof.
  intros O I. unfold bc_send. cbv zeta. fold (table st). fold (flapping index st).
  match goal with |- (let '(_, _) := ?b in _) = _ -> _ => set (body := b) end.
  assert (B : b_core cfg pf os index st (fst body) (snd body)).
  { subst body. destruct (flapping index st) eqn:FL; [now apply b_core_flap|].
    destruct (bsd_fetch (sc_net cfg) pf os (table st) (st_si st)) as [[[ret nfs] si] gone] eqn:F.
    pose proof (b_fetch_inv _ _ _ _ _ _ _ _ O I F) as J.
    destruct (ret =? 0) eqn:R0.
    { cbn [fst snd]. eapply b_core_none; [assumption|eassumption|left; lia|apply frames_closes]. }
    destruct (negb (index =? NETIF_INDEX_MAX) && match netif_byindex nfs index with Some _ => false | None => true end) eqn:G.
    { cbn [fst snd]. apply andb_true_iff in G as [G1 G2]. apply byindex_iff in G2. eapply b_core_none; [assumption|eassumption| |apply frames_closes].
      right. split; [|assumption]. apply negb_true_iff in G1. lia. }
    destruct J as [J1 J2 J3 J4 J5 J6 J7]. unfold table in J1, J2, J3. cbn [st_child st_si st_edp c_nfs set_nfs] in *.
    destruct (b_loop_run cfg os nfs si index J1 J4 J2 (st_edp st) J7) as (T & e & E & HT & FR). rewrite E. cbn [fst snd].
    eapply b_core_loop; try eassumption; [lia| |now rewrite E|rewrite frames_app, frames_closes; exact FR].
    destruct (Z.eq_dec index NETIF_INDEX_MAX) as [->|Q]; [now left|]. right.
    destruct (in_dec Z.eq_dec index (indices nfs)) as [|Q2]; [assumption|]. apply byindex_iff in Q2. rewrite Q2, andb_true_r in G.
    apply negb_false_iff in G. lia. }
  destruct body as [st1 eff1]. cbn [fst snd] in B. destruct (timeout && has (sc_opts cfg) OPT_RECV).
  - destruct (child_expire (sc_opts cfg) now (st_child st1)) as [c' eff2] eqn:X. intros H. injection H as <- <-.
    exists st1, eff1. cbn [st_si st_edp st_child]. rewrite X. repeat split; [assumption|]. now rewrite frames_app, frames_child, app_nil_r.
  - intros H. injection H as <- <-. exists st1, eff1. now repeat split.
Qed.

Lemma b_core_inv cfg pf os index st st1 eff1 : b_ok os -> inv st -> b_core cfg pf os index st st1 eff1 -> inv st1.
Proof.
  intros O I C. destruct C as [F|ret nfs si gone eff FL F Z E|ret nfs si gone T eff FL F Z G W N S HT HL E]; [assumption|now apply (b_fetch_inv cfg pf os st ret nfs si gone)|].
  pose proof (b_fetch_inv _ _ _ _ _ _ _ _ O I F) as [J1 J2 J3 J4 J5 J6 J7]. unfold table in J1, J2, J3. cbn [st_child st_si st_edp c_nfs set_nfs] in *.
  pose proof (b_touches_index _ _ _ HT) as X.
  constructor; unfold table; cbn [st_child st_si st_edp c_nfs set_nfs]; try assumption.
  - now apply (b_touches_well os nfs).
  - now rewrite X.
  - intros m Hm. rewrite X. now apply J3.
  - now apply after_range.
Qed.

Lemma b_send_inv cfg pf os index timeout now st st' eff : b_ok os -> inv st -> bc_send cfg pf os index timeout now st = (st', eff) -> inv st'.
Proof.
  intros O I H. destruct (b_send_core _ _ _ _ _ _ _ _ _ O I H) as (st1 & eff1 & C & _ & E1 & E2 & E3).
  pose proof (b_core_inv _ _ _ _ _ _ _ O I C) as I1. destruct st' as [c' si' edp']. cbn [st_si st_edp st_child] in *. subst si' edp'.
  apply inv_fixed; [|assumption]. destruct (_ && _); rewrite E3; [apply expire_fixed|reflexivity].
Qed.

Lemma b_frame_due_good cfg os nfs si seq top sub p : well nfs -> sysinfo_ok si -> 7 <= zlen (si_uts_str si) -> 4 <= zlen (si_platform si) ->
  0 <= seq < 65536 -> In sub nfs -> 0 <= p < 6 -> zlen (b_frame_due cfg os nfs si seq (top, sub, p)) <= 1518 ->
  good_frame (nf_index sub) p (b_frame_due cfg os nfs si seq (top, sub, p)).
Proof.
  intros W S U P Q Hs Hp L. pose proof (well_in _ _ W Hs) as Ok.
  assert (Hat : forall o q, at_index nfs o = Some q -> netif_ok q).
  { intros [i|] q E; [|discriminate]. apply find_some in E as [E _]. now apply (well_in nfs). }
  assert (Hin : inputs_ok seq (bsd_media os sub) (at_index nfs (nf_parent sub)) (at_index nfs (si_mnetif si)) nfs si).
  { split; [now apply ok_bmedia|]. split; [apply Hat|]. split; [apply Hat|]. split; [intros v; now apply well_in|]. now split. }
  assert (LA : 14 <= zlen (advert p (nc_opts (sc_net cfg)) seq (bsd_media os sub) (at_index nfs (nf_parent sub)) (at_index nfs (si_mnetif si)) nfs si)) by (apply advert_len; now apply ok_bmedia).
  unfold b_frame_due in *. set (f := advert _ _ _ _ _ _ _ _) in *.
  assert (LF : zlen f <= 1518) by (destruct (_ && _); [rewrite blank_len in L by lia|]; exact L).
  destruct (advert_shape p _ seq _ _ _ nfs si Hp Hin U P LF) as (B & M & dst & rest & pl & E & Ld & K). fold f in B, M, E.
  assert (BL : blanked f = dst ++ [0; 0; 0; 0; 0; 0] ++ rest).
  { assert (L6 : zlen (nf_hwaddr (bsd_media os sub)) = 6) by (apply ok_hw; now apply ok_bmedia).
    unfold blanked. rewrite E. f_equal; [|f_equal].
    - change 6%nat with (Z.to_nat 6). rewrite <- Ld. apply firstn_zlen_app.
    - rewrite app_assoc. replace 12%nat with (Z.to_nat (zlen (dst ++ nf_hwaddr (bsd_media os sub)))) by (rewrite zlen_app; lia). apply skipn_zlen_app. }
  split; [now apply ok_idx|]. split; [assumption|].
  destruct (_ && _).
  - split; [|split].
    + unfold blanked. apply Forall_app. split; [now apply bytes_firstn|]. apply Forall_app. split; [apply (bytes_zeros 6)|now apply bytes_skipn].
    + rewrite blank_len by lia. lia.
    + exists pl. rewrite BL. now apply K.
  - split; [assumption|]. split; [lia|]. exists pl. rewrite E. apply K. apply ok_hw. now apply ok_bmedia.
Qed.

Lemma b_frames_due_good cfg os nfs si : well nfs -> sysinfo_ok si -> 7 <= zlen (si_uts_str si) -> 4 <= zlen (si_platform si) ->
  forall ds seq, 0 <= seq < 65536 -> (forall top sub p, In (top, sub, p) ds -> In sub nfs /\ 0 <= p < 6) ->
  forall i p f, In (i, p, f) (b_frames_due cfg os nfs si seq ds) -> good_frame i p f.
Proof.
  intros W S U P. induction ds as [|[[top sub] q] ds IH]; intros seq Q H i p f; cbn [b_frames_due]; [easy|]. cbn [fst snd].
  intros K. apply in_app_or in K as [K|K].
  - destruct (zlen _ <=? 1518) eqn:L; [|easy]. cbn [when] in K. destruct K as [K|[]]. injection K as <- <- <-.
    destruct (H top sub q (or_introl eq_refl)) as [H1 H2]. apply b_frame_due_good; try assumption. lia.
  - eapply IH; [|intros t s x Hx; apply (H t s x); now right|eassumption]. destruct (q =? 2); [apply Z.mod_pos_bound|]; lia.
Qed.

Lemma b_core_good cfg pf os index st st1 eff : b_ok os -> inv st -> b_core cfg pf os index st st1 eff ->
  forall i p f, In (i, p, f) (frames eff) -> good_frame i p f.
Proof.
  intros O I C. destruct C as [F|ret nfs si gone eff FL F Z E|ret nfs si gone T eff FL F Z G W N S HT HL E]; intros i p f; [easy|rewrite E; easy|].
  pose proof (b_fetch_inv _ _ _ _ _ _ _ _ O I F) as [J1 J2 J3 J4 J5 J6 J7]. cbn [st_si st_edp] in *.
  rewrite E. apply b_frames_due_good; try assumption. intros top sub q H. apply all_due_in in H. tauto.
Qed.

Lemma b_step_core cfg pf st e st' eff : inv st -> b_event_ok e -> bc_step cfg pf st e = DOk (st', eff) ->
  frames eff = [] \/ exists os index st1 eff1, b_ok os /\ b_core cfg pf os index st st1 eff1 /\ frames eff = frames eff1.
Proof.
  intros I O H. destruct e as [os now|os m now|e].
  - cbn in H. injection H as H. destruct (b_send_core _ _ _ _ _ _ _ _ _ O I H) as (st1 & eff1 & C & F & _). right. eauto 7.
  - cbn in H. injection H as H. destruct O as [O _]. unfold bc_link in H. destruct (_ || _ || _); [injection H as <- <-; now left|].
    do 3 (destruct (negb _); [injection H as <- <-; now left|]).
    destruct (b_send_core _ _ _ _ _ _ _ _ _ O I H) as (st1 & eff1 & C & F & _). right. eauto 7.
  - left. now apply (child_frames cfg st e st').
Qed.

Lemma b_step_inv cfg pf st e st' eff : inv st -> b_event_ok e -> bc_step cfg pf st e = DOk (st', eff) -> inv st'.
Proof.
  intros I O H. destruct e as [os now|os m now|e].
  - cbn in H. injection H as H. exact (b_send_inv _ _ _ _ _ _ _ _ _ O I H).
  - cbn in H. injection H as H. destruct O as [O _]. unfold bc_link in H. destruct (_ || _ || _); [injection H as <- <-; assumption|].
    do 3 (destruct (negb _); [injection H as <- <-; assumption|]).
    exact (b_send_inv _ _ _ _ _ _ _ _ _ O I H).
  - now apply (child_frames cfg st e st' eff).
Qed.

(** The start. *)
Lemma boot_sios pf o : b_boot_ok pf o -> bsios_ok o.
Proof.
  intros (U & V1 & V2 & V3 & _ & N & _ & T & _). inversion U as [|? ? [S1 S2] U1]; subst. inversion U1 as [|? ? [R1 R2] U2]; subst. inversion U2 as [|? ? [M1 M2] _]; subst.
  apply cstring_parts in S1, R1, M1, N. split; [|exact T]. repeat (constructor; [easy|]). constructor.
Qed.
Lemma text32_ok o x : (forall x v, bh_text o x = Some v -> bytes v /\ ~ In 0 v) -> cstring 33 (text32 o x).
Proof.
  intros T. unfold text32. destruct (bh_text o x) as [v|] eqn:E.
  - destruct (T _ _ E). apply (cstring_firstn 32); [assumption|assumption|lia].
  - split; [constructor|]. split; [easy|]. rewrite zlen_nil. lia.
Qed.
Lemma b_forwarding_ok o a b : 0 <= a < 65536 -> 0 <= b < 65536 ->
  0 <= fst (bsd_forwarding o a b) < 65536 /\ 0 <= snd (bsd_forwarding o a b) < 65536.
Proof.
  intros A B. unfold bsd_forwarding. assert (C : 0 <= CAP_ROUTER < 65536) by (unfold CAP_ROUTER; lia).
  destruct (bh_ip4 o) as [n4|]; [destruct (n4 =? 1)|]; try (destruct (bh_ip6 o) as [n6|]; [destruct (n6 =? 1)|]);
    cbn [fst snd]; split; repeat (apply lor16); lia.
Qed.
Lemma b_boot_fine pf o country location : b_boot_ok pf o -> cstring 3 country -> cstring 256 location ->
  let si := bsd_sysinfo pf o country location in
  sysinfo_ok si /\ 7 <= zlen (si_uts_str si) /\ 4 <= zlen (si_platform si) /\ si_mnetif si = None.
Proof.
  intros K CC CL. pose proof (boot_sios _ _ K) as BS. destruct K as (U & V1 & V2 & V3 & FV & N & H & T & ST). cbv zeta.
  pose proof (b_boot_inventoried pf o country location BS ST) as IV.
  inversion U as [|? ? [S1 S2] U1]; subst. inversion U1 as [|? ? [R1 R2] U2]; subst. inversion U2 as [|? ? [M1 M2] _]; subst. clear U U1 U2.
  apply cstring_parts in S1, R1, M1. pose proof clean_space as SP. assert (CV : bytes (ut_version (bh_uts o)) /\ ~ In 0 (ut_version (bh_uts o))) by easy.
  apply len_nonempty in S2, R2, V3, M2.
  unfold bsd_sysinfo in *. cbv zeta in *.
  set (uts_str := snprintf256 (match pf with FreeBSD => _ | OpenBSD => _ end)) in *.
  set (plat := snprintf256 (ut_sysname (bh_uts o) ++ _)) in *.
  set (host := firstn 255 _) in *. set (hv := mkHinv _ _ _ _ _ _ _) in *.
  assert (XU : cstring 256 uts_str /\ 7 <= zlen uts_str).
  { subst uts_str. destruct pf.
    - split; [apply (clean_cut 255); [clean|lia]|]. destruct (FV eq_refl) as (r & E). apply len_cut; [lia|]. rewrite E, !zlen_app.
      change (zlen (bs "FreeBSD")) with 7. change (zlen [32]) with 1. pose proof (zlen_nonneg _ r). lia.
    - split; [apply (clean_cut 255); [clean|lia]|]. apply len_cut; [lia|]. rewrite !zlen_app. change (zlen [32]) with 1. lia. }
  assert (XP : cstring 256 plat /\ 4 <= zlen plat).
  { subst plat. split; [apply (clean_cut 255); [clean|lia]|]. apply len_cut; [lia|]. rewrite !zlen_app. change (zlen [32]) with 1. lia. }
  assert (XH : cstring 256 host).
  { subst host. apply cstring_parts in N. destruct (bh_host o) as [h|]; [destruct (beq h _)|]; (apply (cstring_firstn 255); [..|lia]); try apply N; now apply (H h). }
  pose proof (b_forwarding_ok o CAP_HOST CAP_HOST ltac:(unfold CAP_HOST; lia) ltac:(unfold CAP_HOST; lia)) as [FW1 FW2].
  destruct (bsd_forwarding o CAP_HOST CAP_HOST) as [cap act]. cbn [fst snd] in FW1, FW2.
  set (med := Z.lor (Z.lor 1 _) _) in *.
  assert (XM : 0 <= med < 65536).
  { subst med. apply lor16; [apply lor16; [lia|]|]; match goal with |- context [if ?b then _ else _] => destruct b end; lia. }
  cbn [si_uts_str si_platform si_mnetif si_hinv] in *. destruct (uts_rel_ok (ut_release (bh_uts o))) as [RB RL].
  split; [|split; [apply XU|split; [apply XP|reflexivity]]].
  assert (HV : hinv_ok hv).
  { destruct IV as (IV & I2 & I3). assert (SW : cstring 33 (firstn 32 (ut_release (bh_uts o)))) by (apply (cstring_firstn 32); [apply R1|apply R1|lia]).
    assert (XE : cstring 33 []) by (split; [constructor|]; split; [easy|unfold zlen; cbn [length]; lia]).
    unfold hinv_ok. rewrite I2, I3. destruct pf; destruct IV as (-> & -> & -> & -> & ->);
      repeat match goal with |- _ /\ _ => split end; try assumption; now apply text32_ok. }
  clearbody hv med plat uts_str host. unfold sysinfo_ok.
  cbn [si_uts_str si_uts_rel si_platform si_hostname si_country si_location si_cap si_cap_active si_cap_lldpmed si_lldpmed_devtype si_hwaddr si_physif_count si_hinv].
  destruct XU as [XU _]. destruct XP as [XP _]. pose proof (bytes_zeros 6) as Z6.
  repeat match goal with |- _ /\ _ => split end; try assumption; try lia; try reflexivity.
Qed.

Lemma b_running_inv cfg pf st : b_running cfg pf st -> inv st.
Proof.
  induction 1 as [os country location S C L|st e st' eff R IH O H].
  - destruct (b_boot_fine _ _ _ _ S C L) as (B1 & B2 & B3 & B4). constructor; unfold table; cbn [st_child st_si st_edp c_nfs child_start]; try assumption; try constructor; try lia.
    intros m Hm. congruence.
  - exact (b_step_inv _ _ _ _ _ _ IH O H).
Qed.

Lemma b_step_good cfg pf st e st' eff i p f : b_running cfg pf st -> b_event_ok e -> bc_step cfg pf st e = DOk (st', eff) -> In (SFrame i p f) eff -> good_frame i p f.
Proof.
  intros R O H K. apply b_running_inv in R. apply in_frames in K.
  destruct (b_step_core _ _ _ _ _ _ R O H) as [E|(os & index & st1 & eff1 & Oo & C & E)]; rewrite E in K; [easy|].
  exact (b_core_good _ _ _ _ _ _ _ Oo R C _ _ _ K).
Qed.
