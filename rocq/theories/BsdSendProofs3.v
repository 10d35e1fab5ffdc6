(** Which frames are sent on BSD; the parent there accepts them. *)
From Verif Require Import Base Types Tlv Msg Protos Wire Util Child Netif Parent Sysinfo Send Bsd HostBsd BsdSend Spec SpecRound SpecNet SpecChild SpecAdv SpecNetif SpecSend SpecSys SpecBsd SpecHostBsd SpecBsdSend DecProofs Checks.
From Verif Require Import Lemmas VisProofs VisProps ChkProofs EncProofs EncProofs2 EncProofs3 EncProofs4 EncProps NetProofs ParentProofs TypesProofs ChildProofs4 ChildProofs7 NetifProofs1 NetifProofs2 NetifProofs3 NetifProofs5
  BsdProofs1 BsdProofs3 HostBsdProofs3 SendProofs1 SendProofs2 SendProofs3 SendProofs4 SendProofs5 SendProofs6 BsdSendProofs1 BsdSendProofs2.

Lemma b_reported_member os nfs top r : In r (b_reported os nfs top) -> exists m, In m nfs /\ nf_index m = fst r /\ nf_type m < 10.
Proof.
  assert (A : forall is st r, In r (as_member nfs is st) -> exists m, In m nfs /\ nf_index m = fst r /\ nf_type m < 10).
  { intros is st x. unfold as_member. destruct (find is nfs) as [m|] eqn:E; [|easy]. destruct (nf_type m <? 10) eqn:T; [|easy].
    intros [<-|[]]. apply find_some in E as [E _]. exists m. cbn. split; [assumption|split; [reflexivity|lia]]. }
  unfold b_reported. destruct (_ =? 12).
  { destruct (bo_lagg os (nf_name top)) as [[a k]|]; [|easy]. intros H. apply in_flat_map in H as (i & _ & H). eapply A; eassumption. }
  destruct (_ =? 13); [|easy].
  destruct (bo_bridge os (nf_name top)) as [ps|]; [|easy]. intros H. apply in_flat_map in H as (i & _ & H). eapply A; eassumption.
Qed.
Lemma b_stands_each pf os nfs top : NoDup (indices nfs) -> b_linked pf os nfs -> b_consistent os nfs -> In top nfs -> 0 <= nf_type top ->
  subif_each top nfs = b_stands_for os nfs top /\ incl (b_stands_for os nfs top) nfs.
Proof.
  intros ND L C Ht Hty. unfold b_stands_for. destruct (nf_type top <=? 10) eqn:T.
  - split; [apply subif_each_plain; lia|]. intros x [<-|[]]. assumption.
  - destruct (L top Ht) as (_ & L2 & _). destruct (L2 ltac:(lia)) as (ms & M1 & M2 & M3).
    assert (E : flat_map (fun r => match at_index nfs (Some (fst r)) with Some m => [m] | None => [] end) (b_reported os nfs top) = ms).
    { rewrite <- M2. pose proof (chain_incl _ _ _ M1) as I. clear M1 M2 M3. induction ms as [|m ms IH]; [reflexivity|]. cbn [map flat_map fst at_index].
      change (find (index_is (nf_index m)) nfs) with (netif_byindex nfs (nf_index m)). rewrite (byindex_in nfs m ND) by (apply I; now left).
      cbn [app]. f_equal. apply IH. intros x Hx. apply I. now right. }
    rewrite E. split; [|now apply (chain_incl nfs (nf_subif top))].
    apply subif_each_members; [assumption|lia|assumption| |].
    + pose proof (nodup_flat _ _ _ C Ht) as D. cbn beta in D. rewrite <- M2, map_map in D. cbn [fst] in D. apply NoDup_map_inv in D. exact D.
    + intros m Hm K. assert (R : In (nf_index m, nf_child m) (b_reported os nfs top)) by (rewrite <- M2; apply in_map_iff; eauto).
      destruct (b_reported_member _ _ _ _ R) as (m' & R1 & R2 & R3). cbn in R2.
      assert (m' = top). { apply (some_inj m' top). rewrite <- (byindex_in nfs m' ND R1), <- (byindex_in nfs top ND Ht). f_equal. congruence. }
      subst m'. lia.
Qed.
Lemma b_core_fun cfg pf os index st st1 eff1 nfs si : b_core cfg pf os index st st1 eff1 -> b_refresh cfg pf os st nfs si ->
  flapping index st = false -> index = NETIF_INDEX_MAX \/ In index (indices nfs) ->
  frames eff1 = b_frames_due cfg os nfs si (st_edp st) (all_due cfg index nfs).
Proof.
  intros C (ret & gone & F & Z) FL G. destruct C as [FL'|ret' nfs' si' gone' eff FL' F' Z' E|ret' nfs' si' gone' T eff FL' F' Z' G' W N S HT HL E].
  - congruence.
  - rewrite F in F'. injection F' as <- <- <- <-. destruct Z' as [Z'|[Z1 Z2]]; [contradiction|]. tauto.
  - rewrite F in F'. injection F' as <- <- <- <-. exact E.
Qed.
Lemma b_refresh_facts cfg pf os st nfs si : b_ok os -> inv st -> b_refresh cfg pf os st nfs si ->
  inv (mkSt (set_nfs (st_child st) nfs) si (st_edp st)) /\ b_table pf os nfs /\ (b_consistent os nfs -> b_linked pf os nfs).
Proof.
  intros O R (ret & gone & F & Z). pose proof (b_fetch_inv _ _ _ _ _ _ _ _ O R F) as J. split; [assumption|].
  destruct (bo_ifaddrs os) as [ias|] eqn:A; [|rewrite (b_fetch_none _ _ _ _ _ A) in F; injection F as <- _ _ _; lia].
  rewrite (fetch_lin pf os ias A O (sc_net cfg) _ _ (inv_nodup _ R)) in F.
  destruct (fetch_exact _ _ _ _ _ _ _ _ _ (lin_ias pf os ias A) (inv_nodup _ R) F) as (X1 & X2 & X3).
  pose proof (table_transfer pf os ias A O nfs X1) as T. split; [assumption|].
  apply (members_transfer pf os ias A O nfs T). exact (fetch_linked _ _ _ _ _ _ _ _ _ (lin_ias pf os ias A) (inv_nodup _ R) F).
Qed.
Lemma b_run_frames cfg pf os index timeout now st nfs si : b_running cfg pf st -> b_ok os -> b_refresh cfg pf os st nfs si -> b_consistent os nfs ->
  flapping index st = false -> index = NETIF_INDEX_MAX \/ In index (indices nfs) ->
  frames (snd (bc_send cfg pf os index timeout now st))
  = b_frames_due cfg os nfs si (st_edp st)
      (if opt cfg 1 then filter (fun d => (index =? NETIF_INDEX_MAX) || (index =? nf_index (snd (fst d)))) (b_due cfg os nfs) else []).
Proof.
  intros R O F C FL G. apply b_running_inv in R. destruct (bc_send cfg pf os index timeout now st) as [st' eff] eqn:E. cbn [snd].
  destruct (b_send_core _ _ _ _ _ _ _ _ _ O R E) as (st1 & eff1 & CO & FR & _). rewrite FR, (b_core_fun _ _ _ _ _ _ _ _ _ CO F FL G).
  destruct (b_refresh_facts _ _ _ _ _ _ O R F) as (J & _ & L). destruct J as [J1 J2 J3 J4 J5 J6 J7]. unfold table in *. cbn [st_child c_nfs set_nfs] in J2.
  f_equal. unfold all_due. change (nc_opts (sc_net cfg)) with (sc_opts cfg).
  rewrite (b_due_here_eq cfg os nfs index); [reflexivity|].
  intros top Ht Hty. now apply (b_stands_each pf os nfs top J2 (L C) C).
Qed.
Lemma b_periodic_frames cfg pf os now st nfs si : b_running cfg pf st -> b_ok os -> b_refresh cfg pf os st nfs si -> b_consistent os nfs ->
  frames (snd (bc_send cfg pf os NETIF_INDEX_MAX true now st))
  = if opt cfg 1 then b_frames_due cfg os nfs si (st_edp st) (b_due cfg os nfs) else [].
Proof.
  intros R O F C. rewrite (b_run_frames cfg pf os NETIF_INDEX_MAX true now st nfs si); try assumption; [|reflexivity|now left].
  destruct (opt cfg 1); [|reflexivity]. f_equal. apply (filter_all _ _ true). intros x _. now rewrite Z.eqb_refl.
Qed.
Lemma rt_flags_up f : Z.testbit f 0 = true -> Z.testbit f 6 = true -> Z.land f RT_FLAGS =? RT_FLAGS = true.
Proof.
  intros B0 B6. apply Z.eqb_eq. apply Z.bits_inj'. intros k Hk. rewrite Z.land_spec.
  assert (K : Z.testbit RT_FLAGS k = (k =? 0) || (k =? 6)).
  { destruct (Z_lt_ge_dec k 7) as [X|X].
    - assert (Y : k = 0 \/ k = 1 \/ k = 2 \/ k = 3 \/ k = 4 \/ k = 5 \/ k = 6) by lia.
      repeat (destruct Y as [->|Y]; [reflexivity|]). now subst k.
    - rewrite (Z.bits_above_log2 RT_FLAGS k); [|now compute|]; [lia|]. change (Z.log2 RT_FLAGS) with 6. lia. }
  rewrite K. destruct (k =? 0) eqn:E0; [replace k with 0 by lia; now rewrite B0|]. destruct (k =? 6) eqn:E6; [replace k with 6 by lia; now rewrite B6|].
  apply andb_false_r.
Qed.
Lemma b_link_frames cfg pf os m now st nfs si : b_running cfg pf st -> b_ok os -> b_refresh cfg pf os st nfs si -> b_consistent os nfs ->
  rt_whole pf m -> rm_iftype m = 6 -> rt_up pf m -> 0 <= rm_index m < 65536 ->
  (forall n, In n (table st) -> nf_index n = rm_index m -> nf_link_event n <= 3) -> In (rm_index m) (indices nfs) ->
  frames (snd (bc_link cfg pf os m now st))
  = if opt cfg 1 then b_frames_due cfg os nfs si (st_edp st) (filter (fun d => nf_index (snd (fst d)) =? rm_index m) (b_due cfg os nfs)) else [].
Proof.
  intros R O F C (W1 & W2 & W3) T (B0 & B6 & BS) Hi HL G. unfold bc_link. rewrite W2, W3, T.
  change (5 =? RTM_VERSION) with true. change (14 =? RTM_IFINFO) with true. change (6 =? IFT_ETHER) with true. cbn [negb].
  rewrite (Z.mod_small (rm_len m)) by (destruct pf; lia).
  replace (rm_len m <? RT_HDRLEN pf) with false by (unfold RT_HDRLEN; destruct pf; lia). cbn [orb].
  rewrite (rt_flags_up _ B0 B6). cbn [negb].
  replace ((LINK_STATE_UP pf <=? rm_state m) || (rm_state m =? 0)) with true by (unfold LINK_STATE_UP; destruct pf; lia). cbn [negb].
  rewrite Z.mod_small by lia.
  rewrite (b_run_frames cfg pf os (rm_index m) false now st nfs si); try assumption; [| |now right].
  - destruct (opt cfg 1); [|reflexivity]. f_equal. apply filter_ext. intros d. unfold NETIF_INDEX_MAX. lia.
  - unfold flapping. apply andb_false_iff. right. destruct (netif_byindex (table st) (rm_index m)) as [n|] eqn:E; [|reflexivity].
    apply byindex_some in E as [E1 E2]. specialize (HL n E1 E2). lia.
Qed.
Lemma b_link_other cfg pf os m now st : rm_iftype m <> 6 -> bc_link cfg pf os m now st = (st, []).
Proof.
  intros T. unfold bc_link. destruct (_ || _ || _); [reflexivity|]. replace (rm_iftype m =? IFT_ETHER) with false by (unfold IFT_ETHER; lia). reflexivity.
Qed.
Lemma rt_flags_bits f : Z.land f RT_FLAGS =? RT_FLAGS = true -> Z.testbit f 0 = true /\ Z.testbit f 6 = true.
Proof.
  intros H. apply Z.eqb_eq in H. split.
  - assert (E : Z.testbit (Z.land f RT_FLAGS) 0 = true) by (rewrite H; reflexivity). rewrite Z.land_spec in E. now apply andb_true_iff in E as [E _].
  - assert (E : Z.testbit (Z.land f RT_FLAGS) 6 = true) by (rewrite H; reflexivity). rewrite Z.land_spec in E. now apply andb_true_iff in E as [E _].
Qed.
Lemma b_link_quiet cfg pf os m now st : ~ (rt_whole pf m /\ rt_up pf m) -> 0 <= rm_len m <= 2048 -> 0 <= rm_state m -> bc_link cfg pf os m now st = (st, []).
Proof.
  intros Q HL HS. unfold bc_link. rewrite (Z.mod_small (rm_len m)) by lia.
  destruct (_ || _ || _) eqn:W; [reflexivity|]. apply orb_false_iff in W as [W W3]. apply orb_false_iff in W as [W1 W2].
  destruct (negb (rm_iftype m =? _)); [reflexivity|].
  destruct (Z.land _ _ =? _) eqn:F; [|reflexivity]. cbn [negb].
  destruct (_ || _) eqn:U; [|reflexivity]. destruct Q. split.
  - unfold RT_HDRLEN, RTM_VERSION, RTM_IFINFO in *. split; [destruct pf; lia|split; lia].
  - apply rt_flags_bits in F as [F1 F2]. split; [assumption|]. split; [assumption|]. unfold LINK_STATE_UP in U. destruct pf; lia.
Qed.
Lemma b_no_refresh cfg pf os index timeout now st nfs si gone : b_running cfg pf st -> b_ok os ->
  bsd_fetch (sc_net cfg) pf os (table st) (st_si st) = (0, nfs, si, gone) ->
  frames (snd (bc_send cfg pf os index timeout now st)) = [].
Proof.
  intros R O F. apply b_running_inv in R. destruct (bc_send cfg pf os index timeout now st) as [st' eff] eqn:E. cbn [snd].
  destruct (b_send_core _ _ _ _ _ _ _ _ _ O R E) as (st1 & eff1 & CO & FR & _). rewrite FR.
  destruct CO as [FL'|ret' nfs' si' gone' e FL' F' Z' X|ret' nfs' si' gone' T e FL' F' Z' G' W N S HT HL X]; [reflexivity|assumption|].
  rewrite F in F'. injection F' as <- <- <- <-. now destruct Z'.
Qed.

(** ** The parent *)
Lemma b_send_good cfg fds d os index p received f payload name :
  bytes f -> carries d index p received f -> bytes d -> 0 <= p < 6 -> 60 <= zlen f <= 1518 ->
  proto_frame p f payload -> os_name os = Some name -> os_sock os <> SockFatal ->
  br_alive (bsd_send cfg fds d os) = true
  /\ (has (pc_opts cfg) OPT_DEBUG = false ->
      (exists r, rfd_byindex fds index = Some r) \/ (exists fd, os_sock os = SockFd fd /\ 0 <= fd) ->
      exists fd, In (BSys (EFrame index fd f)) (br_eff (bsd_send cfg fds d os))).
Proof.
  intros Hf (L & Ei & Ep & Er & El & Em) Hb Hp Hl Hpf Hn Hs.
  unfold bsd_send. cbv zeta. rewrite Hn, Ei, Ep, El, Em.
  assert (Es : msg_size_ok (Z.min (zlen d) PARENT_MSG_MAX) (msg_mem d) = true).
  { unfold msg_size_ok, PARENT_MSG_MIN, PARENT_MSG_MAX. rewrite El, L, Z.mod_small by lia. lia. }
  rewrite Es. cbn [negb]. replace (60 <=? zlen f) with true by lia.
  replace (p <? PROTO_MAX) with true by (unfold PROTO_MAX; lia). cbn [negb].
  assert (Hin : in_buffer (mkCtx (f ++ repeat 0 (Z.to_nat (1518 - zlen f))) (zlen f) 1 [] 0 0) f).
  { exists (repeat 0 (Z.to_nat (1518 - zlen f))). cbn [d_buf Msg.d_len]. split; [reflexivity|].
    split; [zl; lia|]. split; [reflexivity|]. split; assumption. }
  destruct (proj2 (check_frame p _ _ Hp Hin) (ex_intro _ _ Hpf)) as [o Eo]. cbn [d_buf Msg.d_len] in Eo.
  rewrite Eo. rewrite firstn_zlen_app.
  destruct (has (pc_opts cfg) OPT_DEBUG); [split; [reflexivity|discriminate]|].
  assert (G : forall fds1 eff1 r, rfd_byindex fds1 index = Some r ->
    br_alive (if (os_rawlen os =? -1) && os_gone os then
       let '(fds3, eff3) := bsd_close cfg fds1 r in mkBres fds3 ((eff1 ++ [BSys (EFrame (rf_index r) (rf_fd r) f)]) ++ eff3) true
       else mkBres fds1 (eff1 ++ [BSys (EFrame (rf_index r) (rf_fd r) f)]) true) = true
    /\ In (BSys (EFrame index (rf_fd r) f)) (br_eff (if (os_rawlen os =? -1) && os_gone os then
       let '(fds3, eff3) := bsd_close cfg fds1 r in mkBres fds3 ((eff1 ++ [BSys (EFrame (rf_index r) (rf_fd r) f)]) ++ eff3) true
       else mkBres fds1 (eff1 ++ [BSys (EFrame (rf_index r) (rf_fd r) f)]) true))).
  { intros fds1 eff1 r Hr. apply ParentProofs.byindex_index in Hr as [Hr _].
    destruct (bsd_close cfg fds1 r) as [fds3 eff3]. rewrite Hr.
    assert (K : In (BSys (EFrame index (rf_fd r) f)) (eff1 ++ [BSys (EFrame index (rf_fd r) f)])).
    { apply in_or_app. right. now left. }
    destruct (_ && _); cbn [br_alive br_eff]; (split; [reflexivity|]); [apply in_or_app; now left|exact K]. }
  destruct (rfd_byindex fds index) as [r|] eqn:Eb.
  - rewrite Eb. destruct (G fds [] r Eb) as [G1 G2]. split; [exact G1|]. intros _ _. exists (rf_fd r). exact G2.
  - unfold bsd_open. destruct (os_sock os) as [fd| |] eqn:Ek; [|split; [reflexivity|]|now contradiction Hs].
    + destruct (fd <? 0) eqn:Ef.
      { split; [reflexivity|]. intros _ [[r X]|(fd' & X & Y)]; [discriminate X|]. injection X as <-. lia. }
      set (fds1 := fds ++ _).
      assert (E1 : rfd_byindex fds1 index = Some (mkRaw index (firstn 15 name) fd (negb (has (pc_opts cfg) OPT_DEBUG)))).
      { unfold fds1, rfd_byindex. unfold rfd_byindex in Eb. clear -Eb.
        induction fds as [|r fds IH]; cbn in *; [now rewrite Z.eqb_refl|].
        destruct (rf_index r =? index); [discriminate|now apply IH]. }
      rewrite E1. match goal with |- context [?e ++ [BSys (EFrame _ _ _)]] => destruct (G fds1 e _ E1) as [G1 G2] end.
      split; [exact G1|]. intros _ _. eexists. exact G2.
    + intros _ [[r X]|(fd' & X & _)]; discriminate X.
Qed.

Lemma b_send_unnamed cfg fds d pos : os_name pos = None -> br_alive (bsd_send cfg fds d pos) = true.
Proof. intros H. unfold bsd_send. cbv zeta. destruct (negb _); [reflexivity|]. rewrite H. reflexivity. Qed.
Lemma b_sending_safe cfg pf st e st' eff i p f pcfg fds pos : b_running cfg pf st -> b_event_ok e -> bc_step cfg pf st e = DOk (st', eff) ->
  In (SFrame i p f) eff -> os_sock pos <> SockFatal ->
  br_alive (bsd_send pcfg fds (frame_dgram i p f) pos) = true
  /\ (has (pc_opts pcfg) OPT_DEBUG = false -> os_name pos <> None ->
      (exists r, rfd_byindex fds i = Some r) \/ (exists fd, os_sock pos = SockFd fd /\ 0 <= fd) ->
      exists fd, In (BSys (EFrame i fd f)) (br_eff (bsd_send pcfg fds (frame_dgram i p f) pos))).
Proof.
  intros R O H K S. destruct (b_step_good _ _ _ _ _ _ _ _ _ R O H K) as (Hi & Hp & Hb & Hl & pl & Hf).
  destruct (os_name pos) as [name|] eqn:N; [|split; [now apply b_send_unnamed|now intros _ X]].
  destruct (b_send_good pcfg fds (frame_dgram i p f) pos i p 0 f pl name) as [G1 G2]; try assumption.
  - apply carries_msg; [assumption|lia|assumption|lia].
  - apply msg_bytes_bytes; [lia|assumption].
  - split; [assumption|]. intros X _ Y. now apply G2.
Qed.
