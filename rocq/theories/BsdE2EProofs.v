(** From the advertisement of a daemon on BSD to the table of another. *)
From Verif Require Import Base Types Tlv Checks Msg Cdp Edp Fdp Ndp Lldp Protos Bpf Wire Parent Util Child Netif Sysinfo Send Bsd HostBsd BsdSend
  Spec SpecAdv SpecRound SpecNet SpecChild SpecNetif SpecNetif2 SpecSend SpecSys Cli SpecCli SpecE2E SpecBsd SpecHostBsd SpecBsdSend SpecBsdE2E.
From Verif Require Import Lemmas TypesProofs WireProofs DecProofs DecCdp2 DecEdp DecLldp2 DecSafe EncProps TlvInj RoundTrip BpfProofs NetProofs ParentProofs ChildProofs ChildProofs2 ChildProofs4
  NetifProofs1 NetifProofs2 NetifProofs9 SendProofs1 SendProofs2 SendProofs3 SendProofs4 SendProofs5 SendProofs6 SysProofs1 SysProofs2 CliProofs5 CliProofs6
  BsdProofs1 BsdProofs3 HostBsdProofs3 BsdSendProofs1 BsdSendProofs2 E2EProofs.

(** ** The host *)
Lemma bon_running cfg pf o country location st : b_running_on cfg pf o country location st -> b_running cfg pf st.
Proof. induction 1; [now apply brun_boot|eapply brun_event; eassumption]. Qed.
Lemma bsd_fetch_si cfg pf os nfs si ret nfs' si' gone : b_ok os -> NoDup (indices nfs) -> bsd_fetch cfg pf os nfs si = (ret, nfs', si', gone) ->
  si_keeps si si' /\ (caps_consistent si -> caps_consistent si').
Proof.
  intros K D F. destruct (as_linux cfg pf os nfs si K D) as (l & X & _). rewrite X in F.
  split; [exact (fetch_keeps _ _ _ _ _ _ _ _ F)|exact (fetch_consistent _ _ _ _ _ _ _ _ D F)].
Qed.
Lemma b_core_si cfg pf os index st st1 eff : b_ok os -> inv st -> b_core cfg pf os index st st1 eff ->
  si_keeps (st_si st) (st_si st1) /\ (caps_consistent (st_si st) -> caps_consistent (st_si st1)).
Proof.
  intros O [I1 I2 I3 I4 I5 I6 I7] C. destruct C as [F|ret nfs si gone eff FL F Z E|ret nfs si gone T eff FL F Z G W N S HT HL E];
    [split; [apply keeps_refl|auto]| |]; exact (bsd_fetch_si _ _ _ _ _ _ _ _ _ O I2 F).
Qed.
Lemma b_send_si cfg pf os index timeout now st st' eff : b_ok os -> inv st -> bc_send cfg pf os index timeout now st = (st', eff) ->
  si_keeps (st_si st) (st_si st') /\ (caps_consistent (st_si st) -> caps_consistent (st_si st')).
Proof.
  intros O I H. destruct (b_send_core _ _ _ _ _ _ _ _ _ O I H) as (st1 & eff1 & C & _ & E & _). rewrite E. exact (b_core_si _ _ _ _ _ _ _ O I C).
Qed.
Lemma b_step_si cfg pf st e st' eff : inv st -> b_event_ok e -> bc_step cfg pf st e = DOk (st', eff) ->
  si_keeps (st_si st) (st_si st') /\ (caps_consistent (st_si st) -> caps_consistent (st_si st')).
Proof.
  intros I O H. destruct e as [os now|os m now|e].
  - cbn in H. injection H as H. exact (b_send_si _ _ _ _ _ _ _ _ _ O I H).
  - cbn in H. injection H as H. destruct O as [O _]. unfold bc_link in H. destruct (_ || _ || _); [injection H as <- <-; split; [apply keeps_refl|auto]|].
    do 3 (destruct (negb _); [injection H as <- <-; split; [apply keeps_refl|auto]|]).
    exact (b_send_si _ _ _ _ _ _ _ _ _ O I H).
  - assert (X : st_si st' = st_si st); [|rewrite X; split; [apply keeps_refl|auto]].
    clear -H. destruct e; cbn [bc_step send_step] in H; try (injection H as <- _; reflexivity);
      (match type of H with context [child_step ?a ?b ?c] => destruct (child_step a b c) as [[c' x]| | | |] end; try discriminate; cbn in H; injection H as <- _; reflexivity).
Qed.
Lemma b_boot_consistent pf o country location : caps_consistent (bsd_sysinfo pf o country location).
Proof.
  unfold bsd_sysinfo. cbv zeta. pose proof (eq_refl (bsd_forwarding o CAP_HOST CAP_HOST)) as X. unfold bsd_forwarding at 1 in X.
  assert (M' : forall x y, (forall i, Z.testbit y i = true -> Z.testbit x i = true) -> forall i, Z.testbit y i = true -> Z.testbit (Z.lor x CAP_ROUTER) i = true).
  { intros x y H i K. rewrite Z.lor_spec, (H i K). reflexivity. }
  assert (H0 : forall i, Z.testbit CAP_HOST i = true -> Z.testbit CAP_HOST i = true) by auto.
  destruct (bsd_forwarding o CAP_HOST CAP_HOST) as [cap act]. unfold caps_consistent. cbn [si_cap si_cap_active].
  destruct (bh_ip4 o) as [l|]; [destruct (l =? 1)|];
    try (destruct (bh_ip6 o) as [m|]; [destruct (m =? 1)|]);
    cbn in X; injection X as <- <-; auto; exact (M' CAP_HOST CAP_HOST H0).
Qed.
Lemma bon_si cfg pf o country location st : b_running_on cfg pf o country location st ->
  si_keeps (bsd_sysinfo pf o country location) (st_si st) /\ caps_consistent (st_si st).
Proof.
  induction 1 as [A B C|st e st' eff R IH O H]; [split; [apply keeps_refl|apply b_boot_consistent]|].
  apply bon_running in R. apply b_running_inv in R. destruct IH as [I1 I2]. destruct (b_step_si _ _ _ _ _ _ R O H) as [S1 S2].
  split; [eapply keeps_trans; eassumption|auto].
Qed.
Lemma bon_named cfg pf o country location st : b_running_on cfg pf o country location st -> b_named o (st_si st).
Proof.
  intros R. destruct (bon_si _ _ _ _ _ _ R) as [[E1 _ E2 E3 _ _ _ _ _] _].
  pose proof (b_boot_named pf o country location) as N. unfold b_named in *. now rewrite E3.
Qed.

(** ** The sender *)
Lemma b_due_from cfg os nfs si : forall ds seq i p f, 0 <= seq < 65536 -> In (i, p, f) (b_frames_due cfg os nfs si seq ds) ->
  exists top sub seq', 0 <= seq' < 65536 /\ In (top, sub, p) ds /\ i = nf_index sub /\ f = b_frame_due cfg os nfs si seq' (top, sub, p) /\ zlen f <= 1518.
Proof.
  induction ds as [|[[top sub] q] ds IH]; intros seq i p f Q; cbn [b_frames_due]; [easy|]. cbn [fst snd].
  intros K. apply in_app_or in K as [K|K].
  - destruct (zlen _ <=? 1518) eqn:L; [|easy]. cbn [when] in K. destruct K as [K|[]]. injection K as <- <- <-.
    exists top, sub, seq. split; [assumption|]. split; [now left|]. split; [reflexivity|]. split; [reflexivity|now apply Z.leb_le].
  - apply IH in K; [|destruct (q =? 2); [apply Z.mod_pos_bound; lia|lia]]. destruct K as (t & s & x & X1 & X2 & X3).
    exists t, s, x. split; [assumption|]. split; [now right|assumption].
Qed.
Definition b_origin cfg (st st' : sstate) i p f : Prop :=
  exists nos nfs si seq top sub port, well nfs /\ sysinfo_ok si /\ 7 <= zlen (si_uts_str si) /\ 4 <= zlen (si_platform si)
    /\ si = st_si st'
    /\ In sub nfs /\ i = nf_index sub /\ 0 <= p < 6 /\ 0 <= seq < 65536
    /\ f = b_frame_due cfg nos nfs si seq (top, sub, p) /\ zlen f <= 1518
    /\ In port (table st') /\ nf_index port = nf_index sub /\ nf_name port = nf_name sub /\ nf_hwaddr port = nf_hwaddr sub.
Lemma b_send_origin cfg pf os index timeout now st st' eff i p f : b_ok os -> inv st -> bc_send cfg pf os index timeout now st = (st', eff) ->
  In (SFrame i p f) eff -> b_origin cfg st st' i p f.
Proof.
  intros O I H K. apply in_frames in K. destruct (b_send_core _ _ _ _ _ _ _ _ _ O I H) as (st1 & eff1 & C & F & E1 & _ & E3). rewrite F in K.
  pose proof (b_core_inv _ _ _ _ _ _ _ O I C) as I1.
  assert (E4 : map fixed (table st') = map fixed (table st1)) by (unfold table; destruct (_ && _); rewrite E3; [apply expire_fixed|reflexivity]).
  destruct C as [F1|ret nfs si gone eff1 FL F1 Z E5|ret nfs si gone T eff1 FL F1 Z G W N S HT HL E5]; [easy|rewrite E5 in K; easy|].
  rewrite E5 in K. destruct I as [_ _ _ _ _ _ Q]. destruct I1 as [_ _ _ J1 J2 J3 _]. cbn [st_si] in *.
  apply b_due_from in K; [|assumption]. destruct K as (top & sub & seq & Q' & X1 & X2 & X3 & X4). apply all_due_in in X1 as (X1 & _ & X5 & X6 & _).
  destruct (bare_in T nfs sub (b_touches_bare _ _ _ HT) X5) as (m & Im & Bm).
  destruct (fixed_in (table st') (table (mkSt (set_nfs (st_child st) T) si (after (st_edp st) (all_due cfg index nfs)))) m E4 Im) as (port & Ip & Fp).
  destruct (bare_fields _ _ Bm) as (B1 & B2 & _ & B3 & _).
  assert (P1 : nf_index port = nf_index m) by (apply (f_equal nf_index) in Fp; exact Fp).
  assert (P2 : nf_name port = nf_name m) by (apply (f_equal nf_name) in Fp; exact Fp).
  assert (P3 : nf_hwaddr port = nf_hwaddr m) by (apply (f_equal nf_hwaddr) in Fp; exact Fp).
  exists os, nfs, si, seq, top, sub, port. repeat (split; [first [assumption|congruence|lia]|]). congruence.
Qed.
Lemma b_sent_from cfg pf st e st' eff i p f : b_running cfg pf st -> b_event_ok e -> bc_step cfg pf st e = DOk (st', eff) -> In (SFrame i p f) eff ->
  b_origin cfg st st' i p f.
Proof.
  intros R O H K. apply b_running_inv in R. destruct e as [os now|os m now|e].
  - cbn in H. injection H as H. exact (b_send_origin _ _ _ _ _ _ _ _ _ _ _ _ O R H K).
  - cbn in H. injection H as H. destruct O as [O _]. unfold bc_link in H. destruct (_ || _ || _); [injection H as <- <-; easy|].
    do 3 (destruct (negb _); [injection H as <- <-; easy|]).
    exact (b_send_origin _ _ _ _ _ _ _ _ _ _ _ _ O R H K).
  - apply in_frames in K. destruct (child_frames _ _ _ _ _ R H) as (_ & E & _). rewrite E in K. easy.
Qed.
Lemma b_due_meant cfg nos nfs si seq top sub p : well nfs -> sysinfo_ok si -> 7 <= zlen (si_uts_str si) -> 4 <= zlen (si_platform si) ->
  caps_consistent si -> 0 <= seq < 65536 -> In sub nfs -> 0 <= p < 6 -> p <> 2 ->
  let f := b_frame_due cfg nos nfs si seq (top, sub, p) in zlen f <= 1518 ->
  bytes f /\ 60 <= zlen f /\ (firstn 6 (skipn 6 f) = nf_hwaddr sub \/ firstn 6 (skipn 6 f) = repeat 0 6)
  /\ exists pl attrs, proto_frame p f pl /\ meant (arrives p) pl p 180 attrs
    /\ nth 0 (report attrs) None = told p (si_hostname si) /\ nth 1 (report attrs) None = told p (nf_name sub).
Proof.
  intros W S U P CC Q Hs Hp N2 f0 L. pose proof (well_in _ _ W Hs) as Ok.
  destruct (b_frame_due_good cfg nos nfs si seq top sub p W S U P Q Hs Hp L) as (_ & _ & G1 & G2 & _). fold f0 in G1, G2.
  split; [assumption|]. split; [lia|]. clear G1 G2.
  assert (Hat : forall o q, at_index nfs o = Some q -> netif_ok q).
  { intros [i|] q E; [|discriminate]. apply find_some in E as [E _]. now apply (well_in nfs). }
  assert (Hin : inputs_ok seq (bsd_media nos sub) (at_index nfs (nf_parent sub)) (at_index nfs (si_mnetif si)) nfs si).
  { split; [now apply ok_bmedia|]. split; [apply Hat|]. split; [apply Hat|]. split; [intros v; now apply well_in|]. now split. }
  destruct (bare_fields _ _ (bmedia_bare nos sub)) as (_ & Bn & _ & Bh & _).
  assert (LA : 14 <= zlen (SpecAdv.advert p (nc_opts (sc_net cfg)) seq (bsd_media nos sub) (at_index nfs (nf_parent sub)) (at_index nfs (si_mnetif si)) nfs si)) by (apply advert_len; now apply ok_bmedia).
  unfold f0, b_frame_due in *. clear f0. set (f := SpecAdv.advert _ _ _ _ _ _ _ _) in *.
  assert (LF : zlen f <= 1518) by (destruct (_ && _); [rewrite blank_len in L by lia|]; exact L).
  destruct (advert_shape p _ seq _ _ _ nfs si Hp Hin U P LF) as (B & M & dst & rest & pl & E & Ld & K). fold f in B, M, E.
  assert (L6 : zlen (nf_hwaddr (bsd_media nos sub)) = 6) by (apply ok_hw; now apply ok_bmedia).
  assert (Src : forall s, zlen s = 6 -> firstn 6 (skipn 6 (dst ++ s ++ rest)) = s).
  { intros s Ls. replace 6%nat with (Z.to_nat (zlen dst)) at 2 by (rewrite Ld; reflexivity). rewrite skipn_zlen_app.
    replace 6%nat with (Z.to_nat (zlen s)) by (rewrite Ls; reflexivity). apply firstn_zlen_app. }
  assert (BL : blanked f = dst ++ [0; 0; 0; 0; 0; 0] ++ rest).
  { unfold blanked. rewrite E. f_equal; [|f_equal].
    - change 6%nat with (Z.to_nat 6). rewrite <- Ld. apply firstn_zlen_app.
    - rewrite app_assoc. replace 12%nat with (Z.to_nat (zlen (dst ++ nf_hwaddr (bsd_media nos sub)))) by (rewrite zlen_app; lia). apply skipn_zlen_app. }
  assert (Ff : proto_frame p f pl) by (rewrite E; now apply K).
  destruct (built_meant p _ _ _ _ _ _ _ pl Hp N2 Hin CC B (conj M LF) Ff) as (attrs & X1 & X2 & X3). rewrite Bn in X3.
  destruct (_ && _).
  - rewrite BL. split; [right; now apply Src|]. exists pl, attrs. split; [now apply K|]. now split.
  - split; [left; rewrite <- Bh, E; now apply Src|]. exists pl, attrs. now split.
Qed.

(** ** The receiver *)
Lemma b_neighbour_listed cfg pf o country location st e st' eff i p f opts es c eff0 index sub now now2 :
  b_running_on cfg pf o country location st -> b_event_ok e -> bc_step cfg pf st e = DOk (st', eff) -> In (SFrame i p f) eff -> p <> 2 ->
  Z.testbit opts 2 = true -> reached opts es c eff0 -> 0 <= index < 4294967296 ->
  netif_byindex (c_nfs c) index = Some sub -> netif_byaddr (c_nfs c) (firstn 6 (skipn 6 f)) = None -> now <> -1 ->
  exists c', hears opts c index f now now2 c'
  /\ (exists d pl, parent_recv index [f] = [d] /\ bytes f /\ 60 <= zlen f <= 1518 /\ 0 <= arrives p < 6
      /\ carries d index (arrives p) 0 f /\ proto_frame (arrives p) f pl)
  /\ (exists port en, In port (table st') /\ nf_index port = i /\ b_named o (st_si st')
      /\ In en (c_queue c') /\ q_index en = index /\ q_name en = nf_name sub /\ q_proto en = p /\ q_received en = now /\ q_ttl en = 180
      /\ (source en = nf_hwaddr port \/ source en = repeat 0 6)
      /\ nth 0 (q_peer en) None = told p (si_hostname (st_si st')) /\ nth 1 (q_peer en) None = told p (nf_name port))
  /\ (forall en, who en <> (index, p, firstn 12 f) -> In en (c_queue c') <-> In en (c_queue c)).
Proof.
  intros R O H K N2 Hr Hre Hx Hi Ha Hn.
  destruct (b_sent_from _ _ _ _ _ _ _ _ _ (bon_running _ _ _ _ _ _ R) O H K) as (nos & nfs & si & seq & top & s & port & W & S & U & P & Esi & Hs & -> & Hp & Q & Ef & L & Ip & P1 & P2 & P3).
  assert (R' : b_running_on cfg pf o country location st') by (eapply bon_event; eassumption).
  pose proof (proj2 (bon_si _ _ _ _ _ _ R')) as CC. rewrite <- Esi in CC. pose proof (bon_named _ _ _ _ _ _ R') as Nm.
  rewrite Ef in L. destruct (b_due_meant _ _ _ _ _ _ _ _ W S U P CC Q Hs Hp N2 L) as (B & L60 & Src & pl & attrs & Fr & M & A0 & A1). rewrite <- Ef in *.
  destruct (group_frame p f pl Hp N2 Fr) as [Ga Nf].
  assert (Hp' : 0 <= arrives p < 5) by (unfold arrives; destruct (Z.eqb_spec p 5); lia).
  destruct (forward_cases index f Hx B) as (_ & _ & Fw). destruct (Fw (arrives p) L60 Hp' Ga) as (d & Fd & Cd).
  rewrite (firstn_all2 (n := 1518%nat) f) in Cd by (unfold zlen in L; lia).
  assert (Ad : SpecChild.advert (arrives p) f p 180 attrs) by exact (meant_advert _ _ pl _ _ _ (frame_arrives p f pl Hp Fr) M).
  destruct (queue_ok opts c d index (arrives p) 0 f now now2 sub p 180 attrs B Cd ltac:(lia) (conj L60 L) Hn Hi Ha Ad) as (c' & eff' & Eq).
  exists c'. split; [|].
  - split; [apply (filter_iff opts f Hr B); assumption|]. exists d, eff'. split; [|exact Eq]. unfold parent_recv. now rewrite Fd.
  - split.
    { exists d, pl. split; [unfold parent_recv; now rewrite Fd|]. split; [assumption|]. split; [lia|]. split; [lia|]. split; [assumption|]. now apply frame_arrives. }
    destruct (rcv_table opts c d index (arrives p) 0 f now now2 sub p 180 attrs c' eff' (reached_ok opts es c eff0 Hre) B Cd ltac:(lia) (conj L60 L) Hn Hi Ha Ad ltac:(lia) Eq)
      as ((en & I1 & I2 & I3 & I4 & I5 & I6 & I7 & I8 & I9) & Oth).
    split; [|exact Oth]. exists port, en. split; [assumption|]. split; [assumption|]. split; [assumption|]. split; [assumption|]. split; [assumption|].
    split; [assumption|]. split; [assumption|]. split; [assumption|]. split; [assumption|]. split; [|split].
    + unfold source. rewrite I7. rewrite skipn_app, firstn_app. rewrite skipn_length.
      replace (6 - length f)%nat with 0%nat by (unfold zlen in L60; lia). replace (6 - (length f - 6))%nat with 0%nat by (unfold zlen in L60; lia).
      cbn [firstn]. rewrite app_nil_r, P3. exact Src.
    + rewrite I9, A0, Esi. reflexivity.
    + rewrite I9, A1, P2. reflexivity.
Qed.

(** ** The client *)
Lemma b_neighbour_shown cfg pf o country location st e st' eff i p f opts es c eff0 index sub now now2 c' t ifindex ws :
  b_running_on cfg pf o country location st -> b_event_ok e -> bc_step cfg pf st e = DOk (st', eff) -> In (SFrame i p f) eff -> p <> 2 ->
  Z.testbit opts 2 = true -> reached opts es c eff0 -> Forall daemon_event es -> 0 <= index < 4294967296 ->
  netif_byindex (c_nfs c) index = Some sub -> netif_byaddr (c_nfs c) (firstn 6 (skipn 6 f)) = None ->
  hears opts c index f now now2 c' ->
  0 <= now <= t -> t <= now + 180 -> t < 9223372036854775808 ->
  (forall en, In en (c_queue c') -> q_received en <= t) -> undisturbed (fun _ => true) (fresh t) (c_queue c') ->
  exists items text, cli_main [] [] ifindex t ws (map entry_bytes (c_queue c')) = Some (DOk (map OShow items, text))
  /\ exists x port, In x items /\ In port (table st') /\ nf_index port = i
     /\ sh_index x = index /\ sh_name x = nf_name sub /\ sh_proto x = p /\ sh_hold x = 180 - (t - now)
     /\ nth 0 (sh_peer x) None = told p (si_hostname (st_si st')) /\ nth 1 (sh_peer x) None = told p (nf_name port).
Proof.
  intros R O H K N2 Hr Hre De Hx Hi Ha He Hnow Ht Ht2 Hrec Hun.
  destruct (b_neighbour_listed cfg pf o country location st e st' eff i p f opts es c eff0 index sub now now2 R O H K N2 Hr Hre Hx Hi Ha ltac:(lia))
    as (c'' & Hh & (d & pl & Pd & B & L & Ap & Cd & Fr) & (port & en & I1 & I2 & _ & I3 & I4 & I5 & I6 & I7 & I8 & _ & I9 & I10) & _).
  assert (c'' = c').
  { destruct He as (_ & d1 & e1 & X1 & X2). destruct Hh as (_ & d2 & e2 & Y1 & Y2). rewrite X1 in Y1. injection Y1 as <-. rewrite X2 in Y2. now injection Y2. }
  subst c''. destruct He as (_ & d1 & e1 & X1 & X2). rewrite Pd in X1. injection X1 as <-.
  assert (Re : reached opts (es ++ [CRecv d now now2]) c' (eff0 ++ e1)) by (eapply run_snoc; [exact Hre|exact X2]).
  assert (G : Forall genuine (c_queue c')).
  { eapply table_genuine; [|exact Re]. apply Forall_app. split; [assumption|]. constructor; [|constructor].
    cbn [daemon_event]. split; [lia|]. exists index, (arrives p), f, pl. repeat (split; [assumption|]). assumption. }
  destruct (client_shows [] [] ifindex t ws (c_queue c')) as (text & T).
  - split; [intros ? []|]. split; [|intros ? []]. intros a b. left. destruct a; discriminate.
  - intros [].
  - lia.
  - exact G.
  - exact Hrec.
  - intros ? _ _ [].
  - exact Hun.
  - exists (map (display t) (filter (fun e => asked [] (q_proto e) && asked_if [] ifindex (q_index e) && fresh t e) (c_queue c'))), text.
    split; [exact T|]. exists (display t en), port. split.
    + apply in_map, filter_In. split; [assumption|]. cbn [asked asked_if existsb orb negb andb]. unfold fresh. rewrite I7, I8. lia.
    + cbn [display sh_index sh_name sh_proto sh_hold sh_peer]. rewrite I7, I8. repeat (split; [assumption|]). split; [reflexivity|]. now split.
Qed.
