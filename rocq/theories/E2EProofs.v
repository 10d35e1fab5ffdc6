(** From the advertisement of one daemon to the table of another. *)
From Verif Require Import Base Types Tlv Checks Msg Cdp Edp Fdp Ndp Lldp Protos Bpf Wire Parent Util Child Netif Sysinfo Send
  Spec SpecAdv SpecRound SpecNet SpecChild SpecNetif SpecNetif2 SpecSend SpecSys Cli SpecCli SpecE2E.
From Verif Require Import Lemmas TypesProofs WireProofs DecProofs DecCdp2 DecEdp DecLldp2 DecSafe  EncProps TlvInj RoundTrip BpfProofs NetProofs ParentProofs ChildProofs ChildProofs2 ChildProofs4
  NetifProofs1 NetifProofs2 NetifProofs9 SendProofs1 SendProofs2 SendProofs3 SendProofs4 SendProofs5 SendProofs6 SysProofs1 SysProofs2 CliProofs5 CliProofs6.

(** ** Payloads *)
Definition meant (p : Z) (payload : list Z) (proto ttl : Z) (attrs : list (slot * list Z)) : Prop :=
  match p with
  | 0 => exists used, lldp_packet_means payload used ttl attrs /\ proto = 0
  | 2 => edp_packet_means payload attrs /\ ttl = 180 /\ proto = 2
  | 3 => fdp_packet_means payload ttl attrs /\ proto = 3
  | 4 => 11 <= zlen payload /\ ttl = 180 /\ attrs = [] /\ proto = 4
  | _ => exists version, cdp_packet_means payload version ttl attrs
           /\ proto = if version =? 1 then 5 else 1
  end.
Lemma meant_advert p f payload proto ttl attrs : proto_frame p f payload -> meant p payload proto ttl attrs ->
  SpecChild.advert p f proto ttl attrs.
Proof. intros F M. exists payload. split; assumption. Qed.
Lemma decode_meant p c f payload s n s' : 0 <= p < 6 -> in_buffer c f -> d_mode c = 1 ->
  s_peer s = no_peers -> s_proto s = p -> s_out s = [] -> proto_frame p f payload ->
  proto_decode p c s = DOk (n, s') ->
  exists proto ttl attrs, meant p payload proto ttl attrs /\ s' = mkDst (report attrs) ttl proto [].
Proof.
  intros Hp Hin Hm Hs Hsp Ho Hf.
  assert (C : p = 0 \/ p = 1 \/ p = 2 \/ p = 3 \/ p = 4 \/ p = 5) by lia.
  destruct C as [->|[->|[->|[->|[->| ->]]]]]; cbn [proto_frame] in Hf; unfold proto_decode;
    cbn [Z.eqb Pos.eqb PROTO_LLDP PROTO_CDP PROTO_EDP PROTO_FDP PROTO_NDP PROTO_CDP1]; intros H.
  - apply (lldp_decode_iff c f payload s _ _ Hin Hf Hm Hs) in H as (u & t & a & Hu & _ & ->). rewrite Ho, Hsp.
    exists 0, t, a. split; [|reflexivity]. now exists u.
  - apply (cdp_decode_iff c f payload s n s' Hin Hf) in H as (_ & v & t & a & Hu & ->); [|now rewrite Hm|assumption].
    rewrite Ho. eexists _, t, a. split; [|reflexivity]. now exists v.
  - apply (edp_decode_iff c f payload s _ _ Hin Hf Hs) in H as (_ & a & Ha & ->). rewrite Ho, Hsp.
    exists 2, 180, a. split; [|reflexivity]. now split.
  - apply (fdp_decode_iff c f payload s _ _ Hin Hf Hs) in H as (_ & t & a & Ha & ->). rewrite Ho, Hsp.
    exists 3, t, a. split; [|reflexivity]. now split.
  - rewrite (ndp_decode_pure c f payload s Hin Hf) in H. destruct (_ <? 11) eqn:E; [discriminate|].
    injection H as <- <-. exists 4, 180, []. split; [|unfold set_ttl; now rewrite Hs, Ho, Hsp].
    repeat split. lia.
  - apply (cdp_decode_iff c f payload s n s' Hin Hf) in H as (_ & v & t & a & Hu & ->); [|now rewrite Hm|assumption].
    rewrite Ho. eexists _, t, a. split; [|reflexivity]. now exists v.
Qed.

(** The protocol a frame is handed over as. *)
Definition arrives (p : Z) : Z := if p =? 5 then 1 else p.
Lemma frame_arrives p f pl : 0 <= p < 6 -> proto_frame p f pl -> proto_frame (arrives p) f pl.
Proof. intros Hp H. unfold arrives. destruct (Z.eqb_spec p 5) as [->|]; exact H. Qed.

Lemma padded_in f name : bytes f -> 60 <= zlen f <= 1518 ->
  in_buffer (mkCtx (f ++ repeat 0 (Z.to_nat (1518 - zlen f))) (zlen f) 1 name 0 0) f.
Proof.
  intros Hb Hl. exists (repeat 0 (Z.to_nat (1518 - zlen f))). cbn [d_buf d_len]. split; [reflexivity|]. split; [zl; lia|].
  split; [reflexivity|]. now split.
Qed.
(** What the frame built for a protocol says. *)
Lemma built_meant p opts count n par mgmt nfs si pl : 0 <= p < 6 -> p <> 2 -> inputs_ok count n par mgmt nfs si -> caps_consistent si ->
  let f := SpecAdv.advert p opts count n par mgmt nfs si in bytes f -> 60 <= zlen f <= 1518 -> proto_frame p f pl ->
  exists attrs, meant (arrives p) pl p 180 attrs
    /\ nth 0 (report attrs) None = told p (si_hostname si) /\ nth 1 (report attrs) None = told p (nf_name n).
Proof.
  intros Hp N2 Hi Hc f Hby Hl Hf.
  assert (Hb : proto_build p opts count n par mgmt nfs si = Some f).
  { rewrite (proto_build_spec p opts count n par mgmt nfs si Hp Hi). cbv zeta. fold f. now replace (zlen f <=? 1518) with true by lia. }
  set (c := mkCtx (f ++ repeat 0 (Z.to_nat (1518 - zlen f))) (zlen f) 1 [] 0 0).
  assert (Hin : in_buffer c f) by now apply padded_in.
  assert (Fin : forall q s n' peers, q = arrives p -> s = mkDst no_peers 0 q [] -> proto_decode q c s = DOk (n', mkDst peers 180 p []) ->
    nth 0 peers None = told p (si_hostname si) -> nth 1 peers None = told p (nf_name n) ->
    exists attrs, meant (arrives p) pl p 180 attrs
      /\ nth 0 (report attrs) None = told p (si_hostname si) /\ nth 1 (report attrs) None = told p (nf_name n)).
  { intros q s n' peers -> -> D P0 P1.
    apply (decode_meant (arrives p) c f pl) in D; try reflexivity; [|unfold arrives; destruct (p =? 5); lia|assumption|now apply frame_arrives].
    destruct D as (proto & ttl & attrs & M & E). pose proof (f_equal s_peer E) as E1. pose proof (f_equal s_ttl E) as E2. pose proof (f_equal s_proto E) as E3.
    cbn in E1, E2, E3. subst peers ttl proto. exists attrs. now split. }
  assert (C : p = 0 \/ p = 1 \/ p = 3 \/ p = 4 \/ p = 5) by lia.
  set (s := mkDst no_peers 0 (arrives p) []).
  destruct C as [->|[->|[->|[->| ->]]]].
  - eapply (Fin 0 s); [reflexivity|reflexivity|eapply round_lldp; eauto; reflexivity|reflexivity|reflexivity].
  - eapply (Fin 1 s); [reflexivity|reflexivity|eapply (round_cdp 1); eauto; reflexivity|reflexivity|reflexivity].
  - eapply (Fin 3 s); [reflexivity|reflexivity|eapply round_fdp; eauto; reflexivity|reflexivity|reflexivity].
  - destruct (round_ndp opts count n par mgmt nfs si f c s Hi Hb Hin) as (_ & _ & _ & k & K).
    eapply (Fin 4 s); [reflexivity|reflexivity|exact K|reflexivity|reflexivity].
  - eapply (Fin 1 s); [reflexivity|reflexivity|eapply (round_cdp 5); eauto; reflexivity|reflexivity|reflexivity].
Qed.

(** ** Capabilities stay consistent *)
Lemma usable_reported os ty : usable_kind os ty -> reported_kind os ty.
Proof.
  intros (i & name & (ias & a & A & I) & K & _). exists ias, name, i, a. split; [assumption|]. split; assumption.
Qed.
Lemma fetch_consistent cfg os nfs si ret nfs' si' gone : NoDup (indices nfs) -> netif_fetch cfg os nfs si = (ret, nfs', si', gone) ->
  caps_consistent si -> caps_consistent si'.
Proof.
  intros D H C. destruct (no_ifaddrs os) as [ias|] eqn:A.
  2:{ rewrite (fetch_none _ _ _ _ A) in H. injection H as _ _ <- _. exact C. }
  destruct (fetch_caps _ _ _ _ _ _ _ _ _ A D H) as (C1 & C2 & _). intros b T.
  assert (B : 0 <= b) by (destruct (Z.ltb_spec b 0); [rewrite Z.testbit_neg_r in T by assumption; discriminate|assumption]).
  specialize (C1 b B). specialize (C2 b B). destruct (b =? 1); [apply C1, usable_reported, C2, T|].
  destruct (b =? 5); [apply C1, usable_reported, C2, T|]. destruct ((b =? 2) || (b =? 3)); [|congruence].
  rewrite C1. apply C. now rewrite <- C2.
Qed.
Lemma core_consistent cfg os index st st1 eff : inv st -> core cfg os index st st1 eff -> caps_consistent (st_si st) -> caps_consistent (st_si st1).
Proof.
  intros [I1 I2 I3 I4 I5 I6 I7] C K. destruct C as [F|ret nfs si gone eff FL F Z E|ret nfs si gone T eff FL F Z G W N S HT HL E]; [exact K| |];
    exact (fetch_consistent _ _ _ _ _ _ _ _ I2 F K).
Qed.
Lemma send_consistent cfg os index timeout now st st' eff : os_ok os -> inv st -> child_send cfg os index timeout now st = (st', eff) ->
  caps_consistent (st_si st) -> caps_consistent (st_si st').
Proof.
  intros O I H K. destruct (send_core _ _ _ _ _ _ _ _ O I H) as (st1 & eff1 & C & _ & E & _). rewrite E. exact (core_consistent _ _ _ _ _ _ I C K).
Qed.
Lemma step_consistent cfg st e st' eff : inv st -> event_ok e -> send_step cfg st e = DOk (st', eff) ->
  caps_consistent (st_si st) -> caps_consistent (st_si st').
Proof.
  intros I O H K. destruct e as [os now|os hatype flags index now|e].
  - cbn in H. injection H as H. exact (send_consistent _ _ _ _ _ _ _ _ O I H K).
  - cbn in H. injection H as H. unfold child_link in H. destruct (negb _); [injection H as <- <-; exact K|]. destruct (negb _); [injection H as <- <-; exact K|].
    exact (send_consistent _ _ _ _ _ _ _ _ O I H K).
  - assert (X : st_si st' = st_si st); [|now rewrite X].
    clear -H. destruct e; cbn [send_step] in H; try (injection H as <- _; reflexivity);
      (match type of H with context [child_step ?a ?b ?c] => destruct (child_step a b c) as [[c' x]| | | |] end; try discriminate; cbn in H; injection H as <- _; reflexivity).
Qed.
Lemma boot_consistent os country location : caps_consistent (sysinfo_fetch os country location).
Proof.
  unfold sysinfo_fetch. cbv zeta. pose proof (eq_refl (sysinfo_forwarding os CAP_HOST CAP_HOST)) as X. unfold sysinfo_forwarding at 1 in X.
  assert (M' : forall x y, (forall i, Z.testbit y i = true -> Z.testbit x i = true) -> forall i, Z.testbit y i = true -> Z.testbit (Z.lor x CAP_ROUTER) i = true).
  { intros x y H i K. rewrite Z.lor_spec, (H i K). reflexivity. }
  assert (H0 : forall i, Z.testbit CAP_HOST i = true -> Z.testbit CAP_HOST i = true) by auto.
  destruct (sysinfo_forwarding os CAP_HOST CAP_HOST) as [cap act]. unfold caps_consistent. cbn [si_cap si_cap_active].
  destruct (read_line os PROCFS_FORWARD_IPV4 255) as [l|]; [destruct (zlen l =? 0); [|destruct (atoi l =? 1)]|];
    (destruct (read_line os PROCFS_FORWARD_IPV6 255) as [m|]; [destruct (zlen m =? 0); [|destruct (atoi m =? 1)]|]);
    cbn in X; injection X as <- <-; auto; exact (M' CAP_HOST CAP_HOST H0).
Qed.
Lemma on_consistent cfg os country location st : running_on cfg os country location st -> caps_consistent (st_si st).
Proof.
  induction 1 as [A B C|st e st' eff R IH O H]; [apply boot_consistent|].
  apply on_running in R. apply running_inv in R. exact (step_consistent _ _ _ _ _ R O H IH).
Qed.

(** ** The sender *)
Lemma fixed_in nfs' : forall nfs n, map fixed nfs' = map fixed nfs -> In n nfs -> exists m, In m nfs' /\ fixed m = fixed n.
Proof.
  intros nfs n E H. assert (X : In (fixed n) (map fixed nfs')) by (rewrite E; now apply in_map).
  apply in_map_iff in X as (m & Em & Im). now exists m.
Qed.
Lemma bare_in nfs' : forall nfs n, map bare nfs' = map bare nfs -> In n nfs -> exists m, In m nfs' /\ bare m = bare n.
Proof.
  intros nfs n E H. assert (X : In (bare n) (map bare nfs')) by (rewrite E; now apply in_map).
  apply in_map_iff in X as (m & Em & Im). now exists m.
Qed.
Definition origin cfg (st st' : sstate) i p f : Prop :=
  exists nos nfs si seq top sub port, well nfs /\ sysinfo_ok si /\ 7 <= zlen (si_uts_str si) /\ 4 <= zlen (si_platform si)
    /\ (caps_consistent (st_si st) -> caps_consistent si) /\ si = st_si st'
    /\ In sub nfs /\ i = nf_index sub /\ 0 <= p < 6 /\ 0 <= seq < 65536
    /\ f = frame_due cfg nos nfs si seq (top, sub, p) /\ zlen f <= 1518
    /\ In port (table st') /\ nf_index port = nf_index sub /\ nf_name port = nf_name sub /\ nf_hwaddr port = nf_hwaddr sub.
Lemma send_origin cfg os index timeout now st st' eff i p f : os_ok os -> inv st -> child_send cfg os index timeout now st = (st', eff) ->
  In (SFrame i p f) eff -> origin cfg st st' i p f.
Proof.
  intros O I H K. apply in_frames in K. destruct (send_core _ _ _ _ _ _ _ _ O I H) as (st1 & eff1 & C & F & E1 & _ & E3). rewrite F in K.
  pose proof (core_consistent _ _ _ _ _ _ I C) as CC. pose proof (core_inv _ _ _ _ _ _ O I C) as I1.
  assert (E4 : map fixed (table st') = map fixed (table st1)) by (unfold table; destruct (_ && _); rewrite E3; [apply expire_fixed|reflexivity]).
  destruct C as [F1|ret nfs si gone eff1 FL F1 Z E5|ret nfs si gone T eff1 FL F1 Z G W N S HT HL E5]; [easy|rewrite E5 in K; easy|].
  rewrite E5 in K. destruct I as [_ _ _ _ _ _ Q]. destruct I1 as [_ _ _ J1 J2 J3 _]. cbn [st_si] in *.
  apply due_from in K; [|assumption]. destruct K as (top & sub & seq & Q' & X1 & X2 & X3 & X4). apply all_due_in in X1 as (X1 & _ & X5 & X6 & _).
  destruct (bare_in T nfs sub (touches_bare _ _ _ HT) X5) as (m & Im & Bm).
  destruct (fixed_in (table st') (table (mkSt (set_nfs (st_child st) T) si (after (st_edp st) (all_due cfg index nfs)))) m E4 Im) as (port & Ip & Fp).
  destruct (bare_fields _ _ Bm) as (B1 & B2 & _ & B3 & _).
  assert (P1 : nf_index port = nf_index m) by (apply (f_equal nf_index) in Fp; exact Fp).
  assert (P2 : nf_name port = nf_name m) by (apply (f_equal nf_name) in Fp; exact Fp).
  assert (P3 : nf_hwaddr port = nf_hwaddr m) by (apply (f_equal nf_hwaddr) in Fp; exact Fp).
  exists os, nfs, si, seq, top, sub, port. repeat (split; [first [assumption|congruence|lia]|]). congruence.
Qed.
Lemma sent_from cfg st e st' eff i p f : running cfg st -> event_ok e -> send_step cfg st e = DOk (st', eff) -> In (SFrame i p f) eff ->
  origin cfg st st' i p f.
Proof.
  intros R O H K. apply running_inv in R. destruct e as [os now|os hatype flags index now|e].
  - cbn in H. injection H as H. exact (send_origin _ _ _ _ _ _ _ _ _ _ _ O R H K).
  - cbn in H. injection H as H. unfold child_link in H. destruct (negb _); [injection H as <- <-; easy|]. destruct (negb _); [injection H as <- <-; easy|].
    exact (send_origin _ _ _ _ _ _ _ _ _ _ _ O R H K).
  - apply in_frames in K. destruct (child_frames _ _ _ _ _ R H) as (_ & E & _). rewrite E in K. easy.
Qed.
(** The frame sent, whatever its source address. *)
Lemma due_meant cfg nos nfs si seq top sub p : well nfs -> sysinfo_ok si -> 7 <= zlen (si_uts_str si) -> 4 <= zlen (si_platform si) ->
  caps_consistent si -> 0 <= seq < 65536 -> In sub nfs -> 0 <= p < 6 -> p <> 2 ->
  let f := frame_due cfg nos nfs si seq (top, sub, p) in zlen f <= 1518 ->
  bytes f /\ 60 <= zlen f /\ (firstn 6 (skipn 6 f) = nf_hwaddr sub \/ firstn 6 (skipn 6 f) = repeat 0 6)
  /\ exists pl attrs, proto_frame p f pl /\ meant (arrives p) pl p 180 attrs
    /\ nth 0 (report attrs) None = told p (si_hostname si) /\ nth 1 (report attrs) None = told p (nf_name sub).
Proof.
  intros W S U P CC Q Hs Hp N2 f0 L. pose proof (well_in _ _ W Hs) as Ok.
  destruct (frame_due_good cfg nos nfs si seq top sub p W S U P Q Hs Hp L) as (_ & _ & G1 & G2 & _). fold f0 in G1, G2.
  split; [assumption|]. split; [lia|]. clear G1 G2.
  assert (Hat : forall o q, at_index nfs o = Some q -> netif_ok q).
  { intros [i|] q E; [|discriminate]. apply find_some in E as [E _]. now apply (well_in nfs). }
  assert (Hin : inputs_ok seq (netif_media nos sub) (at_index nfs (nf_parent sub)) (at_index nfs (si_mnetif si)) nfs si).
  { split; [now apply ok_probed|]. split; [apply Hat|]. split; [apply Hat|]. split; [intros v; now apply well_in|]. now split. }
  destruct (bare_fields _ _ (media_bare nos sub)) as (_ & Bn & _ & Bh & _).
  assert (LA : 14 <= zlen (SpecAdv.advert p (nc_opts (sc_net cfg)) seq (netif_media nos sub) (at_index nfs (nf_parent sub)) (at_index nfs (si_mnetif si)) nfs si)) by (apply advert_len; now apply ok_probed).
  unfold f0, frame_due in *. clear f0. set (f := SpecAdv.advert _ _ _ _ _ _ _ _) in *.
  assert (LF : zlen f <= 1518) by (destruct (_ && _); [rewrite blank_len in L by lia|]; exact L).
  destruct (advert_shape p _ seq _ _ _ nfs si Hp Hin U P LF) as (B & M & dst & rest & pl & E & Ld & K). fold f in B, M, E.
  assert (L6 : zlen (nf_hwaddr (netif_media nos sub)) = 6) by (apply ok_hw; now apply ok_probed).
  assert (Src : forall s, zlen s = 6 -> firstn 6 (skipn 6 (dst ++ s ++ rest)) = s).
  { intros s Ls. replace 6%nat with (Z.to_nat (zlen dst)) at 2 by (rewrite Ld; reflexivity). rewrite skipn_zlen_app.
    replace 6%nat with (Z.to_nat (zlen s)) by (rewrite Ls; reflexivity). apply firstn_zlen_app. }
  assert (BL : blanked f = dst ++ [0; 0; 0; 0; 0; 0] ++ rest).
  { unfold blanked. rewrite E. f_equal; [|f_equal].
    - change 6%nat with (Z.to_nat 6). rewrite <- Ld. apply firstn_zlen_app.
    - rewrite app_assoc. replace 12%nat with (Z.to_nat (zlen (dst ++ nf_hwaddr (netif_media nos sub)))) by (rewrite zlen_app; lia). apply skipn_zlen_app. }
  assert (Ff : proto_frame p f pl) by (rewrite E; now apply K).
  destruct (built_meant p _ _ _ _ _ _ _ pl Hp N2 Hin CC B (conj M LF) Ff) as (attrs & X1 & X2 & X3). rewrite Bn in X3.
  destruct (_ && _).
  - rewrite BL. split; [right; now apply Src|]. exists pl, attrs. split; [now apply K|]. now split.
  - split; [left; rewrite <- Bh, E; now apply Src|]. exists pl, attrs. now split.
Qed.

(** ** The receiver *)
Lemma group_frame p f pl : 0 <= p < 6 -> p <> 2 -> proto_frame p f pl -> firstn 6 f = group_address (arrives p) /\ named_frame f.
Proof.
  intros Hp N2 H. assert (C : p = 0 \/ p = 1 \/ p = 3 \/ p = 4 \/ p = 5) by lia. unfold named_frame.
  destruct C as [->|[->|[->|[->| ->]]]]; cbn [proto_frame] in H.
  all: split; [|exists pl; auto].
  all: destruct H; reflexivity.
Qed.
Lemma queue_ok opts c d index p received f now now2 sub proto ttl attrs : bytes f -> carries d index p received f -> 0 <= p < 6 -> 60 <= zlen f <= 1518 ->
  now <> -1 -> netif_byindex (c_nfs c) index = Some sub -> netif_byaddr (c_nfs c) (firstn 6 (skipn 6 f)) = None ->
  SpecChild.advert p f proto ttl attrs -> exists c' eff, child_queue opts c d now now2 = DOk (c', eff).
Proof.
  intros Hb Hc Hp Hl Hn Hi Ha Had. rewrite (rcv_good opts c d index p received f now now2 Hb Hc Hp Hl Hn sub proto ttl attrs Hi Ha Had).
  destruct (queue_put _ _ _) as [q fresh]. cbv zeta. destruct (ttl =? 0).
  - destruct (child_expire _ _ _) as [c' eff]. eauto.
  - destruct (_ || _); [eauto|]. destruct (_ && _); eauto.
Qed.
Lemma neighbour_listed cfg os country location st e st' eff i p f opts es c eff0 index sub now now2 :
  running_on cfg os country location st -> event_ok e -> send_step cfg st e = DOk (st', eff) -> In (SFrame i p f) eff -> p <> 2 ->
  Z.testbit opts 2 = true -> reached opts es c eff0 -> 0 <= index < 4294967296 ->
  netif_byindex (c_nfs c) index = Some sub -> netif_byaddr (c_nfs c) (firstn 6 (skipn 6 f)) = None -> now <> -1 ->
  exists c', hears opts c index f now now2 c'
  /\ (exists d pl, parent_recv index [f] = [d] /\ bytes f /\ 60 <= zlen f <= 1518 /\ 0 <= arrives p < 6
      /\ carries d index (arrives p) 0 f /\ proto_frame (arrives p) f pl)
  /\ (exists port en, In port (table st') /\ nf_index port = i /\ named os (st_si st')
      /\ In en (c_queue c') /\ q_index en = index /\ q_name en = nf_name sub /\ q_proto en = p /\ q_received en = now /\ q_ttl en = 180
      /\ (source en = nf_hwaddr port \/ source en = repeat 0 6)
      /\ nth 0 (q_peer en) None = told p (si_hostname (st_si st')) /\ nth 1 (q_peer en) None = told p (nf_name port))
  /\ (forall en, who en <> (index, p, firstn 12 f) -> In en (c_queue c') <-> In en (c_queue c)).
Proof.
  intros R O H K N2 Hr Hre Hx Hi Ha Hn.
  destruct (sent_from _ _ _ _ _ _ _ _ (on_running _ _ _ _ _ R) O H K) as (nos & nfs & si & seq & top & s & port & W & S & U & P & CC & Esi & Hs & -> & Hp & Q & Ef & L & Ip & P1 & P2 & P3).
  specialize (CC (on_consistent _ _ _ _ _ R)).
  assert (Nm : named os (st_si st')).
  { destruct (on_keeps _ _ _ _ _ (on_event _ _ _ _ _ _ _ _ R O H)) as (_ & _ & _ & [E1 _ E2 E3 _ _ _ _ _] & _).
    pose proof (boot_named os country location) as N. unfold named in *. now rewrite E3. }
  rewrite Ef in L. destruct (due_meant _ _ _ _ _ _ _ _ W S U P CC Q Hs Hp N2 L) as (B & L60 & Src & pl & attrs & Fr & M & A0 & A1). rewrite <- Ef in *.
  destruct (group_frame p f pl Hp N2 Fr) as [Ga Nf].
  assert (Hp' : 0 <= arrives p < 5) by (unfold arrives; destruct (Z.eqb_spec p 5); lia).
  destruct (forward_cases index f Hx B) as (_ & _ & Fw). destruct (Fw (arrives p) L60 Hp' Ga) as (d & Fd & Cd).
  rewrite (firstn_all2 (n := 1518%nat) f) in Cd by (unfold zlen in L; lia).
  assert (Ad : SpecChild.advert (arrives p) f p 180 attrs) by exact (meant_advert _ _ pl _ _ _ (frame_arrives p f pl Hp Fr) M).
  destruct (queue_ok opts c d index (arrives p) 0 f now now2 sub p 180 attrs B Cd ltac:(lia) (conj L60 L) Hn Hi Ha Ad) as (c' & eff' & Eq).
  exists c'. split; [|].
  - split; [apply (filter_iff opts f Hr B); assumption|]. exists d, eff'. split; [|exact Eq]. unfold parent_recv. now rewrite Fd.
  - split.
    { exists d, pl. split; [unfold parent_recv; now rewrite Fd|]. split; [assumption|]. split; [lia|]. split; [lia|]. split; [assumption|]. now apply frame_arrives. }
    destruct (rcv_table opts c d index (arrives p) 0 f now now2 sub p 180 attrs c' eff' (reached_ok opts es c eff0 Hre) B Cd ltac:(lia) (conj L60 L) Hn Hi Ha Ad ltac:(lia) Eq)
      as ((en & I1 & I2 & I3 & I4 & I5 & I6 & I7 & I8 & I9) & Oth).
    split; [|exact Oth]. exists port, en. split; [assumption|]. split; [assumption|]. split; [assumption|]. split; [assumption|]. split; [assumption|].
    split; [assumption|]. split; [assumption|]. split; [assumption|]. split; [assumption|]. split; [|split].
    + unfold source. rewrite I7. rewrite skipn_app, firstn_app. rewrite skipn_length.
      replace (6 - length f)%nat with 0%nat by (unfold zlen in L60; lia). replace (6 - (length f - 6))%nat with 0%nat by (unfold zlen in L60; lia).
      cbn [firstn]. rewrite app_nil_r, P3. exact Src.
    + rewrite I9, A0, Esi. reflexivity.
    + rewrite I9, A1, P2. reflexivity.
Qed.

(** ** The client *)
Lemma run_snoc opts e : forall es c c1 eff1 c2 eff2, child_run opts c es = DOk (c1, eff1) -> child_step opts c1 e = DOk (c2, eff2) ->
  child_run opts c (es ++ [e]) = DOk (c2, eff1 ++ eff2).
Proof.
  induction es as [|a es IH]; intros c c1 eff1 c2 eff2 H K.
  - cbn in H. injection H as <- <-. cbn [app child_run]. rewrite K. cbn. now rewrite app_nil_r.
  - cbn [app child_run] in *. apply dbind_ok in H as ([x effx] & H1 & H). rewrite H1. cbn [dbind].
    apply dbind_ok in H as ([y effy] & H2 & H). injection H as <- <-. rewrite (IH x y effy c2 eff2 H2 K). cbn [dbind]. now rewrite app_assoc.
Qed.
Lemma neighbour_shown cfg os country location st e st' eff i p f opts es c eff0 index sub now now2 c' t ifindex ws :
  running_on cfg os country location st -> event_ok e -> send_step cfg st e = DOk (st', eff) -> In (SFrame i p f) eff -> p <> 2 ->
  Z.testbit opts 2 = true -> reached opts es c eff0 -> Forall daemon_event es -> 0 <= index < 4294967296 ->
  netif_byindex (c_nfs c) index = Some sub -> netif_byaddr (c_nfs c) (firstn 6 (skipn 6 f)) = None ->
  hears opts c index f now now2 c' ->
  0 <= now <= t -> t <= now + 180 -> t < 9223372036854775808 ->
  (forall en, In en (c_queue c') -> q_received en <= t) -> undisturbed (fun _ => true) (fresh t) (c_queue c') ->
  exists items text, cli_main [] [] ifindex t ws (map entry_bytes (c_queue c')) = Some (DOk (map OShow items, text))
  /\ exists x port, In x items /\ In port (table st') /\ nf_index port = i
     /\ sh_index x = index /\ sh_name x = nf_name sub /\ sh_proto x = p /\ sh_hold x = 180 - (t - now)
     /\ nth 0 (sh_peer x) None = told p (si_hostname (st_si st')) /\ nth 1 (sh_peer x) None = told p (nf_name port).
Proof.
  intros R O H K N2 Hr Hre De Hx Hi Ha He Hnow Ht Ht2 Hrec Hun.
  destruct (neighbour_listed cfg os country location st e st' eff i p f opts es c eff0 index sub now now2 R O H K N2 Hr Hre Hx Hi Ha ltac:(lia))
    as (c'' & Hh & (d & pl & Pd & B & L & Ap & Cd & Fr) & (port & en & I1 & I2 & _ & I3 & I4 & I5 & I6 & I7 & I8 & _ & I9 & I10) & _).
  assert (c'' = c').
  { destruct He as (_ & d1 & e1 & X1 & X2). destruct Hh as (_ & d2 & e2 & Y1 & Y2). rewrite X1 in Y1. injection Y1 as <-. rewrite X2 in Y2. now injection Y2. }
  subst c''. destruct He as (_ & d1 & e1 & X1 & X2). rewrite Pd in X1. injection X1 as <-.
  assert (Re : reached opts (es ++ [CRecv d now now2]) c' (eff0 ++ e1)) by (eapply run_snoc; [exact Hre|exact X2]).
  assert (G : Forall genuine (c_queue c')).
  { eapply table_genuine; [|exact Re]. apply Forall_app. split; [assumption|]. constructor; [|constructor].
    cbn [daemon_event]. split; [lia|]. exists index, (arrives p), f, pl. repeat (split; [assumption|]). assumption. }
  destruct (client_shows [] [] ifindex t ws (c_queue c')) as (text & T).
  - split; [intros ? []|]. split; [|intros ? []]. intros a b. left. destruct a; discriminate.
  - intros [].
  - lia.
  - exact G.
  - exact Hrec.
  - intros ? _ _ [].
  - exact Hun.
  - exists (map (display t) (filter (fun e => asked [] (q_proto e) && asked_if [] ifindex (q_index e) && fresh t e) (c_queue c'))), text.
    split; [exact T|]. exists (display t en), port. split.
    + apply in_map, filter_In. split; [assumption|]. cbn [asked asked_if existsb orb negb andb]. unfold fresh. rewrite I7, I8. lia.
    + cbn [display sh_index sh_name sh_proto sh_hold sh_peer]. rewrite I7, I8. repeat (split; [assumption|]). split; [reflexivity|]. now split.
Qed.
