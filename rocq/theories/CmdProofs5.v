(** Proofs of C145. *)
From Verif Require Import Base Types Tlv Msg Protos Wire Util Child Netif Sysinfo Send Bsd HostBsd BsdSend Opts Getopt Config
  Spec SpecChild SpecAdv SpecNetif SpecNetif2 SpecSend SpecSys SpecOpts SpecGetopt SpecCmd SpecCmd2 SpecFlow SpecBsd SpecHostBsd SpecBsdSend SpecBsdE2E.
From Verif Require Import Lemmas VisProofs TypesProofs EncProofs EncProps TlvInj OptsProofs GetoptProofs ChildProofs4 NetifProofs6 NetifProofs8 NetifProofs9 SendProofs1 SendProofs2 SendProofs3 SendProofs4 SendProofs5 SendProofs6
  SysProofs1 SysProofs3 BsdProofs1 BsdProofs3 BsdSendProofs1 BsdSendProofs2 BsdSendProofs3 E2EProofs BsdE2EProofs CmdProofs CmdProofs2 CmdBsdProofs.

(** ** What a frame contains *)
Definition is8 (t : tlv) : bool := fst t =? 8.
Lemma filter_when {A} (f : A -> bool) b l : filter f (when b l) = when b (filter f l). Proof. now destruct b. Qed.
Lemma when_nil {A} b : when b (@nil A) = []. Proof. now destruct b. Qed.
Lemma filter_orgs {A} (g : A -> tlv) (l : list A) : (forall x, is8 (g x) = false) -> filter is8 (map g l) = [].
Proof. intros H. induction l as [|x l IH]; [reflexivity|]. cbn [map filter]. now rewrite H. Qed.
Lemma content_managed opts n p m nfs si a b c z :
  filter is8 ([(1, a); (2, b); (3, c)] ++ lldp_content opts n p m nfs si ++ [(0, z)]) = managed m.
Proof.
  unfold lldp_content. cbv zeta. rewrite !filter_app, !filter_when. rewrite (filter_orgs (fun v => org_tlv _ _ _)) by reflexivity.
  unfold org_tlv, mgmt_tlv, managed. cbn [filter is8 fst Z.eqb Pos.eqb app]. rewrite !when_nil. cbn [app]. unfold mgmt_tlv. rewrite ?app_nil_r. reflexivity.
Qed.
Lemma frame_managed opts seq n par mgmt nfs si (c : bool) f tlvs :
  inputs_ok seq n par mgmt nfs si -> netif_ok n ->
  f = (let g := advert 0 opts seq n par mgmt nfs si in if c then blanked g else g) ->
  Forall lldp_fits tlvs -> skipn 14 f = flat_map lldp_bytes tlvs -> filter is8 tlvs = managed (up (up n par) mgmt).
Proof.
  intros Hin Hn Ef F E. cbv zeta in Ef. set (g := advert 0 opts seq n par mgmt nfs si) in *.
  assert (G : skipn 14 f = skipn 14 g).
  { rewrite Ef. destruct c; [|reflexivity]. unfold blanked.
    assert (LG : 14 <= zlen g) by (apply advert_len; exact Hn).
    change 14%nat with (6 + (6 + 2))%nat. replace 6%nat with (length (firstn 6 g)) at 1 by (rewrite firstn_length; unfold zlen in LG; lia).
    rewrite skipn_app, skipn_all2 by lia. replace (length (firstn 6 g) + (6 + 2) - length (firstn 6 g))%nat with (6 + 2)%nat by lia.
    cbn [skipn app Nat.add]. clear. do 12 (destruct g as [|? g]; [reflexivity|]). reflexivity. }
  rewrite G in E. rewrite (lldp_frame_tlvs _ _ _ _ _ _ _ g tlvs Hin eq_refl F E). apply content_managed.
Qed.

(** ** The table of the refresh and the one afterwards *)
Definition keep (n : netif) : netif := fixed (SendProofs2.bare n).
Lemma keep_fixed T T' : map fixed T = map fixed T' -> map keep T = map keep T'.
Proof. intros E. apply (f_equal (map SendProofs2.bare)) in E. rewrite !map_map in E. exact E. Qed.
Lemma keep_bare T T' : map SendProofs2.bare T = map SendProofs2.bare T' -> map keep T = map keep T'.
Proof. intros E. apply (f_equal (map fixed)) in E. rewrite !map_map in E. exact E. Qed.
Lemma keep_is n m : keep n = keep m ->
  nf_index n = nf_index m /\ nf_name n = nf_name m /\ nf_parent n = nf_parent m /\ managed n = managed m.
Proof.
  intros E. pose proof (f_equal nf_index E) as E1. pose proof (f_equal nf_hwaddr E) as E2. pose proof (f_equal nf_ipaddr4 E) as E3. pose proof (f_equal nf_ipaddr6 E) as E4.
  change (nf_index n = nf_index m) in E1. change (nf_hwaddr n = nf_hwaddr m) in E2. change (nf_ipaddr4 n = nf_ipaddr4 m) in E3. change (nf_ipaddr6 n = nf_ipaddr6 m) in E4.
  split; [exact E1|]. split; [exact (f_equal nf_name E)|]. split; [exact (f_equal nf_parent E)|]. unfold managed. now rewrite E1, E2, E3, E4.
Qed.
Lemma keep_in T T' n : map keep T = map keep T' -> In n T -> exists m, In m T' /\ keep n = keep m.
Proof. intros E H. apply (in_map keep) in H. rewrite E in H. apply in_map_iff in H as (m & H1 & H2). now exists m. Qed.
Lemma keep_at : forall T T' o, map keep T = map keep T' -> option_map keep (at_index T o) = option_map keep (at_index T' o).
Proof.
  intros T T' [i|]; [|reflexivity]. cbn [at_index]. revert T'. induction T as [|n T IH]; intros [|m T'] E; try discriminate E; [reflexivity|].
  pose proof (f_equal (hd (keep n)) E) as E1. pose proof (f_equal (@tl netif) E) as E2. cbn [map hd tl] in E1, E2. cbn [find]. destruct (keep_is n m E1) as (X & _). unfold index_is. rewrite X.
  destruct (nf_index m =? i); [cbn; now rewrite E1|now apply IH].
Qed.
Lemma at_in nfs n : NoDup (indices nfs) -> In n nfs -> at_index nfs (Some (nf_index n)) = Some n.
Proof. intros D H. exact (byindex_in nfs n D H). Qed.

(** ** Linux *)
Definition l_origin cfg os (st st' : sstate) i p f : Prop :=
  exists ret nfs gone seq top sub,
    netif_fetch (sc_net cfg) os (table st) (st_si st) = (ret, nfs, st_si st', gone) /\ ret <> 0
    /\ well nfs /\ NoDup (indices nfs) /\ sysinfo_ok (st_si st') /\ In sub nfs /\ i = nf_index sub /\ 0 <= seq < 65536
    /\ f = frame_due cfg os nfs (st_si st') seq (top, sub, p) /\ map keep (table st') = map keep nfs.
Lemma send_l_origin cfg os index timeout now st st' eff i p f : os_ok os -> inv st -> child_send cfg os index timeout now st = (st', eff) ->
  In (SFrame i p f) eff -> l_origin cfg os st st' i p f.
Proof.
  intros O I0 H K. apply in_frames in K. destruct (send_core _ _ _ _ _ _ _ _ O I0 H) as (st1 & eff1 & C & F & E1 & _ & E3). rewrite F in K.
  assert (E4 : map fixed (table st') = map fixed (table st1)) by (unfold table; destruct (_ && _); rewrite E3; [apply expire_fixed|reflexivity]).
  destruct C as [F1|ret nfs si gone eff1 FL F1 Z E5|ret nfs si gone T eff1 FL F1 Z G W D Si HT HL E5]; [easy|rewrite E5 in K; easy|].
  rewrite E5 in K. cbn [st_si] in E1.
  apply due_from in K; [|exact (inv_edp _ I0)]. destruct K as (top & sub & seq & Q' & X1 & X2 & X3 & X4). apply all_due_in in X1 as (X1 & _ & X5 & X6 & _).
  exists ret, nfs, gone, seq, top, sub. rewrite E1. repeat (split; [assumption|]).
  rewrite (keep_fixed _ _ E4). unfold table. cbn [st_child c_nfs set_nfs]. exact (keep_bare _ _ (touches_bare _ _ _ HT)).
Qed.
Definition asks (e : sevent) (os : nos) : Prop := match e with EvRun o _ | EvLink o _ _ _ _ => o = os | EvChild _ => False end.
Lemma step_l_origin cfg st e st' eff i p f : inv st -> event_ok e -> send_step cfg st e = DOk (st', eff) -> In (SFrame i p f) eff ->
  exists os, asks e os /\ os_ok os /\ l_origin cfg os st st' i p f.
Proof.
  intros R O H K. destruct e as [os now|os hatype flags index now|e].
  - cbn in H. injection H as H. exists os. split; [reflexivity|]. split; [exact O|]. exact (send_l_origin _ _ _ _ _ _ _ _ _ _ _ O R H K).
  - cbn in H. injection H as H. unfold child_link in H. destruct (negb _); [injection H as <- <-; easy|]. destruct (negb _); [injection H as <- <-; easy|].
    exists os. split; [reflexivity|]. split; [exact O|]. exact (send_l_origin _ _ _ _ _ _ _ _ _ _ _ O R H K).
  - apply in_frames in K. destruct (child_frames _ _ _ _ _ R H) as (_ & E & _). rewrite E in K. easy.
Qed.
Lemma l_managed cfg os st st' i f tlvs : l_origin cfg os st st' i 0 f -> Forall lldp_fits tlvs -> skipn 14 f = flat_map lldp_bytes tlvs ->
  exists port, In port (table st') /\ nf_index port = i
    /\ filter is8 tlvs = managed (up (up port (at_index (table st') (nf_parent port))) (at_index (table st') (si_mnetif (st_si st')))).
Proof.
  intros (ret & nfs & gone & seq & top & sub & _ & _ & W & D & Si & Hs & Ei & Q & Ef & KT) F E.
  assert (Hat : forall o q, at_index nfs o = Some q -> netif_ok q).
  { intros [x|] q X; [|discriminate]. apply find_some in X as [X _]. now apply (well_in nfs). }
  pose proof (well_in _ _ W Hs) as Ok.
  destruct (keep_in nfs (table st') sub (eq_sym KT) Hs) as (port & Ip & Kp). destruct (keep_is _ _ Kp) as (P1 & _ & P3 & P4).
  exists port. split; [exact Ip|]. split; [congruence|].
  assert (Hn : netif_ok (netif_media os sub)) by now apply ok_probed.
  rewrite (frame_managed (nc_opts (sc_net cfg)) seq (netif_media os sub) (at_index nfs (nf_parent sub)) (at_index nfs (si_mnetif (st_si st'))) nfs (st_si st')
    ((nf_bonding_mode top =? 2) && negb (nf_child sub =? 1)) f tlvs); try assumption.
  - pose proof (keep_at _ _ (si_mnetif (st_si st')) KT) as A1. pose proof (keep_at _ _ (nf_parent sub) KT) as A2. rewrite <- P3.
    destruct (at_index nfs (si_mnetif (st_si st'))) as [m|], (at_index (table st') (si_mnetif (st_si st'))) as [m'|]; try discriminate A1; cbn [up].
    + cbn in A1. assert (X : keep m' = keep m) by congruence. destruct (keep_is _ _ X) as (_ & _ & _ & ->). reflexivity.
    + destruct (at_index nfs (nf_parent sub)) as [q|], (at_index (table st') (nf_parent sub)) as [q'|]; try discriminate A2; cbn [up].
      * cbn in A2. assert (X : keep q' = keep q) by congruence. destruct (keep_is _ _ X) as (_ & _ & _ & ->). reflexivity.
      * rewrite <- P4. assert (X : keep (netif_media os sub) = keep sub) by exact (f_equal fixed (media_bare os sub)).
        destruct (keep_is _ _ X) as (_ & _ & _ & ->). reflexivity.
  - split; [assumption|]. split; [apply Hat|]. split; [apply Hat|]. split; [intros v; now apply well_in|]. now split.
Qed.

(** ** Without a management interface there is none *)
Definition unmanaged (c : ncfg) : Prop := nc_mifname c = None /\ addr_set (nc_maddr4 c) = false /\ addr_set (nc_maddr6 c) = false.
Lemma addr_one_none c x ia : unmanaged c -> si_mnetif (snd (addr_one c x ia)) = si_mnetif (snd x).
Proof.
  intros (_ & U4 & U6). destruct x as [nfs si]. unfold addr_one. rewrite U4, U6. cbn [andb].
  destruct (ia_addr ia) as [sa|]; [|reflexivity]. destruct (netif_byname nfs (ia_name ia)) as [n|]; [|reflexivity].
  destruct sa as [h i hw|a|a|]; [reflexivity| | |reflexivity].
  - destruct (addr_set (nf_ipaddr4 n)); [reflexivity|]. now destruct (si_mnetif si).
  - destruct (addr_set (nf_ipaddr6 n)); [reflexivity|]. destruct (linklocal a); [reflexivity|]. now destruct (si_mnetif si).
Qed.
Lemma addr_fold_none c : unmanaged c -> forall ias x, si_mnetif (snd (fold_left (addr_one c) ias x)) = si_mnetif (snd x).
Proof. intros U. induction ias as [|ia ias IH]; intros x; [reflexivity|]. cbn [fold_left]. rewrite IH. now apply addr_one_none. Qed.
Lemma fetch_unmanaged c os T si ret nfs si' gone : unmanaged c -> NoDup (indices T) -> si_mnetif si = None ->
  netif_fetch c os T si = (ret, nfs, si', gone) -> si_mnetif si' = None.
Proof.
  intros U D M F. destruct (no_ifaddrs os) as [ias|] eqn:E; [|rewrite (SendProofs3.fetch_none _ _ _ _ E) in F; injection F as _ _ <- _; exact M].
  destruct (fetch_full _ _ _ _ _ _ _ _ _ E D F) as (tb1 & si1 & count & tb2 & si2 & tb3 & tb4 & si4 & F1 & R & _ & _ & _ & A & S1 & _).
  apply fetch_fold_si in F1 as (_ & F2 & _). cbn [si_mnetif set_caps] in F2. rewrite M in F2.
  assert (F3 : si_mnetif si1 = None).
  { destruct (pick_fold c os ias None) as [(ia & i & _ & _ & X & _)|[_ X]]; [destruct U as [U _]; congruence|]. now rewrite F2. }
  assert (R2 : si_mnetif si2 = None) by (unfold remove_old in R; injection R as _ <- _; now rewrite F3).
  assert (R4 : si_mnetif si4 = None).
  { unfold netif_addrs in A. pose proof (addr_fold_none c U ias (tb3, si2)) as X. destruct (fold_left (addr_one c) ias (tb3, si2)) as [n1 s1]. cbn [snd] in X.
    rewrite R2 in X. rewrite X in A. destruct (negb _); injection A as _ <-; exact X. }
  rewrite S1. now destruct tb4.
Qed.
Lemma running_unmanaged cfg st : unmanaged (sc_net cfg) -> running cfg st -> si_mnetif (st_si st) = None.
Proof.
  intros U. induction 1 as [os country location B C L|st e st' eff R IH O H]; [now destruct (boot_ok _ _ _ B C L) as (_ & _ & _ & X)|].
  destruct (step_shape _ _ _ _ _ H) as [(-> & _)|(os & ret & nfs' & gone & K1 & _)]; [assumption|].
  exact (fetch_unmanaged _ _ _ _ _ _ _ _ U (inv_nodup _ (running_inv _ _ R)) IH K1).
Qed.

(** ** BSD *)
Definition b_asks (e : bevent) (os : bos) : Prop := match e with BRun o _ | BLink o _ _ => o = os | BChild _ => False end.
Definition bl_origin cfg pf os (st st' : sstate) i p f : Prop :=
  exists ret nfs gone seq top sub,
    bsd_fetch (sc_net cfg) pf os (table st) (st_si st) = (ret, nfs, st_si st', gone) /\ ret <> 0
    /\ well nfs /\ NoDup (indices nfs) /\ sysinfo_ok (st_si st') /\ In sub nfs /\ i = nf_index sub /\ 0 <= seq < 65536
    /\ f = b_frame_due cfg os nfs (st_si st') seq (top, sub, p) /\ map keep (table st') = map keep nfs.
Lemma send_bl_origin cfg pf os index timeout now st st' eff i p f : b_ok os -> inv st -> bc_send cfg pf os index timeout now st = (st', eff) ->
  In (SFrame i p f) eff -> bl_origin cfg pf os st st' i p f.
Proof.
  intros O I0 H K. apply in_frames in K. destruct (b_send_core _ _ _ _ _ _ _ _ _ O I0 H) as (st1 & eff1 & C & F & E1 & _ & E3). rewrite F in K.
  assert (E4 : map fixed (table st') = map fixed (table st1)) by (unfold table; destruct (_ && _); rewrite E3; [apply expire_fixed|reflexivity]).
  destruct C as [F1|ret nfs si gone eff1 FL F1 Z E5|ret nfs si gone T eff1 FL F1 Z G W D Si HT HL E5]; [easy|rewrite E5 in K; easy|].
  rewrite E5 in K. cbn [st_si] in E1.
  apply b_due_from in K; [|exact (inv_edp _ I0)]. destruct K as (top & sub & seq & Q' & X1 & X2 & X3 & X4). apply all_due_in in X1 as (X1 & _ & X5 & X6 & _).
  exists ret, nfs, gone, seq, top, sub. rewrite E1. repeat (split; [assumption|]).
  rewrite (keep_fixed _ _ E4). unfold table. cbn [st_child c_nfs set_nfs]. exact (keep_bare _ _ (b_touches_bare _ _ _ HT)).
Qed.
Lemma step_bl_origin cfg pf st e st' eff i p f : inv st -> b_event_ok e -> bc_step cfg pf st e = DOk (st', eff) -> In (SFrame i p f) eff ->
  exists os, b_asks e os /\ b_ok os /\ bl_origin cfg pf os st st' i p f.
Proof.
  intros R O H K. destruct e as [os now|os m now|e].
  - cbn in H. injection H as H. exists os. split; [reflexivity|]. split; [exact O|]. exact (send_bl_origin _ _ _ _ _ _ _ _ _ _ _ _ O R H K).
  - cbn in H. injection H as H. destruct O as [O _]. unfold bc_link in H. destruct (_ || _ || _); [injection H as <- <-; easy|].
    do 3 (destruct (negb _); [injection H as <- <-; easy|]). exists os. split; [reflexivity|]. split; [exact O|]. exact (send_bl_origin _ _ _ _ _ _ _ _ _ _ _ _ O R H K).
  - apply in_frames in K. destruct (child_frames _ _ _ _ _ R H) as (_ & E & _). rewrite E in K. easy.
Qed.
Lemma bl_managed cfg pf os st st' i f tlvs : bl_origin cfg pf os st st' i 0 f -> Forall lldp_fits tlvs -> skipn 14 f = flat_map lldp_bytes tlvs ->
  exists port, In port (table st') /\ nf_index port = i
    /\ filter is8 tlvs = managed (up (up port (at_index (table st') (nf_parent port))) (at_index (table st') (si_mnetif (st_si st')))).
Proof.
  intros (ret & nfs & gone & seq & top & sub & _ & _ & W & D & Si & Hs & Ei & Q & Ef & KT) F E.
  assert (Hat : forall o q, at_index nfs o = Some q -> netif_ok q).
  { intros [x|] q X; [|discriminate]. apply find_some in X as [X _]. now apply (well_in nfs). }
  pose proof (well_in _ _ W Hs) as Ok.
  destruct (keep_in nfs (table st') sub (eq_sym KT) Hs) as (port & Ip & Kp). destruct (keep_is _ _ Kp) as (P1 & _ & P3 & P4).
  exists port. split; [exact Ip|]. split; [congruence|].
  assert (Hn : netif_ok (bsd_media os sub)) by now apply ok_bmedia.
  rewrite (frame_managed (nc_opts (sc_net cfg)) seq (bsd_media os sub) (at_index nfs (nf_parent sub)) (at_index nfs (si_mnetif (st_si st'))) nfs (st_si st')
    ((nf_bonding_mode top =? 2) && negb (nf_child sub =? 1)) f tlvs); try assumption.
  - pose proof (keep_at _ _ (si_mnetif (st_si st')) KT) as A1. pose proof (keep_at _ _ (nf_parent sub) KT) as A2. rewrite <- P3.
    destruct (at_index nfs (si_mnetif (st_si st'))) as [m|], (at_index (table st') (si_mnetif (st_si st'))) as [m'|]; try discriminate A1; cbn [up].
    + cbn in A1. assert (X : keep m' = keep m) by congruence. destruct (keep_is _ _ X) as (_ & _ & _ & ->). reflexivity.
    + destruct (at_index nfs (nf_parent sub)) as [q|], (at_index (table st') (nf_parent sub)) as [q'|]; try discriminate A2; cbn [up].
      * cbn in A2. assert (X : keep q' = keep q) by congruence. destruct (keep_is _ _ X) as (_ & _ & _ & ->). reflexivity.
      * rewrite <- P4. assert (X : keep (bsd_media os sub) = keep sub) by exact (f_equal fixed (bmedia_bare os sub)).
        destruct (keep_is _ _ X) as (_ & _ & _ & ->). reflexivity.
  - split; [assumption|]. split; [apply Hat|]. split; [apply Hat|]. split; [intros v; now apply well_in|]. now split.
Qed.
Lemma b_running_unmanaged cfg pf st : unmanaged (sc_net cfg) -> b_running cfg pf st -> si_mnetif (st_si st) = None.
Proof.
  intros U. induction 1 as [o country location B C L|st e st' eff R IH O H]; [now destruct (b_boot_fine _ _ _ _ B C L) as (_ & _ & _ & X)|].
  pose proof (inv_nodup _ (b_running_inv _ _ _ R)) as D.
  destruct (b_step_shape _ _ _ _ _ _ (b_running_inv _ _ _ R) O H) as [(-> & _)|(os & ret & nfs' & gone & K0 & K1 & _)]; [assumption|].
  destruct (as_linux (sc_net cfg) pf os (table st) (st_si st) K0 D) as (l & X & _). rewrite X in K1.
  exact (fetch_unmanaged _ _ _ _ _ _ _ _ U D IH K1).
Qed.

(** ** The command line *)
Lemma zeros_unset k : addr_set (repeat 0 k) = false. Proof. induction k as [|k IH]; [reflexivity|exact IH]. Qed.
Lemma opts_unmanaged n o names s : main_opts n o names = Some s -> given (bs "m") o = false -> unmanaged (sc_net (conf_of s names)).
Proof.
  intros M G. destruct (opts_values n o names s M) as (_ & _ & _ & _ & _ & E1 & E2 & E3).
  assert (A : args_of 109 o = []).
  { destruct (args_of 109 o) as [|a l] eqn:X; [reflexivity|]. exfalso. change (bs "m") with [109] in G.
    assert (Y : given [109] o = true) by (apply given_args; rewrite X; discriminate). congruence. }
  unfold m_interfaces in E1. unfold m_v4 in E2. unfold m_v6 in E3. rewrite A in E1, E2, E3. cbn [filter map last] in E1, E2, E3.
  unfold conf_of, unmanaged. cbn [sc_net nc_mifname nc_maddr4 nc_maddr6]. rewrite E1, E2, E3. cbn [or_zero]. split; [reflexivity|]. split; apply zeros_unset.
Qed.
Lemma opts_managed n o names s l x : main_opts n o names = Some s -> m_interfaces n o = l ++ [x] -> nc_mifname (sc_net (conf_of s names)) = Some x.
Proof.
  intros M G. destruct (opts_values n o names s M) as (_ & _ & _ & _ & _ & E1 & _). unfold conf_of. cbn [sc_net nc_mifname].
  rewrite E1, G, map_app. cbn [map]. apply last_last.
Qed.
Lemma cmd_managed n perm words s names o st e st' eff i f tlvs l m :
  main_argv n perm words = Some (s, names) -> says perm daemon_letters words o names ->
  running (conf_of s names) st -> event_ok e -> event_apart e ->
  send_step (conf_of s names) st e = DOk (st', eff) -> In (SFrame i 0 f) eff ->
  Forall lldp_fits tlvs -> skipn 14 f = flat_map lldp_bytes tlvs ->
  m_interfaces n o = l ++ [nf_name m] -> In m (table st') -> filter (fun t => fst t =? 8) tlvs = managed m.
Proof.
  intros A Y R Oe Ap H K F E G Hm. apply daemon_iff in A as (o' & Y' & M). destruct (says_unique _ _ _ _ _ _ _ (or_introl eq_refl) Y Y') as [<- _]. clear Y'.
  destruct (step_l_origin _ _ _ _ _ _ _ _ (running_inv _ _ R) Oe H K) as (os & Q & O & L).
  destruct (l_managed _ _ _ _ _ _ _ L F E) as (port & _ & _ & X). unfold is8 in X. rewrite X. clear X.
  destruct L as (ret & nfs & gone & seq & top & sub & Fe & NZ & W & D & Si & _ & _ & _ & _ & KT).
  destruct (running_refreshed _ _ R) as (oss & nfs0 & R1 & R2).
  destruct (no_ifaddrs os) as [ias|] eqn:Ei; [|rewrite (SendProofs3.fetch_none _ _ _ _ Ei) in Fe; injection Fe as <- _ _ _; congruence].
  assert (NA : names_apart ias) by (destruct e; cbn in Q, Ap; [subst; now apply Ap|subst; now apply Ap|easy]).
  destruct (refresh_rest _ _ _ _ _ _ _ _ _ _ _ R1 R2 Ei O NA Fe) as (_ & _ & _ & _ & _ & _ & MI & _).
  destruct (keep_in (table st') nfs m KT Hm) as (k & Hk & Kk). destruct (keep_is _ _ Kk) as (K1 & K2 & _ & _).
  rewrite (MI k Hk); [|rewrite (opts_managed n o names s l _ M G); now rewrite K2].
  pose proof (keep_at _ _ (Some (nf_index k)) KT) as A1. rewrite (at_in nfs k D Hk) in A1.
  destruct (at_index (table st') (Some (nf_index k))) as [q|]; [|discriminate A1]. cbn [up]. cbn in A1.
  assert (Z : keep q = keep m) by congruence. now destruct (keep_is _ _ Z) as (_ & _ & _ & ->).
Qed.
Lemma cmd_unmanaged n perm words s names o st e st' eff i f tlvs :
  main_argv n perm words = Some (s, names) -> says perm daemon_letters words o names ->
  running (conf_of s names) st -> event_ok e ->
  send_step (conf_of s names) st e = DOk (st', eff) -> In (SFrame i 0 f) eff ->
  Forall lldp_fits tlvs -> skipn 14 f = flat_map lldp_bytes tlvs ->
  given (bs "m") o = false ->
  exists port, In port (table st') /\ nf_index port = i
    /\ filter (fun t => fst t =? 8) tlvs = managed (up port (at_index (table st') (nf_parent port))).
Proof.
  intros A Y R Oe H K F E G. apply daemon_iff in A as (o' & Y' & M). destruct (says_unique _ _ _ _ _ _ _ (or_introl eq_refl) Y Y') as [<- _]. clear Y'.
  destruct (step_l_origin _ _ _ _ _ _ _ _ (running_inv _ _ R) Oe H K) as (os & _ & _ & L).
  destruct (l_managed _ _ _ _ _ _ _ L F E) as (port & P1 & P2 & X). exists port. split; [assumption|]. split; [assumption|].
  rewrite (running_unmanaged _ _ (opts_unmanaged n o names s M G) (run_event _ _ _ _ _ R Oe H)) in X. exact X.
Qed.
Lemma b_cmd_managed n perm words s names o pf st e st' eff i f tlvs l m :
  main_argv n perm words = Some (s, names) -> says perm daemon_letters words o names ->
  b_running (conf_of s names) pf st -> b_event_ok e ->
  bc_step (conf_of s names) pf st e = DOk (st', eff) -> In (SFrame i 0 f) eff ->
  Forall lldp_fits tlvs -> skipn 14 f = flat_map lldp_bytes tlvs ->
  m_interfaces n o = l ++ [nf_name m] -> In m (table st') -> filter (fun t => fst t =? 8) tlvs = managed m.
Proof.
  intros A Y R Oe H K F E G Hm. apply daemon_iff in A as (o' & Y' & M). destruct (says_unique _ _ _ _ _ _ _ (or_introl eq_refl) Y Y') as [<- _]. clear Y'.
  destruct (step_bl_origin _ _ _ _ _ _ _ _ _ (b_running_inv _ _ _ R) Oe H K) as (os & _ & O & L).
  destruct (bl_managed _ _ _ _ _ _ _ _ L F E) as (port & _ & _ & X). unfold is8 in X. rewrite X. clear X.
  destruct L as (ret & nfs & gone & seq & top & sub & Fe & NZ & W & D & Si & _ & _ & _ & _ & KT).
  destruct (b_running_refreshed _ _ _ R) as (nfs0 & R1 & R2).
  destruct (bo_ifaddrs os) as [ias|] eqn:Ei; [|rewrite (b_fetch_none _ _ _ _ _ Ei) in Fe; injection Fe as <- _ _ _; congruence].
  destruct (b_rest _ _ _ _ _ _ _ _ _ _ _ R1 R2 Ei O Fe) as (_ & _ & _ & _ & _ & _ & MI & _).
  destruct (keep_in (table st') nfs m KT Hm) as (k & Hk & Kk). destruct (keep_is _ _ Kk) as (K1 & K2 & _ & _).
  rewrite (MI k Hk); [|rewrite (opts_managed n o names s l _ M G); now rewrite K2].
  pose proof (keep_at _ _ (Some (nf_index k)) KT) as A1. rewrite (at_in nfs k D Hk) in A1.
  destruct (at_index (table st') (Some (nf_index k))) as [q|]; [|discriminate A1]. cbn [up]. cbn in A1.
  assert (Z : keep q = keep m) by congruence. now destruct (keep_is _ _ Z) as (_ & _ & _ & ->).
Qed.
Lemma b_cmd_unmanaged n perm words s names o pf st e st' eff i f tlvs :
  main_argv n perm words = Some (s, names) -> says perm daemon_letters words o names ->
  b_running (conf_of s names) pf st -> b_event_ok e ->
  bc_step (conf_of s names) pf st e = DOk (st', eff) -> In (SFrame i 0 f) eff ->
  Forall lldp_fits tlvs -> skipn 14 f = flat_map lldp_bytes tlvs ->
  given (bs "m") o = false ->
  exists port, In port (table st') /\ nf_index port = i
    /\ filter (fun t => fst t =? 8) tlvs = managed (up port (at_index (table st') (nf_parent port))).
Proof.
  intros A Y R Oe H K F E G. apply daemon_iff in A as (o' & Y' & M). destruct (says_unique _ _ _ _ _ _ _ (or_introl eq_refl) Y Y') as [<- _]. clear Y'.
  destruct (step_bl_origin _ _ _ _ _ _ _ _ _ (b_running_inv _ _ _ R) Oe H K) as (os & _ & _ & L).
  destruct (bl_managed _ _ _ _ _ _ _ _ L F E) as (port & P1 & P2 & X). exists port. split; [assumption|]. split; [assumption|].
  rewrite (b_running_unmanaged _ _ _ (opts_unmanaged n o names s M G) (brun_event _ _ _ _ _ _ R Oe H)) in X. exact X.
Qed.
