(** Proofs of C144. *)
From Verif Require Import Base Types Tlv Msg Protos Wire Util Child Netif Sysinfo Send Bsd HostBsd BsdSend Opts Getopt Config
  Spec SpecChild SpecAdv SpecNetif SpecNetif2 SpecSend SpecSys SpecOpts SpecGetopt SpecCmd SpecFlow SpecBsd SpecHostBsd SpecBsdSend SpecBsdE2E.
From Verif Require Import Lemmas VisProofs TypesProofs EncProofs EncProps TlvInj OptsProofs GetoptProofs NetifProofs6 NetifProofs9 SendProofs1 SendProofs2 SendProofs3 SendProofs4 SendProofs5 SendProofs6
  SysProofs1 SysProofs3 FlowProofs1 FlowProofs2 RepeatProofs4 BsdProofs1 BsdProofs3 BsdSendProofs1 BsdSendProofs2 BsdSendProofs3 BsdE2EProofs CmdProofs CmdProofs2.

(** ** The table of a running child *)
Lemma b_core_shape cfg pf os index st st1 eff : b_core cfg pf os index st st1 eff ->
  (st_si st1 = st_si st /\ indices (table st1) = indices (table st) /\ map nf_protos (table st1) = map nf_protos (table st))
  \/ exists ret nfs gone, bsd_fetch (sc_net cfg) pf os (table st) (st_si st) = (ret, nfs, st_si st1, gone) /\ indices (table st1) = indices nfs
     /\ map nf_protos (table st1) = map nf_protos nfs.
Proof.
  intros C. destruct C as [F|ret nfs si gone eff FL F Z E|ret nfs si gone T eff FL F Z G W D So HT HL E]; [left; now repeat split|right|right]; exists ret, nfs, gone.
  - now repeat split.
  - split; [assumption|]. unfold table. cbn [st_child c_nfs set_nfs]. split; [exact (b_touches_index _ _ _ HT)|].
    exact (map_factor SendProofs2.bare nf_protos _ _ (fun x y E => f_equal nf_protos E) (b_touches_bare _ _ _ HT)).
Qed.
Definition b_shape cfg pf (st st' : sstate) : Prop :=
  (st_si st' = st_si st /\ indices (table st') = indices (table st) /\ (opt cfg 3 = false -> map nf_protos (table st') = map nf_protos (table st)))
  \/ exists os ret nfs gone, b_ok os /\ bsd_fetch (sc_net cfg) pf os (table st) (st_si st) = (ret, nfs, st_si st', gone) /\ indices (table st') = indices nfs
     /\ (opt cfg 3 = false -> map nf_protos (table st') = map nf_protos nfs).
Lemma b_send_shape cfg pf os index timeout now st st' eff : b_ok os -> inv st -> bc_send cfg pf os index timeout now st = (st', eff) -> b_shape cfg pf st st'.
Proof.
  intros O I0 H. destruct (b_send_core _ _ _ _ _ _ _ _ _ O I0 H) as (st1 & eff1 & C & _ & E1 & _ & E3).
  assert (X : indices (table st') = indices (table st1) /\ (opt cfg 3 = false -> map nf_protos (table st') = map nf_protos (table st1))).
  { unfold table. destruct (_ && _); rewrite E3; [|now split]. split.
    - exact (like_idx true _ _ (child_expire_still true cfg now (st_child st1) (or_introl eq_refl))).
    - intros A3. exact (like_prot _ _ (child_expire_still false cfg now (st_child st1) (or_intror (auto_off cfg A3)))). }
  destruct X as [X1 X2]. destruct (b_core_shape _ _ _ _ _ _ _ C) as [(K1 & K2 & K3)|(ret & nfs & gone & K1 & K2 & K3)].
  - left. rewrite E1, X1. split; [assumption|]. split; [assumption|]. intros A3. now rewrite (X2 A3).
  - right. exists os, ret, nfs, gone. rewrite E1, X1. split; [assumption|]. split; [assumption|]. split; [assumption|]. intros A3. now rewrite (X2 A3).
Qed.
Lemma b_step_shape cfg pf st e st' eff : inv st -> b_event_ok e -> bc_step cfg pf st e = DOk (st', eff) -> b_shape cfg pf st st'.
Proof.
  intros I0 O H. destruct e as [os now|os m now|e].
  - cbn [bc_step] in H. injection H as H. exact (b_send_shape _ _ _ _ _ _ _ _ _ O I0 H).
  - cbn [bc_step] in H. injection H as H. destruct O as [O _]. unfold bc_link in H. destruct (_ || _ || _); [injection H as <- _; left; now repeat split|].
    do 3 (destruct (negb _); [injection H as <- _; left; now repeat split|]). exact (b_send_shape _ _ _ _ _ _ _ _ _ O I0 H).
  - left. cbn [bc_step] in H. destruct (child_kept true cfg st e st' eff (or_introl eq_refl) H) as ((K1 & K2 & _) & _). split; [assumption|]. split; [exact (like_idx true _ _ K1)|].
    intros A3. destruct (child_kept false cfg st e st' eff (or_intror (auto_off cfg A3)) H) as ((K3 & _) & _). exact (like_prot _ _ K3).
Qed.
Lemma b_running_refreshed cfg pf st : b_running cfg pf st -> exists nfs, b_refreshed (sc_net cfg) pf nfs (st_si st) /\ indices (table st) = indices nfs.
Proof.
  induction 1 as [o country location B C L|st e st' eff R (nfs & IH1 & IH2) O H].
  - exists []. split; [|reflexivity]. apply bref_start. now destruct (b_boot_fine _ _ _ _ B C L) as (_ & _ & _ & X).
  - destruct (b_step_shape _ _ _ _ _ _ (b_running_inv _ _ _ R) O H) as [(K1 & K2 & _)|(os & ret & nfs' & gone & K0 & K1 & K2 & _)].
    + exists nfs. rewrite K1, K2. now split.
    + exists nfs'. split; [|assumption]. exact (bref_fetch _ _ _ _ _ _ _ _ _ _ IH1 IH2 K0 K1).
Qed.
Lemma b_fetch_none_heard cfg pf os T si ret nfs si' gone : b_ok os -> NoDup (indices T) -> none_heard T -> bsd_fetch cfg pf os T si = (ret, nfs, si', gone) -> none_heard nfs.
Proof. intros O D Q F. destruct (as_linux cfg pf os T si O D) as (l & X & _). rewrite X in F. exact (fetch_none _ _ _ _ _ _ _ _ Q F). Qed.
Lemma b_running_none cfg pf st : opt cfg 3 = false -> b_running cfg pf st -> none_heard (table st).
Proof.
  intros A3. induction 1 as [o country location B C L|st e st' eff R IH O H]; [constructor|].
  unfold none_heard in *. pose proof (b_running_inv _ _ _ R) as I0.
  destruct (b_step_shape _ _ _ _ _ _ I0 O H) as [(_ & _ & K)|(os & ret & nfs' & gone & K0 & K1 & _ & K)]; rewrite (K A3); [assumption|].
  exact (b_fetch_none_heard _ _ _ _ _ _ _ _ _ K0 (inv_nodup _ I0) IH K1).
Qed.

(** ** Frames *)
Lemma b_frame_len cfg os nfs si d seq seq' : well nfs -> sysinfo_ok si -> In (snd (fst d)) nfs ->
  zlen (b_frame_due cfg os nfs si seq d) = zlen (b_frame_due cfg os nfs si seq' d).
Proof.
  destruct d as [[top sub] p]. cbn [fst snd]. intros W Si Hs. pose proof (ok_bmedia os sub (well_in _ _ W Hs)) as Ok.
  unfold b_frame_due.
  set (f := advert p _ seq _ _ _ _ _). set (g := advert p _ seq' _ _ _ _ _).
  assert (E : zlen f = zlen g).
  { subst f g. unfold advert. destruct p as [|[[[pp|pp|]|[pp|pp|]|]|[[pp|pp|]|[pp|pp|]|]|]|pp]; try reflexivity. now rewrite !edp_advert_len. }
  assert (14 <= zlen f /\ 14 <= zlen g) as [L1 L2] by (split; apply advert_len; assumption).
  destruct (_ && _); [rewrite !blank_len by lia|]; exact E.
Qed.
Lemma b_frames_due_iff cfg os nfs si i p : well nfs -> sysinfo_ok si -> forall ds seq, (forall d, In d ds -> In (snd (fst d)) nfs) ->
  ((exists f, In (i, p, f) (b_frames_due cfg os nfs si seq ds))
   <-> exists top sub, In (top, sub, p) ds /\ nf_index sub = i /\ zlen (b_frame_due cfg os nfs si 0 (top, sub, p)) <= 1518).
Proof.
  intros W Si. induction ds as [|d ds IH]; intros seq H.
  - cbn. split; [intros (f & [])|intros (t & s & [] & _)].
  - cbn [b_frames_due]. specialize (IH (if snd d =? 2 then (seq + 1) mod 65536 else seq) (fun x Hx => H x (or_intror Hx))).
    pose proof (b_frame_len cfg os nfs si d seq 0 W Si (H d (or_introl eq_refl))) as L. rewrite L. destruct d as [[top sub] q]. cbn [fst snd] in *. split.
    + intros (f & K). apply in_app_or in K as [K|K].
      * destruct (zlen _ <=? 1518) eqn:E; [|easy]. destruct K as [K|[]]. injection K as <- <- <-. exists top, sub. split; [now left|]. split; [reflexivity|lia].
      * destruct (proj1 IH (ex_intro _ f K)) as (t & s & K1 & K2 & K3). exists t, s. split; [now right|]. now split.
    + intros (t & s & [K|K] & K2 & K3).
      * injection K as <- <- <-. rewrite (proj2 (Z.leb_le _ _) K3), K2. eexists. apply in_or_app. left. left. reflexivity.
      * destruct (proj2 IH) as (f & F); [now exists t, s|]. exists f. apply in_or_app. now right.
Qed.
Lemma b_stands_in os nfs top sub : In top nfs -> In sub (b_stands_for os nfs top) -> In sub nfs.
Proof.
  intros Ht. unfold b_stands_for. destruct (_ <=? _); [intros [<-|[]]; assumption|]. intros H. apply in_flat_map in H as (r & _ & H).
  destruct (at_index nfs (Some (fst r))) as [m|] eqn:E; [|easy]. destruct H as [<-|[]]. now apply find_some in E.
Qed.
Lemma b_due_iff cfg os nfs top sub p : In (top, sub, p) (b_due cfg os nfs)
  <-> In top nfs /\ selected cfg top = true /\ eligible cfg top = true /\ In sub (b_stands_for os nfs top) /\ eligible cfg sub = true
      /\ In p [0; 1; 2; 3; 4; 5] /\ enabled cfg top p = true.
Proof.
  unfold b_due. rewrite in_flat_map. split.
  - intros (t & Ht & H). apply filter_In in Ht as [Ht1 Ht2]. apply andb_true_iff in Ht2 as [Ht2 Ht3]. apply in_flat_map in H as (s & Hs & H).
    apply filter_In in Hs as [Hs1 Hs2]. apply in_map_iff in H as (q & H & Hq). injection H as <- <- <-. apply filter_In in Hq as [Hq1 Hq2]. repeat (split; [assumption|]). assumption.
  - intros (A & B & C & D & E & F & G). exists top. split; [apply filter_In; now rewrite B, C|]. apply in_flat_map. exists sub. split; [now apply filter_In|].
    apply in_map_iff. exists p. split; [reflexivity|]. now apply filter_In.
Qed.
Lemma b_periodic_iff cfg pf os now st nfs si i p : b_running cfg pf st -> b_ok os -> b_refresh cfg pf os st nfs si -> b_consistent os nfs ->
  ((exists f, In (SFrame i p f) (snd (bc_send cfg pf os NETIF_INDEX_MAX true now st)))
   <-> opt cfg 1 = true /\ exists top sub,
        In top nfs /\ selected cfg top = true /\ eligible cfg top = true
        /\ In sub (b_stands_for os nfs top) /\ eligible cfg sub = true /\ nf_index sub = i
        /\ In p [0; 1; 2; 3; 4; 5] /\ enabled cfg top p = true
        /\ zlen (b_frame_due cfg os nfs si 0 (top, sub, p)) <= 1518).
Proof.
  intros R O F C. pose proof (b_periodic_frames cfg pf os now st nfs si R O F C) as E. apply b_running_inv in R.
  destruct (b_refresh_facts _ _ _ _ _ _ O R F) as (J & _). destruct J as [J1 J2 J3 J4 J5 J6 J7]. unfold table in J1. cbn [st_child c_nfs set_nfs st_si] in J1, J4.
  assert (X : (exists f, In (SFrame i p f) (snd (bc_send cfg pf os NETIF_INDEX_MAX true now st)))
     <-> exists f, In (i, p, f) (frames (snd (bc_send cfg pf os NETIF_INDEX_MAX true now st)))).
  { split; intros (f & H); exists f; now apply in_frames. }
  rewrite X, E. clear X E. destruct (opt cfg 1).
  - rewrite (b_frames_due_iff cfg os nfs si i p J1 J4).
    + split.
      * intros (t & s & K & K1 & K2). apply b_due_iff in K as (A1 & A2 & A3 & A4 & A5 & A6 & A7). split; [reflexivity|]. exists t, s. repeat (split; [assumption|]). assumption.
      * intros (_ & t & s & A1 & A2 & A3 & A4 & A5 & A6 & A7 & A8 & A9). exists t, s. split; [|now split]. apply b_due_iff. repeat (split; [assumption|]). assumption.
    + intros [[t s] q] K. apply b_due_iff in K as (A1 & A2 & A3 & A4 & _). cbn [fst snd]. now apply (b_stands_in os nfs t).
  - split; [intros (f & [])|now intros [K _]].
Qed.

(** ** The command line *)
Lemma b_cmd_frames n perm words s names o pf os now st nfs si i p :
  main_argv n perm words = Some (s, names) -> says perm daemon_letters words o names ->
  b_running (conf_of s names) pf st -> b_ok os -> b_refresh (conf_of s names) pf os st nfs si -> b_consistent os nfs ->
  ((exists f, In (SFrame i p f) (snd (bc_send (conf_of s names) pf os NETIF_INDEX_MAX true now st)))
   <-> given (bs "s") o = false /\ exists top sub,
        In top nfs /\ chosen names top /\ allowed o top
        /\ In sub (b_stands_for os nfs top) /\ allowed o sub /\ nf_index sub = i
        /\ In p [0; 1; 2; 3; 4; 5] /\ asked o top p
        /\ zlen (b_frame_due (conf_of s names) os nfs si 0 (top, sub, p)) <= 1518).
Proof.
  intros A Y R O F C. apply daemon_iff in A as (o' & Y' & M). destruct (says_unique _ _ _ _ _ _ _ (or_introl eq_refl) Y Y') as [<- _]. clear Y'.
  rewrite (b_periodic_iff _ _ _ _ _ _ _ _ _ R O F C). rewrite (opt_send n o names s M).
  destruct (b_running_refreshed _ _ _ R) as (nfs0 & R1 & R2). destruct F as (ret & gone & F & NZ).
  destruct (bo_ifaddrs os) as [ias|] eqn:E; [|rewrite (b_fetch_none _ _ _ _ _ E) in F; injection F as <- _ _ _; congruence].
  destruct (b_rest _ _ _ _ _ _ _ _ _ _ _ R1 R2 E O F) as (_ & _ & MK & _).
  assert (NH : opt (conf_of s names) 3 = false -> none_heard nfs).
  { intros A3. exact (b_fetch_none_heard _ _ _ _ _ _ _ _ _ O (inv_nodup _ (b_running_inv _ _ _ R)) (b_running_none _ _ _ A3 R) F). }
  split; intros (S1 & top & sub & H1 & H2 & H3 & H4 & H5 & H6 & H7 & H8 & H9).
  - split; [now destruct (given _ o)|]. exists top, sub. split; [assumption|]. split; [now apply (selected_chosen n o names s M nfs)|].
    split; [now apply (eligible_allowed n o names s M)|]. split; [assumption|]. split; [now apply (eligible_allowed n o names s M)|].
    split; [assumption|]. split; [assumption|]. split; [now apply (enabled_asked n o names s M nfs)|assumption].
  - split; [now rewrite S1|]. exists top, sub. split; [assumption|]. split; [now apply (selected_chosen n o names s M nfs)|].
    split; [now apply (eligible_allowed n o names s M)|]. split; [assumption|]. split; [now apply (eligible_allowed n o names s M)|].
    split; [assumption|]. split; [assumption|]. split; [now apply (enabled_asked n o names s M nfs)|assumption].
Qed.

(** ** The location *)
Lemma b_place_frame cfg pf os country location st e st' eff i f tlvs body :
  b_running_on cfg pf os country location st -> b_event_ok e ->
  bc_step cfg pf st e = DOk (st', eff) -> In (SFrame i 0 f) eff -> Forall lldp_fits tlvs -> skipn 14 f = flat_map lldp_bytes tlvs ->
  In (tia 3 body) tlvs <-> zlen country = 2 /\ 0 < zlen location /\ body = civic country location.
Proof.
  intros R Oe H K F E. pose proof (bon_event _ _ _ _ _ _ _ _ _ R Oe H) as R'. destruct (bon_si _ _ _ _ _ _ R') as [KE _].
  destruct (b_sent_from _ _ _ _ _ _ _ _ _ (bon_running _ _ _ _ _ _ R) Oe H K) as (nos & nfs & si & seq & top & sub & port & W & Si & _ & _ & Esi & Hs & _ & _ & Q & Ef & Lf & _).
  rewrite <- Esi in KE. clear R R' Esi.
  pose proof (well_in _ _ W Hs) as Ok. unfold b_frame_due in Ef.
  assert (Hat : forall o q, at_index nfs o = Some q -> netif_ok q).
  { intros [x|] q X; [|discriminate]. apply find_some in X as [X _]. now apply (well_in nfs). }
  set (n := bsd_media nos sub) in *. set (par := at_index nfs (nf_parent sub)). set (mgmt := at_index nfs (si_mnetif si)).
  assert (Hin : inputs_ok seq n par mgmt nfs si).
  { split; [now apply ok_bmedia|]. split; [apply Hat|]. split; [apply Hat|]. split; [intros v; now apply well_in|]. now split. }
  assert (Hn : netif_ok n) by now apply ok_bmedia. clearbody n.
  fold par mgmt in Ef. set (g := advert 0 (nc_opts (sc_net cfg)) seq n par mgmt nfs si) in *.
  change (advert 0 (nc_opts (sc_net cfg)) seq n par mgmt nfs si) with g in Ef.
  assert (G : skipn 14 f = skipn 14 g).
  { rewrite Ef. destruct (_ && _); [|reflexivity]. unfold blanked.
    assert (LG : 14 <= zlen g) by (apply advert_len; exact Hn).
    change 14%nat with (6 + (6 + 2))%nat. replace 6%nat with (length (firstn 6 g)) at 1 by (rewrite firstn_length; unfold zlen in LG; lia).
    rewrite skipn_app, skipn_all2 by lia. replace (length (firstn 6 g) + (6 + 2) - length (firstn 6 g))%nat with (6 + 2)%nat by lia.
    cbn [skipn app Nat.add]. clear. do 12 (destruct g as [|? g]; [reflexivity|]). reflexivity. }
  rewrite G in E. pose proof (lldp_frame_tlvs _ _ _ _ _ _ _ g tlvs Hin eq_refl F E) as T.
  set (q := up n par) in *. set (mg := up q mgmt) in *. clearbody q mg.
  match type of T with _ = [(1, ?x); (2, ?y); (3, ?z)] ++ _ => set (a := (x, y, z)) in *; change [(1, x); (2, y); (3, z)] with [(1, fst (fst a)); (2, snd (fst a)); (3, snd a)] in T end.
  clearbody a.
  assert (CL : si_country si = country /\ si_location si = location).
  { destruct KE as [_ _ _ _ E1 E2 _ _ _]. rewrite E1, E2. clear. unfold bsd_sysinfo. cbv zeta. now destruct (bsd_forwarding os CAP_HOST CAP_HOST). }
  destruct CL as [<- <-]. rewrite T. split; [exact (content_tia3 _ _ _ _ _ _ _ _ _)|].
  intros (A & B & ->). apply in_or_app. right. apply in_or_app. left. now apply content_civic.
Qed.
(** What the options make of country and location. *)
Lemma opts_place n o names s body : main_opts n o names = Some s ->
  (zlen (u_country s) = 2 /\ 0 < zlen (u_location s) /\ body = civic (u_country s) (u_location s))
  <-> given (bs "c") o = true /\ given (bs "l") o = true
      /\ exists cc, Forall2 capital (last (args_of 99 o) []) cc /\ body = civic cc (firstn 255 (last (args_of 108 o) [])).
Proof.
  intros M. destruct (opts_values n o names s M) as (_ & L & _ & C1 & C2 & _). rewrite L.
  change (bs "c") with [99]. change (bs "l") with [108]. rewrite !given_args.
  assert (X : args_of 108 o <> [] -> last (args_of 108 o) [] <> []).
  { intros N Z. pose proof (last_in (args_of 108 o) [] N) as I1. rewrite Z in I1. unfold args_of in I1. apply in_map_iff in I1 as ([y a] & Ea & I1). cbn [snd] in Ea. subst a.
    apply filter_In in I1 as [I1 I2]. apply Z.eqb_eq in I2. subst y.
    assert (M' : main_opts n o names = None); [|congruence]. apply opts_refused. left. exists 108, []. split; [assumption|]. unfold bad_option. right. right. right. right. now split. }
  split.
  - intros (A & B & ->). split; [|split; [|exists (u_country s); now split]].
    + intros N. rewrite N in C1. cbn in C1. inversion C1 as [Q1 Q2|]. rewrite <- Q2 in A. discriminate A.
    + intros N. rewrite N in B. cbn in B. unfold zlen in B. cbn in B. lia.
  - intros (A & B & cc & D & ->). split; [auto|]. split.
    + specialize (X B). destruct (last (args_of 108 o) []) as [|b r]; [congruence|]. cbn. unfold zlen. cbn [length]. lia.
    + f_equal. clear -C1 D. revert cc D. induction C1 as [|x y l l' P C1 IH]; intros cc D; inversion D as [|a b c d P' D']; subst; [reflexivity|]. f_equal; [|now apply IH].
      unfold capital in P, P'. lia.
Qed.
Lemma b_cmd_place n perm words s names o pf sos st e st' eff i f tlvs body :
  main_argv n perm words = Some (s, names) -> says perm daemon_letters words o names ->
  b_running_on (conf_of s names) pf sos (u_country s) (u_location s) st -> b_event_ok e ->
  bc_step (conf_of s names) pf st e = DOk (st', eff) -> In (SFrame i 0 f) eff ->
  Forall lldp_fits tlvs -> skipn 14 f = flat_map lldp_bytes tlvs ->
  (In (tia 3 body) tlvs <->
   given (bs "c") o = true /\ given (bs "l") o = true
   /\ exists cc, Forall2 capital (last (args_of 99 o) []) cc /\ body = civic cc (firstn 255 (last (args_of 108 o) []))).
Proof.
  intros A Y R O H K F E. apply daemon_iff in A as (o' & Y' & M). destruct (says_unique _ _ _ _ _ _ _ (or_introl eq_refl) Y Y') as [<- _]. clear Y'.
  rewrite (b_place_frame _ _ _ _ _ _ _ _ _ _ _ _ body R O H K F E). exact (opts_place n o names s body M).
Qed.

(** ** The chassis *)
Lemma bmedia_ids os n : nf_hwaddr (bsd_media os n) = nf_hwaddr n /\ nf_name (bsd_media os n) = nf_name n.
Proof. pose proof (bmedia_bare os n) as B. split; [exact (f_equal nf_hwaddr B)|exact (f_equal nf_name B)]. Qed.
Lemma b_cmd_chassis n perm words s names o pf st e st' eff i f tlvs :
  main_argv n perm words = Some (s, names) -> says perm daemon_letters words o names ->
  b_running (conf_of s names) pf st -> b_event_ok e ->
  bc_step (conf_of s names) pf st e = DOk (st', eff) -> In (SFrame i 0 f) eff ->
  Forall lldp_fits tlvs -> skipn 14 f = flat_map lldp_bytes tlvs ->
  exists port rest, In port (table st') /\ nf_index port = i
    /\ tlvs = [(1, 4 :: (if given (bs "q") o then nf_hwaddr port else si_hwaddr (st_si st'))); (2, 5 :: nf_name port)] ++ rest.
Proof.
  intros A Y R Oe H K F E. apply daemon_iff in A as (o' & Y' & M). destruct (says_unique _ _ _ _ _ _ _ (or_introl eq_refl) Y Y') as [<- _]. clear Y'.
  destruct (b_sent_from _ _ _ _ _ _ _ _ _ R Oe H K) as (nos & nfs & si & seq & top & sub & port & W & Si & _ & _ & Esi & Hs & Ei & _ & Q & Ef & Lf & Ip & P1 & P2 & P3).
  pose proof (well_in _ _ W Hs) as Ok. unfold b_frame_due in Ef.
  assert (Hat : forall o q, at_index nfs o = Some q -> netif_ok q).
  { intros [x|] q X; [|discriminate]. apply find_some in X as [X _]. now apply (well_in nfs). }
  destruct (bmedia_ids nos sub) as [M1 M2].
  set (m := bsd_media nos sub) in *. set (par := at_index nfs (nf_parent sub)). set (mgmt := at_index nfs (si_mnetif si)).
  assert (Hin : inputs_ok seq m par mgmt nfs si).
  { split; [now apply ok_bmedia|]. split; [apply Hat|]. split; [apply Hat|]. split; [intros v; now apply well_in|]. now split. }
  assert (Hn : netif_ok m) by now apply ok_bmedia. clearbody m.
  fold par mgmt in Ef. set (g := advert 0 (nc_opts (sc_net (conf_of s names))) seq m par mgmt nfs si) in *.
  change (advert 0 (nc_opts (sc_net (conf_of s names))) seq m par mgmt nfs si) with g in Ef.
  assert (G : skipn 14 f = skipn 14 g).
  { rewrite Ef. destruct (_ && _); [|reflexivity]. unfold blanked.
    assert (LG : 14 <= zlen g) by (apply advert_len; exact Hn).
    change 14%nat with (6 + (6 + 2))%nat. replace 6%nat with (length (firstn 6 g)) at 1 by (rewrite firstn_length; unfold zlen in LG; lia).
    rewrite skipn_app, skipn_all2 by lia. replace (length (firstn 6 g) + (6 + 2) - length (firstn 6 g))%nat with (6 + 2)%nat by lia.
    cbn [skipn app Nat.add]. clear. do 12 (destruct g as [|? g]; [reflexivity|]). reflexivity. }
  rewrite G in E. pose proof (lldp_frame_tlvs _ _ _ _ _ _ _ g tlvs Hin eq_refl F E) as T.
  change (Z.testbit (nc_opts (sc_net (conf_of s names))) 13) with (opt (conf_of s names) 13) in T.
  rewrite (opt_on n o names s M OPT_CHASSIS_IF 13 (bs "q")) in T by (cbn; auto 20 || reflexivity || lia).
  rewrite M1, M2, <- P2, <- P3, Esi in T. exists port. eexists. split; [assumption|]. split; [congruence|]. exact T.
Qed.
