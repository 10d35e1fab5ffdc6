(** Running states; where frames are sent (C09, C37, C54). *)
From Verif Require Import Base Types Tlv Msg Protos Wire Util Child Netif Parent Sysinfo Send Spec SpecRound SpecNet SpecChild SpecAdv SpecNetif SpecSend.
From Verif Require Import Lemmas VisProofs EncProps NetProofs ParentProofs TypesProofs ChildProofs4 ChildProofs7 NetifProofs1 NetifProofs2 NetifProofs5 SendProofs1 SendProofs2 SendProofs3 SendProofs4 SendProofs5.

Lemma child_inv cfg st e st' eff : inv st -> (forall nfs, e <> CFetch nfs) -> (forall t, e <> CTick t) ->
  send_step cfg st (EvChild e) = DOk (st', eff) ->
  map fixed (table st') = map fixed (table st) /\ st_si st' = st_si st /\ st_edp st' = st_edp st /\ frames eff = [] /\ inv st'.
Proof.
  intros I N1 N2 H.
  assert (K : (let* (c, eff) := child_step (sc_opts cfg) (st_child st) e in DOk (mkSt c (st_si st) (st_edp st), map SChild eff)) = DOk (st', eff)).
  { destruct e; try exact H; [now destruct (N2 now)|now destruct (N1 nfs)]. }
  destruct (child_step (sc_opts cfg) (st_child st) e) as [[c e1]| | | |] eqn:E; cbn [dbind] in K; try discriminate. injection K as <- <-.
  pose proof (child_fixed _ _ _ _ _ E N1) as F.
  split; [exact F|]. split; [reflexivity|]. split; [reflexivity|]. split; [apply frames_child|]. now apply inv_fixed.
Qed.
Lemma child_frames cfg st e st' eff : inv st -> send_step cfg st (EvChild e) = DOk (st', eff) ->
  map fixed (table st') = map fixed (table st) /\ frames eff = [] /\ inv st'.
Proof.
  intros I H.
  assert (K : (forall nfs, e <> CFetch nfs) -> (forall t, e <> CTick t) -> map fixed (table st') = map fixed (table st) /\ frames eff = [] /\ inv st').
  { intros N1 N2. destruct (child_inv cfg st _ st' eff I N1 N2 H) as (A & B & C & D & E). now split. }
  destruct e; try (apply K; discriminate); cbn in H; injection H as <- <-; (split; [reflexivity|split; [reflexivity|assumption]]).
Qed.
Lemma step_core cfg st e st' eff : inv st -> event_ok e -> send_step cfg st e = DOk (st', eff) ->
  frames eff = [] \/ exists os index st1 eff1, os_ok os /\ core cfg os index st st1 eff1 /\ frames eff = frames eff1.
Proof.
  intros I O H. destruct e as [os now|os hatype flags index now|e].
  - cbn in H. injection H as H. destruct (send_core _ _ _ _ _ _ _ _ O I H) as (st1 & eff1 & C & F & _). right. eauto 7.
  - cbn in H. injection H as H. unfold child_link in H. destruct (negb _); [injection H as <- <-; now left|]. destruct (negb _); [injection H as <- <-; now left|].
    destruct (send_core _ _ _ _ _ _ _ _ O I H) as (st1 & eff1 & C & F & _). right. eauto 7.
  - left. now apply (child_frames cfg st e st').
Qed.
Lemma step_inv cfg st e st' eff : inv st -> event_ok e -> send_step cfg st e = DOk (st', eff) -> inv st'.
Proof.
  intros I O H. destruct e as [os now|os hatype flags index now|e].
  - cbn in H. injection H as H. exact (send_inv _ _ _ _ _ _ _ _ O I H).
  - cbn in H. injection H as H. unfold child_link in H. destruct (negb _); [injection H as <- <-; assumption|]. destruct (negb _); [injection H as <- <-; assumption|].
    exact (send_inv _ _ _ _ _ _ _ _ O I H).
  - now apply (child_frames cfg st e st' eff).
Qed.
Lemma running_inv cfg st : running cfg st -> inv st.
Proof.
  induction 1 as [os country location S C L|st e st' eff R IH O H].
  - destruct (boot_ok _ _ _ S C L) as (B1 & B2 & B3 & B4). constructor; unfold table; cbn [st_child st_si st_edp c_nfs child_start]; try assumption; try constructor; try lia.
    intros m Hm. congruence.
  - exact (step_inv _ _ _ _ _ IH O H).
Qed.

(** ** C09 *)
Lemma in_frames i p f eff : In (SFrame i p f) eff <-> In (i, p, f) (frames eff).
Proof.
  unfold frames. rewrite in_flat_map. split.
  - intros H. exists (SFrame i p f). split; [assumption|now left].
  - intros (x & Hx & K). destruct x; try easy. destruct K as [K|[]]. now injection K as -> -> ->.
Qed.
Lemma step_good cfg st e st' eff i p f : running cfg st -> event_ok e -> send_step cfg st e = DOk (st', eff) -> In (SFrame i p f) eff -> good_frame i p f.
Proof.
  intros R O H K. apply running_inv in R. apply in_frames in K.
  destruct (step_core _ _ _ _ _ R O H) as [E|(os & index & st1 & eff1 & Oo & C & E)]; rewrite E in K; [easy|].
  exact (core_good _ _ _ _ _ _ Oo R C _ _ _ K).
Qed.
Lemma send_unnamed cfg fds d pos : os_name pos = None -> r_alive (parent_send cfg fds d pos) = true.
Proof. intros H. unfold parent_send. cbv zeta. destruct (negb _); [reflexivity|]. rewrite H. reflexivity. Qed.
Lemma sending_safe cfg st e st' eff i p f pcfg fds pos : running cfg st -> event_ok e -> send_step cfg st e = DOk (st', eff) ->
  In (SFrame i p f) eff -> os_sock pos <> SockFatal ->
  r_alive (parent_send pcfg fds (frame_dgram i p f) pos) = true
  /\ (has (pc_opts pcfg) OPT_DEBUG = false -> os_name pos <> None ->
      (exists r, rfd_byindex fds i = Some r) \/ (exists fd, os_sock pos = SockFd fd /\ 0 <= fd) ->
      exists fd, In (EFrame i fd f) (r_eff (parent_send pcfg fds (frame_dgram i p f) pos))).
Proof.
  intros R O H K S. destruct (step_good _ _ _ _ _ _ _ _ R O H K) as (Hi & Hp & Hb & Hl & pl & Hf).
  destruct (os_name pos) as [name|] eqn:N; [|split; [now apply send_unnamed|now intros _ X]].
  destruct (send_good pcfg fds (frame_dgram i p f) pos i p 0 f pl name) as [G1 G2]; try assumption.
  - apply carries_msg; [assumption|lia|assumption|lia].
  - apply msg_bytes_bytes; [lia|assumption].
  - split; [assumption|]. intros X _ Y. now apply G2.
Qed.

(** ** C37 *)
Lemma core_fun cfg os index st st1 eff1 nfs si : core cfg os index st st1 eff1 -> refresh cfg os st nfs si ->
  flapping index st = false -> index = NETIF_INDEX_MAX \/ In index (indices nfs) ->
  frames eff1 = frames_due cfg os nfs si (st_edp st) (all_due cfg index nfs).
Proof.
  intros C (ret & gone & F & Z) FL G. destruct C as [FL'|ret' nfs' si' gone' eff FL' F' Z' E|ret' nfs' si' gone' T eff FL' F' Z' G' W N S HT HL E].
  - congruence.
  - rewrite F in F'. injection F' as <- <- <- <-. destruct Z' as [Z'|[Z1 Z2]]; [contradiction|]. tauto.
  - rewrite F in F'. injection F' as <- <- <- <-. exact E.
Qed.
Lemma refresh_facts cfg os st nfs si : os_ok os -> inv st -> refresh cfg os st nfs si ->
  inv (mkSt (set_nfs (st_child st) nfs) si (st_edp st)) /\ (exists ias, no_ifaddrs os = Some ias)
  /\ table_exact os nfs /\ (forall n, In n nfs -> survives (table st) n /\ nf_update n = 0) /\ (consistent os nfs -> linked os nfs).
Proof.
  intros O I (ret & gone & F & Z). pose proof (fetch_inv _ _ _ _ _ _ _ O I F) as J. split; [assumption|].
  destruct (no_ifaddrs os) as [ias|] eqn:A; [|rewrite (fetch_none _ _ _ _ A) in F; injection F as <- _ _ _; lia].
  destruct I as [I1 I2 I3 I4 I5 I6 I7]. destruct (fetch_exact _ _ _ _ _ _ _ _ _ A I2 F) as (X1 & X2 & X3).
  split; [now exists ias|]. split; [assumption|]. split; [assumption|]. exact (fetch_linked _ _ _ _ _ _ _ _ _ A I2 F).
Qed.
Lemma run_frames cfg os index timeout now st nfs si : running cfg st -> os_ok os -> refresh cfg os st nfs si -> consistent os nfs ->
  flapping index st = false -> index = NETIF_INDEX_MAX \/ In index (indices nfs) ->
  frames (snd (child_send cfg os index timeout now st))
  = frames_due cfg os nfs si (st_edp st)
      (if opt cfg 1 then filter (fun d => (index =? NETIF_INDEX_MAX) || (index =? nf_index (snd (fst d)))) (due cfg os nfs) else []).
Proof.
  intros R O F C FL G. apply running_inv in R. destruct (child_send cfg os index timeout now st) as [st' eff] eqn:E. cbn [snd].
  destruct (send_core _ _ _ _ _ _ _ _ O R E) as (st1 & eff1 & CO & FR & _). rewrite FR, (core_fun _ _ _ _ _ _ _ _ CO F FL G).
  destruct (refresh_facts _ _ _ _ _ O R F) as (J & _ & _ & _ & L). destruct J as [J1 J2 J3 J4 J5 J6 J7]. unfold table in *. cbn [st_child c_nfs set_nfs] in J2.
  f_equal. unfold all_due. change (nc_opts (sc_net cfg)) with (sc_opts cfg).
  rewrite (due_here_eq cfg os nfs index); [reflexivity|].
  intros top Ht Hty. now apply (stands_each os nfs top J2 (L C) C).
Qed.
Lemma periodic_frames cfg os now st nfs si : running cfg st -> os_ok os -> refresh cfg os st nfs si -> consistent os nfs ->
  frames (snd (child_send cfg os NETIF_INDEX_MAX true now st))
  = if opt cfg 1 then frames_due cfg os nfs si (st_edp st) (due cfg os nfs) else [].
Proof.
  intros R O F C. rewrite (run_frames cfg os NETIF_INDEX_MAX true now st nfs si); try assumption; [|reflexivity|now left].
  destruct (opt cfg 1); [|reflexivity]. f_equal. apply (filter_all _ _ true). intros x _. now rewrite Z.eqb_refl.
Qed.
Lemma link_frames cfg os flags index now st nfs si : running cfg st -> os_ok os -> refresh cfg os st nfs si -> consistent os nfs ->
  Z.testbit flags 6 = true -> Z.testbit flags 16 = true -> 0 <= index < NETIF_INDEX_MAX ->
  (forall n, In n (table st) -> nf_index n = index -> nf_link_event n <= 3) -> In index (indices nfs) ->
  frames (snd (child_link cfg os 1 flags index now st))
  = if opt cfg 1 then frames_due cfg os nfs si (st_edp st) (filter (fun d => nf_index (snd (fst d)) =? index) (due cfg os nfs)) else [].
Proof.
  intros R O F C B6 B16 Hi HL G. unfold child_link. change (negb (1 =? ARPHRD_ETHER)) with false.
  assert (FL : Z.land flags LINK_FLAGS =? LINK_FLAGS = true).
  { apply Z.eqb_eq. apply Z.bits_inj'. intros k Hk. rewrite Z.land_spec.
    assert (K : Z.testbit LINK_FLAGS k = (k =? 6) || (k =? 16)).
    { destruct (Z_lt_ge_dec k 17) as [X|X].
      - assert (Y : k = 0 \/ k = 1 \/ k = 2 \/ k = 3 \/ k = 4 \/ k = 5 \/ k = 6 \/ k = 7 \/ k = 8 \/ k = 9 \/ k = 10 \/ k = 11 \/ k = 12 \/ k = 13 \/ k = 14 \/ k = 15 \/ k = 16) by lia.
        repeat (destruct Y as [->|Y]; [reflexivity|]). now subst k.
      - rewrite (Z.bits_above_log2 LINK_FLAGS k); [|now compute|]; [lia|]. change (Z.log2 LINK_FLAGS) with 16. lia. }
    rewrite K. destruct (k =? 6) eqn:E6; [replace k with 6 by lia; now rewrite B6|]. destruct (k =? 16) eqn:E16; [replace k with 16 by lia; now rewrite B16|].
    apply andb_false_r. }
  rewrite FL. cbn [negb]. unfold NETIF_INDEX_MAX in Hi. rewrite Z.mod_small by lia.
  rewrite (run_frames cfg os index false now st nfs si); try assumption; [| |now right].
  - destruct (opt cfg 1); [|reflexivity]. f_equal. apply filter_ext. intros d. unfold NETIF_INDEX_MAX. lia.
  - unfold flapping. apply andb_false_iff. right. destruct (netif_byindex (table st) index) as [n|] eqn:E; [|reflexivity].
    apply byindex_some in E as [E1 E2]. specialize (HL n E1 E2). lia.
Qed.
Lemma no_refresh_no_frames cfg os index timeout now st nfs si gone : running cfg st -> os_ok os ->
  netif_fetch (sc_net cfg) os (table st) (st_si st) = (0, nfs, si, gone) ->
  frames (snd (child_send cfg os index timeout now st)) = [].
Proof.
  intros R O F. apply running_inv in R. destruct (child_send cfg os index timeout now st) as [st' eff] eqn:E. cbn [snd].
  destruct (send_core _ _ _ _ _ _ _ _ O R E) as (st1 & eff1 & CO & FR & _). rewrite FR.
  destruct CO as [FL'|ret' nfs' si' gone' e FL' F' Z' X|ret' nfs' si' gone' T e FL' F' Z' G' W N S HT HL X]; [reflexivity|assumption|].
  rewrite F in F'. injection F' as <- <- <- <-. now destruct Z'.
Qed.

(** Whether a frame is sent does not depend on the sequence number. *)
Lemma frame_len cfg os nfs si d seq seq' : well nfs -> sysinfo_ok si -> In (snd (fst d)) nfs ->
  zlen (frame_due cfg os nfs si seq d) = zlen (frame_due cfg os nfs si seq' d).
Proof.
  destruct d as [[top sub] p]. cbn [fst snd]. intros W S Hs. pose proof (ok_probed os sub (well_in _ _ W Hs)) as Ok.
  unfold frame_due.
  set (f := advert p _ seq _ _ _ _ _). set (g := advert p _ seq' _ _ _ _ _).
  assert (E : zlen f = zlen g).
  { subst f g. unfold advert. destruct p as [|[[[pp|pp|]|[pp|pp|]|]|[[pp|pp|]|[pp|pp|]|]|]|pp]; try reflexivity. now rewrite !edp_advert_len. }
  assert (14 <= zlen f /\ 14 <= zlen g) as [L1 L2] by (split; apply advert_len; assumption).
  destruct (_ && _); [rewrite !blank_len by lia|]; exact E.
Qed.
Lemma frames_due_iff cfg os nfs si i p : well nfs -> sysinfo_ok si -> forall ds seq, (forall d, In d ds -> In (snd (fst d)) nfs) ->
  ((exists f, In (i, p, f) (frames_due cfg os nfs si seq ds))
   <-> exists top sub, In (top, sub, p) ds /\ nf_index sub = i /\ zlen (frame_due cfg os nfs si 0 (top, sub, p)) <= 1518).
Proof.
  intros W S. induction ds as [|d ds IH]; intros seq H.
  - cbn. split; [intros (f & [])|intros (t & s & [] & _)].
  - cbn [frames_due]. specialize (IH (if snd d =? 2 then (seq + 1) mod 65536 else seq) (fun x Hx => H x (or_intror Hx))).
    pose proof (frame_len cfg os nfs si d seq 0 W S (H d (or_introl eq_refl))) as L. rewrite L. destruct d as [[top sub] q]. cbn [fst snd] in *. split.
    + intros (f & K). apply in_app_or in K as [K|K].
      * destruct (zlen _ <=? 1518) eqn:E; [|easy]. destruct K as [K|[]]. injection K as <- <- <-. exists top, sub. split; [now left|]. split; [reflexivity|lia].
      * destruct (proj1 IH (ex_intro _ f K)) as (t & s & K1 & K2 & K3). exists t, s. split; [now right|]. now split.
    + intros (t & s & [K|K] & K2 & K3).
      * injection K as <- <- <-. rewrite (proj2 (Z.leb_le _ _) K3), K2. eexists. apply in_or_app. left. left. reflexivity.
      * destruct (proj2 IH) as (f & F); [now exists t, s|]. exists f. apply in_or_app. now right.
Qed.
Lemma stands_in os nfs top sub : In top nfs -> In sub (stands_for os nfs top) -> In sub nfs.
Proof.
  intros Ht. unfold stands_for. destruct (_ <=? _); [intros [<-|[]]; assumption|]. intros H. apply in_flat_map in H as (r & _ & H).
  destruct (at_index nfs (Some (fst r))) as [m|] eqn:E; [|easy]. destruct H as [<-|[]]. now apply find_some in E.
Qed.
Lemma due_iff cfg os nfs top sub p : In (top, sub, p) (due cfg os nfs)
  <-> In top nfs /\ selected cfg top = true /\ eligible cfg top = true /\ In sub (stands_for os nfs top) /\ eligible cfg sub = true
      /\ In p [0; 1; 2; 3; 4; 5] /\ enabled cfg top p = true.
Proof.
  unfold due. rewrite in_flat_map. split.
  - intros (t & Ht & H). apply filter_In in Ht as [Ht1 Ht2]. apply andb_true_iff in Ht2 as [Ht2 Ht3]. apply in_flat_map in H as (s & Hs & H).
    apply filter_In in Hs as [Hs1 Hs2]. apply in_map_iff in H as (q & H & Hq). injection H as <- <- <-. apply filter_In in Hq as [Hq1 Hq2]. repeat (split; [assumption|]). assumption.
  - intros (A & B & C & D & E & F & G). exists top. split; [apply filter_In; now rewrite B, C|]. apply in_flat_map. exists sub. split; [now apply filter_In|].
    apply in_map_iff. exists p. split; [reflexivity|]. now apply filter_In.
Qed.
Lemma periodic_iff cfg os now st nfs si i p : running cfg st -> os_ok os -> refresh cfg os st nfs si -> consistent os nfs ->
  ((exists f, In (SFrame i p f) (snd (child_send cfg os NETIF_INDEX_MAX true now st)))
   <-> opt cfg 1 = true /\ exists top sub,
        In top nfs /\ selected cfg top = true /\ eligible cfg top = true
        /\ In sub (stands_for os nfs top) /\ eligible cfg sub = true /\ nf_index sub = i
        /\ In p [0; 1; 2; 3; 4; 5] /\ enabled cfg top p = true
        /\ zlen (frame_due cfg os nfs si 0 (top, sub, p)) <= 1518).
Proof.
  intros R O F C. pose proof (periodic_frames cfg os now st nfs si R O F C) as E. apply running_inv in R.
  destruct (refresh_facts _ _ _ _ _ O R F) as (J & _). destruct J as [J1 J2 J3 J4 J5 J6 J7]. unfold table in J1. cbn [st_child c_nfs set_nfs st_si] in J1, J4.
  assert (X : (exists f, In (SFrame i p f) (snd (child_send cfg os NETIF_INDEX_MAX true now st)))
     <-> exists f, In (i, p, f) (frames (snd (child_send cfg os NETIF_INDEX_MAX true now st)))).
  { split; intros (f & H); exists f; now apply in_frames. }
  rewrite X, E. clear X E. destruct (opt cfg 1).
  - rewrite (frames_due_iff cfg os nfs si i p J1 J4).
    + split.
      * intros (t & s & K & K1 & K2). apply due_iff in K as (A1 & A2 & A3 & A4 & A5 & A6 & A7). split; [reflexivity|]. exists t, s. repeat (split; [assumption|]). assumption.
      * intros (_ & t & s & A1 & A2 & A3 & A4 & A5 & A6 & A7 & A8 & A9). exists t, s. split; [|now split]. apply due_iff. repeat (split; [assumption|]). assumption.
    + intros [[t s] q] K. apply due_iff in K as (A1 & A2 & A3 & A4 & _). cbn [fst snd]. now apply (stands_in os nfs t).
  - split; [intros (f & [])|now intros [K _]].
Qed.
