(** The frames of an advertisement run on BSD, as in SendProofs2. *)
From Verif Require Import Base Types Tlv Protos Wire Util Child Netif Sysinfo Send Bsd HostBsd BsdSend Spec SpecChild SpecAdv SpecNetif SpecSend SpecSys SpecBsd SpecHostBsd SpecBsdSend.
From Verif Require Import Lemmas VisProofs VisProps TypesProofs ChildProofs ChildProofs4 NetifProofs1 NetifProofs2 NetifProofs3 EncProps SendProofs1 SendProofs2.
From Verif Require BsdProofs5.

(** ** Media *)
Lemma bmedia_link os e n : bsd_media os (set_link_event e n) = set_link_event e (bsd_media os n).
Proof.
  unfold bsd_media. cbv zeta. cbn [nf_name nf_type nf_mtu set_link_event].
  destruct (negb (nf_type n =? NETIF_REGULAR)); [reflexivity|]. destruct (bo_media os (nf_name n)) as [im|]; [|reflexivity].
  destruct (negb (im_ether im)); [reflexivity|]. destruct (negb (im_up im)); [reflexivity|]. destruct (im_count im =? 0); [reflexivity|].
  destruct (im_list im); reflexivity.
Qed.
Lemma bmedia_form os n : exists d s e p u, bsd_media os n =
  set_media (match bo_mtu os (nf_name n) with Some m => m mod 65536 | None => nf_mtu n end) d s e p u n
  /\ forall k, nf_name k = nf_name n -> nf_type k = nf_type n ->
     bsd_media os k = set_media (match bo_mtu os (nf_name n) with Some m => m mod 65536 | None => nf_mtu k end) d s e p u k.
Proof.
  unfold bsd_media. cbv zeta.
  destruct (negb (nf_type n =? NETIF_REGULAR)) eqn:T.
  { do 5 eexists. split; [reflexivity|]. intros k K1 K2. now rewrite K1, K2, T. }
  destruct (bo_media os (nf_name n)) as [im|] eqn:M.
  2:{ do 5 eexists. split; [reflexivity|]. intros k K1 K2. now rewrite K1, K2, T, M. }
  destruct (negb (im_ether im)) eqn:A1.
  { do 5 eexists. split; [reflexivity|]. intros k K1 K2. now rewrite K1, K2, T, M, A1. }
  destruct (negb (im_up im)) eqn:A2.
  { do 5 eexists. split; [reflexivity|]. intros k K1 K2. now rewrite K1, K2, T, M, A1, A2. }
  destruct (im_count im =? 0) eqn:A3.
  { do 5 eexists. split; [reflexivity|]. intros k K1 K2. now rewrite K1, K2, T, M, A1, A2, A3. }
  destruct (im_list im) as [l|] eqn:A4.
  - do 5 eexists. split; [reflexivity|]. intros k K1 K2. now rewrite K1, K2, T, M, A1, A2, A3, A4.
  - do 5 eexists. split; [reflexivity|]. intros k K1 K2. now rewrite K1, K2, T, M, A1, A2, A3, A4.
Qed.
Lemma bmedia_idem os n : bsd_media os (bsd_media os n) = bsd_media os n.
Proof.
  destruct (bmedia_form os n) as (d & s & e & p & u & E & H). rewrite H; rewrite E; try reflexivity.
  destruct (bo_mtu os (nf_name n)); reflexivity.
Qed.
Lemma bmedia_bare os n : bare (bsd_media os n) = bare n.
Proof. destruct (bmedia_form os n) as (d & s & e & p & u & E & _). now rewrite E. Qed.
Lemma bmau_range m f : 0 <= bsd_mau m f < 65536.
Proof. destruct m, f; cbn; lia. Qed.
Lemma ok_bmedia os n : netif_ok n -> netif_ok (bsd_media os n).
Proof.
  intros H. unfold bsd_media. cbv zeta.
  set (mtu := match bo_mtu os (nf_name n) with Some m => m mod 65536 | None => nf_mtu n end).
  assert (M : 0 <= mtu < 65536).
  { subst mtu. destruct (bo_mtu os (nf_name n)); [apply Z.mod_pos_bound; lia|now apply ok_mtu]. }
  assert (D : netif_ok (set_media mtu (-1) (-1) (-1) 0 0 n)) by (apply ok_media; lia || assumption).
  destruct (negb _); [assumption|]. destruct (bo_media os (nf_name n)) as [im|]; [|assumption].
  destruct (negb _); [assumption|]. destruct (negb _); [assumption|]. destruct (_ =? _); [assumption|].
  destruct (im_list im) as [l|]; [|assumption].
  apply ok_media; try assumption; try apply bmau_range.
  - destruct (im_fdx im); lia.
  - destruct (existsb _ l); lia.
  - destruct (existsb _ l); [destruct (is_auto _)|]; lia.
  - apply (BsdProofs5.pmd_fold_range l 0). lia.
Qed.

Definition b_touched (os : bos) (n m : netif) : Prop :=
  exists e, m = set_link_event e n \/ m = set_link_event e (bsd_media os n).
Lemma b_touched_refl os n : b_touched os n n.
Proof. exists (nf_link_event n). left. now destruct n. Qed.
Lemma b_touched_bare os n m : b_touched os n m -> bare m = bare n.
Proof. intros [e [->| ->]]; [reflexivity|exact (bmedia_bare os n)]. Qed.
Lemma b_touched_link os n m e : b_touched os n m -> b_touched os n (set_link_event e m).
Proof. intros [f [->| ->]]; exists e; [now left|now right]. Qed.
Lemma b_touched_media os n m : b_touched os n m -> exists e, bsd_media os m = set_link_event e (bsd_media os n).
Proof. intros [f [->| ->]]; exists f; rewrite bmedia_link; [reflexivity|now rewrite bmedia_idem]. Qed.
Lemma b_touched_ok os n m : b_touched os n m -> netif_ok n -> netif_ok m.
Proof. intros [e [->| ->]] H; apply ok_link; [assumption|now apply ok_bmedia]. Qed.

Section table.
Variables (os : bos) (nfs : list netif).
Definition b_touches (T : list netif) : Prop := Forall2 (b_touched os) nfs T.
Lemma b_touches_bare T : b_touches T -> map bare T = map bare nfs.
Proof. unfold b_touches. induction 1 as [|n m l T H F IH]; [reflexivity|]. cbn. now rewrite (b_touched_bare _ _ _ H), IH. Qed.
Lemma b_touches_index T : b_touches T -> indices T = indices nfs.
Proof. intros H. exact (map_factor bare nf_index _ _ (fun x y E => f_equal nf_index E) (b_touches_bare T H)). Qed.
Lemma b_touches_well T : well nfs -> b_touches T -> well T.
Proof. unfold b_touches, well. intros W H. induction H as [|n m l T H F IH]; [constructor|]. inversion W; subst. constructor; [now apply (b_touched_ok os n)|auto]. Qed.
Lemma b_touches_assign f i T : (forall n m, b_touched os n m -> b_touched os n (f m)) -> b_touches T -> b_touches (nf_assign f i T).
Proof.
  unfold b_touches. intros K H. induction H as [|n m l T H F IH]; cbn; [constructor|]. destruct (nf_index m =? i); constructor; auto.
Qed.
Lemma b_touches_byindex T i : b_touches T ->
  match netif_byindex nfs i with
  | Some n => exists m, netif_byindex T i = Some m /\ b_touched os n m
  | None => netif_byindex T i = None
  end.
Proof.
  unfold b_touches, netif_byindex. intros H. induction H as [|n m l T H F IH]; cbn; [reflexivity|].
  pose proof (f_equal nf_index (b_touched_bare _ _ _ H)) as E. cbn in E. rewrite E. destruct (nf_index n =? i); [exists m; tauto|exact IH].
Qed.
Lemma b_touches_at T o : b_touches T ->
  option_map bare (match o with Some i => netif_byindex T i | None => None end) = option_map bare (at_index nfs o).
Proof.
  intros H. destruct o as [i|]; [|reflexivity]. cbn [at_index]. change (find (index_is i) nfs) with (netif_byindex nfs i).
  pose proof (b_touches_byindex T i H) as K. destruct (netif_byindex nfs i) as [n|].
  - destruct K as (m & -> & K). cbn. now rewrite (b_touched_bare _ _ _ K).
  - now rewrite K.
Qed.
Lemma b_touches_start : b_touches nfs.
Proof. unfold b_touches. induction nfs as [|n l IH]; constructor; [apply b_touched_refl|exact IH]. Qed.
End table.

(** ** One interface *)
Section run.
Variables (cfg : scfg) (os : bos) (nfs : list netif) (si : sysinfo) (index : Z).
Hypothesis W : well nfs.
Hypothesis S : sysinfo_ok si.
Hypothesis ND : NoDup (indices nfs).


Lemma b_due_app a : forall seq b, b_frames_due cfg os nfs si seq (a ++ b) = b_frames_due cfg os nfs si seq a ++ b_frames_due cfg os nfs si (after seq a) b.
Proof.
  induction a as [|d a IH]; intros seq b; cbn [app b_frames_due]; [reflexivity|]. rewrite IH, app_assoc. reflexivity.
Qed.


Lemma b_proto_run top sub T t s e : b_touches os nfs T -> netif_ok sub -> s = set_link_event e (bsd_media os sub) -> bare t = bare top ->
  forall ps seq eff, 0 <= seq < 65536 -> Forall (fun p => 0 <= p < 6) ps ->
  exists eff', fold_left (send_proto cfg T si t s) ps (seq, eff)
    = (after seq (map (fun p => (top, sub, p)) (filter (enabled cfg top) ps)), eff ++ eff')
  /\ frames eff' = b_frames_due cfg os nfs si seq (map (fun p => (top, sub, p)) (filter (enabled cfg top) ps))
  /\ forall x, In x eff' -> exists p f, x = SFrame (nf_index sub) p f.
Proof.
  intros HT Hs Es Et.
  assert (B : bare s = bare sub) by (rewrite Es; exact (bmedia_bare os sub)).
  induction ps as [|p ps IH]; intros seq eff Hseq Hp.
  { exists []. rewrite app_nil_r. split; [reflexivity|]. split; [reflexivity|]. now intros x. }
  inversion Hp as [|? ? Hp0 Hps]; subst x l. cbn [fold_left filter].
  assert (Hen : enabled cfg top p = negb (negb (sc_enabled cfg p) && negb (has (nf_protos t) (Z.shiftl 1 p)))).
  { unfold enabled. rewrite Z.shiftl_mul_pow2, Z.mul_1_l by lia. rewrite has_bit by lia. pose proof (f_equal nf_protos Et) as F. cbn in F. rewrite F.
    now destruct (sc_enabled cfg p), (Z.testbit _ p). }
  unfold send_proto at 2. rewrite Hen.
  destruct (negb (sc_enabled cfg p) && negb (has (nf_protos t) (Z.shiftl 1 p))); cbn [negb].
  { now apply IH. }
  set (par := match nf_parent s with Some i => netif_byindex T i | None => None end).
  set (mgmt := match si_mnetif si with Some i => netif_byindex T i | None => None end).
  assert (WT : well T) by now apply (b_touches_well os nfs).
  assert (Hin : inputs_ok seq s par mgmt T si).
  { split; [rewrite Es; now apply ok_link, ok_bmedia|].
    split; [intros q Eq; subst par; destruct (nf_parent s); [|discriminate]; apply byindex_some in Eq as [Eq _]; now apply (well_in T)|].
    split; [intros q Eq; subst mgmt; destruct (si_mnetif si); [|discriminate]; apply byindex_some in Eq as [Eq _]; now apply (well_in T)|].
    split; [intros v Hv; now apply (well_in T)|]. split; assumption. }
  rewrite (proto_build_spec p (sc_opts cfg) seq s par mgmt T si Hp0 Hin).
  set (adv := advert p (nc_opts (sc_net cfg)) seq (bsd_media os sub) (at_index nfs (nf_parent sub)) (at_index nfs (si_mnetif si)) nfs si).
  assert (EA : advert p (sc_opts cfg) seq s par mgmt T si = adv).
  { subst adv. apply advert_bare; [now rewrite Es| | |now apply (b_touches_bare os)].
    - subst par. rewrite <- (b_touches_at os nfs T (nf_parent sub) HT). pose proof (f_equal nf_parent B) as F. cbn in F. now rewrite F.
    - apply (b_touches_at os). assumption. }
  rewrite EA.
  assert (LA : 14 <= zlen adv) by (subst adv; apply advert_len; now apply ok_bmedia).
  assert (FD : b_frame_due cfg os nfs si seq (top, sub, p) =
    if (nf_bonding_mode t =? NETIF_BONDING_FAILOVER) && negb (nf_child s =? NETIF_CHILD_ACTIVE) then blank_src adv else adv).
  { unfold b_frame_due. fold adv. pose proof (f_equal nf_bonding_mode Et) as F1. pose proof (f_equal nf_child B) as F2. cbn in F1, F2.
    unfold NETIF_BONDING_FAILOVER, NETIF_CHILD_ACTIVE. now rewrite F1, F2. }
  assert (LF : zlen (b_frame_due cfg os nfs si seq (top, sub, p)) = zlen adv).
  { rewrite FD. destruct (_ && _); [|reflexivity]. change (blank_src adv) with (blanked adv). apply blank_len. lia. }
  assert (N : (if p =? PROTO_EDP then (seq + 1) mod 65536 else seq) = next seq (top, sub, p)) by reflexivity.
  assert (I : nf_index s = nf_index sub) by exact (f_equal nf_index B).
  assert (R : 0 <= next seq (top, sub, p) < 65536) by exact (after_range [(top, sub, p)] seq Hseq).
  cbn [map b_frames_due]. rewrite LF. unfold after. cbn [fold_left]. fold (after (next seq (top, sub, p))).
  destruct (zlen adv <=? 1518); cbn [when].
  - rewrite N, <- FD, I.
    destruct (IH (next seq (top, sub, p)) (eff ++ [SFrame (nf_index sub) p (b_frame_due cfg os nfs si seq (top, sub, p))]) R Hps) as (eff' & E1 & E2 & E3).
    exists (SFrame (nf_index sub) p (b_frame_due cfg os nfs si seq (top, sub, p)) :: eff'). rewrite E1, <- app_assoc. split; [reflexivity|].
    split; [|intros x [<-|Hx]; [eauto|now apply E3]]. cbn [frames flat_map app fst snd]. fold (frames eff'). now rewrite E2.
  - rewrite N. destruct (IH (next seq (top, sub, p)) eff R Hps) as (eff' & E1 & E2 & E3). exists eff'. now rewrite E1, E2.
Qed.

Lemma b_sub_run top sub T seq eff : b_touches os nfs T -> In top nfs -> In sub nfs -> 0 <= seq < 65536 ->
  exists T' eff', bc_sub cfg os si index (nf_index top) (T, seq, eff) (nf_index sub) = (T', after seq (on cfg index top sub), eff ++ eff')
  /\ b_touches os nfs T' /\ frames eff' = b_frames_due cfg os nfs si seq (on cfg index top sub).
Proof.
  intros HT Htop Hsub Hseq. unfold bc_sub, on, hit.
  destruct (index =? NETIF_INDEX_MAX) eqn:M; [|destruct (index =? nf_index sub) eqn:M2]; cbn [negb andb orb].
  3:{ exists T, []. rewrite app_nil_r. now repeat split. }
  all: pose proof (b_touches_byindex os nfs T (nf_index sub) HT) as K; rewrite (byindex_in nfs sub ND Hsub) in K; destruct K as (s0 & -> & K0).
  all: rewrite (skip_eligible cfg sub s0 (b_touched_bare _ _ _ K0)).
  all: set (T1 := nf_assign (set_link_event _) (nf_index sub) T).
  all: assert (HT1 : b_touches os nfs T1) by (apply b_touches_assign; [intros n m; apply b_touched_link|assumption]).
  all: destruct (eligible cfg sub); cbn [negb andb]; [|exists T1, []; rewrite app_nil_r; now repeat split].
  all: cbv zeta; set (T2 := nf_assign (bsd_media os) (nf_index sub) T1).
  all: assert (HT2 : b_touches os nfs T2) by (apply b_touches_assign; [intros n m Hn; destruct (b_touched_media _ _ _ Hn) as [e E]; exists e; now right|assumption]).
  all: set (eff1 := if _ && _ then [SOpen (nf_index sub)] else []).
  all: assert (F1 : frames eff1 = []) by (subst eff1; destruct (_ && _); reflexivity).
  all: unfold sc_opts; change OPT_SEND with (2 ^ 1); rewrite (has_bit _ 1) by lia; fold (opt cfg 1).
  all: destruct (opt cfg 1); cbn [negb]; [|exists T2, eff1; repeat split; assumption].
  all: pose proof (b_touches_byindex os nfs T1 (nf_index sub) HT1) as K; rewrite (byindex_in nfs sub ND Hsub) in K; destruct K as (s1 & E1 & K1).
  all: destruct (b_touched_media _ _ _ K1) as [e Es].
  all: assert (E2 : netif_byindex T2 (nf_index sub) = Some (bsd_media os s1)).
  1,3: subst T2; rewrite byindex_assign by (intros m <-; exact (f_equal nf_index (bmedia_bare os m))); rewrite Z.eqb_refl, E1; reflexivity.
  all: rewrite E2.
  all: pose proof (b_touches_byindex os nfs T2 (nf_index top) HT2) as K; rewrite (byindex_in nfs top ND Htop) in K; destruct K as (t & -> & Kt).
  all: destruct (b_proto_run top sub T2 t _ e HT2 (well_in _ _ W Hsub) Es (b_touched_bare _ _ _ Kt) [0; 1; 2; 3; 4; 5] seq [] Hseq
       ltac:(repeat constructor; lia)) as (eff2 & R1 & R2 & _).
  all: rewrite R1; cbn [app]; exists T2, (eff1 ++ eff2); (split; [reflexivity|]); (split; [assumption|]); rewrite frames_app, F1; exact R2.
Qed.
Lemma b_subs_run top : In top nfs -> forall subs T seq eff, incl subs nfs -> b_touches os nfs T -> 0 <= seq < 65536 ->
  exists T' eff', fold_left (bc_sub cfg os si index (nf_index top)) (map nf_index subs) (T, seq, eff)
      = (T', after seq (flat_map (on cfg index top) subs), eff ++ eff')
  /\ b_touches os nfs T' /\ frames eff' = b_frames_due cfg os nfs si seq (flat_map (on cfg index top) subs).
Proof.
  intros Htop. induction subs as [|s subs IH]; intros T seq eff Hs HT Hseq.
  - exists T, []. rewrite app_nil_r. now repeat split.
  - cbn [map fold_left flat_map]. destruct (b_sub_run top s T seq eff HT Htop (Hs s (or_introl eq_refl)) Hseq) as (T1 & eff1 & E1 & HT1 & F1).
    rewrite E1. destruct (IH T1 (after seq (on cfg index top s)) (eff ++ eff1) (fun x Hx => Hs x (or_intror Hx)) HT1 (after_range _ _ Hseq)) as (T2 & eff2 & E2 & HT2 & F2).
    exists T2, (eff1 ++ eff2). rewrite E2, app_assoc. split; [|split; [assumption|now rewrite frames_app, b_due_app, F1, F2]].
    unfold after. now rewrite fold_left_app.
Qed.
Lemma b_tops_run : forall tops T seq eff, incl tops nfs -> b_touches os nfs T -> 0 <= seq < 65536 ->
  exists T' eff', fold_left (bc_top cfg os si index nfs) tops (T, seq, eff) = (T', after seq (flat_map (whole cfg nfs index) tops), eff ++ eff')
  /\ b_touches os nfs T' /\ frames eff' = b_frames_due cfg os nfs si seq (flat_map (whole cfg nfs index) tops).
Proof.
  induction tops as [|t tops IH]; intros T seq eff Hs HT Hseq.
  - exists T, []. rewrite app_nil_r. now repeat split.
  - cbn [fold_left flat_map]. pose proof (Hs t (or_introl eq_refl)) as Ht.
    assert (K : exists T1 eff1, bc_top cfg os si index nfs (T, seq, eff) t = (T1, after seq (whole cfg nfs index t), eff ++ eff1)
       /\ b_touches os nfs T1 /\ frames eff1 = b_frames_due cfg os nfs si seq (whole cfg nfs index t)).
    { unfold bc_top, whole. rewrite (skip_eligible cfg t t eq_refl). destruct (eligible cfg t) eqn:E; cbn [negb].
      - apply b_subs_run; [assumption|now apply (subif_incl nfs)|assumption|assumption].
      - exists T, []. rewrite app_nil_r. now repeat split. }
    destruct K as (T1 & eff1 & -> & HT1 & F1).
    destruct (IH T1 (after seq (whole cfg nfs index t)) (eff ++ eff1) (fun x Hx => Hs x (or_intror Hx)) HT1 (after_range _ _ Hseq)) as (T2 & eff2 & E2 & HT2 & F2).
    exists T2, (eff1 ++ eff2). rewrite E2, app_assoc. split; [|split; [assumption|now rewrite frames_app, b_due_app, F1, F2]].
    unfold after. now rewrite fold_left_app.
Qed.
Lemma b_loop_run seq : 0 <= seq < 65536 ->
  let ds := flat_map (whole cfg nfs index) (filter (visible (sc_opts cfg)) nfs) in
  exists T' eff', bc_loop cfg os index nfs si seq = (T', after seq ds, eff')
  /\ b_touches os nfs T' /\ frames eff' = b_frames_due cfg os nfs si seq ds.
Proof.
  intros Hseq. unfold bc_loop. rewrite netif_each_filter.
  destruct (b_tops_run (filter (visible (sc_opts cfg)) nfs) nfs seq []) as (T & eff & E & HT & F);
    [intros x Hx; now apply filter_In in Hx|apply b_touches_start|assumption|].
  cbv zeta. exists T, eff. now rewrite E.
Qed.
(** With a consistent kernel. *)
Hypothesis SF : forall top, In top nfs -> 0 <= nf_type top -> subif_each top nfs = b_stands_for os nfs top.
Definition b_due_here : list (netif * netif * Z) :=
  if opt cfg 1 then filter (fun d => hit index (snd (fst d))) (b_due cfg os nfs) else [].
Lemma b_visible_whole top : In top nfs -> (if visible (nc_opts (sc_net cfg)) top then whole cfg nfs index top else [])
  = if selected cfg top && eligible cfg top then flat_map (on cfg index top) (b_stands_for os nfs top) else [].
Proof.
  intros H. unfold visible, whole, selected. fold (opt cfg 5).
  destruct (eligible cfg top) eqn:E; [|rewrite andb_false_r; now destruct (_ && _)]. rewrite andb_true_r.
  pose proof (SF top H (eligible_type cfg _ E)) as K. rewrite <- K.
  destruct (10 <? nf_type top) eqn:T, (nf_subif top) as [i|] eqn:I; cbn [andb negb]; try (now rewrite andb_true_r).
  assert (X : subif_each top nfs = []).
  { unfold subif_each. cbn [subif_loop]. unfold subif_iter. change NETIF_PARENT with 10. now rewrite T, I. }
  rewrite X. cbn [flat_map]. rewrite andb_false_r. now destruct (if opt cfg 5 then _ else _).
Qed.
Lemma b_due_here_eq : flat_map (whole cfg nfs index) (filter (visible (sc_opts cfg)) nfs) = b_due_here.
Proof.
  rewrite flat_map_filter. unfold b_due_here, b_due. rewrite !flat_map_filter, filter_flat_map.
  transitivity (flat_map (fun x => if selected cfg x && eligible cfg x then flat_map (on cfg index x) (b_stands_for os nfs x) else []) nfs).
  { apply flat_map_ext_in. intros a Ha. unfold sc_opts. now apply b_visible_whole. }
  destruct (opt cfg 1) eqn:O.
  - apply flat_map_ext_in. intros a Ha. destruct (_ && _); [|reflexivity]. rewrite flat_map_filter, filter_flat_map.
    apply flat_map_ext. intros b. unfold on. rewrite O. destruct (eligible cfg b); [|now rewrite andb_false_r].
    rewrite !andb_true_r. symmetry. apply filter_all. intros x Hx. apply in_map_iff in Hx as (p & <- & _). reflexivity.
  - apply flat_map_nil. intros a Ha. destruct (_ && _); [|reflexivity]. apply flat_map_nil. intros b Hb. unfold on. rewrite O. now rewrite andb_false_r.
Qed.
End run.

