(** Proofs of C148. *)
From Verif Require Import Base Types Checks Tlv Msg Protos Wire Util Child Parent Netif Mreq Sysinfo Send Bsd HostBsd BsdSend Opts Getopt Config
  Spec SpecChild SpecNet SpecAdv SpecNetif SpecNetif2 SpecMreq SpecSend SpecOnce SpecJoint SpecSys SpecOpts SpecGetopt SpecCmd SpecFlow SpecBsd SpecHostBsd SpecBsdSend SpecCmdBsd2.
From Verif Require Import Lemmas VisProofs TypesProofs TimerProofs OptsProofs GetoptProofs ChildProofs4 NetifProofs1 NetifProofs2 NetifProofs9 SendProofs1 SendProofs2 SendProofs3 SendProofs4 SendProofs5 SendProofs6 FlowProofs1 FlowProofs2
  JointProofs JointProofs2 BsdProofs1 BsdProofs3 BsdSendProofs1 BsdSendProofs2 BsdSendProofs3 CmdProofs CmdProofs3 CmdBsdProofs.

(** ** The loops *)
Section run.
Variables (cfg : scfg) (os : bos) (nfs : list netif) (si : sysinfo).
Hypothesis ND : NoDup (indices nfs).
Definition b_wants (s : netif) : list Z := if opt cfg 2 && (eligible cfg s && (nf_protos s =? 0)) then [nf_index s] else [].

Lemma b_sub_opens top sub T seq eff : b_touches os nfs T -> In sub nfs ->
  exists T' seq' eff', bc_sub cfg os si NETIF_INDEX_MAX top (T, seq, eff) (nf_index sub) = (T', seq', eff ++ eff')
  /\ b_touches os nfs T' /\ opens eff' = b_wants sub /\ closes eff' = [].
Proof.
  intros HT Hsub. unfold bc_sub, b_wants. rewrite Z.eqb_refl. cbn [negb andb].
  pose proof (b_touches_byindex os nfs T (nf_index sub) HT) as K. rewrite (byindex_in nfs sub ND Hsub) in K. destruct K as (s0 & -> & K0).
  rewrite (skip_eligible cfg sub s0 (b_touched_bare _ _ _ K0)).
  pose proof (f_equal nf_protos (b_touched_bare _ _ _ K0)) as P. cbn in P. rewrite P.
  set (T1 := nf_assign (set_link_event _) (nf_index sub) T).
  assert (HT1 : b_touches os nfs T1) by (apply b_touches_assign; [intros n m; apply b_touched_link|assumption]).
  destruct (eligible cfg sub); cbn [negb andb]; [|exists T1, seq, []; rewrite app_nil_r, andb_false_r; now repeat split].
  cbv zeta. set (T2 := nf_assign (bsd_media os) (nf_index sub) T1).
  assert (HT2 : b_touches os nfs T2) by (apply b_touches_assign; [intros n m Hn; destruct (b_touched_media _ _ _ Hn) as [e E]; exists e; now right|assumption]).
  assert (R : has (sc_opts cfg) OPT_RECV = opt cfg 2) by (unfold opt, sc_opts; change OPT_RECV with (2 ^ 2); now apply has_bit).
  rewrite R. set (eff1 := if _ && _ then [SOpen (nf_index sub)] else []).
  assert (O1 : opens eff1 = if opt cfg 2 && (nf_protos sub =? 0) then [nf_index sub] else []) by (subst eff1; now destruct (_ && _)).
  assert (C1 : closes eff1 = []) by (subst eff1; now destruct (_ && _)).
  destruct (negb (has (sc_opts cfg) OPT_SEND)).
  { exists T2, seq, eff1. now repeat split. }
  destruct (netif_byindex T2 (nf_index sub)) as [s|]; [destruct (netif_byindex T2 top) as [t|]|]; try (exists T2, seq, eff1; now repeat split).
  destruct (protos_opens cfg T2 si t s [0; 1; 2; 3; 4; 5] (seq, [])) as (eff2 & E & O & C).
  destruct (fold_left _ _ _) as [seq' e]. cbn [snd app] in E. subst e.
  exists T2, seq', (eff1 ++ eff2). split; [reflexivity|]. split; [assumption|]. rewrite opens_app, O, O1, app_nil_r. split; [reflexivity|].
  unfold closes in *. now rewrite flat_map_app, C, C1.
Qed.
Lemma b_subs_opens top : forall subs T seq eff, incl subs nfs -> b_touches os nfs T ->
  exists T' seq' eff', fold_left (bc_sub cfg os si NETIF_INDEX_MAX top) (map nf_index subs) (T, seq, eff) = (T', seq', eff ++ eff')
  /\ b_touches os nfs T' /\ opens eff' = flat_map b_wants subs /\ closes eff' = [].
Proof.
  induction subs as [|s subs IH]; intros T seq eff Hs HT.
  - exists T, seq, []. rewrite app_nil_r. now repeat split.
  - cbn [map fold_left flat_map]. destruct (b_sub_opens top s T seq eff HT (Hs s (or_introl eq_refl))) as (T1 & seq1 & eff1 & -> & HT1 & O1 & C1).
    destruct (IH T1 seq1 (eff ++ eff1) (fun x Hx => Hs x (or_intror Hx)) HT1) as (T2 & seq2 & eff2 & -> & HT2 & O2 & C2).
    exists T2, seq2, (eff1 ++ eff2). rewrite app_assoc. split; [reflexivity|]. split; [assumption|]. rewrite opens_app, O1, O2. split; [reflexivity|].
    unfold closes in *. now rewrite flat_map_app, C1, C2.
Qed.
Definition b_all_wants (top : netif) : list Z := if eligible cfg top then flat_map b_wants (subif_each top nfs) else [].
Lemma b_tops_opens : forall tops T seq eff, incl tops nfs -> b_touches os nfs T ->
  exists T' seq' eff', fold_left (bc_top cfg os si NETIF_INDEX_MAX nfs) tops (T, seq, eff) = (T', seq', eff ++ eff')
  /\ b_touches os nfs T' /\ opens eff' = flat_map b_all_wants tops /\ closes eff' = [].
Proof.
  induction tops as [|t tops IH]; intros T seq eff Hs HT.
  - exists T, seq, []. rewrite app_nil_r. now repeat split.
  - cbn [fold_left flat_map]. pose proof (Hs t (or_introl eq_refl)) as Ht.
    assert (K : exists T1 seq1 eff1, bc_top cfg os si NETIF_INDEX_MAX nfs (T, seq, eff) t = (T1, seq1, eff ++ eff1)
       /\ b_touches os nfs T1 /\ opens eff1 = b_all_wants t /\ closes eff1 = []).
    { unfold bc_top, b_all_wants. rewrite (skip_eligible cfg t t eq_refl). destruct (eligible cfg t) eqn:E; cbn [negb].
      - apply b_subs_opens; [now apply subif_incl|assumption].
      - exists T, seq, []. rewrite app_nil_r. now repeat split. }
    destruct K as (T1 & seq1 & eff1 & -> & HT1 & O1 & C1).
    destruct (IH T1 seq1 (eff ++ eff1) (fun x Hx => Hs x (or_intror Hx)) HT1) as (T2 & seq2 & eff2 & -> & HT2 & O2 & C2).
    exists T2, seq2, (eff1 ++ eff2). rewrite app_assoc. split; [reflexivity|]. split; [assumption|]. rewrite opens_app, O1, O2. split; [reflexivity|].
    unfold closes in *. now rewrite flat_map_app, C1, C2.
Qed.
Hypothesis SF : forall top, In top nfs -> 0 <= nf_type top -> subif_each top nfs = b_stands_for os nfs top.
Lemma b_visible_wants top : In top nfs -> (if visible (nc_opts (sc_net cfg)) top then b_all_wants top else [])
  = if selected cfg top && eligible cfg top then flat_map b_wants (b_stands_for os nfs top) else [].
Proof.
  intros H. unfold visible, b_all_wants, selected. fold (opt cfg 5).
  destruct (eligible cfg top) eqn:E; [|rewrite andb_false_r; now destruct (_ && _)]. rewrite andb_true_r.
  pose proof (SF top H (eligible_type _ _ E)) as K. rewrite <- K.
  destruct (10 <? nf_type top) eqn:T, (nf_subif top) as [i|] eqn:I; cbn [andb negb]; try (now rewrite andb_true_r).
  assert (X : subif_each top nfs = []).
  { unfold subif_each. cbn [subif_loop]. unfold subif_iter. change NETIF_PARENT with 10. now rewrite T, I. }
  rewrite X. cbn [flat_map]. rewrite andb_false_r. now destruct (if opt cfg 5 then _ else _).
Qed.
Lemma b_wants_filter l : flat_map b_wants l = if opt cfg 2 then map nf_index (filter (fun s => eligible cfg s && (nf_protos s =? 0)) l) else [].
Proof.
  unfold b_wants. destruct (opt cfg 2); cbn [andb].
  - induction l as [|s l IH]; [reflexivity|]. cbn [flat_map filter]. destruct (_ && _); cbn [app map]; now rewrite IH.
  - now apply flat_map_nil.
Qed.
Lemma b_loop_opens seq : let r := bc_loop cfg os NETIF_INDEX_MAX nfs si seq in
  opens (snd r) = b_listened cfg os nfs /\ closes (snd r) = [].
Proof.
  cbv zeta. unfold bc_loop. rewrite netif_each_filter.
  destruct (b_tops_opens (filter (visible (sc_opts cfg)) nfs) nfs seq []) as (T & seq' & eff & -> & HT & O & C);
    [intros x Hx; now apply filter_In in Hx|apply b_touches_start|]. cbn [app snd]. split; [|assumption]. rewrite O.
  rewrite flat_map_filter.
  transitivity (flat_map (fun x => if selected cfg x && eligible cfg x then flat_map b_wants (b_stands_for os nfs x) else []) nfs).
  { apply flat_map_ext_in. intros a Ha. unfold sc_opts. now apply b_visible_wants. }
  rewrite <- (flat_map_filter (fun x => selected cfg x && eligible cfg x) (fun x => flat_map b_wants (b_stands_for os nfs x))).
  unfold b_listened. destruct (opt cfg 2) eqn:E.
  - apply flat_map_ext. intros a. rewrite b_wants_filter, E. reflexivity.
  - apply flat_map_nil. intros a _. now rewrite b_wants_filter, E.
Qed.
End run.


Theorem b_asks_for cfg pf os now st nfs si : b_running cfg pf st -> b_ok os -> b_refresh cfg pf os st nfs si -> b_consistent os nfs ->
  SpecJoint.opens (snd (bc_send cfg pf os NETIF_INDEX_MAX true now st)) = b_listened cfg os nfs.
Proof.
  intros R O F C. apply b_running_inv in R. destruct (b_refresh_facts _ _ _ _ _ _ O R F) as (J & _ & L).
  destruct J as [J1 J2 J3 J4 J5 J6 J7]. unfold table in J1, J2, J3. cbn [st_child st_si st_edp c_nfs set_nfs] in *.
  destruct F as (ret & gone & F & Z0).
  unfold bc_send. cbv zeta. rewrite Z.eqb_refl. cbn [negb andb]. fold (table st). rewrite F.
  replace (ret =? 0) with false by lia.
  destruct (b_loop_opens cfg os nfs si J2 (fun top Ht Hty => proj1 (b_stands_each pf os nfs top J2 (L C) C Ht Hty)) (st_edp st)) as [E1 E2].
  destruct (bc_loop cfg os NETIF_INDEX_MAX nfs si (st_edp st)) as [[T edp] eff]. cbn [snd] in E1, E2.
  assert (K : SpecJoint.opens (map SClose gone ++ eff) = b_listened cfg os nfs) by (destruct (opens_closes gone) as [G1 G2]; rewrite opens_app, G1, E1; reflexivity).
  destruct (has (sc_opts cfg) OPT_RECV).
  - destruct (child_expire _ _ _) as [c eff2]. cbn [snd]. destruct (opens_child eff2) as [G1 G2]. rewrite opens_app, K, G1, app_nil_r. reflexivity.
  - cbn [snd]. exact K.
Qed.

(** ** The command line *)
Lemma b_cmd_listen n perm words s names o pf os now st nfs si i :
  main_argv n perm words = Some (s, names) -> says perm daemon_letters words o names ->
  b_running (conf_of s names) pf st -> b_ok os -> b_refresh (conf_of s names) pf os st nfs si -> b_consistent os nfs ->
  (In i (SpecJoint.opens (snd (bc_send (conf_of s names) pf os NETIF_INDEX_MAX true now st)))
   <-> given (bs "aryz") o = true /\ exists top sub,
        In top nfs /\ chosen names top /\ allowed o top
        /\ In sub (b_stands_for os nfs top) /\ allowed o sub /\ nf_index sub = i
        /\ (given (bs "a") o = true -> nf_protos sub = 0)).
Proof.
  intros A Y R O F C. apply daemon_iff in A as (o' & Y' & M). destruct (says_unique _ _ _ _ _ _ _ (or_introl eq_refl) Y Y') as [<- _]. clear Y'.
  rewrite (b_asks_for _ _ _ now _ _ _ R O F C).
  destruct (b_running_refreshed _ _ _ R) as (nfs0 & R1 & R2). destruct F as (ret & gone & F & NZ).
  destruct (bo_ifaddrs os) as [ias|] eqn:E; [|rewrite (b_fetch_none _ _ _ _ _ E) in F; injection F as <- _ _ _; congruence].
  destruct (b_rest _ _ _ _ _ _ _ _ _ _ _ R1 R2 E O F) as (_ & _ & MK & _).
  assert (NH : opt (conf_of s names) 3 = false -> none_heard nfs).
  { intros A3. exact (b_fetch_none_heard _ _ _ _ _ _ _ _ _ O (inv_nodup _ (b_running_inv _ _ _ R)) (b_running_none _ _ _ A3 R) F). }
  rewrite (opt_on n o names s M OPT_AUTO 3 (bs "a")) in NH by (cbn; auto || reflexivity || lia).
  unfold b_listened. rewrite (opt_on n o names s M OPT_RECV 2 (bs "aryz")) by (cbn; auto || reflexivity || lia).
  destruct (given (bs "aryz") o); [|split; [easy|intros [H _]; discriminate]].
  assert (Sub : forall top sub, In top nfs -> In sub (b_stands_for os nfs top) -> In sub nfs).
  { intros top sub T H. unfold b_stands_for in H. destruct (_ <=? _).
    - destruct H as [<-|[]]. exact T.
    - apply in_flat_map in H as (r & _ & H). unfold at_index in H. destruct (find _ nfs) as [m|] eqn:Em; [|easy]. destruct H as [<-|[]]. now apply find_some in Em. }
  assert (Z0 : forall sub, In sub nfs -> nf_protos sub =? 0 = true <-> (given (bs "a") o = true -> nf_protos sub = 0)).
  { intros sub H. rewrite Z.eqb_eq. destruct (given (bs "a") o); [tauto|]. split; [discriminate 2|]. intros _. specialize (NH eq_refl). unfold none_heard in NH.
    rewrite Forall_forall in NH. apply NH. now apply in_map. }
  rewrite in_flat_map. split.
  - intros (top & H1 & H2). split; [reflexivity|]. apply filter_In in H1 as [H1 H3]. apply andb_prop in H3 as [H3 H4].
    apply in_map_iff in H2 as (sub & H5 & H2). apply filter_In in H2 as [H2 H6]. apply andb_prop in H6 as [H6 H7].
    exists top, sub. split; [assumption|]. split; [now apply (selected_chosen n o names s M nfs)|]. split; [now apply (eligible_allowed n o names s M)|].
    split; [assumption|]. split; [now apply (eligible_allowed n o names s M)|]. split; [assumption|]. apply Z0; [now apply (Sub top)|assumption].
  - intros (_ & top & sub & H1 & H2 & H3 & H4 & H5 & H6 & H7). exists top. split.
    + apply filter_In. split; [assumption|]. apply andb_true_intro. split; [now apply (selected_chosen n o names s M nfs)|now apply (eligible_allowed n o names s M)].
    + apply in_map_iff. exists sub. split; [assumption|]. apply filter_In. split; [assumption|]. apply andb_true_intro.
      split; [now apply (eligible_allowed n o names s M)|]. apply Z0; [now apply (Sub top)|assumption].
Qed.


(** ** Descriptions *)
Lemma b_sub_quiet cfg os si index top x i : Forall silent_s (snd x) -> Forall silent_s (snd (bc_sub cfg os si index top x i)).
Proof.
  intros H. destruct x as [[T c] e]. unfold bc_sub. cbn [snd] in *. destruct (_ && _); [exact H|]. destruct (netif_byindex T i) as [s|]; [|exact H]. cbv zeta.
  destruct (send_skip cfg s); [exact H|].
  match goal with |- context [if ?b then [SOpen i] else []] => set (e1 := if b then [SOpen i] else []); assert (K : Forall silent_s e1) by (unfold e1; destruct b; repeat constructor) end.
  assert (L : Forall silent_s (e ++ e1)) by (apply Forall_app; now split).
  destruct (negb _); [exact L|]. destruct (netif_byindex _ i) as [u|]; [|exact L]. destruct (netif_byindex _ top) as [t|]; [|exact L].
  match goal with |- context [fold_left ?f ?l ?x] => pose proof (fold_none f silent_s l x (fun y p => proto_quiet _ _ _ _ _ y p) (Forall_nil _)) as Q; destruct (fold_left f l x) as [c' e2] end.
  cbn [snd] in *. apply Forall_app. split; [exact H|]. apply Forall_app. now split.
Qed.
Lemma b_loop_quiet cfg os index T si c : Forall silent_s (snd (bc_loop cfg os index T si c)).
Proof.
  unfold bc_loop. assert (G : forall l x, Forall silent_s (snd x) -> Forall silent_s (snd (fold_left (bc_top cfg os si index T) l x))); [|apply G; constructor].
  induction l as [|n l IH]; intros x H; [exact H|]. cbn [fold_left]. apply IH. unfold bc_top. destruct (send_skip cfg n); [exact H|].
  apply fold_none; [|exact H]. intros y i. apply b_sub_quiet.
Qed.
Lemma b_run_quiet cfg pf os index timeout now st : has (sc_opts cfg) OPT_IFDESCR = false -> Forall silent_s (snd (bc_send cfg pf os index timeout now st)).
Proof.
  intros F. unfold bc_send. cbv zeta.
  match goal with |- context [let '(_, _) := ?a in _] => set (A := a); assert (HA : Forall silent_s (snd A)) end.
  { unfold A. destruct (_ && _); [constructor|]. destruct (bsd_fetch _ _ _ _ _) as [[[ret nfs] si] gone]. destruct (ret =? 0); [apply closes_quiet|].
    destruct (_ && _); [apply closes_quiet|]. pose proof (b_loop_quiet cfg os index nfs si (st_edp st)) as Q. destruct (bc_loop _ _ _ _ _ _) as [[T e] eff].
    cbn [snd] in *. apply Forall_app. split; [apply closes_quiet|exact Q]. }
  destruct A as [st1 e1]. cbn [snd] in HA. destruct (_ && _); [|exact HA].
  pose proof (expire_silent (sc_opts cfg) now (st_child st1) F) as Q. destruct (child_expire _ _ _) as [c' e2]. cbn [snd] in *.
  apply Forall_app. split; [exact HA|]. clear -Q. induction Q; constructor; assumption.
Qed.
Lemma b_event_quiet cfg pf st e st' eff : has (sc_opts cfg) OPT_IFDESCR = false -> bc_step cfg pf st e = DOk (st', eff) -> Forall silent_s eff.
Proof.
  intros F H. destruct e as [os now|os m now|e].
  - cbn [bc_step] in H. injection H as H. pose proof (b_run_quiet cfg pf os NETIF_INDEX_MAX true now st F) as Q. rewrite H in Q. exact Q.
  - cbn [bc_step] in H. injection H as H. unfold bc_link in H. destruct (_ || _ || _); [injection H as _ <-; constructor|].
    do 3 (destruct (negb _); [injection H as _ <-; constructor|]).
    match type of H with bc_send ?a ?b ?c ?d ?e ?f ?g = _ => pose proof (b_run_quiet a b c d e f g F) as Q end. rewrite H in Q. exact Q.
  - exact (event_quiet cfg st (EvChild e) st' eff F H).
Qed.
Lemma b_cmd_descr n perm words s names o pf st e st' eff i t :
  main_argv n perm words = Some (s, names) -> says perm daemon_letters words o names ->
  bc_step (conf_of s names) pf st e = DOk (st', eff) -> In (SChild (CDescr i t)) eff -> given (bs "yz") o = true.
Proof.
  intros A Y H K. apply daemon_iff in A as (o' & Y' & M). destruct (says_unique _ _ _ _ _ _ _ (or_introl eq_refl) Y Y') as [<- _]. clear Y'.
  rewrite <- (has_on n o names s OPT_IFDESCR (bs "yz") M) by (cbn; auto 20).
  destruct (has (u_opts s) OPT_IFDESCR) eqn:F; [reflexivity|]. pose proof (b_event_quiet (conf_of s names) pf _ _ _ _ F H) as Q.
  rewrite Forall_forall in Q. destruct (Q _ K).
Qed.
