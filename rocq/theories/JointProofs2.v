From Verif Require Import Base Types Protos Checks Wire Util Child Parent Netif Mreq Send Spec SpecChild SpecAdv SpecNet SpecNetif SpecMreq SpecSend SpecOnce SpecJoint.
From Verif Require Import Lemmas VisProofs TypesProofs ChildProofs4 WireProofs ParentProofs NetProofs NetifProofs1 NetifProofs2 MreqProofs SendProofs1 SendProofs2 SendProofs3 SendProofs5 SendProofs6 TimerProofs JointProofs.

Lemma opens_app a b : opens (a ++ b) = opens a ++ opens b.
Proof. apply flat_map_app. Qed.
Lemma protos_opens cfg nfs si t s : forall ps st, exists eff, snd (fold_left (send_proto cfg nfs si t s) ps st) = snd st ++ eff /\ opens eff = [] /\ closes eff = [].
Proof.
  induction ps as [|p ps IH]; intros st; cbn [fold_left]; [exists []; now rewrite app_nil_r|].
  destruct (IH (send_proto cfg nfs si t s st p)) as (e2 & E & O & C). rewrite E.
  assert (K : exists e1, snd (send_proto cfg nfs si t s st p) = snd st ++ e1 /\ opens e1 = [] /\ closes e1 = []).
  { unfold send_proto. destruct st as [edp eff]. destruct (_ && _); [exists []; now rewrite app_nil_r|].
    destruct (proto_build _ _ _ _ _ _ _ _); [|exists []; now rewrite app_nil_r]. eexists. cbn [snd]. split; [reflexivity|]. now split. }
  destruct K as (e1 & -> & O1 & C1). exists (e1 ++ e2). rewrite <- app_assoc. split; [reflexivity|].
  rewrite opens_app, O, O1. split; [reflexivity|]. unfold closes in *. now rewrite flat_map_app, C, C1.
Qed.

Section run.
Variables (cfg : scfg) (os : nos) (nfs : list netif) (si : sysinfo).
Hypothesis ND : NoDup (indices nfs).
Definition wants (s : netif) : list Z := if opt cfg 2 && (eligible cfg s && (nf_protos s =? 0)) then [nf_index s] else [].

Lemma sub_opens top sub T seq eff : touches os nfs T -> In sub nfs ->
  exists T' seq' eff', send_sub cfg os si NETIF_INDEX_MAX top (T, seq, eff) (nf_index sub) = (T', seq', eff ++ eff')
  /\ touches os nfs T' /\ opens eff' = wants sub /\ closes eff' = [].
Proof.
  intros HT Hsub. unfold send_sub, wants. rewrite Z.eqb_refl. cbn [negb andb].
  pose proof (touches_byindex os nfs T (nf_index sub) HT) as K. rewrite (byindex_in nfs sub ND Hsub) in K. destruct K as (s0 & -> & K0).
  rewrite (skip_eligible cfg sub s0 (touched_bare _ _ _ K0)).
  pose proof (f_equal nf_protos (touched_bare _ _ _ K0)) as P. cbn in P. rewrite P.
  set (T1 := nf_assign (set_link_event _) (nf_index sub) T).
  assert (HT1 : touches os nfs T1) by (apply touches_assign; [intros n m; apply touched_link|assumption]).
  destruct (eligible cfg sub); cbn [negb andb]; [|exists T1, seq, []; rewrite app_nil_r, andb_false_r; now repeat split].
  cbv zeta. set (T2 := nf_assign (netif_media os) (nf_index sub) T1).
  assert (HT2 : touches os nfs T2) by (apply touches_assign; [intros n m Hn; destruct (touched_media _ _ _ Hn) as [e E]; exists e; now right|assumption]).
  assert (R : has (sc_opts cfg) OPT_RECV = opt cfg 2) by (unfold opt, sc_opts; change OPT_RECV with (2 ^ 2); now apply has_bit).
  rewrite R. set (eff1 := if _ && _ then [SOpen (nf_index sub)] else []).
  assert (O1 : opens eff1 = if opt cfg 2 && (nf_protos sub =? 0) then [nf_index sub] else []) by (subst eff1; now destruct (_ && _)).
  assert (C1 : closes eff1 = []) by (subst eff1; now destruct (_ && _)).
  destruct (negb (has (sc_opts cfg) OPT_SEND)).
  { exists T2, seq, eff1. now repeat split. }
  destruct (netif_byindex T2 (nf_index sub)) as [s|]; [destruct (netif_byindex T2 top) as [t|]|]; try (exists T2, seq, eff1; now repeat split).
  destruct (protos_opens cfg T2 si t s [0; 1; 2; 3; 4; 5] (seq, [])) as (eff2 & E & O & C).
  destruct (fold_left _ _ _) as [seq' e]. cbn [snd app] in E. subst e.
  exists T2, seq', (eff1 ++ eff2). split; [reflexivity|]. split; [assumption|]. rewrite opens_app, O, O1, app_nil_r. split; [reflexivity|].
  unfold closes in *. now rewrite flat_map_app, C, C1.
Qed.
Lemma subs_opens top : forall subs T seq eff, incl subs nfs -> touches os nfs T ->
  exists T' seq' eff', fold_left (send_sub cfg os si NETIF_INDEX_MAX top) (map nf_index subs) (T, seq, eff) = (T', seq', eff ++ eff')
  /\ touches os nfs T' /\ opens eff' = flat_map wants subs /\ closes eff' = [].
Proof.
  induction subs as [|s subs IH]; intros T seq eff Hs HT.
  - exists T, seq, []. rewrite app_nil_r. now repeat split.
  - cbn [map fold_left flat_map]. destruct (sub_opens top s T seq eff HT (Hs s (or_introl eq_refl))) as (T1 & seq1 & eff1 & -> & HT1 & O1 & C1).
    destruct (IH T1 seq1 (eff ++ eff1) (fun x Hx => Hs x (or_intror Hx)) HT1) as (T2 & seq2 & eff2 & -> & HT2 & O2 & C2).
    exists T2, seq2, (eff1 ++ eff2). rewrite app_assoc. split; [reflexivity|]. split; [assumption|]. rewrite opens_app, O1, O2. split; [reflexivity|].
    unfold closes in *. now rewrite flat_map_app, C1, C2.
Qed.
Definition all_wants (top : netif) : list Z := if eligible cfg top then flat_map wants (subif_each top nfs) else [].
Lemma tops_opens : forall tops T seq eff, incl tops nfs -> touches os nfs T ->
  exists T' seq' eff', fold_left (send_top cfg os si NETIF_INDEX_MAX nfs) tops (T, seq, eff) = (T', seq', eff ++ eff')
  /\ touches os nfs T' /\ opens eff' = flat_map all_wants tops /\ closes eff' = [].
Proof.
  induction tops as [|t tops IH]; intros T seq eff Hs HT.
  - exists T, seq, []. rewrite app_nil_r. now repeat split.
  - cbn [fold_left flat_map]. pose proof (Hs t (or_introl eq_refl)) as Ht.
    assert (K : exists T1 seq1 eff1, send_top cfg os si NETIF_INDEX_MAX nfs (T, seq, eff) t = (T1, seq1, eff ++ eff1)
       /\ touches os nfs T1 /\ opens eff1 = all_wants t /\ closes eff1 = []).
    { unfold send_top, all_wants. rewrite (skip_eligible cfg t t eq_refl). destruct (eligible cfg t) eqn:E; cbn [negb].
      - apply subs_opens; [now apply subif_incl|assumption].
      - exists T, seq, []. rewrite app_nil_r. now repeat split. }
    destruct K as (T1 & seq1 & eff1 & -> & HT1 & O1 & C1).
    destruct (IH T1 seq1 (eff ++ eff1) (fun x Hx => Hs x (or_intror Hx)) HT1) as (T2 & seq2 & eff2 & -> & HT2 & O2 & C2).
    exists T2, seq2, (eff1 ++ eff2). rewrite app_assoc. split; [reflexivity|]. split; [assumption|]. rewrite opens_app, O1, O2. split; [reflexivity|].
    unfold closes in *. now rewrite flat_map_app, C1, C2.
Qed.
Hypothesis SF : forall top, In top nfs -> 0 <= nf_type top -> subif_each top nfs = stands_for os nfs top.
Lemma visible_wants top : In top nfs -> (if visible (nc_opts (sc_net cfg)) top then all_wants top else [])
  = if selected cfg top && eligible cfg top then flat_map wants (stands_for os nfs top) else [].
Proof.
  intros H. unfold visible, all_wants, selected. fold (opt cfg 5).
  destruct (eligible cfg top) eqn:E; [|rewrite andb_false_r; now destruct (_ && _)]. rewrite andb_true_r.
  pose proof (SF top H (eligible_type _ _ E)) as K. rewrite <- K.
  destruct (10 <? nf_type top) eqn:T, (nf_subif top) as [i|] eqn:I; cbn [andb negb]; try (now rewrite andb_true_r).
  assert (X : subif_each top nfs = []).
  { unfold subif_each. cbn [subif_loop]. unfold subif_iter. change NETIF_PARENT with 10. now rewrite T, I. }
  rewrite X. cbn [flat_map]. rewrite andb_false_r. now destruct (if opt cfg 5 then _ else _).
Qed.
Lemma wants_filter l : flat_map wants l = if opt cfg 2 then map nf_index (filter (fun s => eligible cfg s && (nf_protos s =? 0)) l) else [].
Proof.
  unfold wants. destruct (opt cfg 2); cbn [andb].
  - induction l as [|s l IH]; [reflexivity|]. cbn [flat_map filter]. destruct (_ && _); cbn [app map]; now rewrite IH.
  - now apply flat_map_nil.
Qed.
Lemma loop_opens seq : let r := send_loop cfg os NETIF_INDEX_MAX nfs si seq in
  opens (snd r) = listened cfg os nfs /\ closes (snd r) = [].
Proof.
  cbv zeta. unfold send_loop. rewrite netif_each_filter.
  destruct (tops_opens (filter (visible (sc_opts cfg)) nfs) nfs seq []) as (T & seq' & eff & -> & HT & O & C);
    [intros x Hx; now apply filter_In in Hx|apply touches_start|]. cbn [app snd]. split; [|assumption]. rewrite O.
  rewrite flat_map_filter.
  transitivity (flat_map (fun x => if selected cfg x && eligible cfg x then flat_map wants (stands_for os nfs x) else []) nfs).
  { apply flat_map_ext_in. intros a Ha. unfold sc_opts. now apply visible_wants. }
  rewrite <- (flat_map_filter (fun x => selected cfg x && eligible cfg x) (fun x => flat_map wants (stands_for os nfs x))).
  unfold listened. destruct (opt cfg 2) eqn:E.
  - apply flat_map_ext. intros a. rewrite wants_filter, E. reflexivity.
  - apply flat_map_nil. intros a _. now rewrite wants_filter, E.
Qed.
End run.

Lemma opens_closes l : opens (map SClose l) = [] /\ closes (map SClose l) = l.
Proof. induction l as [|x l [IH1 IH2]]; [now split|]. split; [exact IH1|]. cbn. f_equal. exact IH2. Qed.
Lemma opens_child l : opens (map SChild l) = [] /\ closes (map SChild l) = [].
Proof. induction l as [|x l [IH1 IH2]]; now split. Qed.

Theorem asks cfg os now st nfs si : running cfg st -> os_ok os -> refresh cfg os st nfs si -> consistent os nfs ->
  let eff := snd (child_send cfg os NETIF_INDEX_MAX true now st) in
  opens eff = listened cfg os nfs /\ (forall i, In i (closes eff) <-> In i (indices (table st)) /\ ~ usable os i).
Proof.
  intros R O F C eff. apply running_inv in R. destruct (refresh_facts _ _ _ _ _ O R F) as (J & (ias & A) & _ & _ & L).
  destruct J as [J1 J2 J3 J4 J5 J6 J7]. unfold table in J1, J2, J3. cbn [st_child st_si st_edp c_nfs set_nfs] in *.
  destruct F as (ret & gone & F & Z0).
  destruct (fetch_exact _ _ _ _ _ _ _ _ _ A (inv_nodup _ R) F) as (_ & _ & X3).
  subst eff. unfold child_send. cbv zeta. rewrite Z.eqb_refl. cbn [negb andb]. fold (table st). rewrite F.
  replace (ret =? 0) with false by lia.
  destruct (loop_opens cfg os nfs si J2 (fun top Ht Hty => proj1 (stands_each os nfs top J2 (L C) C Ht Hty)) (st_edp st)) as [E1 E2].
  destruct (send_loop cfg os NETIF_INDEX_MAX nfs si (st_edp st)) as [[T edp] eff]. cbn [snd] in E1, E2.
  assert (K : opens (map SClose gone ++ eff) = listened cfg os nfs /\ closes (map SClose gone ++ eff) = gone).
  { destruct (opens_closes gone) as [G1 G2]. rewrite opens_app, G1, E1. split; [reflexivity|]. unfold closes in *. rewrite flat_map_app, G2, E2. apply app_nil_r. }
  destruct K as [K1 K2].
  destruct (has (sc_opts cfg) OPT_RECV).
  - destruct (child_expire _ _ _) as [c eff2]. cbn [snd]. destruct (opens_child eff2) as [G1 G2]. rewrite opens_app, K1, G1, app_nil_r.
    split; [reflexivity|]. unfold closes in *. rewrite flat_map_app, G2, K2, app_nil_r. exact X3.
  - cbn [snd]. rewrite K1, K2. now split.
Qed.

(** ** The sockets of the privileged process *)
Lemma listens_byindex fds i : listens fds i <-> rfd_byindex fds i <> None.
Proof.
  unfold listens, rfd_byindex. split.
  - intros (r & H & E) N. pose proof (find_none _ _ N _ H) as X. cbn in X. lia.
  - intros H. destruct (find _ fds) as [r|] eqn:E; [|contradiction]. apply find_some in E as [E1 E2]. exists r. split; [assumption|lia].
Qed.
Lemma listens_more fds x i : listens fds i -> listens (fds ++ x) i.
Proof. intros (r & H & E). exists r. split; [apply in_or_app; now left|assumption]. Qed.
Lemma listens_remove fds i j : i <> j -> listens fds i -> listens (rfd_remove fds j) i.
Proof.
  intros N (r & H & E). exists r. split; [|assumption]. induction fds as [|x fds IH]; [easy|]. cbn [rfd_remove].
  destruct (rf_index x =? j) eqn:X; destruct H as [->|H]; [lia|assumption|now left|right; now apply IH].
Qed.
Lemma listens_open cfg fds j name os fds' eff ok i : parent_open cfg fds j name os = Some (fds', eff, ok) -> listens fds i -> listens fds' i.
Proof.
  unfold parent_open. intros H L. destruct (os_sock os); try discriminate; [|injection H as <- _ _; assumption].
  destruct (_ <? 0); injection H as <- _ _; [assumption|now apply listens_more].
Qed.
Lemma listens_close cfg fds r fds' eff i : parent_close cfg fds r = (fds', eff) -> rf_index r <> i -> listens fds i -> listens fds' i.
Proof. unfold parent_close. intros H N L. apply (f_equal fst) in H. cbn in H. subst fds'. apply listens_remove; [congruence|assumption]. Qed.
Lemma keeps cfg fds e i : ~ loses i e -> listens fds i -> listens (r_fds (parent_step cfg fds e)) i.
Proof.
  intros N L. destruct e as [d os|d os]; cbn [parent_step loses] in *.
  - unfold parent_req. cbv zeta. destruct (negb _); [assumption|]. destruct (os_name os) as [name|]; [|assumption].
    destruct (parent_check _ _ _) as [[|]|]; try assumption. destruct (_ =? PARENT_OPEN).
    + destruct (rfd_byindex _ _); [assumption|]. destruct (parent_open _ _ _ _ _) as [[[fds1 eff] ok]|] eqn:E; [|assumption].
      now apply (listens_open _ _ _ _ _ _ _ _ _ E).
    + destruct (_ =? PARENT_CLOSE) eqn:P.
      * destruct (rfd_byindex _ _) as [r|] eqn:B; [|assumption]. destruct (parent_close _ _ _) as [fds1 eff] eqn:E. cbn [r_fds].
        apply byindex_index in B as [B _]. apply (listens_close _ _ _ _ _ _ E); [|assumption]. intros X. apply N. unfold PARENT_CLOSE in P. split; [lia|congruence].
      * destruct (req_answer _ _ _ _ _) as [[n b] eff]. assumption.
  - unfold parent_send. cbv zeta. destruct (negb _); [assumption|]. destruct (os_name os) as [name|]; [|assumption].
    destruct (negb _); [assumption|]. destruct (negb _); [assumption|]. destruct (proto_check _ _ _) as [[o|]| | | |]; try assumption.
    destruct (has _ _); [assumption|]. set (j := pm_index _) in *.
    assert (K : forall fds1 eff1 (ok : bool), listens fds1 i ->
      listens (r_fds (if ok then match rfd_byindex fds1 j with
                 | None => mkRes fds1 eff1 false
                 | Some r => if (os_rawlen os =? -1) && os_gone os
                             then let '(fds3, eff3) := parent_close cfg fds1 r in mkRes fds3 ((eff1 ++ [EFrame (rf_index r) (rf_fd r) (firstn (Z.to_nat (pm_len (msg_mem d))) (pm_msg (msg_mem d)))]) ++ eff3) true
                             else mkRes fds1 (eff1 ++ [EFrame (rf_index r) (rf_fd r) (firstn (Z.to_nat (pm_len (msg_mem d))) (pm_msg (msg_mem d)))]) true
                 end else mkRes fds1 eff1 true)) i).
    { intros fds1 eff1 ok L1. destruct ok; [|assumption]. destruct (rfd_byindex fds1 j) as [r|] eqn:B; [|assumption].
      destruct ((os_rawlen os =? -1) && os_gone os) eqn:G; [|assumption]. destruct (parent_close cfg fds1 r) as [fds3 eff3] eqn:E. cbn [r_fds].
      apply (listens_close _ _ _ _ _ _ E); [|assumption]. apply byindex_index in B as [B _]. intros X. apply N. apply andb_true_iff in G as [G1 G2].
      split; [congruence|]. split; [lia|assumption]. }
    destruct (rfd_byindex fds j) as [r|] eqn:B.
    + specialize (K fds [] true L). cbn [app] in K. rewrite B in K. rewrite B. exact K.
    + destruct (parent_open _ _ _ _ _) as [[[fds1 eff1] ok]|] eqn:E; [|assumption]. pose proof (listens_open _ _ _ _ _ _ _ _ _ E L) as L1.
      specialize (K fds1 eff1 ok L1). destruct ok; exact K.
Qed.
Lemma run_keeps cfg i : forall es fds, Forall (fun e => ~ loses i e) es -> listens fds i -> listens (r_fds (parent_run cfg fds es)) i.
Proof.
  induction es as [|e es IH]; intros fds H L; [assumption|]. cbn [parent_run]. cbv zeta.
  pose proof (keeps cfg fds e i (Forall_inv H) L) as K. apply Forall_inv_tail in H.
  destruct (r_alive (parent_step cfg fds e)); [|exact K]. cbn [r_fds]. now apply IH.
Qed.
Lemma run_split cfg : forall a fds b, r_alive (parent_run cfg fds (a ++ b)) = true ->
  r_fds (parent_run cfg fds (a ++ b)) = r_fds (parent_run cfg (r_fds (parent_run cfg fds a)) b)
  /\ r_alive (parent_run cfg (r_fds (parent_run cfg fds a)) b) = true.
Proof.
  induction a as [|e a IH]; intros fds b H; [now split|]. cbn [app parent_run] in *. cbv zeta in *.
  destruct (r_alive (parent_step cfg fds e)) eqn:E; [|congruence]. cbn [r_alive r_fds] in *. now apply IH.
Qed.
Lemma opened cfg fds i os : 0 <= i < 4294967296 -> workable os -> r_alive (parent_req cfg fds (mreq_out (q_open i)) os) = true ->
  listens (r_fds (parent_req cfg fds (mreq_out (q_open i)) os)) i.
Proof.
  intros Hi (N & fd & S & Hfd) A.
  assert (RQ : request (q_open i)) by (unfold request, q_open; cbn [rq_index rq_len rq_buf]; split; [assumption|]; split; [lia|reflexivity]).
  destruct (out_fields _ RQ) as (F1 & F2 & F3 & F4 & F5). unfold parent_req in *. cbv zeta in *. set (d := mreq_out (q_open i)) in *. clearbody d.
  rewrite F1 in *. cbn [negb] in *. destruct (os_name os) as [name|]; [|contradiction]. rewrite F2, F3 in *. cbn [q_open rq_op rq_index] in *.
  destruct (parent_check _ _ _) as [[|]|]; try discriminate A. change (PARENT_OPEN =? PARENT_OPEN) with true in *. cbv iota in *.
  destruct (rfd_byindex fds i) as [r|] eqn:B; cbn [r_fds].
  - apply listens_byindex. congruence.
  - unfold parent_open in *. rewrite S in *. replace (fd <? 0) with false in * by lia. cbn [r_fds]. eexists. split; [apply in_or_app; right; left; reflexivity|reflexivity].
Qed.
Theorem socket pcfg fds pes1 i os pes2 : 0 <= i < 4294967296 -> workable os -> Forall (fun e => ~ loses i e) pes2 ->
  let r := parent_run pcfg fds (pes1 ++ PReq (mreq_out (q_open i)) os :: pes2) in
  r_alive r = true -> listens (r_fds r) i.
Proof.
  intros Hi W F r A. unfold r in *. destruct (run_split _ _ _ _ A) as [E1 E2]. rewrite E1. set (fds1 := r_fds (parent_run pcfg fds pes1)) in *.
  cbn [parent_run parent_step] in *. cbv zeta in *.
  destruct (r_alive (parent_req pcfg fds1 (mreq_out (q_open i)) os)) eqn:B; [|congruence]. cbn [r_fds].
  apply run_keeps; [assumption|]. now apply opened.
Qed.
Lemma listened_in cfg os nfs i : In i (listened cfg os nfs) -> In i (indices nfs).
Proof.
  unfold listened. destruct (opt cfg 2); [|easy]. intros H. apply in_flat_map in H as (top & Ht & H). apply filter_In in Ht as [Ht _].
  apply in_map_iff in H as (s & <- & Hs). apply filter_In in Hs as [Hs _]. apply in_map. now apply (stands_in os nfs top).
Qed.
Theorem listening cfg os now st nfs si : running cfg st -> os_ok os -> refresh cfg os st nfs si -> consistent os nfs ->
  let eff := snd (child_send cfg os NETIF_INDEX_MAX true now st) in
  opens eff = listened cfg os nfs
  /\ (forall i, In i (closes eff) <-> In i (indices (table st)) /\ ~ usable os i)
  /\ (forall i, In i (listened cfg os nfs) -> ~ In i (closes eff)
      /\ forall pcfg fds pes1 pos pes2, workable pos -> Forall (fun e => ~ loses i e) pes2 ->
         let r := parent_run pcfg fds (pes1 ++ PReq (mreq_out (q_open i)) pos :: pes2) in
         r_alive r = true -> listens (r_fds r) i).
Proof.
  intros R O F C eff. destruct (asks cfg os now st nfs si R O F C) as [A1 A2]. fold eff in A1, A2. split; [assumption|]. split; [assumption|].
  intros i Hi. apply listened_in in Hi. apply running_inv in R. destruct (refresh_facts _ _ _ _ _ O R F) as (J & _ & (_ & X & _) & _).
  split.
  - intros K. apply A2 in K as [_ K]. apply K. now apply X.
  - intros pcfg fds pes1 pos pes2 W L r A. apply socket; try assumption.
    destruct J as [J1 _]. unfold table in J1. cbn [st_child c_nfs set_nfs] in J1. apply in_map_iff in Hi as (n & <- & Hn).
    pose proof (well_in _ _ J1 Hn) as K. unfold netif_ok in K. tauto.
Qed.
