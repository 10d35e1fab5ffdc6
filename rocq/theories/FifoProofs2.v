(** Proofs for C126: the requests of the child, and the wire. *)
From Verif Require Import Base Types Tlv Msg Protos Checks Wire Parent Netif Mreq Util Child Send Spec SpecNet SpecNetif SpecMreq Ipc SpecIpc SpecSend SpecOnce SpecJoint SpecFifo.
From Verif Require Import Lemmas WireProofs NetProofs MreqProofs NetifProofs1 NetifProofs2 ChildProofs4 SendProofs1 SendProofs3 SendProofs5 SendProofs6 SendProofs7 TimerProofs JointProofs IpcProofs FifoProofs.

(** ** The effects of the child *)
Definition small (i : Z) : Prop := 0 <= i < 4294967296.
Definition described (i : Z) (t : list Z) : Prop := exists opts n q, netif_descr opts n q = Some t /\ nf_index n = i.
Definition sound (e : seff) : Prop :=
  match e with
  | SOpen i | SClose i => small i
  | SChild (CDescr i t) => small i /\ described i t
  | _ => True
  end.
Definition sound_child (e : ceff) : Prop := sound (SChild e).
Lemma well_small nfs i : well nfs -> In i (indices nfs) -> small i.
Proof. intros W H. apply in_map_iff in H as (n & <- & H). pose proof (well_in _ _ W H) as K. unfold netif_ok in K. unfold small. tauto. Qed.
Lemma byindex_small nfs i n : (forall j, In j (indices nfs) -> small j) -> netif_byindex nfs i = Some n -> small (nf_index n).
Proof. intros W H. apply ChildProofs4.byindex_some in H as [H _]. apply W. now apply in_map. Qed.
Lemma assign_indices f i nfs : (forall n, nf_index (f n) = nf_index n) -> indices (nf_assign f i nfs) = indices nfs.
Proof. intros H. apply assign_keeps. intros n _. apply H. Qed.
Lemma descr_sound opts n q : small (nf_index n) -> Forall sound_child (descr_eff opts n q).
Proof. intros H. unfold descr_eff. destruct (netif_descr opts n q) as [t|] eqn:E; [|constructor]. repeat constructor; try apply H. now exists opts, n, q. Qed.
Lemma expire_loop_indices now : forall q nfs, indices (snd (expire_loop now q nfs)) = indices nfs.
Proof.
  induction q as [|e q IH]; intros nfs; [reflexivity|]. cbn [expire_loop]. destruct (keeps now e).
  - specialize (IH nfs). destruct (expire_loop now q nfs) as [r nfs']. exact IH.
  - rewrite IH. now apply assign_indices.
Qed.
Lemma update_sound opts q : forall is nfs eff, (forall j, In j (indices nfs) -> small j) -> Forall sound_child eff ->
  Forall sound_child (snd (fold_left (update_one opts q) is (nfs, eff))).
Proof.
  induction is as [|i is IH]; intros nfs eff W H; [exact H|]. cbn [fold_left]. unfold update_one at 2.
  destruct (netif_byindex nfs i) as [sub|] eqn:E; [|now apply IH]. destruct (nf_update sub =? 0); [now apply IH|]. cbv zeta. apply IH.
  - rewrite assign_indices by reflexivity. destruct (has opts OPT_AUTO); [rewrite assign_indices by reflexivity|]; exact W.
  - apply Forall_app. split; [exact H|]. destruct (has _ _); [|constructor]. apply descr_sound. now apply (byindex_small nfs i).
Qed.
Lemma expire_sound opts now c : (forall j, In j (indices (c_nfs c)) -> small j) -> Forall sound_child (snd (child_expire opts now c)).
Proof.
  intros W. unfold child_expire. destruct (now =? -1); [constructor|]. pose proof (expire_loop_indices now (c_queue c) (c_nfs c)) as E.
  destruct (expire_loop now (c_queue c) (c_nfs c)) as [q nfs]. cbn [snd] in E.
  pose proof (update_sound opts q (map nf_index nfs) nfs [] ltac:(rewrite E; exact W) ltac:(constructor)) as U. unfold update_loop.
  destruct (fold_left _ _ _) as [nfs' eff]. exact U.
Qed.
Lemma sent_sound sid : forall q ws, Forall sound_child (fst (write_loop sid q ws)).
Proof.
  induction q as [|e q IH]; intros ws; [constructor|]. cbn [write_loop]. destruct ws as [|[] ws]; cbn [tl]; try constructor.
  - specialize (IH []). destruct (write_loop sid q []). constructor; [exact I|exact IH].
  - specialize (IH ws). destruct (write_loop sid q ws). constructor; [exact I|exact IH].
Qed.
Lemma child_sound opts c e c' eff : (forall j, In j (indices (c_nfs c)) -> small j) -> child_step opts c e = DOk (c', eff) -> Forall sound_child eff.
Proof.
  intros W H. assert (D : forall (A B : Type) (x y : A * B), DOk x = DOk y -> y = x) by (intros ? ? ? ? K; now injection K).
  destruct e; cbn [child_step] in H.
  - unfold child_queue in H. cbv zeta in H. destruct (negb _); [apply D in H; injection H as -> ->; constructor|].
    destruct (now =? -1); [apply D in H; injection H as -> ->; constructor|]. destruct (negb _); [discriminate|]. destruct (negb _); [discriminate|].
    destruct (netif_byindex _ _) as [sub|] eqn:E; [|apply D in H; injection H as -> ->; constructor].
    destruct (netif_byaddr _ _); [apply D in H; injection H as -> ->; constructor|].
    destruct (proto_decode _ _ _) as [[n s]| | | |]; try discriminate; [|apply D in H; injection H as -> ->; constructor].
    destruct (n =? 0); [apply D in H; injection H as -> ->; constructor|].
    destruct (queue_put _ _ _) as [q fresh]. destruct (s_ttl s =? 0).
    + apply D in H. pose proof (expire_sound opts now2 (mkChild (c_nfs c) q (c_sess c) fresh) W) as X. rewrite <- H in X. exact X.
    + assert (K : Forall sound_child (if has opts OPT_IFDESCR then descr_eff opts sub q else [])).
      { destruct (has opts OPT_IFDESCR); [|constructor]. apply descr_sound. now apply (byindex_small (c_nfs c) _ _ W E). }
      destruct (_ || _); [apply D in H; now injection H as -> ->|]. destruct (_ && _); apply D in H; now injection H as -> ->.
  - apply D in H. pose proof (expire_sound opts now c W) as X. now rewrite <- H in X.
  - apply D in H; injection H as -> ->; constructor.
  - destruct (existsb _ _); apply D in H; injection H as -> ->; constructor.
  - unfold child_cli_write in H. destruct (find _ _) as [s|]; [|apply D in H; injection H as -> ->; constructor].
    apply dbind_ok in H as ([q1 l] & _ & H).
    pose proof (sent_sound sid l ws) as X. destruct (write_loop sid l ws) as [e [i|]]; apply D in H; injection H as -> ->; exact X.
  - unfold child_cli_write in H. destruct (find _ _) as [s|]; apply D in H; injection H as -> ->; constructor.
Qed.
Lemma protos_sound cfg nfs si t s : forall ps st, Forall sound (snd st) -> Forall sound (snd (fold_left (send_proto cfg nfs si t s) ps st)).
Proof.
  induction ps as [|p ps IH]; intros st H; [exact H|]. cbn [fold_left]. apply IH. unfold send_proto. destruct st as [edp eff]. destruct (_ && _); [exact H|].
  cbv zeta. destruct (proto_build _ _ _ _ _ _ _ _); [|exact H]. cbn [snd] in *. apply Forall_app. split; [exact H|]. now repeat constructor.
Qed.
Definition sane (B : list Z) (st : list netif * Z * list seff) : Prop := indices (fst (fst st)) = B /\ Forall sound (snd st).
Lemma sub_sane cfg os si index top B st i : (forall j, In j B -> small j) -> sane B st -> sane B (send_sub cfg os si index top st i).
Proof.
  intros W [E H]. destruct st as [[nfs edp] eff]. cbn [fst snd] in *. unfold send_sub. destruct (_ && _); [now split|].
  destruct (netif_byindex nfs i) as [sub0|] eqn:Bi; [|now split]. cbv zeta.
  assert (E1 : forall f g, (forall n, nf_index (f n) = nf_index n) -> (forall n, nf_index (g n) = nf_index n) ->
    indices (nf_assign g i (nf_assign f i nfs)) = B) by (intros f g Hf Hg; rewrite !assign_indices by assumption; exact E).
  destruct (send_skip cfg sub0); [split; [cbn [fst]; rewrite assign_indices by reflexivity; exact E|exact H]|].
  assert (O : Forall sound (if has (sc_opts cfg) OPT_RECV && (nf_protos sub0 =? 0) then [SOpen i] else [])).
  { destruct (_ && _); [|constructor]. repeat constructor; apply ChildProofs4.byindex_some in Bi as [Bi <-]; apply W; rewrite <- E; now apply in_map. }
  assert (M : indices (nf_assign (netif_media os) i (nf_assign (set_link_event (if index =? NETIF_INDEX_MAX then 0 else (nf_link_event sub0 + 1) mod 256)) i nfs)) = B)
    by (apply E1; [reflexivity|intros n; apply media_index]).
  destruct (negb _); [split; [exact M|now apply Forall_app]|].
  destruct (netif_byindex (nf_assign (netif_media os) i _) i) as [s|]; [|split; [exact M|now apply Forall_app]].
  destruct (netif_byindex _ top) as [t|]; [|split; [exact M|now apply Forall_app]].
  pose proof (protos_sound cfg (nf_assign (netif_media os) i (nf_assign (set_link_event (if index =? NETIF_INDEX_MAX then 0 else (nf_link_event sub0 + 1) mod 256)) i nfs))
    si t s [0; 1; 2; 3; 4; 5] (edp, []) ltac:(constructor)) as P.
  destruct (fold_left _ _ _) as [edp' eff2]. split; [exact M|]. cbn [snd] in *. apply Forall_app. split; [exact H|]. now apply Forall_app.
Qed.
Lemma subs_sane cfg os si index top B : (forall j, In j B -> small j) -> forall is st, sane B st -> sane B (fold_left (send_sub cfg os si index top) is st).
Proof. intros W. induction is as [|i is IH]; intros st H; [exact H|]. cbn [fold_left]. apply IH. now apply sub_sane. Qed.
Lemma tops_sane cfg os si index nfs0 B : (forall j, In j B -> small j) -> forall ns st, sane B st -> sane B (fold_left (send_top cfg os si index nfs0) ns st).
Proof.
  intros W. induction ns as [|n ns IH]; intros st H; [exact H|]. cbn [fold_left]. apply IH. unfold send_top. destruct (send_skip _ _); [exact H|]. now apply subs_sane.
Qed.
Lemma closes_sound l : (forall j, In j l -> small j) -> Forall sound (map SClose l).
Proof. intros H. apply Forall_map. apply Forall_forall. exact H. Qed.
Lemma send_sound cfg os index timeout now st st' eff : os_ok os -> inv st -> child_send cfg os index timeout now st = (st', eff) -> Forall sound eff.
Proof.
  intros O I H. unfold child_send in H. cbv zeta in H.
  match type of H with (let '(_, _) := ?b in _) = _ => set (body := b) in H end.
  assert (B : (forall j, In j (indices (c_nfs (st_child (fst body)))) -> small j) /\ Forall sound (snd body)).
  { subst body. pose proof (fun i => well_small _ i (inv_well _ I)) as W0. unfold table in W0.
    destruct (negb (index =? NETIF_INDEX_MAX) && match netif_byindex (c_nfs (st_child st)) index with Some n => 3 <? nf_link_event n | None => false end); [split; [exact W0|constructor]|].
    destruct (netif_fetch (sc_net cfg) os (c_nfs (st_child st)) (st_si st)) as [[[ret nfs] si] gone] eqn:F.
    pose proof (inv_well _ (fetch_inv _ _ _ _ _ _ _ O I F)) as W1. unfold table in W1. cbn [st_child c_nfs set_nfs] in W1.
    pose proof (fun i => well_small _ i W1) as W2.
    assert (G : Forall sound (map SClose gone)).
    { apply closes_sound. intros j Hj. destruct (no_ifaddrs os) as [ias|] eqn:A.
      - apply (fetch_exact _ _ _ _ _ _ _ _ _ A (inv_nodup _ I) F) in Hj. now apply W0.
      - rewrite (fetch_none _ _ _ _ A) in F. now injection F as _ _ _ <-. }
    destruct (ret =? 0); [split; [exact W2|exact G]|]. destruct (_ && _); [split; [exact W2|exact G]|].
    pose proof (tops_sane cfg os si index nfs (indices nfs) W2 (netif_each (sc_opts cfg) nfs) (nfs, st_edp st, []) ltac:(split; [reflexivity|constructor])) as [S1 S2].
    unfold send_loop. destruct (fold_left _ _ _) as [[nfs' edp] eff0]. cbn [fst snd st_child c_nfs set_nfs] in *. split; [now rewrite S1|]. now apply Forall_app. }
  destruct body as [st1 eff1]. cbn [fst snd] in B. destruct B as [W S]. destruct (timeout && _).
  - pose proof (expire_sound (sc_opts cfg) now (st_child st1) W) as X. destruct (child_expire _ _ _) as [c' eff2]. injection H as <- <-.
    apply Forall_app. split; [exact S|]. apply Forall_map. exact X.
  - now injection H as <- <-.
Qed.
Lemma step_sound cfg st e st' eff : running cfg st -> event_ok e -> send_step cfg st e = DOk (st', eff) -> Forall sound eff.
Proof.
  intros R O H. apply running_inv in R. destruct e as [os now|os hatype flags index now|e].
  - cbn in H. injection H as H. exact (send_sound _ _ _ _ _ _ _ _ O R H).
  - cbn in H. injection H as H. unfold child_link in H. destruct (negb _); [injection H as <- <-; constructor|]. destruct (negb _); [injection H as <- <-; constructor|].
    exact (send_sound _ _ _ _ _ _ _ _ O R H).
  - assert (K : eff = [] \/ exists c eff', child_step (sc_opts cfg) (st_child st) e = DOk (c, eff') /\ eff = map SChild eff').
    { destruct e; cbn [send_step] in H; try (injection H as <- <-; now left);
        apply dbind_ok in H as ([c eff'] & H1 & H2); right; exists c, eff'; split; try assumption; now injection H2. }
    destruct K as [-> |(c & eff' & K & ->)]; [constructor|]. apply Forall_map. refine (child_sound _ _ _ _ _ _ K).
    intros j. exact (well_small _ j (inv_well _ R)).
Qed.
Lemma run_sound cfg : forall es st st' effs, running cfg st -> Forall event_ok es -> send_run cfg st es = DOk (st', effs) -> Forall sound (concat effs).
Proof.
  induction es as [|e es IH]; intros st st' effs R O H; cbn [send_run] in H.
  - apply dok_eq in H as [<- <-]. constructor.
  - apply dbind_ok in H as ([st1 eff1] & H1 & H). apply dbind_ok in H as ([st2 effs2] & H2 & H). apply dok_eq in H as [<- <-].
    pose proof (Forall_inv O) as Oe. apply Forall_inv_tail in O. cbn [concat]. apply Forall_app. split.
    + exact (step_sound cfg st e st1 eff1 R Oe H1).
    + apply (IH st1 st2 effs2); try assumption. now apply (run_event cfg st e st1 eff1).
Qed.

(** ** The child doing it *)
Lemma sframes_app a b : SpecSend.frames (a ++ b) = SpecSend.frames a ++ SpecSend.frames b.
Proof. apply flat_map_app. Qed.
Definition dgrams (l : list seff) : list (list Z) := map (fun x => frame_dgram (fst (fst x)) (snd (fst x)) (snd x)) (SpecSend.frames l).
Lemma dgrams_app a b : dgrams (a ++ b) = dgrams a ++ dgrams b.
Proof. unfold dgrams. now rewrite sframes_app, map_app. Qed.
Definition good_request (pcfg : pcfg) (q : preq) : Prop := asked pcfg q /\ small (rq_index q).
Definition resume (q : preq) (l : list seff) : list Z -> ctree := fun d => match my_mreq q (Some d) with DOk _ => tree_of l | _ => TEnd end.
Lemma tree_loop : forall l, tree_of l = TLoop -> dgrams l = [].
Proof. induction l as [|e l IH]; [reflexivity|]. destruct e as [| | |[]]; try discriminate. cbn [tree_of]. intros H. now apply IH in H. Qed.
Lemma tree_alive : forall l, tree_of l <> TEnd.
Proof. induction l as [|e l IH]; [discriminate|]. destruct e as [| | |[]]; try discriminate. exact IH. Qed.
Lemma tree_req pcfg d k : forall l, tree_of l = TReq d k -> Forall sound l ->
  exists l0 l' q, l = l0 ++ l' /\ dgrams l0 = [] /\ d = mreq_out q /\ k = resume q l' /\ good_request pcfg q.
Proof.
  induction l as [|e l IH]; [discriminate|]. intros H S. pose proof (Forall_inv S) as Se. apply Forall_inv_tail in S. destruct e as [i|i|i p f|[i t|sid b]]; cbn [tree_of] in H.
  - injection H as <- <-. exists [SOpen i], l, (q_open i). repeat (split; [reflexivity|]). split; [constructor|exact Se].
  - injection H as <- <-. exists [SClose i], l, (q_close preq0 i). repeat (split; [reflexivity|]). split; [apply asked_close; constructor|exact Se].
  - discriminate.
  - injection H as <- <-. exists [SChild (CDescr i t)], l, (q_descr i t). repeat (split; [reflexivity|]). destruct Se as [Se (opts & n & qu & D & <-)].
    split; [now apply (asked_descr _ opts n qu)|exact Se].
  - destruct (IH H S) as (l0 & l' & q & -> & E & K). exists (SChild (CSent sid b) :: l0), l', q. now split.
Qed.
Lemma tree_frame d k : forall l, tree_of l = TFrame d k ->
  exists l0 l', l = l0 ++ l' /\ dgrams l0 = [d] /\ k = tree_of l'.
Proof.
  induction l as [|e l IH]; [discriminate|]. intros H. destruct e as [i|i|i p f|[i t|sid b]]; cbn [tree_of] in H; try discriminate.
  - injection H as <- <-. exists [SFrame i p f], l. now repeat split.
  - destruct (IH H) as (l0 & l' & -> & E & K). exists (SChild (CSent sid b) :: l0), l'. now repeat split.
Qed.
Definition performs (pcfg : pcfg) (t0 : ctree) (es : list ievent) (s : ipc) : Prop :=
  forall effs, t0 :: begun es = map tree_of effs -> Forall sound (concat effs) -> Forall able (parent_saw es) ->
  exists done l, concat effs = done ++ l /\ put es = dgrams done
    /\ Forall (fun d => exists q, good_request pcfg q /\ d = mreq_out q) (requests es)
    /\ match i_child s with
       | Run t => t = tree_of l
       | Await k => exists R q, requests es = R ++ [mreq_out q] /\ good_request pcfg q /\ k = resume q l
       end.
Lemma begun_last t0 b t effs : t0 :: b ++ [t] = map tree_of effs -> exists effs' eff, effs = effs' ++ [eff] /\ t0 :: b = map tree_of effs' /\ t = tree_of eff.
Proof.
  intros H. destruct (@exists_last _ effs) as (effs' & eff & ->); [intros ->; discriminate|]. exists effs', eff. split; [reflexivity|].
  rewrite map_app in H. cbn [map] in H. change (t0 :: b ++ [t]) with ((t0 :: b) ++ [t]) in H. now apply app_inj_tail in H.
Qed.
Lemma concat_snoc {A} (a : list (list A)) b : concat (a ++ [b]) = concat a ++ b.
Proof. rewrite concat_app. cbn. now rewrite app_nil_r. Qed.
Lemma begins pcfg t0 es s s' e t : performs pcfg t0 es s -> i_child s = Run TLoop -> i_child s' = Run t ->
  begun [e] = [t] -> put [e] = [] -> requests [e] = [] -> parent_saw [e] = [] -> performs pcfg t0 (es ++ [e]) s'.
Proof.
  intros P C C' Eb Ep Er Es effs H S A. unfold begun, put, requests, parent_saw in *. rewrite !flat_map_app in *. rewrite Eb in H. rewrite Es, app_nil_r in A.
  apply begun_last in H as (effs' & eff & -> & H & ->). rewrite concat_snoc in S. apply Forall_app in S as [S1 S2].
  destruct (P effs' H S1 A) as (done & l & E1 & E2 & E3 & E4). rewrite C in E4. symmetry in E4. apply tree_loop in E4.
  exists (done ++ l), eff. rewrite concat_snoc, E1. split; [reflexivity|]. rewrite Ep, Er, !app_nil_r, dgrams_app, E4, app_nil_r.
  split; [exact E2|]. split; [exact E3|]. now rewrite C'.
Qed.
Lemma passes pcfg t0 es s s' e : performs pcfg t0 es s -> i_child s' = i_child s ->
  begun [e] = [] -> put [e] = [] -> requests [e] = [] -> performs pcfg t0 (es ++ [e]) s'.
Proof.
  intros P C Eb Ep Er effs H S A. unfold begun, put, requests in *. rewrite saw_app in A. rewrite !flat_map_app in *. rewrite Eb, app_nil_r in H.
  apply Forall_app in A as [A _]. rewrite Ep, Er, !app_nil_r, C. exact (P effs H S A).
Qed.
Lemma step_performs room starts pcfg t0 es s e s' : phase pcfg es s /\ performs pcfg t0 es s -> istep room starts pcfg s e s' ->
  phase pcfg (es ++ [e]) s' /\ performs pcfg t0 (es ++ [e]) s'.
Proof.
  intros [F P] H. split; [exact (step_phase _ _ _ _ _ _ _ F H)|]. destruct H;
    try (apply (passes pcfg t0 es _ _ _ P); reflexivity).
  - apply (begins pcfg t0 es _ _ (IBegin t) t P); reflexivity.
  - apply (begins pcfg t0 es _ _ (ITake d t) t P); reflexivity.
  - intros effs E S A. unfold begun, put, requests, parent_saw in *. rewrite !flat_map_app in *. cbn [flat_map app] in *. rewrite !app_nil_r in *.
    destruct (P effs E S A) as (done & l & E1 & E2 & E3 & E4). proj. symmetry in E4. rewrite E1 in S. apply Forall_app in S as [S1 S2].
    destruct (tree_req pcfg d k l E4 S2) as (l0 & l' & q & -> & D & Eq & -> & G). exists (done ++ l0), l'. rewrite <- app_assoc. split; [exact E1|].
    rewrite dgrams_app, D, app_nil_r. split; [exact E2|]. split; [apply Forall_app; split; [exact E3|]; repeat constructor; now exists q|].
    exists (requests es), q. split; [now rewrite Eq|]. now split.
  - intros effs E S A. unfold begun, put, requests in *. rewrite saw_app in A. cbn [parent_saw flat_map] in A. rewrite !flat_map_app in *. cbn [flat_map app] in *. rewrite !app_nil_r in *.
    destruct (P effs E S A) as (done & l & E1 & E2 & E3 & E4). proj. destruct E4 as (R & q & Er & [G1 G2] & ->).
    exists done, l. split; [exact E1|]. split; [exact E2|]. split; [exact E3|].
    inversion F; subst. match goal with Hor : _ \/ _ |- _ => destruct Hor as [[_ K]|[_ K]]; [discriminate K|] end. injection K as -> ->.
    match goal with X : In (PReq ?d _) _ |- _ => assert (D : d = mreq_out q) by (match goal with Y : requests es = _ ++ [d] |- _ => rewrite Er in Y; apply app_inj_tail in Y; now destruct Y end); subst d end.
    match goal with K : In (PReq _ _) _ |- _ => rewrite Forall_forall in A; specialize (A _ K); destruct A as [A1 A2] end.
    match goal with K : parent_reply _ _ (parent_req _ ?f _ _) = Some _ |- _ => destruct (asked_alive pcfg f q os G1 G2 A1 A2) as (r & a' & X & _); unfold exchange in X; rewrite K in X end.
    apply (f_equal snd) in X. cbn [snd] in X. unfold resume. now rewrite X.
  - intros effs E S A. unfold begun, put, requests, parent_saw in *. rewrite !flat_map_app in *. cbn [flat_map app] in *. rewrite !app_nil_r in *.
    destruct (P effs E S A) as (done & l & E1 & E2 & E3 & E4). proj. symmetry in E4.
    destruct (tree_frame d k l E4) as (l0 & l' & -> & D & ->). exists (done ++ l0), l'. rewrite <- app_assoc. split; [exact E1|].
    split; [rewrite dgrams_app, D, <- E2; reflexivity|]. now split.
Qed.
Lemma performed room starts pcfg t es s : isteps room starts pcfg (ipc_start t) es s -> phase pcfg es s /\ performs pcfg t es s.
Proof.
  intros R. apply (steps_ind room starts pcfg (fun es s => phase pcfg es s /\ performs pcfg t es s) (fun es s e s' => step_performs room starts pcfg t es s e s') _ _ _ R []).
  split; [apply ph_free; [discriminate|reflexivity|reflexivity]|]. intros effs E S _. destruct effs as [|eff [|? ?]]; try discriminate. cbn [begun flat_map map] in E.
  injection E as ->. exists [], eff. cbn [concat app]. rewrite app_nil_r. split; [reflexivity|]. split; [reflexivity|]. split; [constructor|reflexivity].
Qed.
Lemma saw_frames es : frames_of (parent_saw es) = acted_on es.
Proof.
  unfold frames_of, parent_saw, acted_on. induction es as [|e es IH]; [reflexivity|]. cbn [flat_map]. rewrite flat_map_app, IH. now destruct e.
Qed.
Lemma saw_requests es d os : In (PReq d os) (parent_saw es) -> In d (map fst (served es)).
Proof.
  unfold parent_saw, served. intros H. apply in_flat_map in H as (e & He & H). apply in_map_iff. destruct e; try easy; destruct H as [H|[]]; try discriminate H.
  injection H as -> ->. exists (d, a). split; [reflexivity|]. apply in_flat_map. exists (IServe d os a). split; [exact He|now left].
Qed.
Lemma combine_fst {A B} : forall (a : list A) (b : list B) x, In x (map fst (combine a b)) -> In x a.
Proof. intros a b x H. apply in_map_iff in H as ([u v] & <- & H). now apply in_combine_l in H. Qed.
Lemma served_asked pcfg es s d : phase pcfg es s -> In d (map fst (served es)) -> In d (requests es).
Proof.
  intros P. destruct P as [t0 p fds o i Q L V|k p fds o i R d0 Q E L V|k p fds rp o i R d0 a os fds0 E L V _ _ _|k fds o i R d0 E L V]; rewrite V.
  - apply combine_fst.
  - intros H. apply combine_fst in H. rewrite E. apply in_or_app. now left.
  - rewrite map_app. intros H. rewrite E. apply in_or_app. apply in_app_or in H as [H|H]; [left; now apply combine_fst in H|now right].
  - rewrite map_app. intros H. rewrite E. apply in_or_app. apply in_app_or in H as [H|H]; [left; now apply combine_fst in H|now right].
Qed.
Lemma firstn_exact {A} (a b : list A) : firstn (length a) (a ++ b) = a.
Proof. rewrite firstn_app, Nat.sub_diag, firstn_all. cbn. apply app_nil_r. Qed.
Theorem wire_at_once room starts cfg st evs st' effs pcfg t es s :
  running cfg st -> Forall event_ok evs -> send_run cfg st evs = DOk (st', effs) ->
  isteps room starts pcfg (ipc_start t) es s -> t :: begun es = map tree_of effs -> Forall able (parent_saw es) ->
  let wire := on_wire (r_eff (parent_run pcfg [] (parent_saw es))) in
  both_live s /\ some_of wire (map target (advertised effs))
  /\ (has (pc_opts pcfg) OPT_DEBUG = false -> (forall d os, In (PSend d os) (parent_saw es) -> workable os) ->
      exists rest, map target (advertised effs) = wire ++ rest /\ (i_child s = Run TLoop -> i_out s = [] -> rest = [])).
Proof.
  intros R O H K T A wire. destruct (performed _ _ _ _ _ _ K) as [F P]. destruct (P effs T (run_sound _ _ _ _ _ R O H) A) as (done & l & E1 & E2 & E3 & E4).
  destruct (in_order _ _ _ _ _ _ K) as [N _]. destruct (mirrored _ _ _ _ _ _ K) as [_ M].
  set (n := length (acted_on es)).
  assert (X : acted_on es = map (fun x => frame_dgram (fst (fst x)) (snd (fst x)) (snd x)) (firstn n (SpecSend.frames done))).
  { rewrite <- firstn_map. change (map _ (SpecSend.frames done)) with (dgrams done). rewrite <- E2, N. symmetry. apply firstn_exact. }
  assert (V : advertised effs = firstn n (SpecSend.frames done) ++ skipn n (SpecSend.frames done) ++ SpecSend.frames l).
  { rewrite app_assoc, firstn_skipn, <- sframes_app, <- E1. unfold advertised. clear. induction effs as [|e effs IH]; [reflexivity|]. cbn [flat_map concat]. now rewrite sframes_app, IH. }
  assert (Hd : handles pcfg (advertised effs) (parent_saw es) (skipn n (SpecSend.frames done) ++ SpecSend.frames l)).
  { split; [exists (firstn n (SpecSend.frames done)); split; [exact V|]; now rewrite saw_frames|].
    rewrite Forall_forall in *. intros e He. specialize (A e He). destruct e as [d os|d os]; [|exact A]. destruct A as [A1 A2]. split; [exact A1|]. split; [exact A2|].
    apply saw_requests in He. apply (served_asked pcfg es s d F) in He. destruct (E3 d He) as (q & [G1 G2] & ->). now exists q. }
  destruct (JointProofs.wire cfg st evs st' effs pcfg [] (parent_saw es) _ R O H Hd) as (W1 & W2 & W3). fold wire in W2, W3.
  split; [split|].
  - intros C. rewrite C in E4. symmetry in E4. now apply tree_alive in E4.
  - rewrite M, W1. discriminate.
  - split; [exact W2|]. intros D W. exists (map target (skipn n (SpecSend.frames done) ++ SpecSend.frames l)). split; [now apply W3|].
    intros C Z0. rewrite C in E4. symmetry in E4. apply tree_loop in E4. unfold dgrams in E4. apply map_eq_nil in E4. rewrite E4, app_nil_r.
    assert (L : n = length (SpecSend.frames done)).
    { subst n. rewrite Z0, app_nil_r in N. rewrite <- N, E2. unfold dgrams. now rewrite map_length. }
    rewrite L, skipn_all. reflexivity.
Qed.
