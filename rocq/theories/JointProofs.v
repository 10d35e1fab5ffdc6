From Verif Require Import Base Types Wire Util Child Parent Netif Mreq Send Spec SpecNet SpecMreq SpecSend SpecOnce SpecJoint.
From Verif Require Import Lemmas WireProofs ParentProofs NetProofs MreqProofs SendProofs1 SendProofs5 SendProofs6 TimerProofs.

Lemma on_wire_app a b : on_wire (a ++ b) = on_wire a ++ on_wire b.
Proof. apply flat_map_app. Qed.
Lemma on_wire_frames eff : on_wire eff = on_wire (SpecNet.frames eff).
Proof. induction eff as [|e eff IH]; [reflexivity|]. destruct e; cbn; try exact IH. now f_equal. Qed.
Lemma wire_one eff : (length (SpecNet.frames eff) <= 1)%nat -> on_wire eff = [] \/ exists i fd d, In (EFrame i fd d) eff /\ on_wire eff = [(i, d)].
Proof.
  intros L. rewrite on_wire_frames. destruct (SpecNet.frames eff) as [|x [|y l]] eqn:E; [now left| |cbn in L; lia].
  assert (I : In x (SpecNet.frames eff)) by (rewrite E; now left). apply filter_In in I as [I1 I2].
  destruct x; try discriminate. right. exists index, fd, data. now split.
Qed.
Lemma dgram_frame i p f : good_frame i p f -> frame_of (frame_dgram i p f) = f.
Proof.
  intros (Hi & Hp & Hb & Hl & pl & Hf).
  assert (C : carries (frame_dgram i p f) i p 0 f) by (apply carries_msg; [assumption|lia|assumption|lia]).
  assert (B : bytes (frame_dgram i p f)) by (apply msg_bytes_bytes; [lia|assumption]).
  set (d := frame_dgram i p f) in *. destruct C as (L & _ & _ & _ & El & Em).
  assert (Es : msg_size_ok (Z.min (zlen d) PARENT_MSG_MAX) (msg_mem d) = true).
  { unfold msg_size_ok, PARENT_MSG_MIN, PARENT_MSG_MAX. rewrite El, L, Z.mod_small by lia. lia. }
  destruct (pm_msg_frame d B Es) as [E _]. unfold frame_of. rewrite <- E, El, Em. apply firstn_zlen_app.
Qed.
Lemma message cfg fds i p f os : good_frame i p f -> os_sock os <> SockFatal ->
  let r := parent_send cfg fds (frame_dgram i p f) os in
  r_alive r = true /\ (on_wire (r_eff r) = [] \/ on_wire (r_eff r) = [(i, f)])
  /\ (has (pc_opts cfg) OPT_DEBUG = false -> workable os -> on_wire (r_eff r) = [(i, f)]).
Proof.
  intros G S r. pose proof (dgram_frame i p f G) as DF. destruct G as (Hi & Hp & Hb & Hl & pl & Hf).
  assert (C : carries (frame_dgram i p f) i p 0 f) by (apply carries_msg; [assumption|lia|assumption|lia]).
  assert (B : bytes (frame_dgram i p f)) by (apply msg_bytes_bytes; [lia|assumption]).
  set (dg := frame_dgram i p f) in *. clearbody dg.
  pose proof (send_one cfg fds dg os) as O1. fold r in O1.
  assert (W : forall j fd d, In (EFrame j fd d) (r_eff r) -> j = i /\ d = f).
  { intros j fd d H. destruct (os_name os) as [name|] eqn:N.
    - pose proof (send_effects cfg fds _ os name B N) as E. fold r in E. rewrite Forall_forall in E. specialize (E _ H). destruct E as (E1 & E2 & _).
      destruct C as (C1 & C2 & _). split; [rewrite E1; exact C2|]. rewrite E2. exact DF.
    - unfold r, parent_send in H. cbv zeta in H. rewrite N in H. now destruct (negb _). }
  destruct (os_name os) as [name|] eqn:N.
  - destruct (send_good cfg fds dg os i p 0 f pl name) as [G1 G2]; try assumption. fold r in G1, G2.
    split; [exact G1|]. split.
    + destruct (wire_one _ O1) as [E|(j & fd & d & H & E)]; [now left|]. destruct (W _ _ _ H) as [-> ->]. now right.
    + intros D (_ & Fd). destruct (G2 D (or_intror Fd)) as (fd & H).
      destruct (wire_one _ O1) as [E|(j & fd' & d & K & E)].
      * exfalso. assert (X : In (i, f) (on_wire (r_eff r))) by (apply in_flat_map; exists (EFrame i fd f); split; [assumption|now left]). now rewrite E in X.
      * destruct (W _ _ _ K) as [-> ->]. exact E.
  - split; [now apply send_unnamed|]. split.
    + left. unfold r, parent_send. cbv zeta. rewrite N. now destruct (negb _).
    + intros _ [X _]. now rewrite N in X.
Qed.
Lemma multi_wire cfg index op : on_wire (parent_multi cfg index op) = [].
Proof.
  unfold parent_multi. destruct (has _ _); [reflexivity|]. generalize 0 at 1. revert op.
  induction (pc_enabled cfg) as [|e en IH]; intros op p; cbn [multi_loop]; [reflexivity|]. destruct (_ && _); [apply IH|]. cbn. apply IH.
Qed.
Lemma open_wire cfg fds i name os fds' eff ok : parent_open cfg fds i name os = Some (fds', eff, ok) -> on_wire eff = [].
Proof.
  unfold parent_open. destruct (os_sock os); try discriminate; [|intros H; now injection H as _ <- _].
  destruct (_ <? 0); intros H; injection H as _ <- _; [reflexivity|]. cbn [on_wire flat_map]. cbn. destruct (_ || _); [reflexivity|]. apply multi_wire.
Qed.
Lemma close_wire cfg fds r fds' eff : parent_close cfg fds r = (fds', eff) -> on_wire eff = [].
Proof.
  unfold parent_close. intros H. apply (f_equal snd) in H. cbn in H. subst eff. rewrite on_wire_app. destruct (_ && _); [rewrite multi_wire|]; reflexivity.
Qed.
Lemma answer_wire cfg op name buf os n b eff : req_answer cfg op name buf os = (n, b, eff) -> on_wire eff = [].
Proof.
  unfold req_answer. intros H.
  repeat match type of H with (if ?c then _ else _) = _ => destruct c | match ?c with _ => _ end = _ => destruct c | (let x := _ in _) = _ => cbv zeta in H end;
    apply (f_equal snd) in H; cbn in H; subst eff; reflexivity.
Qed.
Lemma req_wire cfg fds d os : on_wire (r_eff (parent_req cfg fds d os)) = [].
Proof.
  unfold parent_req. cbv zeta. destruct (negb _); [reflexivity|]. destruct (os_name os) as [name|]; [|reflexivity].
  destruct (parent_check _ _ _) as [[|]|]; try reflexivity. destruct (_ =? PARENT_OPEN).
  - destruct (rfd_byindex _ _); [reflexivity|]. destruct (parent_open _ _ _ _ _) as [[[fds1 eff] ok]|] eqn:E; [|reflexivity].
    cbn [r_eff]. rewrite on_wire_app, (open_wire _ _ _ _ _ _ _ _ E). reflexivity.
  - destruct (_ =? PARENT_CLOSE).
    + destruct (rfd_byindex _ _); [|reflexivity]. destruct (parent_close _ _ _) as [fds1 eff] eqn:E. cbn [r_eff]. rewrite on_wire_app, (close_wire _ _ _ _ _ E). reflexivity.
    + destruct (req_answer _ _ _ _ _) as [[n b] eff] eqn:E. cbn [r_eff]. rewrite on_wire_app, (answer_wire _ _ _ _ _ _ _ _ E). reflexivity.
Qed.
Lemma asked_req cfg fds q os : asked cfg q -> 0 <= rq_index q < 4294967296 -> os_sock os <> SockFatal -> os_reply os = true ->
  r_alive (parent_req cfg fds (mreq_out q) os) = true.
Proof.
  intros A H1 H2 H3. destruct (asked_alive cfg fds q os A H1 H2 H3) as (r & a & E & L). unfold exchange in E. apply (f_equal fst) in E.
  cbn [fst] in E. now rewrite E.
Qed.
Lemma some_nil {A} (l : list A) : some_of [] l. Proof. induction l; constructor; assumption. Qed.
Lemma some_app {A} (a b c : list A) : some_of a b -> some_of a (b ++ c).
Proof. induction 1; cbn [app]; try constructor; try assumption. apply some_nil. Qed.

(** ** A history of the privileged process *)
Lemma run_wire cfg : forall pes fds frames, (forall i p f, In (i, p, f) frames -> good_frame i p f) -> handles cfg frames pes [] ->
  let r := parent_run cfg fds pes in
  r_alive r = true /\ some_of (on_wire (r_eff r)) (map target frames)
  /\ (has (pc_opts cfg) OPT_DEBUG = false -> (forall d os, In (PSend d os) pes -> workable os) -> on_wire (r_eff r) = map target frames).
Proof.
  induction pes as [|e pes IH]; intros fds frames Gd ((done & E & F) & H).
  - rewrite app_nil_r in E. subst done. cbn in F. destruct frames as [|x l]; [|discriminate]. cbn. split; [reflexivity|]. split; [constructor|reflexivity].
  - rewrite app_nil_r in E. subst done. pose proof (Forall_inv H) as He. apply Forall_inv_tail in H. cbn [parent_run]. destruct e as [d os|d os].
    + destruct He as (S & R & q & A & Hi & ->). cbn [parent_step]. rewrite (asked_req cfg fds q os A Hi S R). cbv zeta.
      cbn [r_alive r_eff]. rewrite on_wire_app, req_wire. cbn [app].
      destruct (IH (r_fds (parent_req cfg fds (mreq_out q) os)) frames Gd) as (I1 & I2 & I3).
      { split; [|assumption]. exists frames. split; [now rewrite app_nil_r|exact F]. }
      split; [assumption|]. split; [assumption|]. intros D W. apply I3; [assumption|]. intros d o Hd. apply (W d o). now right.
    + cbn [frames_of flat_map] in F. destruct frames as [|[[i p] f] frames]; [discriminate|]. cbn [map fst snd] in F.
      assert (F1 : d = frame_dgram i p f) by exact (f_equal (hd []) F). assert (F2 := f_equal (@tl _) F). cbn [app tl] in F2. subst d.
      destruct (message cfg fds i p f os (Gd i p f (or_introl eq_refl)) He) as (M1 & M2 & M3).
      cbn [parent_step]. rewrite M1. cbv zeta. cbn [r_alive r_eff]. rewrite on_wire_app.
      destruct (IH (r_fds (parent_send cfg fds (frame_dgram i p f) os)) frames) as (I1 & I2 & I3).
      { intros j p' f' Hj. apply Gd. now right. }
      { split; [|assumption]. exists frames. split; [now rewrite app_nil_r|exact F2]. }
      split; [assumption|]. cbn [map]. split.
      * destruct M2 as [-> | ->]; cbn [app]; [now apply some_skip|now apply some_take].
      * intros D W. rewrite (M3 D (W _ _ (or_introl eq_refl))), I3; [reflexivity|assumption|]. intros d o Hd. apply (W d o). now right.
Qed.
Lemma run_good cfg : forall es st st' effs, running cfg st -> Forall event_ok es -> send_run cfg st es = DOk (st', effs) ->
  forall i p f, In (i, p, f) (advertised effs) -> good_frame i p f.
Proof.
  induction es as [|e es IH]; intros st st' effs R O H i p f K; cbn [send_run] in H.
  - apply dok_eq in H as [<- <-]. easy.
  - apply dbind_ok in H as ([st1 eff1] & H1 & H). apply dbind_ok in H as ([st2 effs2] & H2 & H). apply dok_eq in H as [<- <-].
    pose proof (Forall_inv O) as Oe. apply Forall_inv_tail in O. unfold advertised in K. cbn [flat_map] in K. apply in_app_or in K as [K|K].
    + apply in_frames in K. now apply (step_good cfg st e st1 eff1).
    + apply (IH st1 st2 effs2); try assumption. now apply (run_event cfg st e st1 eff1).
Qed.
Theorem wire cfg st es st' effs pcfg fds pes rest : running cfg st -> Forall event_ok es -> send_run cfg st es = DOk (st', effs) ->
  handles pcfg (advertised effs) pes rest ->
  let r := parent_run pcfg fds pes in
  r_alive r = true /\ some_of (on_wire (r_eff r)) (map target (advertised effs))
  /\ (has (pc_opts pcfg) OPT_DEBUG = false -> (forall d os, In (PSend d os) pes -> workable os) ->
      map target (advertised effs) = on_wire (r_eff r) ++ map target rest).
Proof.
  intros R O H ((done & E & F) & K). pose proof (run_good _ _ _ _ _ R O H) as Gd. rewrite E in *.
  destruct (run_wire pcfg pes fds done) as (I1 & I2 & I3).
  - intros i p f Hf. apply Gd. apply in_or_app. now left.
  - split; [|assumption]. exists done. split; [now rewrite app_nil_r|assumption].
  - split; [assumption|]. rewrite map_app. split; [now apply some_app|]. intros D W. now rewrite (I3 D W).
Qed.
