(** The receiver, and the whole channel. *)
From Verif Require Import Base Imsg SpecImsg Lemmas ImsgProofs.

(** What has been read, against the messages. *)
Definition Rd (P : stream) (r : reader) (out ms : list imsg) : Prop :=
  exists rest, ms = out ++ rest /\ map fst P = wires out ++ r_buf r /\ passed P = fdl out ++ r_fds r.
Definition Inv (y : system) : Prop :=
  exists P, Forall fits (y_taken y) /\ Wr (P ++ y_stream y) (y_queue y) (y_taken y) /\ Rd P (y_reader y) (messages (y_out y)) (y_taken y)
  /\ ~ In GotBad (y_out y).

Lemma messages_app a b : messages (a ++ b) = messages a ++ messages b.
Proof. induction a as [|[| |m] a IH]; cbn; rewrite ?IH; reflexivity. Qed.
Lemma slice_app_l (b x : list Z) o n : 0 <= o -> 0 <= n -> o + n <= zlen b -> slice (b ++ x) o n = slice b o n.
Proof.
  intros Ho Hn H. unfold slice. rewrite skipn_app, firstn_app, skipn_length. unfold zlen in H.
  replace (Z.to_nat n - (length b - Z.to_nat o))%nat with 0%nat by lia. now rewrite firstn_O, app_nil_r.
Qed.
Lemma wire_fields m x : fits m ->
  dle32 (slice (wire m ++ x) 0 4) = i_type m /\ dle16 (slice (wire m ++ x) 4 2) = 16 + zlen (i_data m)
  /\ dle16 (slice (wire m ++ x) 6 2) = (if i_fd m =? -1 then 0 else 1)
  /\ dle32 (slice (wire m ++ x) 8 4) = i_peerid m /\ dle32 (slice (wire m ++ x) 12 4) = i_pid m
  /\ slice (wire m ++ x) 16 (zlen (i_data m)) = i_data m /\ skipn (Z.to_nat (16 + zlen (i_data m))) (wire m ++ x) = x.
Proof.
  intros (H1 & H2 & H3 & H4 & H5). pose proof (zlen_nonneg _ (i_data m)) as L.
  assert (E : slice (wire m ++ x) 16 (zlen (i_data m)) = i_data m).
  { rewrite slice_app_l by (rewrite ?zlen_wire; lia). unfold slice. rewrite firstn_all2 by (rewrite skipn_length; pose proof (zlen_wire m); unfold zlen in *; lia). reflexivity. }
  assert (F : skipn (Z.to_nat (16 + zlen (i_data m))) (wire m ++ x) = x).
  { rewrite <- zlen_wire. unfold zlen. rewrite Nat2Z.id, skipn_app, skipn_all, Nat.sub_diag. reflexivity. }
  split; [exact (dle32_le32 (i_type m) H1)|]. split; [apply (dle16_le16 (16 + zlen (i_data m))); lia|].
  split; [apply (dle16_le16 (if i_fd m =? -1 then 0 else 1)); destruct (i_fd m =? -1); lia|]. split; [exact (dle32_le32 _ H2)|]. split; [exact (dle32_le32 _ H3)|]. now split.
Qed.
Lemma app_cut (a b c d : list Z) : a ++ b = c ++ d -> zlen c <= zlen a -> exists x, a = c ++ x /\ d = x ++ b.
Proof.
  revert a. induction c as [|y c IH]; intros a E L; [exists a; now split|]. destruct a as [|z a]; [rewrite zlen_nil, zlen_cons in L; pose proof (zlen_nonneg _ c); lia|].
  cbn in E. injection E as -> E. rewrite !zlen_cons in L. destruct (IH a E) as (x & -> & ->); [lia|]. now exists x.
Qed.

Lemma bytes_left (P : stream) r out rest ms (s : stream) q : ms = out ++ rest -> map fst P = wires out ++ r_buf r ->
  map fst (P ++ s) ++ flat_map unsent q = wires ms -> r_buf r ++ (map fst s ++ flat_map unsent q) = wires rest.
Proof.
  intros -> E H. rewrite map_app, E, wires_app, <- !app_assoc in H. now apply app_inv_head in H.
Qed.
Lemma Wr_bytes T q ms : Wr T q ms -> map fst T ++ flat_map unsent q = wires ms.
Proof. intros (? & ? & ? & ? & ? & ? & ? & ? & ? & E & ? & ?). exact E. Qed.
Lemma Wr_fds T q ms : Wr T q ms -> exists l, fdl ms = passed T ++ l.
Proof. intros (d & e1 & e2 & ? & ? & -> & ? & ? & ? & ? & E & ?). exists (fdl e2). rewrite E, (app_assoc d). apply fdl_app. Qed.
Lemma Wr_timely T q ms : Wr T q ms -> timely T ms.
Proof. intros (? & ? & ? & ? & ? & ? & ? & ? & ? & ? & ? & E). exact E. Qed.

(** imsg_get on a well formed stream. *)
Lemma get_ok P r out ms s q : Forall fits ms -> Wr (P ++ s) q ms -> Rd P r out ms ->
  let '(r', g) := imsg_get r in
  match g with
  | GotNone => r' = r /\ zlen (r_buf r) < 16384
  | GotBad => False
  | Got m => Rd P r' (out ++ [m]) ms
  end.
Proof.
  intros Hf HW (rest & Ems & Eb & Ep). pose proof (bytes_left P r out rest ms s q Ems Eb (Wr_bytes _ _ _ HW)) as E.
  unfold imsg_get. unfold IMSG_HEADER_SIZE, MAX_IMSGSIZE. set (b := r_buf r) in *. destruct (16 >? zlen b) eqn:E16; [split; [reflexivity|lia]|].
  destruct rest as [|m rest].
  { cbn in E. apply app_eq_nil in E as [E _]. rewrite E, zlen_nil in E16. discriminate. }
  assert (Fm : fits m) by (rewrite Forall_forall in Hf; apply Hf; rewrite Ems; apply in_or_app; right; now left).
  change (wires (m :: rest)) with (wire m ++ wires rest) in E.
  destruct (wire_fields m (wires rest) Fm) as (A1 & A2 & A3 & A4 & A5 & A6 & A7).
  rewrite <- E in A1, A2, A3, A4, A5. rewrite slice_app_l in A1, A2, A3, A4, A5 by lia.
  rewrite A2, A3. pose proof (zlen_nonneg _ (i_data m)) as L. assert (zlen (i_data m) <= 16368) as L2 by apply Fm.
  replace (16 + zlen (i_data m) <? 16) with false by (symmetry; lia). replace (16 + zlen (i_data m) >? 16384) with false by (symmetry; lia). cbn [orb].
  destruct (16 + zlen (i_data m) >? zlen b) eqn:E3; [split; [reflexivity|lia]|].
  destruct (app_cut _ _ _ _ E) as (x & Ex & _); [rewrite zlen_wire; lia|].
  replace (16 + zlen (i_data m) - 16) with (zlen (i_data m)) by lia.
  destruct (wire_fields m x Fm) as (_ & _ & _ & _ & _ & B6 & B7). rewrite <- Ex in B6, B7. rewrite A1, A4, A5, B6, B7.
  assert (HT : exists l, fdl (m :: rest) = r_fds r ++ l).
  { destruct (Wr_fds _ _ _ HW) as (l & El). rewrite passed_app, Ep, Ems, fdl_app, <- !app_assoc in El. apply app_inv_head in El. now exists (passed s ++ l). }
  assert (Hgoal : forall fds, r_fds r = fdl [m] ++ fds -> Rd P (mkReader x fds) (out ++ [m]) ms).
  { intros fds Ef. exists rest. split; [rewrite Ems; now rewrite <- app_assoc|]. cbn [r_buf r_fds]. split.
    - rewrite Eb, Ex, wires_app, <- app_assoc. cbn [wires flat_map]. now rewrite app_nil_r.
    - rewrite Ep, Ef, fdl_app, <- app_assoc. reflexivity. }
  destruct m as [ty pe pi fd da]. cbn [i_fd i_type i_peerid i_pid i_data] in *.
  destruct (fd =? -1) eqn:Efd.
  - change (has 0 1) with false. assert (fd = -1) as -> by lia. apply Hgoal. reflexivity.
  - change (has 1 1) with true.
    assert (Hnn : r_fds r <> []).
    { intros Hn. pose proof (Wr_timely _ _ _ HW (length P) out (mkImsg ty pe pi fd da) rest Ems) as Ht.
      rewrite firstn_app, Nat.sub_diag, firstn_O, app_nil_r, firstn_all in Ht. rewrite Ep, Hn, fdl_app in Ht.
      rewrite !app_length in Ht. cbn [fdl flat_map i_fd] in Ht. rewrite Efd in Ht. cbn [app length] in Ht.
      apply (f_equal (@length Z)) in Eb. rewrite map_length, app_length in Eb. unfold zlen in E16. lia. }
    destruct (r_fds r) as [|f fs] eqn:Er; [contradiction|]. destruct HT as (l & El). cbn [fdl flat_map i_fd] in El. rewrite Efd in El.
    cbn [app] in El. injection El as <- El. apply Hgoal. cbn [fdl flat_map i_fd]. now rewrite Efd.
Qed.

Lemma firstn_lt {A} (l a : list A) b p : l = a ++ b -> (p <= length a)%nat -> firstn p l = firstn p a.
Proof. intros -> H. rewrite firstn_app. replace (p - length a)%nat with 0%nat by lia. now rewrite firstn_O, app_nil_r. Qed.
Lemma last_split {A} (ms : list A) x a m b : ms ++ [x] = a ++ m :: b ->
  (b = [] /\ ms = a /\ m = x) \/ exists b', b = b' ++ [x] /\ ms = a ++ m :: b'.
Proof.
  intros E. destruct (exists_last (l := m :: b)) as (c & y & Ec); [discriminate|]. rewrite Ec in E. rewrite app_assoc in E.
  apply app_inj_tail in E as [-> <-]. destruct c as [|c0 c].
  - cbn in Ec. injection Ec as -> ->. left. now rewrite app_nil_r.
  - cbn in Ec. injection Ec as <- ->. right. now exists c.
Qed.

Lemma Inv_step own y o : u32 own -> legal o -> Inv y -> Inv (sys_step own y o).
Proof.
  intros Ho Hl (P & Hf & HW & HR & Hb). destruct y as [q s r t out]. cbn [y_taken y_stream y_queue y_reader y_out] in *.
  destruct o as [ty pe pi fd da|n|n|]; cbn [sys_step].
  - destruct Hl as (L1 & L2 & L3 & L4 & L5 & L6). rewrite compose_spec by assumption. destruct (zlen da <=? 16368) eqn:E; [|exists P; now repeat split].
    set (m := mkImsg ty pe (if pi =? 0 then own else pi) fd da).
    assert (Fm : fits m) by (unfold fits, m; cbn; destruct (pi =? 0); repeat split; try apply L1; try apply L2; try apply L3; try apply Ho; lia).
    exists P. cbn [y_taken y_stream y_queue y_reader y_out]. split; [apply Forall_app; split; [assumption|now constructor]|]. split; [|split; [|assumption]].
    + destruct HW as (d & e1 & e2 & q1 & q2 & Ems & Eq & F1 & F2 & Eb & Ep & Ti).
      exists d, e1, (e2 ++ [m]), q1, (q2 ++ [mkIbuf (wire m) (16 + zlen da) 16384 0 fd]).
      split; [rewrite Ems; now rewrite <- !app_assoc|]. split; [rewrite Eq; now rewrite <- !app_assoc|]. split; [assumption|].
      split; [apply Forall2_app; [assumption|]; repeat constructor|].
      split; [rewrite flat_map_app, wires_app, app_assoc, Eb; reflexivity|]. split; [assumption|].
      intros p a m' b Em Hp. destruct (last_split _ _ _ _ _ Em) as [(-> & Ea & ->)|(b' & -> & Ea)].
      * exfalso. subst a. rewrite <- Eb, app_length, map_length in Hp. lia.
      * exact (Ti p a m' b' Ea Hp).
    + destruct HR as (rest & Ems & R2' & R3). exists (rest ++ [m]). split; [rewrite Ems; now rewrite <- app_assoc|]. now split.
  - destruct (msgbuf_write q n) as [[q' s']|] eqn:E; [|exists P; now repeat split].
    exists P. cbn [y_taken y_stream y_queue y_reader y_out]. split; [assumption|]. split; [|now split].
    rewrite app_assoc. exact (write_Wr _ _ _ _ _ _ HW E).
  - unfold imsg_read. destruct (_ && _ && _ && _) eqn:E; [|exists P; now repeat split].
    exists (P ++ firstn (Z.to_nat n) s). cbn [y_taken y_stream y_queue y_reader y_out]. split; [assumption|].
    split; [rewrite <- app_assoc, firstn_skipn; assumption|]. split; [|assumption].
    destruct HR as (rest & Ems & Eb & Ep). exists rest. split; [assumption|]. cbn [r_buf r_fds].
    rewrite map_app, passed_app, Eb, Ep, <- !app_assoc. now split.
  - pose proof (get_ok P r (messages out) t s q Hf HW HR) as G. destruct (imsg_get r) as [r' g].
    exists P. cbn [y_taken y_stream y_queue y_reader y_out]. split; [assumption|]. split; [assumption|]. rewrite messages_app.
    destruct g as [| |m]; [|contradiction|].
    + destruct G as [-> _]. cbn [messages]. rewrite app_nil_r. split; [assumption|]. intros I. apply in_app_or in I as [I|[I|[]]]; [now apply Hb|discriminate].
    + split; [exact G|]. intros I. apply in_app_or in I as [I|[I|[]]]; [now apply Hb|discriminate].
Qed.
Lemma Inv0 : Inv sys0.
Proof.
  exists []. split; [constructor|]. split; [|split; [exists []; now repeat split|intros []]].
  exists [], [], [], [], []. repeat split; try constructor. intros p a m b Em Hp. cbn in Hp. lia.
Qed.
Lemma taken_asked own ops y : Forall legal ops -> y_taken (fold_left (sys_step own) ops y) = y_taken y ++ asked own ops.
Proof.
  intros H. revert y. induction H as [|o ops Ho _ IH]; intros y; [cbn; now rewrite app_nil_r|]. cbn [fold_left]. rewrite IH. destruct y as [q s r t out].
  destruct o as [ty pe pi fd da|n|n|]; cbn [sys_step asked].
  - destruct Ho as (_ & _ & _ & _ & _ & L6). rewrite compose_spec by assumption. destruct (zlen da <=? 16368); cbn [y_taken]; [now rewrite <- app_assoc|reflexivity].
  - destruct (msgbuf_write q n) as [[q' s']|]; reflexivity.
  - destruct (imsg_read r s n) as [[r' s']|]; reflexivity.
  - destruct (imsg_get r) as [r' g]. reflexivity.
Qed.
Lemma Inv_run own ops : u32 own -> Forall legal ops -> Inv (sys_run own ops).
Proof.
  intros Ho H. unfold sys_run. generalize Inv0. generalize sys0. induction H as [|o ops Hl _ IH]; intros y Hy; [assumption|].
  cbn [fold_left]. apply IH. now apply Inv_step.
Qed.

Lemma channel own ops : u32 own -> Forall legal ops ->
  let y := sys_run own ops in
  (exists rest, asked own ops = messages (y_out y) ++ rest) /\ ~ In GotBad (y_out y)
  /\ (y_queue y = [] -> y_stream y = [] -> snd (imsg_get (y_reader y)) = GotNone -> messages (y_out y) = asked own ops)
  /\ (snd (imsg_get (y_reader y)) = GotNone -> zlen (r_buf (y_reader y)) < 16384).
Proof.
  intros Ho H y. assert (Ea : y_taken y = asked own ops) by (unfold y, sys_run; rewrite taken_asked by assumption; reflexivity).
  destruct (Inv_run own ops Ho H) as (P & Hf & HW & HR & Hb). fold y in Hf, HW, HR, Hb.
  pose proof (get_ok P (y_reader y) (messages (y_out y)) (y_taken y) _ _ Hf HW HR) as G.
  destruct HR as (rest & Ems & Eb & Ep). rewrite <- Ea. split; [now exists rest|]. split; [assumption|]. split.
  - intros Q S N. pose proof (bytes_left _ _ _ _ _ _ _ Ems Eb (Wr_bytes _ _ _ HW)) as E. rewrite Q, S in E. cbn [map flat_map] in E. rewrite !app_nil_r in E.
    destruct rest as [|m rest]; [now rewrite Ems, app_nil_r|]. exfalso.
    assert (Fm : fits m) by (rewrite Forall_forall in Hf; apply Hf; rewrite Ems; apply in_or_app; right; now left).
    change (wires (m :: rest)) with (wire m ++ wires rest) in E.
    destruct (wire_fields m (wires rest) Fm) as (_ & A2 & _). rewrite <- E in A2. unfold imsg_get, IMSG_HEADER_SIZE, MAX_IMSGSIZE in N.
    assert (Lw : zlen (r_buf (y_reader y)) = 16 + zlen (i_data m) + zlen (wires rest)) by (rewrite E, zlen_app, zlen_wire; reflexivity).
    pose proof (zlen_nonneg _ (i_data m)). pose proof (zlen_nonneg _ (wires rest)). assert (zlen (i_data m) <= 16368) by apply Fm.
    replace (16 >? zlen (r_buf (y_reader y))) with false in N by (symmetry; lia). rewrite A2 in N.
    replace (16 + zlen (i_data m) <? 16) with false in N by (symmetry; lia). replace (16 + zlen (i_data m) >? 16384) with false in N by (symmetry; lia).
    cbn [orb] in N. replace (16 + zlen (i_data m) >? zlen (r_buf (y_reader y))) with false in N by (symmetry; lia).
    destruct (if has _ _ then _ else _) as [fd fds]. discriminate N.
  - intros N. destruct (imsg_get (y_reader y)) as [r' g]. cbn [snd] in N. subst g. apply G.
Qed.
Lemma bad_header r t0 t1 t2 t3 lo hi tl : r_buf r = t0 :: t1 :: t2 :: t3 :: lo :: hi :: tl -> 16 <= zlen (r_buf r) ->
  0 <= lo < 256 -> 0 <= hi < 256 -> lo + 256 * hi < 16 \/ lo + 256 * hi > 16384 -> imsg_get r = (r, GotBad).
Proof.
  intros E L Hl Hh Hbad. unfold imsg_get, IMSG_HEADER_SIZE, MAX_IMSGSIZE. replace (16 >? zlen (r_buf r)) with false by (symmetry; lia). cbv zeta. rewrite E.
  change (slice (t0 :: t1 :: t2 :: t3 :: lo :: hi :: tl) 4 2) with [lo; hi]. unfold dle16.
  replace ((lo + 256 * hi <? 16) || (lo + 256 * hi >? 16384)) with true by (symmetry; lia). reflexivity.
Qed.

(** The channel never gets stuck. *)
Lemma Wr_head T b q ms : Wr T (b :: q) ms -> unsent b <> [].
Proof.
  intros (d & e1 & e2 & q1 & q2 & _ & Eq & F1 & F2 & _). assert (0 <= b_rpos b < zlen (b_data b)) as H.
  { destruct q1 as [|b1 q1].
    - cbn in Eq. subst q2. inversion F2 as [|? m ? ? (A1 & A2 & _) _]; subst. rewrite A1, A2, zlen_wire. pose proof (zlen_nonneg _ (i_data m)). lia.
    - cbn in Eq. injection Eq as -> _. inversion F1 as [|? m ? ? (A1 & A2 & _) _]; subst. rewrite A1. lia. }
  intros E. unfold unsent in E. apply (f_equal (@length Z)) in E. rewrite skipn_length in E. cbn in E. unfold zlen in H. lia.
Qed.
Lemma passed_one x : zlen (passed [x]) <= 1.
Proof. destruct x as [b [f|]]; unfold zlen; cbn; lia. Qed.
Lemma unstuck own ops : u32 own -> Forall legal ops ->
  let y := sys_run own ops in
  (y_queue y <> [] -> msgbuf_write (y_queue y) 1 <> None)
  /\ (y_stream y <> [] -> snd (imsg_get (y_reader y)) = GotNone -> imsg_read (y_reader y) (y_stream y) 1 <> None).
Proof.
  intros Ho H y. destruct (channel own ops Ho H) as (_ & _ & _ & Hr). fold y in Hr. destruct (Inv_run own ops Ho H) as (P & _ & HW & _ & _). fold y in HW. split.
  - intros Hq. destruct (y_queue y) as [|b q]; [contradiction|]. apply Wr_head in HW. unfold msgbuf_write.
    assert (exists g, gather IOV_MAX (b :: q) = b :: g) as (g & ->).
    { change IOV_MAX with (S 1023). cbn [gather]. destruct (negb (b_fd b =? -1)); eexists; reflexivity. }
    cbv zeta. cbn [flat_map]. rewrite zlen_app. pose proof (zlen_nonneg _ (flat_map unsent g)).
    destruct (unsent b) as [|u l]; [contradiction|]. rewrite zlen_cons. pose proof (zlen_nonneg _ l).
    replace ((0 <? 1) && (1 <=? 1 + zlen l + zlen (flat_map unsent g))) with true by (symmetry; lia). discriminate.
  - intros Hs Hn. specialize (Hr Hn). unfold imsg_read, IBUF_READ_SIZE. destruct (y_stream y) as [|x s]; [contradiction|].
    change (firstn (Z.to_nat 1) (x :: s)) with [x]. rewrite zlen_cons. pose proof (zlen_nonneg _ s). pose proof (passed_one x).
    replace ((0 <? 1) && (1 <=? 1 + zlen s) && (1 <=? 65535 - zlen (r_buf (y_reader y))) && (zlen (passed [x]) <=? 1)) with true by (symmetry; lia).
    discriminate.
Qed.

(** imsg_composev. *)
Definition total (iov : list (list Z)) : Z := fold_right (fun v n => zlen v + n) 0 iov.
Lemma total_concat iov : total iov = zlen (concat iov).
Proof. induction iov as [|v iov IH]; [reflexivity|]. cbn. rewrite zlen_app. unfold total in IH. lia. Qed.
Lemma add_all_ok iov : forall d size fd, Forall (fun v => zlen v < 65536) iov -> zlen d <= size -> 
  zlen d + total iov <= size -> add_all (mkIbuf d size 16384 0 fd) iov = Some (mkIbuf (d ++ concat iov) size 16384 0 fd).
Proof.
  induction iov as [|v iov IH]; intros d size fd F H1 H2; [cbn; now rewrite app_nil_r|].
  inversion F as [|? ? F1 F2]; subst. cbn in H2. fold (total iov) in H2. pose proof (zlen_nonneg _ v). pose proof (total_concat iov). pose proof (zlen_nonneg _ (concat iov)).
  cbn [add_all]. unfold imsg_add. rewrite Z.mod_small by lia. destruct (zlen v =? 0) eqn:E; cbn [negb obind].
  - assert (v = []) as -> by (destruct v; [reflexivity|rewrite zlen_cons in E; pose proof (zlen_nonneg _ v); lia]). cbn [concat app]. apply IH; auto.
  - rewrite firstn_all2 by (unfold zlen; lia). unfold ibuf_add. replace (zlen d + zlen v >? size) with false by (symmetry; lia). cbn [obind].
    rewrite IH; [cbn [concat]; now rewrite <- app_assoc|assumption|rewrite zlen_app; lia|rewrite zlen_app; lia].
Qed.
Lemma add_all_over iov : forall d size fd, Forall (fun v => zlen v < 65536) iov -> size <= 16384 -> zlen d <= 16384 ->
  16384 < zlen d + total iov -> add_all (mkIbuf d size 16384 0 fd) iov = None.
Proof.
  induction iov as [|v iov IH]; intros d size fd F H0 H1 H2; [cbn in H2; lia|].
  inversion F as [|? ? F1 F2]; subst. cbn in H2. fold (total iov) in H2. pose proof (zlen_nonneg _ v).
  cbn [add_all]. unfold imsg_add. rewrite Z.mod_small by lia. destruct (zlen v =? 0) eqn:E; cbn [negb obind].
  - apply IH; auto; lia.
  - rewrite firstn_all2 by (unfold zlen; lia). unfold ibuf_add. destruct (zlen d + zlen v >? size) eqn:E1.
    + destruct (zlen d + zlen v >? 16384) eqn:E2; [reflexivity|]. cbn [obind]. apply IH; auto; rewrite ?zlen_app; lia.
    + cbn [obind]. apply IH; auto; rewrite zlen_app; lia.
Qed.
Lemma composev_spec own type peerid pid fd iov : Forall (fun v => zlen v < 65536) iov ->
  imsg_composev own type peerid pid fd iov
  = if zlen (concat iov) <=? 16368 then imsg_compose own type peerid pid fd (concat iov) (zlen (concat iov)) else None.
Proof.
  intros F. pose proof (zlen_nonneg _ (concat iov)) as L. unfold imsg_composev. fold (total iov). rewrite total_concat. unfold imsg_create.
  unfold IMSG_HEADER_SIZE, MAX_IMSGSIZE. set (p := if pid =? 0 then own else pid).
  assert (Hh : forall n, imsg_add (mkIbuf [] n 16384 0 (-1)) (le32 type ++ le16 0 ++ le16 0 ++ le32 peerid ++ le32 p) 16
    = Some (mkIbuf (le32 type ++ le16 0 ++ le16 0 ++ le32 peerid ++ le32 p) (if 16 >? n then 16 else n) 16384 0 (-1))).
  { intros n. unfold imsg_add, ibuf_add. change (16 mod 65536) with 16. cbn [Z.eqb negb].
    rewrite firstn_all2 by (cbn; lia). rewrite app_nil_l, zlen_nil.
    change (zlen (le32 type ++ le16 0 ++ le16 0 ++ le32 peerid ++ le32 p)) with 16. cbn [Z.add]. destruct (16 >? n); reflexivity. }
  destruct (zlen (concat iov) <=? 16368) eqn:E.
  - rewrite compose_spec by lia. rewrite E. rewrite (Z.mod_small (zlen (concat iov))) by lia. rewrite (Z.mod_small (zlen (concat iov) + 16)) by lia.
    replace (zlen (concat iov) + 16 >? 16384) with false by (symmetry; lia).
    unfold ibuf_dynamic, ibuf_open. replace (16384 <? zlen (concat iov) + 16) with false by (symmetry; lia). cbn [obind b_data b_size b_rpos b_fd Z.gtb Z.compare].
    rewrite Hh. cbn [obind]. replace (16 >? zlen (concat iov) + 16) with false by (symmetry; lia).
    rewrite add_all_ok; [|assumption|change (zlen (le32 type ++ _)) with 16; lia|rewrite total_concat; change (zlen (le32 type ++ _)) with 16; lia]. cbn [obind].
    unfold imsg_close. rewrite zlen_app. change (zlen (le32 type ++ le16 0 ++ le16 0 ++ le32 peerid ++ le32 p)) with 16.
    rewrite (Z.mod_small (16 + zlen (concat iov))) by lia. rewrite (Z.add_comm (zlen (concat iov)) 16). reflexivity.
  - cbv zeta. set (n := (zlen (concat iov) mod 65536 + 16) mod 65536). assert (0 <= n) by (apply Z.mod_pos_bound; lia).
    destruct (n >? 16384) eqn:E2; [reflexivity|]. unfold ibuf_dynamic, ibuf_open. replace (16384 <? n) with false by (symmetry; lia). cbn [obind b_data b_size b_rpos b_fd Z.gtb Z.compare].
    (rewrite Hh; cbn [obind]; rewrite add_all_over; [reflexivity|assumption|destruct (16 >? n); lia|change (zlen (le32 type ++ _)) with 16; lia|rewrite total_concat; change (zlen (le32 type ++ _)) with 16; lia]).
Qed.
Lemma descriptor r r' m : imsg_get r = (r', Got m) -> (i_fd m = -1 /\ r_fds r' = r_fds r) \/ r_fds r = i_fd m :: r_fds r'.
Proof.
  unfold imsg_get. cbv zeta. destruct (_ >? _); [discriminate|]. destruct (_ || _); [discriminate|]. destruct (_ >? _); [discriminate|].
  destruct (has _ _); [destruct (r_fds r) as [|f fs] eqn:E|]; intros H; injection H as <- <-; cbn [i_fd r_fds]; auto.
Qed.
