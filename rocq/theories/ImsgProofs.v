(** Messages arrive once, in order and unmodified. *)
From Verif Require Import Base Imsg SpecImsg Lemmas.

(** The bytes of a message. *)
Definition wire (m : imsg) : list Z :=
  le32 (i_type m) ++ le16 (16 + zlen (i_data m)) ++ le16 (if i_fd m =? -1 then 0 else 1)
  ++ le32 (i_peerid m) ++ le32 (i_pid m) ++ i_data m.
Definition fits (m : imsg) : Prop :=
  u32 (i_type m) /\ u32 (i_peerid m) /\ u32 (i_pid m) /\ -1 <= i_fd m /\ zlen (i_data m) <= 16368.
Definition fdl (ms : list imsg) : list Z := flat_map (fun m => if i_fd m =? -1 then [] else [i_fd m]) ms.
Definition wires (ms : list imsg) : list Z := flat_map wire ms.
Lemma zlen_wire m : zlen (wire m) = 16 + zlen (i_data m).
Proof. unfold wire. rewrite !zlen_app. unfold le32, le16, zlen. cbn [length]. lia. Qed.
Lemma dle32_le32 v : u32 v -> dle32 (le32 v) = v.
Proof.
  unfold u32, le32, dle32. intros H.
  pose proof (Z.div_mod v 256 ltac:(lia)) as E1. pose proof (Z.div_mod (v / 256) 256 ltac:(lia)) as E2.
  pose proof (Z.div_mod (v / 65536) 256 ltac:(lia)) as E3.
  assert (v / 256 / 256 = v / 65536) as D2 by (rewrite Z.div_div by lia; reflexivity).
  assert (v / 65536 / 256 = v / 16777216) as D3 by (rewrite Z.div_div by lia; reflexivity).
  assert (0 <= v / 16777216 < 256) as B by (split; [apply Z.div_pos; lia|apply Z.div_lt_upper_bound; lia]).
  rewrite (Z.mod_small (v / 16777216)) by lia. lia.
Qed.
Lemma dle16_le16 v : 0 <= v < 65536 -> dle16 (le16 v) = v.
Proof.
  unfold le16, dle16. intros H. assert (0 <= v / 256 < 256) by (split; [apply Z.div_pos; lia|apply Z.div_lt_upper_bound; lia]).
  rewrite (Z.mod_small (v / 256)) by lia. pose proof (Z.div_mod v 256 ltac:(lia)). lia.
Qed.

(** imsg_compose. *)
Lemma compose_spec own type peerid pid fd data : zlen data < 65536 ->
  imsg_compose own type peerid pid fd data (zlen data)
  = if zlen data <=? 16368
    then Some (mkIbuf (wire (mkImsg type peerid (if pid =? 0 then own else pid) fd data)) (16 + zlen data) 16384 0 fd)
    else None.
Proof.
  intros Hd. pose proof (zlen_nonneg _ data). unfold imsg_compose, imsg_create. rewrite (Z.mod_small (zlen data)) by lia.
  unfold IMSG_HEADER_SIZE, MAX_IMSGSIZE.
  set (p := if pid =? 0 then own else pid).
  assert (Hh : forall n, imsg_add (mkIbuf [] n 16384 0 (-1)) (le32 type ++ le16 0 ++ le16 0 ++ le32 peerid ++ le32 p) 16
    = Some (mkIbuf (le32 type ++ le16 0 ++ le16 0 ++ le32 peerid ++ le32 p) (if 16 >? n then 16 else n) 16384 0 (-1))).
  { intros n. unfold imsg_add, ibuf_add. change (16 mod 65536) with 16. cbn [Z.eqb negb].
    rewrite firstn_all2 by (cbn; lia). rewrite app_nil_l, zlen_nil.
    change (zlen (le32 type ++ le16 0 ++ le16 0 ++ le32 peerid ++ le32 p)) with 16. cbn [Z.add].
    destruct (16 >? n); reflexivity. }
  destruct (zlen data <=? 16368) eqn:E.
  - rewrite (Z.mod_small (zlen data + 16)) by lia. replace (zlen data + 16 >? 16384) with false by (symmetry; lia).
    unfold ibuf_dynamic, ibuf_open. replace (16384 <? zlen data + 16) with false by (symmetry; lia). cbn [obind b_data b_size b_rpos b_fd Z.gtb Z.compare].
    rewrite Hh. cbn [obind]. replace (16 >? zlen data + 16) with false by (symmetry; lia).
    unfold imsg_add. rewrite (Z.mod_small (zlen data)) by lia.
    assert (Hc : imsg_close (mkIbuf ((le32 type ++ le16 0 ++ le16 0 ++ le32 peerid ++ le32 p) ++ data) (zlen data + 16) 16384 0 fd)
      = mkIbuf (wire (mkImsg type peerid p fd data)) (16 + zlen data) 16384 0 fd).
    { unfold imsg_close. rewrite zlen_app. change (zlen (le32 type ++ le16 0 ++ le16 0 ++ le32 peerid ++ le32 p)) with 16.
      rewrite (Z.mod_small (16 + zlen data)) by lia. rewrite (Z.add_comm (zlen data) 16). unfold wire. cbn [i_type i_data i_fd i_peerid i_pid].
      f_equal. }
    destruct (zlen data =? 0) eqn:E0; cbn [negb obind].
    + assert (data = []) as -> by (destruct data; [reflexivity|rewrite zlen_cons in E0; pose proof (zlen_nonneg _ data); lia]).
      rewrite app_nil_r in Hc. now rewrite Hc.
    + rewrite firstn_all2 by (unfold zlen; lia). unfold ibuf_add.
      change (zlen (le32 type ++ le16 0 ++ le16 0 ++ le32 peerid ++ le32 p)) with 16.
      replace (16 + zlen data >? zlen data + 16) with false by (symmetry; lia). cbn [obind]. rewrite Hc. reflexivity.
  - destruct (Z_lt_ge_dec (zlen data + 16) 65536) as [L|L].
    + rewrite (Z.mod_small (zlen data + 16)) by lia. replace (zlen data + 16 >? 16384) with true by (symmetry; lia). reflexivity.
    + replace ((zlen data + 16) mod 65536) with (zlen data + 16 - 65536) by (rewrite <- (Z.mod_small (zlen data + 16 - 65536) 65536) by lia;
        rewrite <- (Z.mod_add (zlen data + 16 - 65536) 1 65536) by lia; f_equal; lia).
      set (n := zlen data + 16 - 65536). replace (n >? 16384) with false by (unfold n; symmetry; lia).
      unfold ibuf_dynamic, ibuf_open. replace (16384 <? n) with false by (unfold n; symmetry; lia). cbn [obind b_data b_size b_rpos b_fd Z.gtb Z.compare].
      rewrite Hh. cbn [obind]. unfold imsg_add. rewrite (Z.mod_small (zlen data)) by lia. replace (zlen data =? 0) with false by (symmetry; lia). cbn [negb].
      rewrite firstn_all2 by (unfold zlen; lia). unfold ibuf_add.
      change (zlen (le32 type ++ le16 0 ++ le16 0 ++ le32 peerid ++ le32 p)) with 16.
      replace (16 + zlen data >? (if 16 >? n then 16 else n)) with true by (unfold n in *; destruct (16 >? _); symmetry; lia).
      replace (16 + zlen data >? 16384) with true by (symmetry; lia). reflexivity.
Qed.

(** The sender. *)
Definition timely (T : stream) (ms : list imsg) : Prop :=
  forall p a m b, ms = a ++ m :: b -> (length (wires a) < p <= length T)%nat ->
  (length (fdl (a ++ [m])) <= length (passed (firstn p T)))%nat.
Definition R1 (b : ibuf) (m : imsg) : Prop := b_data b = wire m /\ 0 <= b_rpos b < zlen (wire m) /\ b_fd b = -1.
Definition R2 (b : ibuf) (m : imsg) : Prop := b_data b = wire m /\ b_rpos b = 0 /\ b_fd b = i_fd m.
Definition Wr (T : stream) (q : list ibuf) (ms : list imsg) : Prop :=
  exists d e1 e2 q1 q2, ms = d ++ e1 ++ e2 /\ q = q1 ++ q2 /\ Forall2 R1 q1 e1 /\ Forall2 R2 q2 e2
  /\ map fst T ++ flat_map unsent q = wires ms /\ passed T = fdl (d ++ e1) /\ timely T ms.

Lemma fdl_app a b : fdl (a ++ b) = fdl a ++ fdl b.
Proof. apply flat_map_app. Qed.
Lemma wires_app a b : wires (a ++ b) = wires a ++ wires b.
Proof. apply flat_map_app. Qed.
Lemma passed_app a b : passed (a ++ b) = passed a ++ passed b.
Proof. apply flat_map_app. Qed.
Lemma passed_none l : passed (map (fun x => (x, None)) l) = [].
Proof. induction l as [|x l IH]; [reflexivity|exact IH]. Qed.
Lemma tag_fst fd l : map fst (tag fd l) = l.
Proof. destruct l as [|b l]; [reflexivity|]. cbn. rewrite map_map. cbn. now rewrite map_id. Qed.
Lemma unsent_R2 q e : Forall2 R2 q e -> flat_map unsent q = wires e.
Proof.
  induction 1 as [|b m q e (H1 & H2 & _) _ IH]; [reflexivity|]. cbn. rewrite IH. unfold unsent. rewrite H2, H1. reflexivity.
Qed.
Lemma R21 b m : R2 b m -> b_fd b = -1 -> R1 b m.
Proof. intros (H1 & H2 & H3) H. split; [assumption|]. split; [|assumption]. rewrite H2, zlen_wire. pose proof (zlen_nonneg _ (i_data m)). lia. Qed.
Lemma fdl_none q e : Forall2 R2 q e -> Forall (fun b => b_fd b = -1) q -> fdl e = [].
Proof.
  induction 1 as [|b m q e (H1 & H2 & H3) _ IH]; intros F; [reflexivity|]. inversion F as [|? ? F1 F2]; subst. cbn.
  rewrite <- H3, F1. cbn. now apply IH.
Qed.
Lemma R2_R1 q e : Forall2 R2 q e -> Forall (fun b => b_fd b = -1) q -> Forall2 R1 q e.
Proof.
  induction 1 as [|b m q e H1 _ IH]; intros F; [constructor|]. inversion F as [|? ? F1 F2]; subst. constructor; [now apply R21|now apply IH].
Qed.

Lemma gather_cases room q :
  (exists qa qb, q = qa ++ qb /\ gather room q = qa /\ Forall (fun b => b_fd b = -1) qa)
  \/ (exists qa b qb, q = qa ++ b :: qb /\ gather room q = qa ++ [b] /\ Forall (fun b => b_fd b = -1) qa /\ b_fd b <> -1).
Proof.
  revert q. induction room as [|r IH]; intros q; [left; exists [], q; now repeat split|].
  destruct q as [|b q]; [left; exists [], []; now repeat split|]. cbn [gather]. destruct (b_fd b =? -1) eqn:E; cbn [negb].
  - destruct (IH q) as [(qa & qb & -> & G & F)|(qa & c & qb & -> & G & F & N)].
    + left. exists (b :: qa), qb. split; [reflexivity|]. split; [now rewrite G|]. constructor; [lia|assumption].
    + right. exists (b :: qa), c, qb. split; [reflexivity|]. split; [now rewrite G|]. split; [constructor; [lia|assumption]|assumption].
  - right. exists [], b, q. split; [reflexivity|]. split; [reflexivity|]. split; [constructor|lia].
Qed.
Lemma clear_at qa b qb : clear_fd (length qa) (qa ++ b :: qb) = qa ++ mkIbuf (b_data b) (b_size b) (b_max b) (b_rpos b) (-1) :: qb.
Proof. induction qa as [|x qa IH]; [reflexivity|]. cbn. now rewrite IH. Qed.

Lemma zlen_unsent b m : R1 b m -> zlen (unsent b) = zlen (b_data b) - b_rpos b.
Proof. intros (H1 & H2 & _). unfold unsent. rewrite <- H1 in H2. unfold zlen in *. rewrite skipn_length. lia. Qed.
Lemma skipn_skipn' {A} (l : list A) a b : skipn a (skipn b l) = skipn (a + b) l.
Proof.
  revert l. induction b as [|b IH]; intros l; [now rewrite Nat.add_0_r|].
  destruct l as [|x l]; [now rewrite !skipn_nil|]. rewrite Nat.add_succ_r. cbn [skipn]. apply IH.
Qed.
Lemma drain_nil q n : n <= 0 -> msgbuf_drain q n = q.
Proof. intros H. destruct q as [|b q]; [reflexivity|]. cbn. replace (n >? 0) with false by (symmetry; lia). reflexivity. Qed.
Lemma drain_spec q1 e1 : Forall2 R1 q1 e1 -> forall q2 n, 0 <= n <= zlen (flat_map unsent q1) ->
  exists x q e, e1 = x ++ e /\ Forall2 R1 q e /\ msgbuf_drain (q1 ++ q2) n = q ++ q2
  /\ flat_map unsent q = skipn (Z.to_nat n) (flat_map unsent q1).
Proof.
  induction 1 as [|b m q1 e1 HR H IH]; intros q2 n Hn.
  - cbn in Hn. rewrite zlen_nil in Hn. exists [], [], []. split; [reflexivity|]. split; [constructor|]. split; [apply drain_nil; lia|].
    replace n with 0 by lia. reflexivity.
  - destruct (Z.eq_dec n 0) as [->|N0].
    { exists [], (b :: q1), (m :: e1). split; [reflexivity|]. split; [now constructor|]. split; [now apply drain_nil|]. reflexivity. }
    cbn [app msgbuf_drain flat_map] in *. replace (n >? 0) with true by (symmetry; lia). rewrite zlen_app in Hn.
    pose proof (zlen_unsent b m HR) as U. destruct (b_rpos b + n >=? zlen (b_data b)) eqn:E.
    + destruct (IH q2 (n - (zlen (b_data b) - b_rpos b))) as (x & q & e & -> & F & D & S); [lia|].
      exists (m :: x), q, e. split; [reflexivity|]. split; [assumption|]. split; [assumption|]. rewrite S, skipn_app.
      rewrite (skipn_all2 (unsent b)) by (unfold zlen in *; lia). cbn [app]. f_equal. unfold zlen in *. lia.
    + exists [], (mkIbuf (b_data b) (b_size b) (b_max b) (b_rpos b + n) (b_fd b) :: q1), (m :: e1). split; [reflexivity|]. split; [constructor; [|exact H]|].
      * destruct HR as (H1 & H2 & H3). split; [exact H1|]. cbn [b_rpos b_fd]. split; [|exact H3]. rewrite <- H1. lia.
      * split; [reflexivity|]. cbn [flat_map]. rewrite skipn_app. unfold unsent at 1. cbn [b_rpos b_data].
        replace (Z.to_nat n - length (unsent b))%nat with 0%nat by (unfold zlen in *; lia). cbn [skipn]. f_equal.
        unfold unsent. rewrite skipn_skipn'. f_equal. destruct HR as (_ & H2 & _). lia.
Qed.

Lemma prefix_of a m b X Y : a ++ m :: b = X ++ Y -> (length (wires a) < length (wires X))%nat -> exists c, X = a ++ m :: c.
Proof.
  revert X. induction a as [|x a IH]; intros X E L.
  - destruct X as [|y X]; [cbn in L; lia|]. cbn in E. injection E as -> _. now exists X.
  - destruct X as [|y X]; [cbn in L; lia|]. cbn in E. injection E as -> E. cbn [wires flat_map] in L. rewrite !app_length in L.
    destruct (IH X E) as (c & ->); [unfold wires; lia|]. now exists c.
Qed.
Lemma passed_cons b fd s : passed ((b, fd) :: s) = match fd with Some f => [f] | None => [] end ++ passed s.
Proof. reflexivity. Qed.
Lemma firstn_tag fd l k : (0 < k)%nat -> (0 < length l)%nat -> passed (firstn k (tag fd l)) = passed (tag fd l).
Proof.
  intros Hk Hl. destruct l as [|b l]; [cbn in Hl; lia|]. destruct k as [|k]; [lia|]. cbn [tag firstn].
  assert (forall k l, passed (firstn k (map (fun x : Z => (x, @None Z)) l)) = []) as N.
  { clear. induction k as [|k IH]; intros [|x l]; try reflexivity. apply IH. }
  now rewrite !passed_cons, N, passed_none.
Qed.
Lemma passed_tag fd l : (0 < length l)%nat -> passed (tag fd l) = match fd with Some f => [f] | None => [] end.
Proof.
  intros Hl. destruct l as [|b l]; [cbn in Hl; lia|]. cbn [tag]. now rewrite passed_cons, passed_none, app_nil_r.
Qed.

(** One write, when the buffers up to [q1'] are offered. *)
Lemma write_core T q ms d e1 e2 q1 q2 fd n q' :
  ms = d ++ e1 ++ e2 -> Forall2 R1 q1 e1 -> Forall2 R2 q2 e2 ->
  flat_map unsent q = flat_map unsent (q1 ++ q2) ->
  map fst T ++ flat_map unsent q = wires ms -> timely T ms ->
  passed T ++ match fd with Some f => [f] | None => [] end = fdl (d ++ e1) ->
  0 < n <= zlen (flat_map unsent q1) -> q' = msgbuf_drain (q1 ++ q2) n ->
  Wr (T ++ tag fd (firstn (Z.to_nat n) (flat_map unsent q1))) q' ms.
Proof.
  intros Ems F1 F2 Eq Eb Ti Ep Hn ->. destruct (drain_spec q1 e1 F1 q2 n ltac:(lia)) as (x & qr & e & E1 & F & D & S).
  set (l := firstn (Z.to_nat n) (flat_map unsent q1)).
  assert (Ll : length l = Z.to_nat n) by (unfold l; rewrite firstn_length; unfold zlen in Hn; lia).
  assert (Lb : (length T + length (flat_map unsent q1) = length (wires (d ++ e1)))%nat).
  { rewrite Eq, flat_map_app, (unsent_R2 q2 e2 F2) in Eb. rewrite Ems, (app_assoc d), wires_app, app_assoc in Eb.
    apply app_inv_tail in Eb. apply (f_equal (@length Z)) in Eb. rewrite app_length, map_length in Eb. exact Eb. }
  exists (d ++ x), e, e2, qr, q2. split; [rewrite Ems, E1; now rewrite <- !app_assoc|]. split; [exact D|]. split; [assumption|]. split; [assumption|].
  split; [|split].
  - rewrite D, map_app, tag_fst, flat_map_app, S. rewrite <- Eb, Eq, flat_map_app. rewrite <- app_assoc. f_equal. rewrite app_assoc. f_equal.
    unfold l. now rewrite firstn_skipn.
  - rewrite passed_app, passed_tag by lia. rewrite Ep, E1. now rewrite <- app_assoc.
  - intros p a m b Em Hp. rewrite app_length in Hp. assert (Lt : length (tag fd l) = length l).
    { rewrite <- (tag_fst fd l) at 2. now rewrite map_length. }
    destruct (le_lt_dec p (length T)) as [L|L].
    + rewrite firstn_app. replace (p - length T)%nat with 0%nat by lia. rewrite firstn_O, app_nil_r. apply (Ti p a m b Em). lia.
    + rewrite firstn_app, firstn_all2 by lia. rewrite passed_app, firstn_tag, passed_tag by lia. rewrite Ep.
      destruct (prefix_of a m b (d ++ e1) e2) as (c & ->).
      * now rewrite <- Em, Ems, <- app_assoc.
      * rewrite <- Lb. unfold zlen in Hn. lia.
      * replace (a ++ m :: c) with ((a ++ [m]) ++ c) by now rewrite <- app_assoc. rewrite (fdl_app (a ++ [m]) c), app_length. lia.
Qed.
Lemma app_split {A} (qa qb q1 q2 : list A) : qa ++ qb = q1 ++ q2 ->
  (exists c, q1 = qa ++ c) \/ exists c, qa = q1 ++ c /\ q2 = c ++ qb.
Proof.
  revert q1. induction qa as [|x qa IH]; intros q1 E; [left; now exists q1|]. destruct q1 as [|y q1].
  - right. exists (x :: qa). now split.
  - cbn in E. injection E as -> E. destruct (IH q1 E) as [(c & ->)|(c & -> & ->)]; [left; now exists c|right; now exists c].
Qed.
Lemma Forall2_fd q e : Forall2 R1 q e -> Forall (fun b => b_fd b = -1) q.
Proof. induction 1 as [|b m q e (_ & _ & H) _ IH]; constructor; assumption. Qed.
Lemma unsent_prefix qa c n : zlen (flat_map unsent qa) >= n -> 0 <= n ->
  firstn (Z.to_nat n) (flat_map unsent (qa ++ c)) = firstn (Z.to_nat n) (flat_map unsent qa).
Proof.
  intros H H0. rewrite flat_map_app, firstn_app. replace (Z.to_nat n - length (flat_map unsent qa))%nat with 0%nat by (unfold zlen in H; lia).
  now rewrite firstn_O, app_nil_r.
Qed.

Lemma write_Wr T q ms n q' s : Wr T q ms -> msgbuf_write q n = Some (q', s) -> Wr (T ++ s) q' ms.
Proof.
  intros (d & e1 & e2 & q1 & q2 & Ems & Eq & F1 & F2 & Eb & Ep & Ti) H. unfold msgbuf_write in H.
  destruct (gather_cases IOV_MAX q) as [(qa & qb & Eqa & G & F)|(qa & b & qb & Eqa & G & F & N)]; rewrite G in H; cbv zeta in H.
  - destruct ((0 <? n) && (n <=? zlen (flat_map unsent qa))) eqn:E; [|discriminate H].
    assert (match rev qa with b :: _ => if b_fd b =? -1 then None else Some (b_fd b) | [] => None end = None) as Er.
    { destruct (rev qa) as [|b r] eqn:E2; [reflexivity|]. assert (In b qa) as I by (apply in_rev; rewrite E2; now left).
      rewrite Forall_forall in F. rewrite (F b I). reflexivity. }
    rewrite Er in H. injection H as <- <-.
    destruct (app_split qa qb q1 q2) as [(c & Ec)|(c & -> & Ec)]; [now rewrite <- Eqa, <- Eq| |].
    + rewrite <- (unsent_prefix qa c) by lia. rewrite <- Ec. apply (write_core T q ms d e1 e2 q1 q2 None n); auto.
      * now rewrite Eq.
      * now rewrite app_nil_r.
      * rewrite Ec, flat_map_app, zlen_app. pose proof (zlen_nonneg _ (flat_map unsent c)). lia.
      * now rewrite Eq.
    + subst q2. apply Forall2_app_inv_l in F2 as (ea & eb & F2a & F2b & ->). apply Forall_app in F as [_ Fc].
      apply (write_core T q ms d (e1 ++ ea) eb (q1 ++ c) qb None n); auto.
      * rewrite Ems. now rewrite <- app_assoc.
      * apply Forall2_app; [assumption|now apply R2_R1].
      * now rewrite Eqa.
      * rewrite app_nil_r, Ep, !fdl_app. rewrite (fdl_none c ea F2a Fc). now rewrite app_nil_r.
      * lia.
      * now rewrite Eqa.
  - destruct ((0 <? n) && (n <=? zlen (flat_map unsent (qa ++ [b])))) eqn:E; [|discriminate H].
    rewrite rev_app_distr in H. cbn [rev app] in H. replace (b_fd b =? -1) with false in H by (symmetry; lia).
    rewrite app_length in H. cbn [length] in H. replace (length qa + 1 - 1)%nat with (length qa) in H by lia.
    rewrite Eqa, clear_at in H. injection H as <- <-. set (b' := mkIbuf (b_data b) (b_size b) (b_max b) (b_rpos b) (-1)).
    destruct (app_split qa (b :: qb) q1 q2) as [(c & Ec)|(c & -> & Ec)]; [now rewrite <- Eqa, <- Eq| |].
    + destruct c as [|b0 c].
      { rewrite app_nil_r in Ec. subst q1. assert (b :: qb = q2) as <- by (apply (app_inv_head qa); now rewrite <- Eqa, <- Eq).
        inversion F2 as [|? m ? e2' HR2 F2' Ea Eb2]; subst.
        replace (flat_map unsent (qa ++ [b])) with (flat_map unsent (qa ++ [b'])) by now rewrite !flat_map_app.
        apply (write_core T (qa ++ b :: qb) _ d (e1 ++ [m]) e2' (qa ++ [b']) qb (Some (b_fd b)) n); auto.
        - now rewrite <- app_assoc.
        - apply Forall2_app; [assumption|]. constructor; [|constructor]. destruct HR2 as (A1 & A2 & _). split; [exact A1|]. split; [|reflexivity].
          cbn [b_rpos b']. rewrite A2, zlen_wire. pose proof (zlen_nonneg _ (i_data m)). lia.
        - rewrite <- app_assoc. cbn [app]. rewrite !flat_map_app. reflexivity.
        - rewrite Ep. rewrite (app_assoc d), (fdl_app (d ++ e1)). f_equal. destruct HR2 as (_ & _ & A3). cbn. rewrite <- A3. replace (b_fd b =? -1) with false by (symmetry; lia). reflexivity.
        - rewrite !flat_map_app in *. cbn [flat_map] in *. unfold unsent at 2 in E. unfold unsent at 2. cbn [b' b_rpos b_data]. lia.
        - now rewrite <- app_assoc. }
      exfalso. assert (b = b0) as ->.
      { rewrite Eqa, Ec, <- app_assoc in Eq. apply app_inv_head in Eq. now injection Eq. }
      apply Forall2_fd in F1. rewrite Ec in F1. apply Forall_app in F1 as [_ F1]. inversion F1; subst. contradiction.
    + subst q2. apply Forall2_app_inv_l in F2 as (ea & eb & F2a & F2b & ->). apply Forall_app in F as [_ Fc].
      inversion F2b as [|? m ? eb' HR2 F2' Ea Eb2]; subst.
      replace (flat_map unsent ((q1 ++ c) ++ [b])) with (flat_map unsent ((q1 ++ c) ++ [b'])) by (rewrite !(flat_map_app _ (q1 ++ c)); reflexivity).
      apply (write_core T (q1 ++ c ++ b :: qb) _ d ((e1 ++ ea) ++ [m]) eb' ((q1 ++ c) ++ [b']) qb (Some (b_fd b)) n); auto.
      * now rewrite <- !app_assoc.
      * apply Forall2_app; [apply Forall2_app; [assumption|now apply R2_R1]|]. constructor; [|constructor].
        destruct HR2 as (A1 & A2 & _). split; [exact A1|]. split; [|reflexivity]. cbn [b_rpos b']. rewrite A2, zlen_wire. pose proof (zlen_nonneg _ (i_data m)). lia.
      * rewrite <- !app_assoc. cbn [app]. rewrite !flat_map_app. reflexivity.
      * rewrite Ep. rewrite !fdl_app. rewrite (fdl_none c ea F2a Fc), app_nil_r. rewrite <- app_assoc. do 2 f_equal.
        destruct HR2 as (_ & _ & A3). cbn. rewrite <- A3. replace (b_fd b =? -1) with false by (symmetry; lia). reflexivity.
      * rewrite !(flat_map_app _ (q1 ++ c)) in *. cbn [flat_map] in *. unfold unsent at 2 in E. unfold unsent at 2. cbn [b' b_rpos b_data]. lia.
      * now rewrite <- !app_assoc.
Qed.
