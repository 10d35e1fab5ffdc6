(** Multicast groups on BSD (C108). *)
From Coq Require Import Permutation.
From Verif Require Import Base Types Tlv Checks Wire Util Parent Mreq Netif Sysinfo Bsd HostBsd Spec SpecHostBsd Lemmas VisProofs ParentProofs.

Definition groups (cfg : pcfg) : list (list Z) :=
  flat_map (fun p => if in_use cfg p then match group_of p with Some g => [g] | None => [] end else []) [0; 1; 2; 3; 4; 5].
Definition tally (a : list Z) (gs : list (list Z)) : Z := zlen (filter (fun g => beq g a) gs).
Lemma tally_cons a g gs : tally a (g :: gs) = (if beq g a then 1 else 0) + tally a gs.
Proof. unfold tally. cbn [filter]. destruct (beq g a); [rewrite zlen_cons|]; lia. Qed.
Lemma tally_app a x y : tally a (x ++ y) = tally a x + tally a y.
Proof. unfold tally. rewrite filter_app. zlia. Qed.
Lemma tally_nonneg a gs : 0 <= tally a gs. Proof. apply zlen_nonneg. Qed.
Lemma users_tally cfg a : users cfg a = tally a (groups cfg).
Proof.
  unfold users, groups. induction [0; 1; 2; 3; 4; 5] as [|p l IH]; [reflexivity|]. cbn [filter flat_map]. rewrite tally_app, <- IH.
  destruct (in_use cfg p); cbn [andb]; [|reflexivity]. destruct (group_of p) as [g|]; [|reflexivity].
  rewrite tally_cons. destruct (beq g a); [rewrite zlen_cons|]; unfold tally; cbn [filter]; rewrite ?zlen_nil; lia.
Qed.
Lemma loop_step cfg name op p e en : 0 <= p < 6 ->
  bsd_multi_loop cfg name p (e :: en) op
  = map (fun g => BMulti name g op) (if e || has (pc_opts cfg) OPT_AUTO then match group_of p with Some g => [g] | None => [] end else [])
    ++ bsd_multi_loop cfg name (p + 1) en op.
Proof.
  intros H. cbn [bsd_multi_loop]. assert (C : p = 0 \/ p = 1 \/ p = 2 \/ p = 3 \/ p = 4 \/ p = 5) by lia.
  destruct e, (has (pc_opts cfg) OPT_AUTO); cbn [negb andb orb]; repeat (destruct C as [->|C]; [reflexivity|]); rewrite C; reflexivity.
Qed.
Lemma loop_groups cfg name op : length (pc_enabled cfg) = 6%nat ->
  bsd_multi_loop cfg name 0 (pc_enabled cfg) op = map (fun g => BMulti name g op) (groups cfg).
Proof.
  intros L. unfold groups, in_use.
  replace (Z.testbit (pc_opts cfg) 3) with (has (pc_opts cfg) OPT_AUTO) by (apply (has_bit _ 3); lia).
  destruct (pc_enabled cfg) as [|a [|b [|c [|d [|e [|f [|]]]]]]]; try discriminate L.
  do 6 (rewrite loop_step by lia). cbn [flat_map]. rewrite !map_app. reflexivity.
Qed.

(** ** Counting *)
Lemma joined_app pf name a : forall x y have, joined pf name a have (x ++ y) = joined pf name a (joined pf name a have x) y.
Proof. induction x as [|e x IH]; intros y have; [reflexivity|]. destruct e; cbn [app joined]; apply IH. Qed.
Lemma joined_nonneg pf name a : forall x have, 0 <= have -> 0 <= joined pf name a have x.
Proof.
  induction x as [|e x IH]; intros have H; [exact H|]. destruct e; cbn [joined]; apply IH; try assumption.
  destruct (_ && _); [|assumption]. destruct add; [|lia]. destruct pf; [|lia]. destruct (0 <? have); lia.
Qed.
Lemma add_open name a n : forall gs have,
  joined OpenBSD name a have (map (fun g => BMulti n g true) gs) = have + (if beq n name then tally a gs else 0).
Proof.
  induction gs as [|g gs IH]; intros have; cbn [map joined]; [unfold tally; cbn; rewrite zlen_nil; destruct (beq n name); lia|].
  rewrite IH, tally_cons. destruct (beq n name), (beq g a); cbn [andb]; lia.
Qed.
Lemma drop_any pf name a n : forall gs have, 0 <= have ->
  joined pf name a have (map (fun g => BMulti n g false) gs) = Z.max 0 (have - (if beq n name then tally a gs else 0)).
Proof.
  induction gs as [|g gs IH]; intros have H; cbn [map joined]; [unfold tally; cbn; rewrite zlen_nil; destruct (beq n name); lia|].
  pose proof (tally_nonneg a gs). rewrite tally_cons. destruct (beq n name), (beq g a); cbn [andb]; rewrite IH by lia; lia.
Qed.
Lemma add_free name a n : forall gs have, 0 <= have ->
  joined FreeBSD name a have (map (fun g => BMulti n g true) gs)
  = if beq n name && (0 <? tally a gs) then Z.max 1 have else have.
Proof.
  induction gs as [|g gs IH]; intros have H; cbn [map joined]; [unfold tally; cbn; rewrite zlen_nil; destruct (beq n name); reflexivity|].
  pose proof (tally_nonneg a gs). rewrite tally_cons. destruct (beq n name) eqn:En, (beq g a) eqn:Eg; cbn [andb] in *.
  - rewrite IH by (destruct (0 <? have); lia). replace (0 <? 1 + tally a gs) with true by lia.
    destruct (0 <? have) eqn:E1; destruct (0 <? tally a gs) eqn:E2; lia.
  - rewrite IH by lia. reflexivity.
  - now rewrite IH by lia.
  - now rewrite IH by lia.
Qed.

(** ** Opening and closing *)
Inductive moves (cfg : pcfg) (ok : Z -> list Z -> Prop) : list rawfd -> list beff -> list rawfd -> Prop :=
| mv_none fds : moves cfg ok fds [] fds
| mv_sys fds e : moves cfg ok fds [BSys e] fds
| mv_descr fds n l b : moves cfg ok fds [BDescr n l b] fds
| mv_open fds i name fd pc :
    ~ In i (map rf_index fds) -> ok i (firstn 15 name) ->
    moves cfg ok fds (if receiving cfg then map (fun g => BMulti (firstn 15 name) g true) (groups cfg) else [])
      (fds ++ [mkRaw i (firstn 15 name) fd pc])
| mv_close fds i r : rfd_byindex fds i = Some r ->
    moves cfg ok fds (if receiving cfg then map (fun g => BMulti (rf_name r) g false) (groups cfg) else []) (rfd_remove fds i)
| mv_app a x b y c : moves cfg ok a x b -> moves cfg ok b y c -> moves cfg ok a (x ++ y) c.
Section moves.
Variables (cfg : pcfg) (ok : Z -> list Z -> Prop).
Hypothesis L6 : length (pc_enabled cfg) = 6%nat.
Lemma recv_has : receiving cfg = has (pc_opts cfg) OPT_RECV && negb (has (pc_opts cfg) OPT_DEBUG).
Proof.
  unfold receiving. change OPT_RECV with (2 ^ 2). change OPT_DEBUG with (2 ^ 6). now rewrite !has_bit by lia.
Qed.
Lemma open_moves fds i name os fds1 eff b : ~ In i (map rf_index fds) -> ok i (firstn 15 name) ->
  bsd_open cfg fds i name os = Some (fds1, eff, b) -> moves cfg ok fds eff fds1.
Proof.
  intros N K. unfold bsd_open. destruct (os_sock os) as [fd| |]; [| |discriminate].
  - destruct (fd <? 0); [intros H; injection H as <- <- _; constructor|]. intros H. injection H as <- <- _.
    change (BSys (EOpen i name) :: ?x) with ([BSys (EOpen i name)] ++ x). eapply mv_app; [apply mv_sys|].
    pose proof (mv_open cfg ok fds i name fd (negb (has (pc_opts cfg) OPT_DEBUG)) N K) as M. rewrite recv_has in M. unfold bsd_multi. rewrite loop_groups by exact L6.
    destruct (has (pc_opts cfg) OPT_RECV), (has (pc_opts cfg) OPT_DEBUG); exact M.
  - intros H. injection H as <- <- _. constructor.
Qed.
Lemma close_moves fds i r fds1 eff : rfd_byindex fds i = Some r -> bsd_close cfg fds r = (fds1, eff) -> moves cfg ok fds eff fds1.
Proof.
  intros H E. unfold bsd_close in E. injection E as <- <-. eapply mv_app; [|apply mv_sys].
  pose proof (mv_close cfg ok fds i r H) as M. rewrite recv_has in M. destruct (byindex_index _ _ _ H) as [-> _].
  unfold bsd_multi. rewrite loop_groups by exact L6. destruct (has (pc_opts cfg) OPT_RECV), (has (pc_opts cfg) OPT_DEBUG); exact M.
Qed.
Lemma req_moves fds d os : (forall n, os_name os = Some n -> ok (pr_index (req_mem d)) (firstn 15 n)) ->
  moves cfg ok fds (br_eff (bsd_req cfg fds d os)) (br_fds (bsd_req cfg fds d os)).
Proof.
  intros K. unfold bsd_req. cbv zeta. destruct (negb (req_size_ok _ _)); [constructor|]. destruct (os_name os) as [name|]; [|apply mv_sys].
  specialize (K _ eq_refl). destruct (bsd_check _ _) as [[|]|]; [| constructor|constructor].
  destruct (pr_op (req_mem d) =? PARENT_OPEN).
  { destruct (rfd_byindex fds (pr_index (req_mem d))) eqn:B; [apply mv_sys|].
    destruct (bsd_open _ _ _ _ _) as [[[fds1 eff] b]|] eqn:E; [|constructor]. cbn [br_eff br_fds].
    eapply mv_app; [|apply mv_sys]. apply byindex_none in B. exact (open_moves _ _ _ _ _ _ _ B K E). }
  destruct (pr_op (req_mem d) =? PARENT_CLOSE).
  { destruct (rfd_byindex fds (pr_index (req_mem d))) as [r|] eqn:B; [|apply mv_sys].
    destruct (bsd_close _ _ _) as [fds1 eff] eqn:E. cbn [br_eff br_fds].
    eapply mv_app; [|apply mv_sys]. exact (close_moves _ _ _ _ _ B E). }
  destruct (0 <=? os_written os); [|apply mv_sys]. cbn [br_eff br_fds app]. eapply (mv_app _ _ _ [_] _ [_]); [apply mv_descr|apply mv_sys].
Qed.
Lemma send_moves fds d os : (forall n, os_name os = Some n -> ok (pm_index (msg_mem d)) (firstn 15 n)) ->
  moves cfg ok fds (br_eff (bsd_send cfg fds d os)) (br_fds (bsd_send cfg fds d os)).
Proof.
  intros K. unfold bsd_send. cbv zeta. destruct (negb (msg_size_ok _ _)); [constructor|]. destruct (os_name os) as [name|]; [|constructor].
  specialize (K _ eq_refl). destruct (negb (60 <=? _)); [constructor|]. destruct (negb (_ <? PROTO_MAX)); [constructor|].
  destruct (proto_check _ _ _) as [[p|]| | | |]; try constructor. destruct (has (pc_opts cfg) OPT_DEBUG); [constructor|].
  set (i := pm_index (msg_mem d)) in *.
  assert (O : match (match rfd_byindex fds i with Some _ => Some (fds, [], true) | None => bsd_open cfg fds i name os end) with
              | Some (fds1, eff1, _) => moves cfg ok fds eff1 fds1 | None => True end).
  { destruct (rfd_byindex fds i) eqn:B; [constructor|]. destruct (bsd_open _ _ _ _ _) as [[[fds1 eff] b]|] eqn:E; [|exact I].
    apply byindex_none in B. exact (open_moves _ _ _ _ _ _ _ B K E). }
  destruct (match rfd_byindex fds i with Some _ => _ | None => _ end) as [[[fds1 eff1] [|]]|]; [|exact O|constructor].
  destruct (rfd_byindex fds1 i) as [r|] eqn:B; [|exact O].
  destruct (_ && _).
  - destruct (bsd_close _ _ _) as [fds3 eff3] eqn:E. cbn [br_eff br_fds]. eapply mv_app; [eapply mv_app; [exact O|apply mv_sys]|].
    exact (close_moves _ _ _ _ _ B E).
  - cbn [br_eff br_fds]. eapply mv_app; [exact O|apply mv_sys].
Qed.
End moves.
Lemma run_moves cfg nm : length (pc_enabled cfg) = 6%nat -> forall es fds, Forall (event_named nm) es ->
  moves cfg (fun i n => n = nm i) fds (br_eff (bsd_run cfg fds es)) (br_fds (bsd_run cfg fds es)).
Proof.
  intros L6. induction es as [|e es IH]; intros fds F; [constructor|]. apply Forall_cons_iff in F as [Fe F]. cbn [bsd_run].
  assert (M : moves cfg (fun i n => n = nm i) fds (br_eff (bsd_step cfg fds e)) (br_fds (bsd_step cfg fds e))).
  { destruct e as [d os|d os]; [now apply req_moves|now apply send_moves]. }
  destruct (br_alive _); [|exact M]. cbn [br_eff br_fds]. eapply mv_app; [exact M|now apply IH].
Qed.
Lemma run_moves_any cfg : length (pc_enabled cfg) = 6%nat -> forall es fds,
  moves cfg (fun _ _ => True) fds (br_eff (bsd_run cfg fds es)) (br_fds (bsd_run cfg fds es)).
Proof.
  intros L6. induction es as [|e es IH]; intros fds; [constructor|]. cbn [bsd_run].
  assert (M : moves cfg (fun _ _ => True) fds (br_eff (bsd_step cfg fds e)) (br_fds (bsd_step cfg fds e))).
  { destruct e as [d os|d os]; [now apply req_moves|now apply send_moves]. }
  destruct (br_alive _); [|exact M]. cbn [br_eff br_fds]. eapply mv_app; [exact M|now apply IH].
Qed.

(** ** Invariants *)
Lemma sockets_app name x y : sockets name (x ++ y) = sockets name x + sockets name y.
Proof. unfold sockets. rewrite filter_app. zlia. Qed.
Lemma sockets_nonneg name x : 0 <= sockets name x. Proof. apply zlen_nonneg. Qed.
Lemma sockets_one name r : sockets name [r] = if beq (rf_name r) name then 1 else 0.
Proof. unfold sockets. cbn [filter]. destruct (beq _ _); reflexivity. Qed.
Lemma sockets_remove name i r : forall fds, rfd_byindex fds i = Some r ->
  sockets name (rfd_remove fds i) = sockets name fds - (if beq (rf_name r) name then 1 else 0).
Proof.
  unfold rfd_byindex. induction fds as [|x fds IH]; [discriminate|]. cbn [find rfd_remove]. destruct (rf_index x =? i).
  - intros H. injection H as ->. unfold sockets. cbn [filter]. destruct (beq _ _); [rewrite zlen_cons|]; lia.
  - intros H. specialize (IH H). unfold sockets in *. cbn [filter]. destruct (beq (rf_name x) name); rewrite ?zlen_cons; lia.
Qed.
Lemma sockets_in name i r fds : rfd_byindex fds i = Some r -> (if beq (rf_name r) name then 1 else 0) <= sockets name fds.
Proof. intros H. pose proof (sockets_remove name i r fds H) as E. pose proof (sockets_nonneg name (rfd_remove fds i)). lia. Qed.
Lemma open_count cfg ok name a have fds eff fds' : 0 <= have -> moves cfg ok fds eff fds' ->
  let k := if receiving cfg then users cfg a else 0 in
  joined OpenBSD name a (have + sockets name fds * k) eff = have + sockets name fds' * k.
Proof.
  intros H M. cbv zeta. rewrite users_tally. pose proof (tally_nonneg a (groups cfg)) as T.
  induction M as [fds|fds e|fds n l b|fds i nm fd pc N K|fds i r B|x ex y ey z M1 IH1 M2 IH2]; try reflexivity.
  - rewrite sockets_app, sockets_one. cbn [rf_name]. destruct (receiving cfg); [|cbn; lia]. rewrite add_open. destruct (beq _ _); lia.
  - rewrite (sockets_remove name i r fds B). pose proof (sockets_in name i r fds B) as S. destruct (receiving cfg); [|cbn; lia].
    pose proof (sockets_nonneg name fds) as S0. assert (P : 0 <= sockets name fds * tally a (groups cfg)) by (apply Z.mul_nonneg_nonneg; assumption).
    rewrite drop_any by lia. destruct (beq _ _); nia.
  - rewrite joined_app, IH1. exact IH2.
Qed.
Definition by_index (nm : Z -> list Z) (fds : list rawfd) : Prop :=
  NoDup (map rf_index fds) /\ forall r, In r fds -> rf_name r = nm (rf_index r).
Lemma remove_incl i : forall fds r, In r (rfd_remove fds i) -> In r fds.
Proof.
  induction fds as [|x fds IH]; intros r H; [easy|]. cbn in H. destruct (rf_index x =? i); [now right|]. destruct H as [->|H]; [now left|right; now apply IH].
Qed.
Lemma remove_nodup i : forall fds, NoDup (map rf_index fds) -> NoDup (map rf_index (rfd_remove fds i)).
Proof.
  induction fds as [|x fds IH]; intros H; [exact H|]. cbn in *. apply NoDup_cons_iff in H as [H1 H2]. destruct (rf_index x =? i); [assumption|].
  cbn. constructor; [|now apply IH]. intros K. apply H1. apply in_map_iff in K as (r & E & K). apply remove_incl in K. rewrite <- E. now apply in_map.
Qed.
Lemma by_index_one nm name fds : (forall i j, nm i = nm j -> i = j) -> by_index nm fds -> sockets name fds <= 1.
Proof.
  intros J. induction fds as [|x fds IH]; intros [D N]; [change (sockets name []) with 0; lia|]. change (x :: fds) with ([x] ++ fds). rewrite sockets_app, sockets_one.
  cbn in D. apply NoDup_cons_iff in D as [D1 D2].
  assert (B : by_index nm fds) by (split; [assumption|intros r Hr; apply N; now right]). specialize (IH B). destruct (beq (rf_name x) name) eqn:E; [|lia].
  assert (Z0 : sockets name fds = 0); [|lia]. unfold sockets. destruct (filter _ fds) as [|y l] eqn:F; [reflexivity|].
  assert (I : In y (filter (fun r => beq (rf_name r) name) fds)) by (rewrite F; now left). apply filter_In in I as [I1 I2].
  apply beq_true in E. apply beq_true in I2. exfalso. apply D1.
  assert (X : rf_index x = rf_index y); [|rewrite X; now apply in_map].
  apply J. rewrite <- !N; [congruence|now right|now left].
Qed.
Lemma free_count cfg nm name a fds eff fds' : (forall i j, nm i = nm j -> i = j) -> by_index nm fds ->
  moves cfg (fun i n => n = nm i) fds eff fds' ->
  let one s := if receiving cfg && (0 <? users cfg a) && (0 <? s) then 1 else 0 in
  by_index nm fds' /\ joined FreeBSD name a (one (sockets name fds)) eff = one (sockets name fds').
Proof.
  intros J B M. cbv zeta. rewrite users_tally. pose proof (tally_nonneg a (groups cfg)) as T. revert B.
  induction M as [fds|fds e|fds n l b|fds i x fd pc N K|fds i r H|x ex y ey z M1 IH1 M2 IH2]; intros B; try (split; [assumption|reflexivity]).
  - assert (B' : by_index nm (fds ++ [mkRaw i (firstn 15 x) fd pc])).
    { destruct B as [D F]. split.
      - rewrite map_app. cbn [map rf_index]. apply (Permutation_NoDup (l := i :: map rf_index fds)); [apply Permutation_cons_append|]. now constructor.
      - intros r Hr. apply in_app_or in Hr as [Hr|[<-|[]]]; [now apply F|exact K]. }
    split; [exact B'|]. pose proof (by_index_one nm name _ J B') as S. rewrite sockets_app, sockets_one in *. cbn [rf_name] in *.
    pose proof (sockets_nonneg name fds) as S0. destruct (receiving cfg); cbn [andb]; [|reflexivity].
    rewrite add_free by (destruct (_ && _); lia). destruct (beq (firstn 15 x) name); cbn [andb].
    + replace (sockets name fds) with 0 by lia. destruct (0 <? tally a (groups cfg)); reflexivity.
    + now rewrite Z.add_0_r.
  - split; [destruct B as [D F]; split; [now apply remove_nodup|intros q Hq; apply F; now apply remove_incl in Hq]|].
    pose proof (by_index_one nm name _ J B) as S. pose proof (sockets_in name i r fds H) as S1. rewrite (sockets_remove name i r fds H).
    pose proof (sockets_nonneg name fds) as S0.
    destruct (receiving cfg); cbn [andb]; [|reflexivity]. rewrite drop_any by (destruct (_ && _); lia).
    destruct (beq (rf_name r) name).
    + replace (sockets name fds) with 1 by lia. change (0 <? 1) with true. change (0 <? 1 - 1) with false. destruct (0 <? tally a (groups cfg)) eqn:E; cbn [andb]; lia.
    + rewrite !Z.sub_0_r. destruct (0 <? tally a (groups cfg)), (0 <? sockets name fds); cbn [andb]; lia.
  - destruct (IH1 B) as [B1 E1]. destruct (IH2 B1) as [B2 E2]. split; [exact B2|]. now rewrite joined_app, E1.
Qed.
Lemma open_run cfg es name a have : length (pc_enabled cfg) = 6%nat -> 0 <= have ->
  joined OpenBSD name a have (br_eff (bsd_run cfg [] es))
  = have + sockets name (br_fds (bsd_run cfg [] es)) * (if receiving cfg then users cfg a else 0).
Proof.
  intros L H. pose proof (open_count cfg _ name a have [] _ _ H (run_moves_any cfg L es [])) as E. cbv zeta in E.
  change (sockets name []) with 0 in E. now rewrite Z.mul_0_l, Z.add_0_r in E.
Qed.
Lemma free_run cfg es nm name a : length (pc_enabled cfg) = 6%nat -> (forall i j, nm i = nm j -> i = j) -> Forall (event_named nm) es ->
  joined FreeBSD name a 0 (br_eff (bsd_run cfg [] es))
  = if receiving cfg && (0 <? users cfg a) && (0 <? sockets name (br_fds (bsd_run cfg [] es))) then 1 else 0.
Proof.
  intros L J F. assert (B : by_index nm []) by (split; [constructor|easy]).
  destruct (free_count cfg nm name a [] _ _ J B (run_moves cfg nm L es [] F)) as [_ E].
  change (sockets name []) with 0 in E. rewrite andb_false_r in E. exact E.
Qed.
