(** Expiry: enabled protocols and descriptions afterwards. *)
From Verif Require Import Base Types Tlv Wire Util Child Spec SpecAdv SpecChild
  Lemmas VisProps ChildProofs ChildProofs3.

Definition cfg (g : netif -> netif) : Prop := forall n, fixed (g n) = fixed n.

Section cfg.
Variable g : netif -> netif.
Hypothesis Hg : cfg g.
Lemma cfg_index n : nf_index (g n) = nf_index n. Proof. exact (f_equal nf_index (Hg n)). Qed.
Lemma cfg_descr n : nf_description (g n) = nf_description n. Proof. exact (f_equal nf_description (Hg n)). Qed.
Lemma cfg_type n : nf_type (g n) = nf_type n. Proof. exact (f_equal nf_type (Hg n)). Qed.
Lemma cfg_parent n : nf_parent (g n) = nf_parent n. Proof. exact (f_equal nf_parent (Hg n)). Qed.
Lemma cfg_subif n : nf_subif (g n) = nf_subif n. Proof. exact (f_equal nf_subif (Hg n)). Qed.
Lemma byindex_map nfs i : netif_byindex (map g nfs) i = option_map g (netif_byindex nfs i).
Proof.
  unfold netif_byindex. induction nfs as [|n nfs IH]; [reflexivity|]. cbn. rewrite cfg_index.
  now destruct (nf_index n =? i).
Qed.
Lemma top_map nfs n : top_of (map g nfs) (g n) = g (top_of nfs n).
Proof.
  unfold top_of. rewrite cfg_parent. destruct (nf_parent n) as [i|]; [|reflexivity].
  rewrite byindex_map. now destruct (netif_byindex nfs i).
Qed.
Lemma subif_iter_map nfs sub n : subif_iter (option_map g sub) (g n) (map g nfs) = option_map g (subif_iter sub n nfs).
Proof.
  unfold subif_iter. destruct sub as [s|]; cbn [option_map].
  - rewrite !cfg_index, cfg_subif. destruct (_ =? _); [reflexivity|]. destruct (nf_subif s); [apply byindex_map|reflexivity].
  - rewrite !cfg_type, cfg_subif. destruct (_ <? _).
    + destruct (nf_subif n); [apply byindex_map|reflexivity].
    + now destruct (_ <? _).
Qed.
Lemma subif_loop_map nfs n : forall fuel sub,
  subif_loop fuel (option_map g sub) (g n) (map g nfs) = map g (subif_loop fuel sub n nfs).
Proof.
  induction fuel as [|f IH]; intros sub; cbn [subif_loop]; [reflexivity|]. rewrite subif_iter_map.
  destruct (subif_iter sub n nfs) as [s|]; cbn [option_map map]; [|reflexivity]. f_equal. exact (IH (Some s)).
Qed.
Lemma subif_map nfs n : subif_each (g n) (map g nfs) = map g (subif_each n nfs).
Proof. unfold subif_each. rewrite map_length. exact (subif_loop_map nfs n _ None). Qed.
Lemma protos_map nfs n q : netif_protos (g n) (map g nfs) q = netif_protos n nfs q.
Proof.
  unfold netif_protos. rewrite subif_map. f_equal. generalize 0. induction (subif_each n nfs) as [|s l IH]; intros a; [reflexivity|].
  cbn [map fold_left]. rewrite cfg_index. apply IH.
Qed.
Lemma assign_map f nfs i : NoDup (map nf_index nfs) ->
  nf_assign f i (map g nfs) = map (fun n => if nf_index n =? i then f (g n) else g n) nfs.
Proof.
  induction nfs as [|n nfs IH]; intros H; [reflexivity|]. cbn in *. rewrite cfg_index. inversion H as [|? ? Hn H']; subst.
  destruct (nf_index n =? i) eqn:E; [|f_equal; now apply IH]. f_equal. apply map_ext_in. intros m Hm.
  replace (nf_index m =? i) with false; [reflexivity|]. symmetry. apply Z.eqb_neq. intros K. apply Hn.
  replace (nf_index n) with (nf_index m) by lia. now apply in_map.
Qed.
End cfg.

Lemma byindex_in nfs n : NoDup (map nf_index nfs) -> In n nfs -> netif_byindex nfs (nf_index n) = Some n.
Proof.
  unfold netif_byindex. induction nfs as [|m nfs IH]; cbn; intros H Hin; [easy|]. inversion H as [|? ? Hm H']; subst.
  destruct (nf_index m =? nf_index n) eqn:E.
  - destruct Hin as [->|Hin]; [reflexivity|]. contradiction Hm. replace (nf_index m) with (nf_index n) by lia. now apply in_map.
  - destruct Hin as [->|Hin]; [lia|]. now apply IH.
Qed.
Lemma byindex_some nfs i n : netif_byindex nfs i = Some n -> In n nfs /\ nf_index n = i.
Proof. unfold netif_byindex. intros H. apply find_some in H as [H1 H2]. split; [assumption|lia]. Qed.
Lemma top_in nfs n : In n nfs -> In (top_of nfs n) nfs.
Proof.
  unfold top_of. intros H. destruct (nf_parent n) as [i|]; [|assumption].
  destruct (netif_byindex nfs i) as [m|] eqn:E; [|assumption]. now apply byindex_some in E.
Qed.

(** ** The update loop *)
Section update.
Variables (opts : Z) (q : list entry) (nfs : list netif).
Hypothesis Hn : NoDup (map nf_index nfs).
Definition touched (done : list netif) (n : netif) : bool :=
  existsb (fun m => negb (nf_update m =? 0) && (nf_index (top_of nfs m) =? nf_index n)) done.
Definition aft (done : list netif) (n : netif) : netif :=
  set_update (if existsb (fun m => nf_index m =? nf_index n) done then 0 else nf_update n)
    (set_protos (if has opts OPT_AUTO && touched done n then netif_protos n nfs q else nf_protos n) n).
Definition written (n : netif) : list ceff :=
  if nf_update n =? 0 then [] else if has opts OPT_IFDESCR then descr_eff opts n q else [].
Lemma aft_cfg done : cfg (aft done). Proof. intros n. reflexivity. Qed.
Lemma descr_cfg g n : cfg g -> descr_eff opts (g n) q = descr_eff opts n q.
Proof. intros H. unfold descr_eff, netif_descr. now rewrite (cfg_index g H), (cfg_descr g H). Qed.

Lemma aft_skip done m n : In m nfs -> In n nfs -> nf_update m = 0 -> aft (done ++ [m]) n = aft done n.
Proof.
  intros Hm Hi H0. unfold aft, touched. rewrite !existsb_app. cbn [existsb]. rewrite H0. cbn [Z.eqb negb andb].
  rewrite !orb_false_r. f_equal. destruct (existsb _ done); [reflexivity|]. cbn [orb].
  destruct (nf_index m =? nf_index n) eqn:E; [|reflexivity].
  assert (K : m = n); [|now subst].
  pose proof (byindex_in nfs m Hn Hm) as A. pose proof (byindex_in nfs n Hn Hi) as B.
  replace (nf_index m) with (nf_index n) in A by lia. congruence.
Qed.
Lemma update_step done m eff : In m nfs -> ~ In (nf_index m) (map nf_index done) ->
  update_one opts q (map (aft done) nfs, eff) (nf_index m) = (map (aft (done ++ [m])) nfs, eff ++ written m).
Proof.
  intros Hm Hd. unfold update_one. rewrite (byindex_map _ (aft_cfg done)), (byindex_in nfs m Hn Hm). cbn [option_map].
  assert (U : nf_update (aft done m) = nf_update m).
  { unfold aft. cbn [set_update nf_update]. destruct (existsb _ done) eqn:E; [|reflexivity].
    apply existsb_exists in E as (x & Hx & Ex). contradiction Hd. replace (nf_index m) with (nf_index x) by lia. now apply in_map. }
  rewrite U. unfold written. destruct (nf_update m =? 0) eqn:E0.
  { rewrite app_nil_r. f_equal. apply map_ext_in. intros n Hi. symmetry. apply aft_skip; try assumption. lia. }
  rewrite (top_map _ (aft_cfg done)), (protos_map _ (aft_cfg done)), (cfg_index _ (aft_cfg done)), (descr_cfg _ _ (aft_cfg done)).
  f_equal. set (top := top_of nfs m).
  set (g1 := fun n => if has opts OPT_AUTO && (nf_index n =? nf_index top)
                      then set_protos (netif_protos top nfs q) (aft done n) else aft done n).
  assert (G1 : cfg g1). { intros n. unfold g1. now destruct (_ && _). }
  assert (E1 : (if has opts OPT_AUTO then nf_assign (set_protos (netif_protos top nfs q)) (nf_index top) (map (aft done) nfs)
                else map (aft done) nfs) = map g1 nfs).
  { unfold g1. destruct (has opts OPT_AUTO); [|reflexivity]. rewrite (assign_map _ (aft_cfg done)) by assumption. reflexivity. }
  rewrite E1, (assign_map _ G1) by assumption. apply map_ext_in. intros n Hi.
  unfold g1, aft, touched. rewrite !existsb_app. cbn [existsb]. rewrite E0, !orb_false_r. cbn [negb andb]. fold top.
  rewrite (Z.eqb_sym (nf_index n) (nf_index top)), (Z.eqb_sym (nf_index n) (nf_index m)).
  assert (Et : (nf_index top =? nf_index n) = true -> top = n).
  { intros E. pose proof (byindex_in nfs top Hn (top_in nfs m Hm)) as A. pose proof (byindex_in nfs n Hn Hi) as B.
    replace (nf_index top) with (nf_index n) in A by lia. congruence. }
  destruct (has opts OPT_AUTO); cbn [andb].
  - destruct (nf_index top =? nf_index n); [rewrite (Et eq_refl), orb_true_r|rewrite orb_false_r];
      destruct (nf_index m =? nf_index n); rewrite ?orb_true_r, ?orb_false_r; reflexivity.
  - destruct (nf_index m =? nf_index n); rewrite ?orb_true_r, ?orb_false_r; reflexivity.
Qed.
Lemma update_fold : forall todo done eff, nfs = done ++ todo ->
  fold_left (update_one opts q) (map nf_index todo) (map (aft done) nfs, eff)
  = (map (aft nfs) nfs, eff ++ flat_map written todo).
Proof.
  induction todo as [|m todo IH]; intros done eff E.
  - cbn. rewrite !app_nil_r in *. now rewrite <- E.
  - cbn [map fold_left flat_map]. rewrite update_step.
    + rewrite (IH (done ++ [m])); [now rewrite app_assoc|]. rewrite <- app_assoc. exact E.
    + rewrite E. apply in_or_app. right. now left.
    + pose proof Hn as H. rewrite E, map_app in H. cbn [map] in H. apply NoDup_remove_2 in H. intros K. apply H. apply in_or_app. now left.
Qed.
Lemma update_all : update_loop opts q nfs = (map (aft nfs) nfs, flat_map written nfs).
Proof.
  unfold update_loop. rewrite <- (app_nil_l (flat_map written nfs)). rewrite <- (update_fold nfs [] []) by reflexivity.
  f_equal. f_equal. transitivity (map (fun n => n) nfs); [symmetry; apply map_id|]. apply map_ext. intros [].
  unfold aft. cbn. rewrite andb_false_r. reflexivity.
Qed.
End update.

(** ** Marking *)
Definition mark (gone : list entry) (n : netif) : netif :=
  if existsb (fun e => q_index e =? nf_index n) gone then set_update 1 n else n.
Lemma mark_cfg gone : cfg (mark gone). Proof. intros n. unfold mark. now destruct (existsb _ _). Qed.
Lemma expire_marks now q : forall nfs gone, NoDup (map nf_index nfs) ->
  snd (expire_loop now q (map (mark gone) nfs)) = map (mark (gone ++ filter (fun e => negb (stays now e)) q)) nfs.
Proof.
  induction q as [|e q IH]; intros nfs gone Hn; cbn [expire_loop filter].
  - now rewrite app_nil_r.
  - change (keeps now e) with (stays now e). destruct (stays now e); cbn [negb].
    + rewrite <- IH by assumption. now destruct (expire_loop now q _).
    + rewrite (assign_map _ (mark_cfg gone)) by assumption.
      replace (gone ++ e :: filter (fun e0 => negb (stays now e0)) q)
        with ((gone ++ [e]) ++ filter (fun e0 => negb (stays now e0)) q) by (now rewrite <- app_assoc).
      rewrite <- IH by assumption. f_equal. f_equal. apply map_ext. intros n. unfold mark. rewrite existsb_app. cbn [existsb].
      rewrite orb_false_r, (Z.eqb_sym (q_index e)). destruct (existsb _ gone), (nf_index n =? q_index e); reflexivity.
Qed.
Lemma expire_all opts now c : now <> -1 -> NoDup (map nf_index (c_nfs c)) ->
  let gone := filter (fun e => negb (stays now e)) (c_queue c) in
  let q := filter (stays now) (c_queue c) in
  let nfs := map (mark gone) (c_nfs c) in
  child_expire opts now c =
  (mkChild (map (aft opts q nfs nfs) nfs) q (c_sess c) (c_next c), flat_map (written opts q) nfs).
Proof.
  intros Hnow Hn. cbv zeta. unfold child_expire. replace (now =? -1) with false by lia.
  pose proof (expire_queue now (c_queue c) (c_nfs c)) as E1.
  pose proof (expire_marks now (c_queue c) (c_nfs c) [] Hn) as E2.
  rewrite (map_ext (mark []) (fun n => n)) in E2 by reflexivity. rewrite map_id in E2.
  destruct (expire_loop now (c_queue c) (c_nfs c)) as [q1 nfs1]. cbn [fst snd app] in E1, E2. subst.
  rewrite update_all; [reflexivity|]. rewrite map_map. rewrite (map_ext _ nf_index); [assumption|].
  intros n. apply (cfg_index _ (mark_cfg _)).
Qed.

(** ** Protocol bits *)
Lemma shift_bit a p : 0 <= p -> Z.testbit (Z.shiftl 1 a) p = (a =? p).
Proof.
  intros Hp. destruct (Z.le_gt_cases 0 a) as [Ha|Ha].
  - rewrite Z.shiftl_1_l. destruct (a =? p) eqn:E.
    + apply Z.eqb_eq in E. subst. now apply Z.pow2_bits_true.
    + apply Z.pow2_bits_false. lia.
  - rewrite Z.shiftl_spec by lia. replace (a =? p) with false by lia. apply Z.bits_above_log2; cbn; lia.
Qed.
Lemma inner_bits s p q : 0 <= p -> forall acc,
  Z.testbit (fold_left (fun acc e => if nf_index s =? q_index e then Z.lor acc (Z.shiftl 1 (q_proto e)) else acc) q acc) p = true
  <-> Z.testbit acc p = true \/ exists e, In e q /\ q_index e = nf_index s /\ q_proto e = p.
Proof.
  intros Hp. induction q as [|e q IH]; intros acc; cbn [fold_left].
  - split; [tauto|]. intros [H|(e & [] & _)]. exact H.
  - rewrite IH. destruct (nf_index s =? q_index e) eqn:E.
    + rewrite Z.lor_spec, orb_true_iff, shift_bit by lia. split.
      * intros [[H|H]|(x & Hx & K)]; [now left|right; exists e; cbn; repeat split; try tauto; lia|].
        right. exists x. cbn. tauto.
      * intros [H|(x & [->|Hx] & K1 & K2)]; [tauto|left; right; lia|]. right. now exists x.
    + split; [intros [H|(x & Hx & K)]; [now left|]; right; exists x; cbn; tauto|].
      intros [H|(x & [->|Hx] & K1 & K2)]; [tauto|lia|]. right. now exists x.
Qed.
Lemma outer_bits q p : 0 <= p -> forall l acc,
  Z.testbit (fold_left (fun acc s => fold_left (fun acc e =>
      if nf_index s =? q_index e then Z.lor acc (Z.shiftl 1 (q_proto e)) else acc) q acc) l acc) p = true
  <-> Z.testbit acc p = true \/ exists s e, In s l /\ In e q /\ q_index e = nf_index s /\ q_proto e = p.
Proof.
  intros Hp. induction l as [|s l IH]; intros acc; cbn [fold_left].
  - split; [tauto|]. intros [H|(s & e & [] & _)]. exact H.
  - rewrite IH, inner_bits by assumption. split.
    + intros [[H|(e & H)]|(m & e & Hm & H)]; [now left|right; exists s, e; cbn; tauto|right; exists m, e; cbn; tauto].
    + intros [H|(m & e & [->|Hm] & H)]; [tauto|left; right; now exists e|right; now exists m, e].
Qed.
Lemma protos_bits n nfs q p : 0 <= p < 8 ->
  Z.testbit (netif_protos n nfs q) p = true
  <-> exists m e, In m (subif_each n nfs) /\ In e q /\ q_index e = nf_index m /\ q_proto e = p.
Proof.
  intros Hp. unfold netif_protos. change 256 with (2 ^ 8). rewrite Z.mod_pow2_bits_low by lia.
  rewrite outer_bits by lia. rewrite Z.bits_0. split; [intros [H|H]; [discriminate|exact H]|now right].
Qed.
