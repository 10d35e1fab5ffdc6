(** Addresses, capabilities, the management interface and the interfaces of the
    command line after netif_fetch. *)
From Verif Require Import Base Types Tlv Util Netif Spec SpecAdv SpecNetif SpecSend SpecNetif2.
From Verif Require Import Lemmas VisProofs VisProps ChildProofs ChildProofs4 NetifProofs1 NetifProofs2 NetifProofs3 NetifProofs5.

(** ** Small things *)
Lemma same_beq a b : same a b = beq a b.
Proof. unfold same. destruct (list_eq_dec Z.eq_dec a b) as [->|K]; [now rewrite beq_refl|]. symmetry. now apply beq_false. Qed.
Lemma addr_set_zero a : addr_set a = false -> a = repeat 0 (length a).
Proof.
  induction a as [|b a IH]; [reflexivity|]. unfold addr_set in *. cbn. destruct (b =? 0) eqn:E; cbn; [|discriminate].
  intros H. rewrite <- IH by assumption. f_equal. lia.
Qed.
Lemma zero_addr_set k : addr_set (repeat 0 k) = false.
Proof. induction k as [|k IH]; [reflexivity|]. unfold addr_set in *. cbn. exact IH. Qed.
Lemma nonzero_set a : nonzero a = addr_set a.
Proof.
  unfold nonzero. rewrite same_beq. destruct (addr_set a) eqn:E.
  - destruct (beq a (repeat 0 (length a))) eqn:B; [|reflexivity]. apply beq_true in B. rewrite B in E. now rewrite zero_addr_set in E.
  - apply addr_set_zero in E. rewrite <- E. now rewrite beq_refl.
Qed.
Lemma land192 : forall k, (k <= 256)%nat -> 
  forallb (fun b => Bool.eqb (Z.land b 192 =? 128) ((128 <=? b) && (b <? 192))) (map Z.of_nat (seq 0 k)) = true.
Proof.
  assert (H : forallb (fun b => Bool.eqb (Z.land b 192 =? 128) ((128 <=? b) && (b <? 192))) (map Z.of_nat (seq 0 256)) = true)
    by (vm_compute; reflexivity).
  intros k Hk. rewrite forallb_forall in *. intros x Hx. apply H. rewrite in_map_iff in *. destruct Hx as (n & <- & Hn).
  exists n. split; [reflexivity|]. apply in_seq in Hn. apply in_seq. lia.
Qed.
Lemma local_link a : bytes a -> zlen a = 16 -> local6 a = linklocal a.
Proof.
  intros Hb Hl. destruct a as [|b0 [|b1 a]]; try (rewrite ?zlen_cons, ?zlen_nil in Hl; lia).
  unfold local6, linklocal. cbn [nth]. rewrite <- andb_assoc. f_equal.
  inversion Hb as [|? ? _ Hb']. inversion Hb' as [|? ? K _]. clear Hb Hb' Hl.
  pose proof (land192 256 ltac:(lia)) as Q. rewrite forallb_forall in Q. specialize (Q b1).
  assert (I : In b1 (map Z.of_nat (seq 0 256))).
  { apply in_map_iff. exists (Z.to_nat b1). unfold byte in K. split; [lia|]. apply in_seq. lia. }
  apply Q in I. apply Bool.eqb_prop in I. now symmetry.
Qed.

Lemma assign_map f i nfs : NoDup (indices nfs) ->
  nf_assign f i nfs = map (fun m => if nf_index m =? i then f m else m) nfs.
Proof.
  induction nfs as [|m nfs IH]; [reflexivity|]. cbn. intros H. inversion H as [|? ? H1 H2]; subst.
  destruct (nf_index m =? i) eqn:E.
  - f_equal. rewrite <- map_id at 1. apply map_ext_in. intros k Hk. destruct (nf_index k =? i) eqn:F; [|reflexivity].
    contradiction H1. replace (nf_index m) with (nf_index k) by lia. now apply in_map.
  - now rewrite IH.
Qed.
Definition names (nfs : list netif) : list (list Z) := map nf_name nfs.
Lemma nodup_same {A B} (g : A -> B) l x y : NoDup (map g l) -> In x l -> In y l -> g x = g y -> x = y.
Proof.
  induction l as [|a l IH]; cbn; [easy|]. intros H. inversion H as [|? ? H1 H2]; subst.
  intros [<-|Hx] [<-|Hy] E; [reflexivity| | |now apply IH].
  - contradiction H1. rewrite E. now apply in_map.
  - contradiction H1. rewrite <- E. now apply in_map.
Qed.
Lemma assign_named f x nfs n : NoDup (indices nfs) -> NoDup (names nfs) -> netif_byname nfs x = Some n ->
  nf_assign f (nf_index n) nfs = map (fun m => if beq (nf_name m) x then f m else m) nfs.
Proof.
  intros H1 H2 H3. apply byname_in in H3 as [H3 H4]. rewrite assign_map by assumption. apply map_ext_in. intros m Hm.
  destruct (nf_index m =? nf_index n) eqn:E.
  - replace m with n by (apply (nodup_same nf_index nfs); auto; lia). rewrite H4. now rewrite beq_refl.
  - destruct (beq (nf_name m) x) eqn:F; [|reflexivity]. apply beq_true in F.
    replace m with n in E by (apply (nodup_same nf_name nfs); auto; congruence). lia.
Qed.

(** ** One interface under a list of addresses *)
Definition upd (n : netif) (ia : ifaddr) : netif :=
  if negb (beq (nf_name n) (ia_name ia)) then n
  else match ia_addr ia with
  | Some (SALink _ _ hw) => set_hwaddr hw n
  | Some (SAInet a) => if addr_set (nf_ipaddr4 n) then n else set_ips a (nf_ipaddr6 n) n
  | Some (SAInet6 a) => if addr_set (nf_ipaddr6 n) then n else if linklocal a then n else set_ips (nf_ipaddr4 n) a n
  | _ => n
  end.
Lemma byname_none nfs x n : netif_byname nfs x = None -> In n nfs -> beq (nf_name n) x = false.
Proof. intros H K. unfold netif_byname in H. exact (find_none _ _ H n K). Qed.
Lemma addr_one_map cfg nfs si ia : NoDup (indices nfs) -> NoDup (names nfs) ->
  fst (addr_one cfg (nfs, si) ia) = map (fun n => upd n ia) nfs.
Proof.
  intros H1 H2. assert (I : forall f : netif -> netif, (forall n, In n nfs -> f n = n) -> nfs = map f nfs).
  { intros f Hf. rewrite <- map_id at 1. apply map_ext_in. intros n Hn. symmetry. now apply Hf. }
  unfold addr_one, upd. destruct (ia_addr ia) as [sa|] eqn:A.
  2:{ cbn [fst]. apply I. intros n _. now destruct (negb _). }
  destruct (netif_byname nfs (ia_name ia)) as [n|] eqn:B.
  2:{ cbn [fst]. apply I. intros m Hm. now rewrite (byname_none _ _ _ B Hm). }
  pose proof (assign_named) as AN.
  assert (U : forall m, In m nfs -> beq (nf_name m) (ia_name ia) = true -> m = n).
  { intros m Hm E. apply byname_in in B as [B1 B2]. apply beq_true in E. apply (nodup_same nf_name nfs); auto. congruence. }
  destruct sa as [h i hw|a|a|].
  - cbn [fst]. rewrite (AN _ _ _ _ H1 H2 B). apply map_ext. intros m. now destruct (beq (nf_name m) (ia_name ia)).
  - destruct (addr_set (nf_ipaddr4 n)) eqn:S.
    + cbn [fst]. apply I. intros m Hm. destruct (beq (nf_name m) (ia_name ia)) eqn:E; [|reflexivity]. cbn [negb].
      rewrite (U m Hm E). now rewrite S.
    + assert (K : nf_assign (set_ips a (nf_ipaddr6 n)) (nf_index n) nfs
        = map (fun m => if negb (beq (nf_name m) (ia_name ia)) then m else
             if addr_set (nf_ipaddr4 m) then m else set_ips a (nf_ipaddr6 m) m) nfs).
      { rewrite (AN _ _ _ _ H1 H2 B). apply map_ext_in. intros m Hm. destruct (beq (nf_name m) (ia_name ia)) eqn:E; [|reflexivity].
        cbn [negb]. rewrite (U m Hm E). now rewrite S. }
      destruct (si_mnetif si); [exact K|]. destruct (_ && _); exact K.
  - destruct (addr_set (nf_ipaddr6 n)) eqn:S.
    + cbn [fst]. apply I. intros m Hm. destruct (beq (nf_name m) (ia_name ia)) eqn:E; [|reflexivity]. cbn [negb].
      rewrite (U m Hm E). now rewrite S.
    + destruct (linklocal a) eqn:L.
      { cbn [fst]. apply I. intros m Hm. destruct (negb _); [reflexivity|]. now destruct (addr_set (nf_ipaddr6 m)). }
      assert (K : nf_assign (set_ips (nf_ipaddr4 n) a) (nf_index n) nfs
        = map (fun m => if negb (beq (nf_name m) (ia_name ia)) then m else
             if addr_set (nf_ipaddr6 m) then m else set_ips (nf_ipaddr4 m) a m) nfs).
      { rewrite (AN _ _ _ _ H1 H2 B). apply map_ext_in. intros m Hm. destruct (beq (nf_name m) (ia_name ia)) eqn:E; [|reflexivity].
        cbn [negb]. rewrite (U m Hm E). now rewrite S. }
      destruct (si_mnetif si); [exact K|]. destruct (_ && _); exact K.
  - cbn [fst]. apply I. intros m _. now destruct (negb _).
Qed.
Lemma upd_name n ia : nf_name (upd n ia) = nf_name n.
Proof. unfold upd. destruct (negb _); [reflexivity|]. destruct (ia_addr ia) as [[?|a|a|]|]; try reflexivity; repeat destruct (addr_set _); try reflexivity. now destruct (linklocal a). Qed.
Lemma upd_index n ia : nf_index (upd n ia) = nf_index n.
Proof. unfold upd. destruct (negb _); [reflexivity|]. destruct (ia_addr ia) as [[?|a|a|]|]; try reflexivity; repeat destruct (addr_set _); try reflexivity. now destruct (linklocal a). Qed.
Lemma upd_indices ia nfs : indices (map (fun n => upd n ia) nfs) = indices nfs.
Proof. unfold indices. rewrite map_map. apply map_ext. intros n. apply upd_index. Qed.
Lemma upd_names ia nfs : names (map (fun n => upd n ia) nfs) = names nfs.
Proof. unfold names. rewrite map_map. apply map_ext. intros n. apply upd_name. Qed.
Lemma addr_fold_map cfg : forall ias nfs si, NoDup (indices nfs) -> NoDup (names nfs) ->
  fst (fold_left (addr_one cfg) ias (nfs, si)) = map (fold_left upd ias) nfs.
Proof.
  induction ias as [|ia ias IH]; intros nfs si H1 H2; cbn [fold_left]; [now rewrite map_id|].
  pose proof (addr_one_map cfg nfs si ia H1 H2) as K. destruct (addr_one cfg (nfs, si) ia) as [a b]. cbn [fst] in K. subst a.
  rewrite IH; [now rewrite map_map|now rewrite upd_indices|now rewrite upd_names].
Qed.

(** What the fold computes. *)
Lemma fold_upd_name ias : forall n, nf_name (fold_left upd ias n) = nf_name n.
Proof. induction ias as [|ia ias IH]; intros n; cbn [fold_left]; [reflexivity|]. now rewrite IH, upd_name. Qed.
Lemma fold_upd_index ias : forall n, nf_index (fold_left upd ias n) = nf_index n.
Proof. induction ias as [|ia ias IH]; intros n; cbn [fold_left]; [reflexivity|]. now rewrite IH, upd_index. Qed.
Lemma last_cons_d {A} (x : A) l d : last (x :: l) d = last l x.
Proof. revert x d. induction l as [|y l IH]; intros x d; [reflexivity|]. change (last (x :: y :: l) d) with (last (y :: l) d). now rewrite !IH. Qed.
Lemma fold_upd_hw ias : forall n, nf_hwaddr (fold_left upd ias n) = last (hw_of ias (nf_name n)) (nf_hwaddr n).
Proof.
  induction ias as [|ia ias IH]; intros n; cbn [fold_left]; [reflexivity|]. rewrite IH, upd_name.
  unfold hw_of. cbn [flat_map]. fold (hw_of ias (nf_name n)). unfold upd. rewrite same_beq.
  assert (E : beq (nf_name n) (ia_name ia) = beq (ia_name ia) (nf_name n)).
  { destruct (beq (ia_name ia) (nf_name n)) eqn:E; [apply beq_true in E; rewrite E; apply beq_refl|].
    apply beq_false in E. apply beq_false. congruence. }
  rewrite E. destruct (beq (ia_name ia) (nf_name n)); cbn [negb].
  - destruct (ia_addr ia) as [[h i hw|a|a|]|]; cbn [app]; try reflexivity.
    + now rewrite last_cons_d.
    + now destruct (addr_set _).
    + destruct (addr_set _); [reflexivity|]. now destruct (linklocal a).
  - now destruct (ia_addr ia) as [[h i hw|a|a|]|].
Qed.
Lemma upd_eqn n ia : beq (nf_name n) (ia_name ia) = beq (ia_name ia) (nf_name n).
Proof.
  destruct (beq (ia_name ia) (nf_name n)) eqn:E; [apply beq_true in E; rewrite E; apply beq_refl|].
  apply beq_false in E. apply beq_false. congruence.
Qed.
Definition ia_sizes (ia : ifaddr) : Prop :=
  match ia_addr ia with
  | Some (SAInet a) => zlen a = 4
  | Some (SAInet6 a) => bytes a /\ zlen a = 16
  | _ => True
  end.
Lemma zlen4 (a : list Z) : zlen a = 4 -> length a = 4%nat. Proof. unfold zlen. lia. Qed.
Lemma zlen16 (a : list Z) : zlen a = 16 -> length a = 16%nat. Proof. unfold zlen. lia. Qed.
Lemma fold_upd_4 ias : Forall ia_sizes ias -> forall n, (addr_set (nf_ipaddr4 n) = false -> nf_ipaddr4 n = repeat 0 4) ->
  nf_ipaddr4 (fold_left upd ias n) = if addr_set (nf_ipaddr4 n) then nf_ipaddr4 n else main4 ias (nf_name n).
Proof.
  induction 1 as [|ia ias Hi Hf IH]; intros n Hz; cbn [fold_left].
  - destruct (addr_set (nf_ipaddr4 n)) eqn:E; [reflexivity|]. now rewrite Hz.
  - unfold main4, v4_of. cbn [flat_map]. fold (v4_of ias (nf_name n)). rewrite same_beq, <- upd_eqn.
    assert (Z' : addr_set (nf_ipaddr4 (upd n ia)) = false -> nf_ipaddr4 (upd n ia) = repeat 0 4).
    { unfold upd. destruct (negb _); [exact Hz|]. unfold ia_sizes in Hi. destruct (ia_addr ia) as [[h i hw|a|a|]|]; try exact Hz.
      - destruct (addr_set (nf_ipaddr4 n)) eqn:S; [congruence|]. cbn. intros K. rewrite (addr_set_zero _ K), (zlen4 a Hi). reflexivity.
      - destruct (addr_set (nf_ipaddr6 n)); [exact Hz|]. destruct (linklocal a); exact Hz. }
    rewrite (IH _ Z'), upd_name. clear IH Z'.
    assert (U : nf_ipaddr4 (upd n ia) = nf_ipaddr4 n /\ (match ia_addr ia with Some (SAInet a) => if beq (nf_name n) (ia_name ia) then addr_set (nf_ipaddr4 n) = true else True | _ => True end)
       \/ exists a, ia_addr ia = Some (SAInet a) /\ beq (nf_name n) (ia_name ia) = true /\ addr_set (nf_ipaddr4 n) = false /\ nf_ipaddr4 (upd n ia) = a).
    { unfold upd. destruct (beq (nf_name n) (ia_name ia)); cbn [negb]; [|left; split; [reflexivity|now destruct (ia_addr ia) as [[| | |]|]]].
      destruct (ia_addr ia) as [[h i hw|a|a|]|]; try (left; split; [reflexivity|exact I]).
      - destruct (addr_set (nf_ipaddr4 n)) eqn:S; [left; now split|]. right. exists a. now repeat split.
      - left. split; [|exact I]. destruct (addr_set (nf_ipaddr6 n)); [reflexivity|]. now destruct (linklocal a). }
    destruct U as [[-> U]|(a & E1 & E2 & E3 & ->)].
    + destruct (addr_set (nf_ipaddr4 n)) eqn:S; [reflexivity|].
      destruct (ia_addr ia) as [[h i hw|a|a|]|]; try reflexivity. destruct (beq (nf_name n) (ia_name ia)); [discriminate U|reflexivity].
    + rewrite E1, E2, E3. cbn [app filter]. rewrite nonzero_set. destruct (addr_set a) eqn:S; reflexivity.
Qed.
Lemma fold_upd_6 ias : Forall ia_sizes ias -> forall n, (addr_set (nf_ipaddr6 n) = false -> nf_ipaddr6 n = repeat 0 16) ->
  nf_ipaddr6 (fold_left upd ias n) = if addr_set (nf_ipaddr6 n) then nf_ipaddr6 n else main6 ias (nf_name n).
Proof.
  induction 1 as [|ia ias Hi Hf IH]; intros n Hz; cbn [fold_left].
  - destruct (addr_set (nf_ipaddr6 n)) eqn:E; [reflexivity|]. now rewrite Hz.
  - unfold main6, v6_of. cbn [flat_map]. fold (v6_of ias (nf_name n)). rewrite same_beq, <- upd_eqn.
    assert (Z' : addr_set (nf_ipaddr6 (upd n ia)) = false -> nf_ipaddr6 (upd n ia) = repeat 0 16).
    { unfold upd. destruct (negb _); [exact Hz|]. unfold ia_sizes in Hi. destruct (ia_addr ia) as [[h i hw|a|a|]|]; try exact Hz.
      - destruct (addr_set (nf_ipaddr4 n)); exact Hz.
      - destruct (addr_set (nf_ipaddr6 n)) eqn:S; [congruence|]. destruct (linklocal a); [now rewrite S|].
        cbn. intros K. rewrite (addr_set_zero _ K), (zlen16 a (proj2 Hi)). reflexivity. }
    rewrite (IH _ Z'), upd_name. clear IH Z'.
    assert (U : nf_ipaddr6 (upd n ia) = nf_ipaddr6 n /\ (match ia_addr ia with Some (SAInet6 a) => if beq (nf_name n) (ia_name ia) then addr_set (nf_ipaddr6 n) = true \/ linklocal a = true else True | _ => True end)
       \/ exists a, ia_addr ia = Some (SAInet6 a) /\ beq (nf_name n) (ia_name ia) = true /\ addr_set (nf_ipaddr6 n) = false /\ linklocal a = false /\ nf_ipaddr6 (upd n ia) = a).
    { unfold upd. destruct (beq (nf_name n) (ia_name ia)); cbn [negb]; [|left; split; [reflexivity|now destruct (ia_addr ia) as [[| | |]|]]].
      destruct (ia_addr ia) as [[h i hw|a|a|]|]; try (left; split; [reflexivity|exact I]).
      - left. split; [|exact I]. now destruct (addr_set (nf_ipaddr4 n)).
      - destruct (addr_set (nf_ipaddr6 n)) eqn:S; [left; split; [reflexivity|now left]|]. destruct (linklocal a) eqn:L; [left; split; [reflexivity|now right]|].
        right. exists a. now repeat split. }
    unfold ia_sizes in Hi. destruct U as [[-> U]|(a & E1 & E2 & E3 & E4 & ->)].
    + destruct (addr_set (nf_ipaddr6 n)) eqn:S; [reflexivity|].
      destruct (ia_addr ia) as [[h i hw|a|a|]|]; try reflexivity. destruct (beq (nf_name n) (ia_name ia)); [|reflexivity].
      destruct U as [U|U]; [discriminate U|]. cbn [app filter]. rewrite (local_link a (proj1 Hi) (proj2 Hi)), U. cbn [negb].
      now rewrite andb_false_r.
    + rewrite E1 in *. rewrite E2, E3. cbn [app filter]. rewrite nonzero_set, (local_link a (proj1 Hi) (proj2 Hi)), E4. cbn [negb]. rewrite andb_true_r.
      destruct (addr_set a) eqn:S; reflexivity.
Qed.
