(** The detection on BSD does what the one on Linux does under an operating system
    made from the answers. *)
From Verif Require Import Base Types Tlv Util Sysinfo Netif Bsd Spec SpecAdv SpecNetif SpecSend SpecNetif2 SpecSys SpecBsd.
From Verif Require Import Lemmas ChildProofs ChildProofs4 NetifProofs1 NetifProofs2 NetifProofs3.
From Verif Require PsockProofs CliProofs4.

Section lin.
Variables (pf : platform) (b : bos) (ias : list ifaddr).
Definition links : list (Z * list Z) := flat_map (fun ia => match link_of ia with Some x => [x] | None => [] end) ias.
Definition index_of (x : list Z) : option Z := option_map fst (find (fun e => beq (snd e) x) links).
Definition name_of (i : Z) : list Z := match find (fun e => fst e =? i) links with Some e => snd e | None => [] end.
Definition accepted (t : Z) : bool := (t =? IFT_BRIDGE) || (t =? IFT_ETHER).
Definition relabel (ia : ifaddr) : ifaddr :=
  mkIfa (ia_name ia)
    (match ia_addr ia with
     | Some (SALink t i hw) =>
         Some (SALink (if accepted t && negb (bsd_type pf b i (ia_name ia) =? NETIF_INVALID) then 1 else 0) i hw)
     | x => x
     end).
Definition fake_driver (ty : Z) : list Z :=
  if ty =? NETIF_BONDING then bs "bonding" else if ty =? NETIF_BRIDGE then bs "bridge" else if ty =? NETIF_TAP then bs "tun" else bs "x".
Definition ifr : list Z := last_ifr ias [].
Definition lin : nos :=
  mkNos (option_map (fun l => map relabel l) (bo_ifaddrs b)) (bo_flags b) (fun x => bo_wireless b (firstn 15 x)) (fun _ => false)
    (fun i => Some (fake_driver (bsd_type pf b i (name_of i))))
    (fun x => match index_of x with
              | Some i => if bsd_type pf b i x =? NETIF_VLAN
                          then Some (match bo_vlan b ifr with Some (dev, _) => dev | None => repeat 88 16 end) else None
              | None => None
              end)
    (fun _ => match bo_vlan b ifr with Some (_, tag) => Some tag | None => None end)
    (fun i => match bo_descr b (name_of i) with Some d => d | None => [] end)
    (fun i => match pf with
              | OpenBSD => []
              | FreeBSD =>
                  match sysctl_name (bsd_driver FreeBSD b i ifr) with
                  | Some s => match bo_sysctl b s with Some v => v | None => [] end
                  | None => []
                  end
              end)
    (fun x => match bo_lagg b x with
              | Some (proto, ports) => Some (if proto =? PROTO_LACP pf then 4 else if proto =? PROTO_FAILOVER then 1 else 0, zlen ports)
              | None => None
              end)
    (fun x i => match bo_lagg b x with
                | Some (_, ports) => match nth_error ports (Z.to_nat i) with
                                     | Some (n, act) => Some (n, if act then 0 else 1)
                                     | None => None
                                     end
                | None => None
                end)
    (fun x => match bo_bridge b x with
              | Some ports => Some (flat_map (fun n => match index_of n with Some i => [i] | None => [] end) ports)
              | None => None
              end)
    (fun _ => None) (bo_mtu b) (fun _ => None).

Hypothesis ias_b : bo_ifaddrs b = Some ias.
Hypothesis ok : b_ok b.
Lemma apart : names_apart ias. Proof. exact (proj2 (proj1 ok ias ias_b)). Qed.
Lemma in_links i x : In (i, x) links <-> exists ia, In ia ias /\ link_of ia = Some (i, x).
Proof.
  unfold links. rewrite in_flat_map. split.
  - intros (ia & H & K). exists ia. split; [assumption|]. destruct (link_of ia) as [e|]; [|easy]. destruct K as [->|[]]. reflexivity.
  - intros (ia & H & K). exists ia. split; [assumption|]. rewrite K. now left.
Qed.
Lemma links_apart i j x y : In (i, x) links -> In (j, y) links -> (i = j <-> x = y).
Proof.
  rewrite !in_links. intros (p & P1 & P2) (q & Q1 & Q2). exact (proj2 apart p q i j x y P1 Q1 P2 Q2).
Qed.
Lemma links_short i x : In (i, x) links -> zlen x <= 15.
Proof.
  rewrite in_links. intros (ia & H & K). unfold link_of in K. destruct (ia_addr ia) as [[h j a| | |]|]; try discriminate.
  injection K as <- <-. now apply (proj1 apart).
Qed.
Lemma name_of_link i x : In (i, x) links -> name_of i = x.
Proof.
  intros H. unfold name_of. destruct (find (fun e => fst e =? i) links) as [[j y]|] eqn:F.
  - apply find_some in F as [F1 F2]. cbn in *. assert (j = i) by lia. now apply (links_apart j i y x F1 H).
  - exfalso. pose proof (find_none _ _ F _ H) as K. cbn in K. lia.
Qed.
Lemma index_of_link i x : In (i, x) links -> index_of x = Some i.
Proof.
  intros H. unfold index_of. destruct (find (fun e => beq (snd e) x) links) as [[j y]|] eqn:F.
  - apply find_some in F as [F1 F2]. cbn in *. apply beq_true in F2. f_equal. now apply (links_apart j i y x F1 H).
  - exfalso. pose proof (find_none _ _ F _ H) as K. cbn in K. now rewrite beq_refl in K.
Qed.
Lemma index_of_some i x : index_of x = Some i -> In (i, x) links.
Proof.
  unfold index_of. destruct (find _ _) as [[j y]|] eqn:F; [|discriminate]. cbn. intros [= ->].
  apply find_some in F as [F1 F2]. cbn in F2. apply beq_true in F2. now subst y.
Qed.
Lemma short15 (x : list Z) : zlen x <= 15 -> firstn 15 x = x.
Proof. intros H. apply firstn_all2. unfold zlen in H. lia. Qed.
Lemma bsd_type_values i x : In (bsd_type pf b i x) [-128; -1; 0; 1; 2; 12; 13].
Proof.
  unfold bsd_type. change NETIF_WIRELESS with 1. change NETIF_VLAN with (-1). change NETIF_TAP with 2. change NETIF_INVALID with (-128).
  change NETIF_BONDING with 12. change NETIF_BRIDGE with 13. change NETIF_REGULAR with 0.
  destruct (bo_wireless _ _); [cbn; tauto|]. destruct (_ =? _).
  { destruct (bo_vlan _ _); [cbn; tauto|]. destruct (_ || _); [cbn; tauto|]. destruct (_ && _); [cbn; tauto|].
    destruct (bo_lagg _ _); cbn; tauto. }
  destruct (_ =? _); [cbn; tauto|]. destruct (_ =? _); [cbn; tauto|]. destruct (_ =? _); cbn; tauto.
Qed.
Lemma type_wireless i x : bo_wireless b (firstn 15 x) = true <-> bsd_type pf b i x = 1.
Proof.
  unfold bsd_type. change NETIF_WIRELESS with 1. change NETIF_VLAN with (-1). change NETIF_TAP with 2. change NETIF_INVALID with (-128).
  change NETIF_BONDING with 12. change NETIF_BRIDGE with 13. change NETIF_REGULAR with 0.
  destruct (bo_wireless _ _); [easy|]. split; [discriminate|]. destruct (_ =? _).
  { destruct (bo_vlan _ _); [easy|]. destruct (_ || _); [easy|]. destruct (_ && _); [easy|]. now destruct (bo_lagg _ _). }
  destruct (_ =? _); [easy|]. destruct (_ =? _); [easy|]. now destruct (_ =? _).
Qed.
Lemma lin_type i x : In (i, x) links -> bsd_type pf b i x <> NETIF_INVALID -> netif_type lin i x = bsd_type pf b i x.
Proof.
  intros H N. unfold netif_type, lin. cbn [no_driver no_wireless no_device no_vlan]. rewrite (name_of_link i x H), (index_of_link i x H).
  pose proof (type_wireless i x) as W. pose proof (bsd_type_values i x) as V. set (ty := bsd_type pf b i x) in *.
  change NETIF_WIRELESS with 1. destruct (bo_wireless b (firstn 15 x)); [symmetry; now apply W|].
  change NETIF_VLAN with (-1). change NETIF_INVALID with (-128) in *.
  assert (C : ty = -1 \/ ty = 0 \/ ty = 2 \/ ty = 12 \/ ty = 13).
  { cbn in V. assert (ty <> 1) by (intros K; apply W in K; discriminate). intuition lia. }
  destruct C as [C|[C|[C|[C|C]]]]; rewrite C; reflexivity.
Qed.
(** ** The first loop *)
Lemma fetch_one_lin cfg st ia : In ia ias -> fetch_one cfg lin st (relabel ia) = bsd_fetch_one cfg pf b st ia.
Proof.
  intros H. destruct st as [[nfs si] c]. unfold fetch_one, bsd_fetch_one, relabel. cbn [ia_addr ia_name].
  destruct (ia_addr ia) as [[t i hw| | |]|] eqn:A; try reflexivity.
  assert (L : In (i, ia_name ia) links) by (apply in_links; exists ia; split; [assumption|unfold link_of; now rewrite A]).
  assert (AC : accepted t = negb (negb (t =? IFT_BRIDGE) && negb (t =? IFT_ETHER))).
  { unfold accepted. now destruct (t =? IFT_BRIDGE), (t =? IFT_ETHER). }
  rewrite AC. destruct (negb (t =? IFT_BRIDGE) && negb (t =? IFT_ETHER)); [reflexivity|]. cbn [negb andb].
  destruct (bsd_type pf b i (ia_name ia) =? NETIF_INVALID) eqn:T; cbn [negb].
  { unfold ARPHRD_ETHER. change (0 =? 1) with false. cbn [negb].
    assert (E : bsd_type pf b i (ia_name ia) = -128) by (unfold NETIF_INVALID in T; lia). rewrite E. reflexivity. }
  change (1 =? ARPHRD_ETHER) with true. cbn [negb]. rewrite (lin_type i _ L) by lia. rewrite T.
  cbn [no_flags no_alias lin]. rewrite (name_of_link i _ L). rewrite (short15 _ (links_short _ _ L)). reflexivity.
Qed.
Lemma fetch_fold_lin cfg : forall l st, incl l ias ->
  fold_left (fetch_one cfg lin) (map relabel l) st = fold_left (bsd_fetch_one cfg pf b) l st.
Proof.
  induction l as [|ia l IH]; intros st H; [reflexivity|]. cbn [map fold_left]. rewrite fetch_one_lin by (apply H; now left).
  apply IH. intros x Hx. apply H. now right.
Qed.
(** ** The second loop *)
Definition from_links (nfs : list netif) : Prop := forall n, In n nfs -> In (nf_index n, nf_name n) links.
Lemma from_links_core a c : map core a = map core c -> from_links c -> from_links a.
Proof.
  intros H K n Hn. destruct (core_in _ _ _ H Hn) as (m & Hm & E). apply core_fields in E as (-> & -> & _). now apply K.
Qed.
Lemma byname_byindex nfs x : NoDup (indices nfs) -> from_links nfs ->
  netif_byname nfs x = match index_of x with Some i => netif_byindex nfs i | None => None end.
Proof.
  intros D F. destruct (netif_byname nfs x) as [n|] eqn:B.
  - apply byname_in in B as [B1 B2]. pose proof (F n B1) as L. rewrite B2 in L. rewrite (index_of_link _ _ L).
    symmetry. now apply byindex_in.
  - destruct (index_of x) as [i|] eqn:I; [|reflexivity]. destruct (netif_byindex nfs i) as [n|] eqn:J; [|reflexivity]. exfalso.
    apply byindex_some in J as [J1 J2]. apply index_of_some in I. pose proof (F n J1) as L.
    assert (E : nf_name n = x) by (apply (links_apart _ _ _ _ L I); congruence).
    unfold netif_byname in B. pose proof (find_none _ _ B _ J1) as K. cbn in K. rewrite E, beq_refl in K. discriminate.
Qed.
Lemma lagg_bond x ports0 proto : bo_lagg b x = Some (proto, ports0) -> forall ports pre par last nfs, ports0 = pre ++ ports ->
  bond_loop lin par x (length ports) (zlen pre) last nfs = lagg_loop par ports (zlen pre) last nfs.
Proof.
  intros L. induction ports as [|[nm act] ports IH]; intros pre par last nfs E; [reflexivity|].
  cbn [length bond_loop lagg_loop]. cbn [no_slave lin]. rewrite L. rewrite E. unfold zlen at 1. rewrite Nat2Z.id, nth_error_app2 by lia.
  rewrite Nat.sub_diag. cbn [nth_error].
  assert (IH' : forall l nf, bond_loop lin par x (length ports) (zlen pre + 1) l nf = lagg_loop par ports (zlen pre + 1) l nf).
  { intros l nf. replace (zlen pre + 1) with (zlen (pre ++ [(nm, act)])) by (rewrite zlen_app; reflexivity). apply IH.
    rewrite E, <- app_assoc. reflexivity. }
  destruct (netif_byname nfs nm) as [s|]; [|apply IH']. destruct (nf_type s <? NETIF_PARENT); [|apply IH'].
  rewrite IH'. now destruct act.
Qed.
Lemma bridge_bridge : forall ports par last nfs, NoDup (indices nfs) -> from_links nfs ->
  bridge_loop par (flat_map (fun n => match index_of n with Some i => [i] | None => [] end) ports) last nfs
  = bsd_bridge_loop par ports last nfs.
Proof.
  induction ports as [|x ports IH]; intros par last nfs D F; [reflexivity|]. cbn [flat_map bsd_bridge_loop].
  rewrite (byname_byindex nfs x D F). destruct (index_of x) as [i|]; [|now apply IH]. cbn [app bridge_loop].
  destruct (netif_byindex nfs i) as [s|]; [|now apply IH]. destruct (nf_type s <? NETIF_PARENT); [|now apply IH].
  apply IH; [rewrite member_indices; assumption|]. apply (from_links_core _ nfs); [apply add_member_core|assumption].
Qed.
Lemma bridge_read_all sz total : 0 < sz <= 2048 -> 0 <= total -> total * sz < 268435456 ->
  forall fuel len, 8192 <= len -> (len <= 16384 \/ len <= 2 * ((total + 1) * sz)) ->
    (total + 1) * sz < len * 2 ^ (Z.of_nat fuel - 1) -> bridge_read fuel sz total len = Some total.
Proof.
  intros Sz T B. induction fuel as [|f IH]; intros len L1 L2 L3.
  { exfalso. replace (2 ^ (Z.of_nat 0 - 1)) with 0 in L3 by reflexivity. nia. }
  cbn [bridge_read]. destruct (Z.le_gt_cases total (len / sz)) as [Q|Q].
  - rewrite Z.min_l by assumption. destruct (total * sz + sz <? len) eqn:C.
    + f_equal. apply Z.div_mul. lia.
    + replace (2147483647 <? len * 2) with false by nia. apply IH; [lia|nia|].
      destruct f as [|f]; [exfalso; change (2 ^ (Z.of_nat 1 - 1)) with 1 in L3; lia|].
      replace (Z.of_nat (S (S f)) - 1) with (Z.succ (Z.of_nat (S f) - 1)) in L3 by lia. rewrite Z.pow_succ_r in L3 by lia. lia.
  - assert (M : len / sz * sz <= len < len / sz * sz + sz).
    { pose proof (Z.div_mod len sz ltac:(lia)). pose proof (Z.mod_pos_bound len sz ltac:(lia)). nia. }
    rewrite Z.min_r by lia. replace (len / sz * sz + sz <? len) with false by lia.
    assert (len < total * sz) by nia.
    replace (2147483647 <? len * 2) with false by nia. apply IH; [lia|nia|].
    destruct f as [|f]; [exfalso; change (2 ^ (Z.of_nat 1 - 1)) with 1 in L3; lia|].
    replace (Z.of_nat (S (S f)) - 1) with (Z.succ (Z.of_nat (S f) - 1)) in L3 by lia. rewrite Z.pow_succ_r in L3 by lia. lia.
Qed.
Lemma bridge_all x ports : bo_bridge b x = Some ports -> bridge_read 32 (bo_ifbreq b) (zlen ports) 8192 = Some (zlen ports).
Proof.
  intros H. destruct ok as (_ & Sz & B & _). specialize (B x ports H). pose proof (zlen_nonneg _ ports).
  apply bridge_read_all; change (2 ^ (Z.of_nat 32 - 1)) with 2147483648; nia.
Qed.
Lemma detect_lin i nfs : NoDup (indices nfs) -> from_links nfs ->
  (forall n, In n nfs -> bsd_type pf b (nf_index n) (nf_name n) = nf_type n) ->
  bsd_detect_one pf b ifr nfs i = detect_one lin nfs i.
Proof.
  intros D F T. unfold bsd_detect_one, detect_one. destruct (netif_byindex nfs i) as [n|] eqn:B; [|reflexivity].
  apply byindex_some in B as [B1 B2]. pose proof (T n B1) as Tn. pose proof (F n B1) as Fn.
  pose proof (bsd_type_values (nf_index n) (nf_name n)) as V. rewrite Tn in V.
  replace (nf_type n =? NETIF_TEAMING) with false.
  2:{ symmetry. apply Z.eqb_neq. intros K. rewrite K in V. cbn in V. unfold NETIF_TEAMING in V. intuition lia. }
  destruct (nf_type n =? NETIF_BONDING).
  { unfold bsd_bond, netif_bond. cbn [no_bond lin]. destruct (bo_lagg b (nf_name n)) as [[proto ports]|] eqn:L; [|reflexivity].
    unfold BOND_MODE_8023AD, BOND_MODE_ACTIVEBACKUP.
    rewrite <- (lagg_bond (nf_name n) ports proto L ports [] (nf_index n) (nf_index n) _ eq_refl).
    change (zlen []) with 0. replace (Z.to_nat (zlen ports)) with (length ports) by (unfold zlen; now rewrite Nat2Z.id).
    destruct (proto =? PROTO_LACP pf); [reflexivity|]. now destruct (proto =? PROTO_FAILOVER). }
  destruct (nf_type n =? NETIF_BRIDGE).
  { unfold bsd_bridge, netif_bridge. cbn [no_bridge lin]. destruct (bo_bridge b (nf_name n)) as [ports|] eqn:L; [|reflexivity].
    rewrite (bridge_all _ _ L). rewrite bridge_bridge by assumption.
    now replace (firstn (Z.to_nat (zlen ports)) ports) with ports by (unfold zlen; rewrite Nat2Z.id; symmetry; apply firstn_all). }
  destruct (nf_type n =? NETIF_VLAN) eqn:TV.
  { unfold bsd_vlan, netif_vlan. cbn [no_vlan no_vid lin]. rewrite (index_of_link _ _ Fn), Tn, TV.
    destruct (bo_vlan b ifr) as [[dev tag]|]; [reflexivity|].
    destruct (netif_byname nfs (repeat 88 16)) as [p|] eqn:P; [|reflexivity]. exfalso.
    apply byname_in in P as [P1 P2]. pose proof (links_short _ _ (F p P1)) as K. rewrite P2 in K. vm_compute in K. now apply K. }
  destruct (nf_type n =? NETIF_REGULAR); [|reflexivity].
  unfold bsd_device_id, netif_device_id. destruct (negb _); [reflexivity|]. cbn [no_device_id lin].
  destruct pf; [|reflexivity]. destruct (sysctl_name _) as [s|]; [|reflexivity].
  destruct (bo_sysctl b s) as [v|] eqn:SV; [|reflexivity].
  destruct (proj1 (proj2 (proj2 (proj2 (proj2 ok)))) s v SV) as [(C1 & C2 & C3) N].
  replace (zlen v =? 0) with false.
  2:{ symmetry. apply Z.eqb_neq. intros K. apply N. now apply zlen_0. }
  assert (CV : cstr v = v) by now apply PsockProofs.cstr_id. unfold device_field. rewrite CV.
  assert (E64 : firstn 64 (v ++ [0]) = v ++ [0]) by (apply firstn_all2; rewrite app_length; cbn; unfold zlen in C3; lia).
  rewrite E64. replace (existsb (fun c => c =? 0) (v ++ [0])) with true.
  2:{ symmetry. apply existsb_exists. exists 0. split; [apply in_app_iff; right; now left|reflexivity]. }
  rewrite (firstn_all2 (n := 63) v) by (unfold zlen in C3; lia).
  do 2 f_equal. apply (CliProofs4.cstr_padded v 0 C2).
Qed.
Lemma detect_fold_lin base : NoDup (indices base) -> from_links base ->
  (forall n, In n base -> bsd_type pf b (nf_index n) (nf_name n) = nf_type n) ->
  forall l nfs, map core nfs = map core base ->
  fold_left (bsd_detect_one pf b ifr) l nfs = fold_left (detect_one lin) l nfs.
Proof.
  intros D F T. induction l as [|i l IH]; intros nfs C; [reflexivity|]. cbn [fold_left]. rewrite detect_lin.
  - apply IH. now rewrite detect_core.
  - now rewrite (core_index _ _ C).
  - now apply (from_links_core _ base).
  - intros n Hn. destruct (core_in _ _ _ C Hn) as (m & Hm & E). apply core_fields in E as (-> & -> & ->). now apply T.
Qed.
(** ** The rest *)
Lemma addr_one_lin cfg st ia : addr_one cfg st (relabel ia) = addr_one cfg st ia.
Proof. unfold addr_one, relabel. destruct st as [nfs si]. cbn [ia_addr ia_name]. now destruct (ia_addr ia) as [[| | |]|]. Qed.
Lemma addrs_lin cfg nfs si : netif_addrs cfg (map relabel ias) nfs si = netif_addrs cfg ias nfs si.
Proof.
  unfold netif_addrs. assert (E : forall l st, fold_left (addr_one cfg) (map relabel l) st = fold_left (addr_one cfg) l st).
  { induction l as [|ia l IH]; intros st; [reflexivity|]. cbn [map fold_left]. rewrite addr_one_lin. apply IH. }
  now rewrite E.
Qed.
Lemma lin_ias : no_ifaddrs lin = Some (map relabel ias).
Proof. cbn [no_ifaddrs lin]. now rewrite ias_b. Qed.
Lemma relabel_entry ia i : In ia ias -> entry_of lin (relabel ia) = Some i ->
  In (i, ia_name ia) links /\ netif_type lin i (ia_name ia) = bsd_type pf b i (ia_name ia).
Proof.
  intros H. unfold entry_of, relabel. cbn [ia_addr ia_name]. destruct (ia_addr ia) as [[t j hw| | |]|] eqn:A; try discriminate.
  assert (L : In (j, ia_name ia) links) by (apply in_links; exists ia; split; [assumption|unfold link_of; now rewrite A]).
  destruct (accepted t); cbn [andb]; [|discriminate].
  destruct (bsd_type pf b j (ia_name ia) =? NETIF_INVALID) eqn:T; cbn [negb]; [discriminate|].
  destruct (_ && _); [|discriminate]. intros [= <-]. split; [assumption|]. apply lin_type; [assumption|]. lia.
Qed.
Lemma fetch_lin cfg nfs si : NoDup (indices nfs) -> bsd_fetch cfg pf b nfs si = netif_fetch cfg lin nfs si.
Proof.
  intros D. unfold bsd_fetch, netif_fetch. rewrite ias_b, lin_ias. rewrite (fetch_fold_lin cfg ias) by apply incl_refl.
  set (si0 := set_caps _ _ _ si).
  destruct (fold_left (bsd_fetch_one cfg pf b) ias _) as [[nfs1 si1] count] eqn:F1.
  destruct (remove_old nfs1 si1) as [[nfs2 si2] g] eqn:R.
  rewrite <- (fetch_fold_lin cfg ias) in F1 by apply incl_refl.
  pose proof (phase1_fold cfg lin nfs D _ [] _ _ _ _ _ _ (phase1_start lin nfs D) F1) as P1. cbn [app] in P1.
  pose proof (remove_phase2 lin nfs 0 (map relabel ias) nfs1 si1 lin_ias P1) as P2. rewrite R in P2. cbn [fst] in P2. destruct P2 as (N2 & _ & E2).
  assert (X : forall n, In n nfs2 -> In (nf_index n, nf_name n) links /\ bsd_type pf b (nf_index n) (nf_name n) = nf_type n).
  { intros n Hn. destruct (E2 n Hn) as (ia' & Hi & He & Hf). apply in_map_iff in Hi as (ia & <- & Hi).
    destruct (relabel_entry ia _ Hi He) as [L T]. cbn [relabel ia_name] in *.
    assert (NM : nf_name n = ia_name ia).
    { rewrite Hf. unfold fresh_of. cbn [relabel ia_name]. destruct (netif_byindex nfs (nf_index n)); cbn [nf_name fresh_netif]; apply short15; exact (links_short _ _ L). }
    rewrite NM. split; [assumption|]. rewrite <- T. rewrite Hf at 2. now rewrite fresh_type. }
  change (last_ifr ias []) with ifr.
  rewrite (detect_fold_lin nfs2 N2 (fun n H => proj1 (X n H)) (fun n H => proj2 (X n H)) (map nf_index nfs2) nfs2 eq_refl).
  rewrite addrs_lin. reflexivity.
Qed.
End lin.
