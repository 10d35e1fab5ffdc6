(** netif_fetch a second time: system information and the whole function. *)
From Verif Require Import Base Types Tlv Util Netif Spec SpecNetif.
From Verif Require Import Lemmas VisProofs VisProps ChildProofs ChildProofs4 NetifProofs1 NetifProofs2 FlowProofs1 RepeatProofs1.

(** ** System information *)
Definition caps (s : sysinfo) : Z * Z * Z := (si_cap s, si_cap_active s, si_physif_count s).
Definition rest (s : sysinfo) : sysinfo := set_caps 0 0 0 (set_mnetif None (set_chassis [] s)).
Lemma si_ext s t : caps s = caps t -> si_mnetif s = si_mnetif t -> si_hwaddr s = si_hwaddr t -> rest s = rest t -> s = t.
Proof.
  intros H1 H2 H3 H4. destruct s, t. unfold caps in H1. unfold rest, set_caps, set_mnetif, set_chassis in H4. cbn in *.
  injection H1 as -> -> ->. rewrite H2, H3. inversion H4. reflexivity.
Qed.
Definition picked (cfg : ncfg) (os : nos) (ia : ifaddr) : option Z :=
  match entry_of os ia with
  | Some i => match nc_mifname cfg with Some m => if beq (firstn 15 (ia_name ia)) m then Some i else None | None => None end
  | None => None
  end.
Definition si_one (cfg : ncfg) (os : nos) (ia : ifaddr) (s : sysinfo) : sysinfo :=
  let s1 := match ia_addr ia with
            | Some (SALink h i _) => if negb (h =? ARPHRD_ETHER) then s else count_type (netif_type os i (ia_name ia)) (up os (ia_name ia)) s
            | _ => s
            end in
  match picked cfg os ia with Some i => set_mnetif (Some i) s1 | None => s1 end.
Lemma fetch_si cfg os T s c ia : snd (fst (fetch_one cfg os (T, s, c) ia)) = si_one cfg os ia s.
Proof.
  unfold fetch_one, si_one, picked, entry_of. destruct (ia_addr ia) as [[h i a| | |]|]; try reflexivity.
  destruct (h =? ARPHRD_ETHER); cbn [negb andb]; [|reflexivity]. fold (up os (ia_name ia)).
  destruct (netif_type os i (ia_name ia) =? NETIF_INVALID); cbn [negb andb]; [reflexivity|].
  destruct (up os (ia_name ia)); cbn [negb]; [|reflexivity].
  destruct (nc_mifname cfg) as [m|]; [|reflexivity]. cbn [fst snd]. now destruct (beq _ _).
Qed.
Definition sis (cfg : ncfg) (os : nos) (l : list ifaddr) (s : sysinfo) : sysinfo := fold_left (fun s ia => si_one cfg os ia s) l s.
Lemma fold_si cfg os : forall l T s c, snd (fst (fold_left (fetch_one cfg os) l (T, s, c))) = sis cfg os l s.
Proof.
  induction l as [|ia l IH]; intros T s c; [reflexivity|]. cbn [fold_left]. pose proof (fetch_si cfg os T s c ia) as K.
  destruct (fetch_one cfg os (T, s, c) ia) as [[T1 s1] c1]. cbn [fst snd] in K. rewrite IH, K. reflexivity.
Qed.
Lemma sis_cons cfg os ia l s : sis cfg os (ia :: l) s = sis cfg os l (si_one cfg os ia s).
Proof. reflexivity. Qed.
Definition keep := Z.lor CAP_HOST CAP_ROUTER.
Lemma keep_wlan x : Z.land (Z.lor x CAP_WLAN) keep = Z.land x keep.
Proof. rewrite Z.land_lor_distr_l. change (Z.land CAP_WLAN keep) with 0. apply Z.lor_0_r. Qed.
Lemma keep_bridge x : Z.land (Z.lor x CAP_BRIDGE) keep = Z.land x keep.
Proof. rewrite Z.land_lor_distr_l. change (Z.land CAP_BRIDGE keep) with 0. apply Z.lor_0_r. Qed.
Lemma one_keep cfg os ia s : Z.land (si_cap (si_one cfg os ia s)) keep = Z.land (si_cap s) keep
  /\ Z.land (si_cap_active (si_one cfg os ia s)) keep = Z.land (si_cap_active s) keep.
Proof.
  assert (K : forall ty u, Z.land (si_cap (count_type ty u s)) keep = Z.land (si_cap s) keep
    /\ Z.land (si_cap_active (count_type ty u s)) keep = Z.land (si_cap_active s) keep).
  { intros ty u. unfold count_type. destruct (_ =? _); [now split|]. destruct (_ =? _).
    - cbn. split; [apply keep_wlan|]. destruct u; [apply keep_wlan|now rewrite Z.lor_0_r].
    - destruct (_ =? _); [|now split]. cbn. split; [apply keep_bridge|]. destruct u; [apply keep_bridge|now rewrite Z.lor_0_r]. }
  unfold si_one. set (s1 := match ia_addr ia with Some _ => _ | None => s end).
  assert (K1 : Z.land (si_cap s1) keep = Z.land (si_cap s) keep /\ Z.land (si_cap_active s1) keep = Z.land (si_cap_active s) keep).
  { unfold s1. destruct (ia_addr ia) as [[h i a| | |]|]; try (now split). destruct (negb _); [now split|apply K]. }
  destruct (picked cfg os ia); exact K1.
Qed.
Lemma sis_keep cfg os : forall l s, Z.land (si_cap (sis cfg os l s)) keep = Z.land (si_cap s) keep
  /\ Z.land (si_cap_active (sis cfg os l s)) keep = Z.land (si_cap_active s) keep.
Proof.
  induction l as [|ia l IH]; intros s; [now split|]. rewrite sis_cons. destruct (IH (si_one cfg os ia s)) as [K1 K2]. destruct (one_keep cfg os ia s) as [K3 K4].
  split; congruence.
Qed.
Lemma one_caps cfg os ia s t : caps s = caps t -> caps (si_one cfg os ia s) = caps (si_one cfg os ia t).
Proof.
  intros H. assert (C : forall ty u, caps (count_type ty u s) = caps (count_type ty u t)).
  { intros ty u. unfold caps in H. injection H as H1 H2 H3. unfold count_type. rewrite H1, H2, H3. now repeat destruct (_ =? _); unfold caps; cbn; rewrite ?H1, ?H2, ?H3. }
  unfold si_one. destruct (picked cfg os ia); (destruct (ia_addr ia) as [[h i a| | |]|]; try exact H; destruct (negb _); [exact H|apply C]).
Qed.
Lemma sis_caps cfg os : forall l s t, caps s = caps t -> caps (sis cfg os l s) = caps (sis cfg os l t).
Proof. induction l as [|ia l IH]; intros s t H; [exact H|]. rewrite !sis_cons. apply IH. now apply one_caps. Qed.
Lemma one_rest cfg os ia s : rest (si_one cfg os ia s) = rest s /\ si_hwaddr (si_one cfg os ia s) = si_hwaddr s.
Proof.
  assert (K : forall ty u, rest (count_type ty u s) = rest s /\ si_hwaddr (count_type ty u s) = si_hwaddr s).
  { intros ty u. unfold count_type. now repeat destruct (_ =? _). }
  unfold si_one. destruct (picked cfg os ia); (destruct (ia_addr ia) as [[h i a| | |]|]; try (now split); destruct (negb _); [now split|apply K]).
Qed.
Lemma sis_rest cfg os : forall l s, rest (sis cfg os l s) = rest s /\ si_hwaddr (sis cfg os l s) = si_hwaddr s.
Proof.
  induction l as [|ia l IH]; intros s; [now split|]. rewrite sis_cons. destruct (IH (si_one cfg os ia s)) as [K1 K2]. destruct (one_rest cfg os ia s) as [K3 K4].
  split; congruence.
Qed.
Lemma one_mnetif cfg os ia s : si_mnetif (si_one cfg os ia s) = match picked cfg os ia with Some i => Some i | None => si_mnetif s end.
Proof.
  assert (K : forall ty u, si_mnetif (count_type ty u s) = si_mnetif s) by (intros ty u; unfold count_type; now repeat destruct (_ =? _)).
  unfold si_one. destruct (picked cfg os ia); [reflexivity|]. destruct (ia_addr ia) as [[h i a| | |]|]; try reflexivity. destruct (negb _); [reflexivity|apply K].
Qed.
Lemma sis_mnetif cfg os l : exists r, (forall s, si_mnetif (sis cfg os l s) = match r with Some i => Some i | None => si_mnetif s end)
  /\ (forall i, r = Some i -> NetifProofs1.seen os l i).
Proof.
  induction l as [|ia l IH] using rev_ind; [exists None; now split|]. destruct IH as (r & R1 & R2).
  assert (P : forall i, picked cfg os ia = Some i -> entry_of os ia = Some i).
  { intros i. unfold picked. destruct (entry_of os ia) as [j|]; [|discriminate]. destruct (nc_mifname cfg); [|discriminate]. now destruct (beq _ _). }
  exists (match picked cfg os ia with Some i => Some i | None => r end). split.
  - intros s. unfold sis. rewrite fold_left_app. cbn [fold_left]. rewrite one_mnetif. fold (sis cfg os l s). rewrite R1. now destruct (picked cfg os ia).
  - intros i. rewrite seen_snoc. destruct (picked cfg os ia) as [j|] eqn:E; [intros K; right; rewrite <- K; now apply P|]. intros K. left. now apply R2.
Qed.

(** ** Addresses *)
Lemma addr_fields cfg T s ia : caps (snd (addr_one cfg (T, s) ia)) = caps s /\ rest (snd (addr_one cfg (T, s) ia)) = rest s
  /\ si_hwaddr (snd (addr_one cfg (T, s) ia)) = si_hwaddr s.
Proof.
  unfold addr_one. destruct (ia_addr ia) as [sa|]; [|now repeat split]. destruct (netif_byname T (ia_name ia)) as [n|]; [|now repeat split].
  destruct sa as [h i a|a|a|]; try (now repeat split).
  - destruct (addr_set _); [now repeat split|]. cbv zeta. destruct (si_mnetif s); [now repeat split|]. destruct (_ && _); now repeat split.
  - destruct (addr_set _); [now repeat split|]. destruct (linklocal a); [now repeat split|]. cbv zeta. destruct (si_mnetif s); [now repeat split|].
    destruct (_ && _); now repeat split.
Qed.
Lemma addr_table cfg T s t ia : fst (addr_one cfg (T, s) ia) = fst (addr_one cfg (T, t) ia).
Proof.
  unfold addr_one. destruct (ia_addr ia) as [sa|]; [|reflexivity]. destruct (netif_byname T (ia_name ia)) as [n|]; [|reflexivity].
  destruct sa as [h i a|a|a|]; try reflexivity.
  - destruct (addr_set (nf_ipaddr4 n)); [reflexivity|]. cbv zeta. destruct (si_mnetif s), (si_mnetif t); try reflexivity; destruct (_ && _); reflexivity.
  - destruct (addr_set (nf_ipaddr6 n)); [reflexivity|]. destruct (linklocal a); [reflexivity|]. cbv zeta.
    destruct (si_mnetif s), (si_mnetif t); try reflexivity; destruct (_ && _); reflexivity.
Qed.
Lemma addr_mnetif cfg T ia : exists r, forall t, si_mnetif (snd (addr_one cfg (T, t) ia)) = match si_mnetif t with Some i => Some i | None => r end.
Proof.
  unfold addr_one. destruct (ia_addr ia) as [sa|]; [|exists None; intros t; cbn; now destruct (si_mnetif t)].
  destruct (netif_byname T (ia_name ia)) as [n|]; [|exists None; intros t; cbn; now destruct (si_mnetif t)].
  destruct sa as [h i a|a|a|]; try (exists None; intros t; cbn; now destruct (si_mnetif t)).
  - destruct (addr_set (nf_ipaddr4 n)); [exists None; intros t; cbn; now destruct (si_mnetif t)|]. cbv zeta.
    exists (if addr_set (nc_maddr4 cfg) && beq (nc_maddr4 cfg) a then Some (nf_index n) else None).
    intros t. destruct (si_mnetif t) eqn:E; [cbn; now rewrite E|]. destruct (_ && _); [reflexivity|exact E].
  - destruct (addr_set (nf_ipaddr6 n)); [exists None; intros t; cbn; now destruct (si_mnetif t)|].
    destruct (linklocal a); [exists None; intros t; cbn; now destruct (si_mnetif t)|]. cbv zeta.
    exists (if addr_set (nc_maddr6 cfg) && beq (nc_maddr6 cfg) a then Some (nf_index n) else None).
    intros t. destruct (si_mnetif t) eqn:E; [cbn; now rewrite E|]. destruct (_ && _); [reflexivity|exact E].
Qed.
Lemma addr_pair cfg T (s : sysinfo) ia : exists T' r, forall t, fst (addr_one cfg (T, t) ia) = T'
  /\ si_mnetif (snd (addr_one cfg (T, t) ia)) = match si_mnetif t with Some i => Some i | None => r end.
Proof.
  destruct (addr_mnetif cfg T ia) as (r & R). exists (fst (addr_one cfg (T, s) ia)), r. intros t. split; [apply addr_table|apply R].
Qed.
Lemma addr_folds cfg (s : sysinfo) : forall l T, exists T' r, forall t, fst (fold_left (addr_one cfg) l (T, t)) = T'
  /\ si_mnetif (snd (fold_left (addr_one cfg) l (T, t))) = match si_mnetif t with Some i => Some i | None => r end
  /\ caps (snd (fold_left (addr_one cfg) l (T, t))) = caps t /\ rest (snd (fold_left (addr_one cfg) l (T, t))) = rest t
  /\ si_hwaddr (snd (fold_left (addr_one cfg) l (T, t))) = si_hwaddr t.
Proof.
  induction l as [|ia l IH]; intros T; [exists T, None; intros t; cbn; split; [reflexivity|split; [now destruct (si_mnetif t)|now repeat split]]|].
  destruct (addr_pair cfg T s ia) as (T1 & r1 & P). destruct (IH T1) as (T' & r & Q).
  exists T', (match r1 with Some i => Some i | None => r end). intros t. cbn [fold_left]. destruct (P t) as [P1 P2].
  destruct (addr_fields cfg T t ia) as (F1 & F2 & F3).
  destruct (addr_one cfg (T, t) ia) as [T2 t2]. cbn [fst snd] in P1, P2, F1, F2, F3. subst T2. destruct (Q t2) as (Q1 & Q2 & Q3 & Q4 & Q5).
  split; [exact Q1|]. split; [|repeat split; congruence]. rewrite Q2, P2. now destruct (si_mnetif t).
Qed.
(** Once more with the management interface that came out. *)
Lemma addrs_again cfg ias T s t : si_mnetif t = si_mnetif (snd (netif_addrs cfg ias T s)) ->
  fst (netif_addrs cfg ias T t) = fst (netif_addrs cfg ias T s) /\ si_mnetif (snd (netif_addrs cfg ias T t)) = si_mnetif t.
Proof.
  destruct (addr_folds cfg s ias T) as (T' & r & Q). destruct (Q s) as (S1 & S2 & _). destruct (Q t) as (T1 & T2 & _).
  unfold netif_addrs. destruct (fold_left (addr_one cfg) ias (T, s)) as [Ts s1]. destruct (fold_left (addr_one cfg) ias (T, t)) as [Tt t1].
  cbn [fst snd] in S1, S2, T1, T2. subst Ts Tt.
  assert (G : forall o (z : list netif) (x : sysinfo), si_mnetif (snd (if negb o then (z, x) else match si_mnetif x with None => (z, x)
     | Some m => match netif_byindex z m with None => (z, x) | Some mn => (map (set_ips (nf_ipaddr4 mn) (nf_ipaddr6 mn)) z, x) end end)) = si_mnetif x).
  { intros o z x. destruct (negb o); [reflexivity|]. destruct (si_mnetif x) eqn:E; [|exact E]. destruct (netif_byindex z z0); exact E. }
  rewrite !G. intros E. assert (E1 : si_mnetif t1 = si_mnetif t).
  { rewrite T2. destruct (si_mnetif t); [reflexivity|]. rewrite <- E in S2. destruct (si_mnetif s); [discriminate S2|]. now symmetry. }
  split; [|exact E1]. assert (E2 : si_mnetif t1 = si_mnetif s1) by congruence. rewrite E2.
  destruct (negb _); [reflexivity|]. destruct (si_mnetif s1); [|reflexivity]. now destruct (netif_byindex T' z).
Qed.
Lemma addrs_fields cfg ias T s : caps (snd (netif_addrs cfg ias T s)) = caps s /\ rest (snd (netif_addrs cfg ias T s)) = rest s
  /\ si_hwaddr (snd (netif_addrs cfg ias T s)) = si_hwaddr s /\ (forall i, si_mnetif s = Some i -> si_mnetif (snd (netif_addrs cfg ias T s)) = Some i).
Proof.
  destruct (addr_folds cfg s ias T) as (T' & r & Q). destruct (Q s) as (S1 & S2 & S3 & S4 & S5). unfold netif_addrs.
  destruct (fold_left (addr_one cfg) ias (T, s)) as [Ts s1]. cbn [fst snd] in *.
  assert (K : forall i, si_mnetif s = Some i -> si_mnetif s1 = Some i) by (intros i E; now rewrite S2, E).
  match goal with |- caps (snd ?x) = _ /\ _ => assert (R : snd x = s1) end.
  { destruct (negb _); [reflexivity|]. destruct (si_mnetif s1); [|reflexivity]. now destruct (netif_byindex Ts z). }
  rewrite R. now repeat split.
Qed.

(** ** The whole function *)
Definition base (n : netif) : Z * Z * list Z := (nf_index n, nf_device_identified n, nf_device_name n).
Lemma lookup_like {A} (g : netif -> A) (h : A -> Z) : (forall n, h (g n) = nf_index n) -> forall T T' i n, map g T = map g T' ->
  netif_byindex T i = Some n -> exists n', netif_byindex T' i = Some n' /\ g n = g n'.
Proof.
  intros H. induction T as [|x T IH]; intros [|y T'] i n E B; try discriminate. cbn [map] in E. assert (E1 : g x = g y) by congruence. assert (E2 : map g T = map g T') by congruence.
  unfold netif_byindex in *. cbn [find] in *. rewrite <- (H x), E1, (H y) in B. destruct (nf_index y =? i).
  - injection B as <-. now exists y.
  - now apply IH.
Qed.
Lemma old_lookup S i : netif_byindex (map (set_type NETIF_OLD) S) i = option_map (set_type NETIF_OLD) (netif_byindex S i).
Proof. unfold netif_byindex. induction S as [|x S IH]; [reflexivity|]. cbn [map find]. change (nf_index (set_type NETIF_OLD x)) with (nf_index x). now destruct (nf_index x =? i). Qed.
Lemma old_indices S : indices (map (set_type NETIF_OLD) S) = indices S.
Proof. unfold indices. rewrite map_map. now apply map_ext. Qed.
Lemma carried_old os o ia i : carried os (option_map (set_type NETIF_OLD) o) ia i = carried os o ia i.
Proof. now destruct o. Qed.
Lemma all_forgotten os o o' ia i : sh true true true (carried os o ia i) = sh true true true (carried os o' ia i).
Proof. destruct o, o'; reflexivity. Qed.
Lemma join_like T T' : map (sh true true true) T = map (sh true true true) T' -> map dkey T = map dkey T' -> map (sh true true false) T = map (sh true true false) T'.
Proof.
  revert T'. induction T as [|x T IH]; intros [|y T'] H K; try discriminate; [reflexivity|].
  assert (H1 : sh true true true x = sh true true true y) by (cbn [map] in H; exact (f_equal (hd x) H)).
  assert (H2 : map (sh true true true) T = map (sh true true true) T') by (cbn [map] in H; exact (f_equal (@tl _) H)).
  cbn [map] in K. assert (K1 : dkey x = dkey y) by congruence. assert (K2 : map dkey T = map dkey T') by congruence.
  cbn [map]. rewrite (IH T' H2 K2). f_equal. unfold dkey in K1. injection K1 as _ _ K3 K4.
  change (sh true true false x) with (set_device (nf_device_identified x) (nf_device_name x) (sh true true true x)).
  change (sh true true false y) with (set_device (nf_device_identified y) (nf_device_name y) (sh true true true y)). now rewrite H1, K3, K4.
Qed.
Lemma type_not_old os i x : (netif_type os i x =? NETIF_OLD) = false.
Proof.
  unfold netif_type. cbv zeta. destruct (no_wireless os x); [reflexivity|]. destruct (no_device os i); [reflexivity|].
  destruct (no_vlan os x); [reflexivity|]. destruct (_ =? 0); [reflexivity|].
  repeat match goal with |- ((if ?c then _ else _) =? _) = false => destruct c; [reflexivity|] end. reflexivity.
Qed.
Lemma fetch_again cfg os ias S si ret T si1 gone X : no_ifaddrs os = Some ias -> NoDup (indices S) ->
  netif_fetch cfg os S si = (ret, T, si1, gone) -> map base X = map base T ->
  exists T', netif_fetch cfg os X si1 = (ret, T', si1, []) /\ map (sh true true false) T' = map (sh true true false) T.
Proof.
  intros EI HdS H HB. unfold netif_fetch in H. rewrite EI in H. cbv zeta in H.
  set (si0 := set_caps _ _ 0 si) in H.
  destruct (fold_left (fetch_one cfg os) ias (map (set_type NETIF_OLD) S, si0, 0)) as [[N1 s1] c] eqn:F1.
  pose proof (phase1_fold cfg os S HdS ias [] _ _ _ _ _ _ (phase1_start os S HdS) F1) as P1. cbn [app] in P1.
  pose proof (remove_phase2 os S 0 ias N1 s1 EI P1) as P2. pose proof (fun i => remove_gone os S 0 ias N1 s1 i EI P1) as PG.
  assert (M2 : forall i, si_mnetif s1 = Some i -> NetifProofs1.seen os ias i -> si_mnetif (snd (fst (remove_old N1 s1))) = Some i).
  { intros i Ei Hi. pose proof (PG i) as K. unfold remove_old in *. cbn [fst snd] in *. rewrite Ei.
    destruct (existsb _ _) eqn:EX; [|exact Ei]. exfalso. apply existsb_exists in EX. destruct EX as (j & J1 & J2). apply Z.eqb_eq in J2. subst j.
    apply K in J1. apply (proj2 J1). now apply (seen_usable os ias). }
  assert (R2 : caps (snd (fst (remove_old N1 s1))) = caps s1 /\ rest (snd (fst (remove_old N1 s1))) = rest s1 /\ si_hwaddr (snd (fst (remove_old N1 s1))) = si_hwaddr s1).
  { unfold remove_old. cbn [fst snd]. destruct (si_mnetif s1); [|now repeat split]. destruct (existsb _ _); now repeat split. }
  assert (SUB : forall n, In n (fst (fst (remove_old N1 s1))) -> In n N1) by (intros n; unfold remove_old; cbn [fst]; intros K; now apply filter_In in K).
  destruct (remove_old N1 s1) as [[N2 s2] g]. cbn [fst snd] in *. destruct P2 as (D2 & I2 & _). clear PG.
  assert (N2L : forall i n, netif_byindex N2 i = Some n -> exists ia, last_entry os ias i = Some ia /\ n = carried os (netif_byindex S i) ia i).
  { intros i n B. pose proof (proj2 (byindex_some _ _ _ B)) as Bi. apply byindex_some in B. destruct B as [B _]. pose proof (SUB n B) as B1.
    destruct P1 as (D1 & _ & _). pose proof (byindex_in N1 n D1 B1) as L. rewrite Bi in L.
    pose proof (tab_lookup cfg os _ _ _ _ _ _ _ i F1) as TL. rewrite L in TL.
    assert (SE : NetifProofs1.seen os ias i). { apply (seen_usable os ias i EI). apply I2. rewrite <- Bi. now apply in_map. }
    apply last_some in SE. destruct (last_entry os ias i) as [ia|]; [|congruence]. exists ia. split; [reflexivity|]. rewrite old_lookup, carried_old in TL. congruence. }
  set (N3 := fold_left (detect_one os) (map nf_index N2) N2) in H.
  assert (I3 : indices N3 = indices N2) by (apply core_index, detect_all_core).
  assert (K3 : map dkey N3 = map (named os) (map dkey N2)) by now apply detect_all_dkey.
  destruct (netif_addrs cfg ias N3 s2) as [N4 s4] eqn:A4.
  assert (KT : map dkey T = map dkey N3).
  { pose proof (addrs_dkey cfg ias N3 s2) as K4. rewrite A4 in K4. cbn [fst] in K4. destruct (0 <? zlen (nc_ifl cfg)); [|congruence].
    pose proof (argv_dkey (nc_ifl cfg) N4 0) as K5. destruct (argv_loop (nc_ifl cfg) N4 0) as [N5 c5]. cbn [fst] in K5. congruence. }
  set (s5 := match N4 with n :: _ => set_chassis (nf_hwaddr n) s4 | [] => s4 end) in H.
  assert (E5 : si1 = s5) by (destruct (0 <? zlen (nc_ifl cfg)); [destruct (argv_loop (nc_ifl cfg) N4 0)|]; congruence).
  assert (IX : indices X = indices N2).
  { assert (K : indices X = indices T). { apply (f_equal (map (fun x => fst (fst x)))) in HB. rewrite !map_map in HB. exact HB. }
    rewrite K. pose proof (keys_indices _ _ KT) as K1. rewrite K1. rewrite <- (keys_indices (map dkey N3) N3 eq_refl). exact I3. }
  assert (HdX : NoDup (indices X)) by now rewrite IX.
  (* the second time *)
  unfold netif_fetch. rewrite EI. cbv zeta. set (t0 := set_caps _ _ 0 si1).
  destruct (fold_left (fetch_one cfg os) ias (map (set_type NETIF_OLD) X, t0, 0)) as [[O1 t1] c'] eqn:G1.
  assert (CC : c' = c). { pose proof (tab_count cfg os ias (map (set_type NETIF_OLD) X) (map (set_type NETIF_OLD) S) t0 si0 0) as K. rewrite F1, G1 in K. exact K. }
  subst c'.
  assert (OI : indices O1 = indices N2).
  { rewrite (tab_indices cfg os (map (set_type NETIF_OLD) X) t0 0 ias O1 t1 c); [now rewrite old_indices| |exact G1]. intros i Hi. rewrite old_indices, IX. apply I2. now apply (seen_usable os ias). }
  assert (OL : forall i n, netif_byindex O1 i = Some n -> exists ia, last_entry os ias i = Some ia /\ n = carried os (netif_byindex X i) ia i).
  { intros i n B. pose proof (tab_lookup cfg os _ _ _ _ _ _ _ i G1) as TL. rewrite B in TL.
    assert (SE : NetifProofs1.seen os ias i).
    { apply (seen_usable os ias i EI). apply I2. rewrite <- OI. apply byindex_some in B. destruct B as [B1 <-]. now apply in_map. }
    apply last_some in SE. destruct (last_entry os ias i) as [ia|]; [|congruence]. exists ia. split; [reflexivity|]. rewrite old_lookup, carried_old in TL. congruence. }
  assert (OO : filter (fun n => nf_type n =? NETIF_OLD) O1 = [] /\ filter (fun n => negb (nf_type n =? NETIF_OLD)) O1 = O1).
  { assert (K : forall n, In n O1 -> (nf_type n =? NETIF_OLD) = false).
    { intros n Hn. assert (HdO : NoDup (indices O1)) by now rewrite OI. pose proof (byindex_in O1 n HdO Hn) as L. destruct (OL _ _ L) as (ia & _ & ->).
      assert (TY : forall o, nf_type (carried os o ia (nf_index n)) = netif_type os (nf_index n) (ia_name ia)) by (intros [|]; reflexivity). rewrite TY.
      apply type_not_old. }
    clear - K. induction O1 as [|n l IH]; [now split|]. cbn [filter]. rewrite (K n (or_introl eq_refl)). cbn [negb].
    destruct IH as [H1 H2]; [intros m Hm; apply K; now right|]. now rewrite H1, H2. }
  unfold remove_old. rewrite (proj1 OO), (proj2 OO). cbn [map existsb].
  replace (match si_mnetif t1 with Some _ => t1 | None => t1 end) with t1 by (now destruct (si_mnetif t1)).
  (* tables *)
  assert (L3 : map (sh true true true) O1 = map (sh true true true) N2).
  { apply same_tables; [exact OI|now rewrite OI|]. intros i n n' B B'. destruct (OL i n B) as (ia & L & ->). destruct (N2L i n' B') as (ia' & L' & ->).
    assert (ia = ia') by congruence. subst ia'. apply all_forgotten. }
  assert (KO : map dkey O1 = map dkey T).
  { apply same_tables; [rewrite (keys_indices _ _ KT), <- (keys_indices (map dkey N3) N3 eq_refl), I3; exact OI|now rewrite OI|].
    intros i n n' B B'. destruct (OL i n B) as (ia & L & ->).
    destruct (lookup_like base (fun x => fst (fst x)) (fun _ => eq_refl) T X i n' (eq_sym HB) B') as (x & Bx & Ex). rewrite Bx.
    destruct (lookup_like dkey (fun k => fst (fst (fst k))) (fun _ => eq_refl) T N3 i n' KT B') as (y & By & Ey).
    pose proof (detect_all_core os (map nf_index N2) N2) as CO. fold N3 in CO.
    destruct (lookup_like core (fun x => fst (fst (fst (fst (fst (fst x)))))) (fun _ => eq_refl) N3 N2 i y CO By) as (z & Bz & Ez).
    destruct (N2L i z Bz) as (ia' & L' & ->). assert (ia = ia') by congruence. subst ia'.
    assert (TY : nf_type n' = netif_type os i (ia_name ia)).
    { unfold dkey in Ey. injection Ey as _ Ey _ _. rewrite Ey. unfold core in Ez. injection Ez as _ _ Ez _ _ _ _. rewrite Ez. now destruct (netif_byindex S i). }
    pose proof (proj2 (byindex_some _ _ _ B')) as NI. unfold base in Ex. injection Ex as _ Ex1 Ex2.
    unfold dkey. cbn [carried]. cbn [fresh_netif nf_index nf_type nf_device_identified nf_device_name]. now rewrite NI, TY, Ex1, Ex2. }
  set (O3 := fold_left (detect_one os) (map nf_index O1) O1).
  assert (KO3 : map dkey O3 = map dkey N3).
  { unfold O3. rewrite detect_all_dkey by now rewrite OI. rewrite KO, KT, K3, !map_map. apply map_ext. intros k. apply named_twice. }
  assert (LO3 : map (sh true true true) O3 = map (sh true true true) N3).
  { unfold O3, N3. change (map nf_index O1) with (indices O1). rewrite OI. now apply detects_names. }
  pose proof (join_like O3 N3 LO3 KO3) as J3.
  (* system information *)
  destruct (sis_mnetif cfg os ias) as (r & Q1 & Q2).
  pose proof (fold_si cfg os ias (map (set_type NETIF_OLD) S) si0 0) as FS. rewrite F1 in FS. cbn [fst snd] in FS.
  pose proof (fold_si cfg os ias (map (set_type NETIF_OLD) X) t0 0) as FT. rewrite G1 in FT. cbn [fst snd] in FT.
  destruct (addrs_fields cfg ias N3 s2) as (A1 & A2 & A3 & A5). rewrite A4 in A1, A2, A3, A5. cbn [snd] in A1, A2, A3, A5.
  destruct R2 as (R21 & R22 & R23).
  assert (S5 : caps s5 = caps s4 /\ rest s5 = rest s4 /\ si_mnetif s5 = si_mnetif s4) by (unfold s5; destruct N4; now repeat split).
  destruct S5 as (S51 & S52 & S53).
  destruct (sis_rest cfg os ias si0) as [Z1 Z2]. destruct (sis_rest cfg os ias t0) as [Z3 Z4].
  assert (T0 : caps t0 = caps si0).
  { unfold t0, si0, caps. cbn [set_caps si_cap si_cap_active si_physif_count]. rewrite E5. unfold caps in S51, A1, R21. rewrite FS in R21.
    injection S51 as B1 B2 _. injection A1 as B3 B4 _. injection R21 as B5 B6 _. rewrite B1, B2, B3, B4, B5, B6. fold keep.
    destruct (sis_keep cfg os ias si0) as [Y1 Y2]. rewrite Y1, Y2. unfold si0. cbn [set_caps si_cap si_cap_active]. fold keep.
    rewrite <- !Z.land_assoc, Z.land_diag. reflexivity. }
  assert (T1 : caps t1 = caps s4) by (rewrite FT, A1, R21, FS; now apply sis_caps).
  assert (RS : rest t1 = rest s4). { rewrite FT, Z3, A2, R22, FS, Z1. change (rest t0) with (rest si1). rewrite E5, S52, A2, R22, FS, Z1. reflexivity. }
  assert (MT : si_mnetif t1 = si_mnetif s4).
  { rewrite FT, Q1. change (si_mnetif t0) with (si_mnetif si1). rewrite E5, S53. destruct r as [i|]; [|reflexivity]. symmetry. apply A5.
    apply M2; [now rewrite FS, Q1|now apply Q2]. }
  assert (HT : si_hwaddr t1 = si_hwaddr s5) by (rewrite FT, Z4; change (si_hwaddr t0) with (si_hwaddr si1); now rewrite E5).
  assert (MT' : si_mnetif t1 = si_mnetif (snd (netif_addrs cfg ias N3 s2))) by (rewrite A4; exact MT).
  destruct (addrs_again cfg ias N3 s2 t1 MT') as [B1 B2].
  destruct (addrs_fields cfg ias N3 t1) as (C1 & C2 & C3 & _).
  pose proof (sh_addrs true true false cfg ias O3 t1) as U1. pose proof (sh_addrs true true false cfg ias N3 t1) as U2. rewrite J3, U2 in U1.
  destruct (netif_addrs cfg ias N3 t1) as [N4' t4]. rewrite A4 in B1. cbn [fst snd] in B1, B2, C1, C2, C3. subst N4'.
  destruct (netif_addrs cfg ias O3 t1) as [O4 t4'] eqn:AO. cbn [on2] in U1. assert (t4' = t4) by congruence. subst t4'.
  assert (J4 : map (sh true true false) O4 = map (sh true true false) N4) by congruence. clear U1 U2.
  set (t5 := match O4 with n :: _ => set_chassis (nf_hwaddr n) t4 | [] => t4 end).
  assert (E6 : t5 = si1).
  { rewrite E5. apply si_ext.
    - rewrite S51, <- T1, <- C1. unfold t5. now destruct O4.
    - rewrite S53, <- MT, <- B2. unfold t5. now destruct O4.
    - unfold t5. destruct O4 as [|x O4], N4 as [|y N4]; try discriminate J4.
      + rewrite C3. exact HT.
      + change (nf_hwaddr x = nf_hwaddr y). exact (f_equal (fun l => match l with z :: _ => nf_hwaddr z | [] => [] end) J4).
    - rewrite S52, <- RS, <- C2. unfold t5. now destruct O4. }
  rewrite E6. pose proof (sh_argv true true false (nc_ifl cfg) O4 0) as V1. pose proof (sh_argv true true false (nc_ifl cfg) N4 0) as V2. rewrite J4, V2 in V1.
  destruct (0 <? zlen (nc_ifl cfg)).
  - destruct (argv_loop (nc_ifl cfg) O4 0) as [O5 c5]. destruct (argv_loop (nc_ifl cfg) N4 0) as [N5 c5']. cbn [on2] in V1.
    assert (c5' = c5) by congruence. assert (map (sh true true false) O5 = map (sh true true false) N5) by congruence. subst c5'.
    exists O5. injection H as <- <- _ _. now split.
  - exists O4. injection H as <- <- _ _. now split.
Qed.
