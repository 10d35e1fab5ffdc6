(** Device names and VLANs after a refresh. *)
From Verif Require Import Base Types Tlv Util Sysinfo Netif Bsd Spec SpecAdv SpecNetif SpecSend SpecNetif2 SpecSys SpecBsd.
From Verif Require Import Lemmas ChildProofs ChildProofs4 VisProofs NetifProofs1 NetifProofs2 NetifProofs3 NetifProofs6 NetifProofs8 NetifProofs9
  BsdProofs1 BsdProofs2 BsdProofs3.

(** ** Device names on Linux *)
Definition dv (n : netif) : Z * Z * Z * list Z := (nf_index n, nf_type n, nf_device_identified n, nf_device_name n).
Section dev.
Variable os : nos.
Definition upd (l : list Z) (d : Z * Z * Z * list Z) : Z * Z * Z * list Z :=
  let '(i, t, k, x) := d in
  if existsb (fun j => j =? i) l && (t =? 0) && (k =? 0)
  then (i, t, 1, if zlen (no_device_id os i) =? 0 then x else firstn 63 (cstr (no_device_id os i))) else d.
Lemma upd_cons i l d : upd l (upd [i] d) = upd (i :: l) d.
Proof.
  destruct d as [[[j t] k] x]. unfold upd at 2 3. cbn [existsb]. rewrite orb_false_r.
  destruct (i =? j) eqn:E; cbn [andb orb]; [|reflexivity]. destruct (t =? 0) eqn:T, (k =? 0) eqn:K; cbn [andb]; unfold upd;
    rewrite ?T, ?K; cbn [Z.eqb]; rewrite ?andb_false_r; reflexivity.
Qed.
Lemma add_member_dv par last sub ch la nfs : map dv (add_member par last sub ch la nfs) = map dv nfs.
Proof. unfold add_member. rewrite !assign_keeps; reflexivity. Qed.
Lemma bond_loop_dv par pn : forall k i last nfs, map dv (bond_loop os par pn k i last nfs) = map dv nfs.
Proof.
  induction k as [|k IH]; intros i last nfs; cbn [bond_loop]; [reflexivity|].
  destruct (no_slave os pn i) as [[nm st]|]; [|apply IH]. destruct (netif_byname nfs nm) as [s|]; [|apply IH].
  destruct (_ <? _); [|apply IH]. rewrite IH. apply add_member_dv.
Qed.
Lemma bridge_loop_dv par : forall ports last nfs, map dv (bridge_loop par ports last nfs) = map dv nfs.
Proof.
  induction ports as [|p ports IH]; intros last nfs; cbn [bridge_loop]; [reflexivity|].
  destruct (netif_byindex nfs p) as [s|]; [|apply IH]. destruct (_ <? _); [|apply IH]. rewrite IH. apply add_member_dv.
Qed.
Lemma team_loop_dv par ch : forall ports last nfs, map dv (team_loop par ch ports last nfs) = map dv nfs.
Proof.
  induction ports as [|p ports IH]; intros last nfs; cbn [team_loop]; [reflexivity|].
  destruct (netif_byindex nfs p) as [s|]; [|apply IH]. destruct (_ <? _); [apply IH|]. rewrite IH. apply add_member_dv.
Qed.
Lemma upd_other nfs i : NoDup (indices nfs) -> (forall n, In n nfs -> nf_index n = i -> nf_type n <> 0) -> map (fun n => upd [i] (dv n)) nfs = map dv nfs.
Proof.
  intros D H. apply map_ext_in. intros n Hn. unfold upd, dv. cbn [existsb]. rewrite orb_false_r. destruct (i =? nf_index n) eqn:E; [|reflexivity].
  specialize (H n Hn ltac:(lia)). now replace (nf_type n =? 0) with false by lia.
Qed.
Lemma detect_dv nfs i : NoDup (indices nfs) -> map dv (detect_one os nfs i) = map (fun n => upd [i] (dv n)) nfs.
Proof.
  intros D. unfold detect_one. destruct (netif_byindex nfs i) as [n|] eqn:B.
  2:{ symmetry. apply upd_other; [assumption|]. intros n Hn E. apply byindex_none in B. contradiction B. rewrite <- E. now apply in_map. }
  apply byindex_some in B as [B1 B2].
  assert (U : forall m, In m nfs -> nf_index m = i -> m = n).
  { intros m Hm Em. pose proof (byindex_in nfs n D B1) as P. pose proof (byindex_in nfs m D Hm) as Q. rewrite Em in Q. rewrite B2 in P. congruence. }
  assert (O : nf_type n <> 0 -> map (fun n => upd [i] (dv n)) nfs = map dv nfs).
  { intros T. apply upd_other; [assumption|]. intros m Hm Em. now rewrite (U m Hm Em). }
  destruct (nf_type n =? NETIF_TEAMING) eqn:E1.
  { rewrite O by (unfold NETIF_TEAMING in E1; lia). unfold netif_team. destruct (no_team os (nf_index n)) as [[[m p] a]|]; [|reflexivity]. cbv zeta. destruct (m =? _).
    - rewrite assign_keeps by reflexivity. rewrite team_loop_dv. now apply assign_keeps.
    - rewrite team_loop_dv. now apply assign_keeps. }
  destruct (nf_type n =? NETIF_BONDING) eqn:E2.
  { rewrite O by (unfold NETIF_BONDING in E2; lia). unfold netif_bond. destruct (no_bond os (nf_name n)) as [[m s]|]; [|reflexivity]. rewrite bond_loop_dv.
    destruct (m =? _); [now apply assign_keeps|]. destruct (m =? _); [now apply assign_keeps|reflexivity]. }
  destruct (nf_type n =? NETIF_BRIDGE) eqn:E3.
  { rewrite O by (unfold NETIF_BRIDGE in E3; lia). unfold netif_bridge. destruct (no_bridge os (nf_name n)); [apply bridge_loop_dv|reflexivity]. }
  destruct (nf_type n =? NETIF_VLAN) eqn:E4.
  { rewrite O by (unfold NETIF_VLAN in E4; lia). unfold netif_vlan. destruct (no_vlan os (nf_name n)); [|reflexivity].
    destruct (netif_byname nfs l); [|reflexivity]. now apply assign_keeps. }
  destruct (nf_type n =? NETIF_REGULAR) eqn:E5.
  2:{ symmetry. apply O. unfold NETIF_REGULAR in E5. lia. }
  assert (T0 : nf_type n = 0) by (unfold NETIF_REGULAR in E5; lia).
  unfold netif_device_id. destruct (nf_device_identified n =? 0) eqn:K; cbn [negb].
  2:{ apply map_ext_in. intros m Hm. unfold upd, dv. cbn [existsb]. rewrite orb_false_r. destruct (i =? nf_index m) eqn:E; [|reflexivity].
      rewrite (U m Hm) by lia. rewrite K. now rewrite andb_false_r. }
  assert (G : forall l, NoDup (indices l) -> incl l nfs -> map dv (nf_assign (set_device 1 (if zlen (no_device_id os (nf_index n)) =? 0 then nf_device_name n
      else firstn 63 (cstr (no_device_id os (nf_index n))))) (nf_index n) l) = map (fun m => upd [i] (dv m)) l).
  { induction l as [|m l IH]; intros N I; [reflexivity|]. unfold indices in N. cbn [map] in N. inversion N as [|? ? N1 N2]; subst. cbn [nf_assign map].
    destruct (nf_index m =? nf_index n) eqn:E; cbn [map]; f_equal.
    - rewrite (U m) by ((apply I; now left) || lia). unfold upd, dv. cbn [existsb set_device nf_index nf_type nf_device_identified nf_device_name].
      rewrite T0, K. now rewrite Z.eqb_refl.
    - symmetry. apply upd_other; [assumption|]. intros y Hy Ey. contradiction N1. replace (nf_index m) with (nf_index y) by lia. now apply in_map.
    - unfold upd, dv. cbn [existsb]. now replace (nf_index n =? nf_index m) with false by lia.
    - apply IH; [assumption|]. intros y Hy. apply I. now right. }
  apply G; [assumption|apply incl_refl].
Qed.
Lemma detect_fold_dv : forall l nfs, NoDup (indices nfs) -> map dv (fold_left (detect_one os) l nfs) = map (fun n => upd l (dv n)) nfs.
Proof.
  induction l as [|i l IH]; intros nfs D; cbn [fold_left]; [now apply map_ext; intros n; unfold upd, dv|].
  rewrite IH by (rewrite (core_index _ _ (detect_core os nfs i)); assumption).
  rewrite <- (map_map dv (upd l)), detect_dv, map_map by assumption. apply map_ext. intros n. apply upd_cons.
Qed.
Lemma addr_one_dv cfg nfs si ia : map dv (fst (addr_one cfg (nfs, si) ia)) = map dv nfs.
Proof.
  unfold addr_one. destruct (ia_addr ia) as [sa|]; [|reflexivity]. destruct (netif_byname nfs (ia_name ia)) as [n|]; [|reflexivity].
  destruct sa as [h i a|a|a|]; [now apply assign_keeps| | |reflexivity].
  - destruct (addr_set _); [reflexivity|]. destruct (si_mnetif si); [now apply assign_keeps|].
    destruct (_ && _); now apply assign_keeps.
  - destruct (addr_set _); [reflexivity|]. destruct (linklocal a); [reflexivity|].
    destruct (si_mnetif si); [now apply assign_keeps|]. destruct (_ && _); now apply assign_keeps.
Qed.
Lemma addr_fold_dv cfg : forall ias nfs si, map dv (fst (fold_left (addr_one cfg) ias (nfs, si))) = map dv nfs.
Proof.
  induction ias as [|ia ias IH]; intros nfs si; [reflexivity|]. cbn [fold_left]. pose proof (addr_one_dv cfg nfs si ia) as H.
  destruct (addr_one cfg (nfs, si) ia) as [a c]. cbn [fst] in H. now rewrite IH.
Qed.
Lemma addrs_dv cfg ias nfs si : map dv (fst (netif_addrs cfg ias nfs si)) = map dv nfs.
Proof.
  unfold netif_addrs. pose proof (addr_fold_dv cfg ias nfs si) as H.
  destruct (fold_left _ _ _) as [a c]. cbn [fst] in H. destruct (negb _); [assumption|].
  destruct (si_mnetif c) as [m|]; [|assumption]. destruct (netif_byindex a m) as [mn|]; [|assumption].
  cbn [fst]. rewrite map_map. rewrite <- H. now apply map_ext.
Qed.
Lemma argv_dv : forall ifl nfs c, map dv (fst (argv_loop ifl nfs c)) = map dv nfs.
Proof.
  induction ifl as [|x ifl IH]; intros nfs c; cbn [argv_loop]; [reflexivity|].
  destruct (netif_byname nfs x) as [n|]; [|apply IH]. destruct (_ =? _); [apply IH|]. rewrite IH. now apply assign_keeps.
Qed.
End dev.
Lemma fetch_devices cfg os nfs si ret nfs' si' gone ias : no_ifaddrs os = Some ias -> NoDup (indices nfs) ->
  netif_fetch cfg os nfs si = (ret, nfs', si', gone) ->
  forall n, In n nfs' -> identified nfs (no_device_id os (nf_index n)) n.
Proof.
  intros E D F. destruct (fetch_phases _ _ _ _ _ _ _ _ _ E F) as (si0 & nfs1 & si1 & count & si4 & nfs4 & _ & F1 & K).
  pose proof (phase1_fold cfg os nfs D ias [] _ _ _ _ _ _ (phase1_start os nfs D) F1) as P1. cbn [app] in P1.
  pose proof (remove_phase2 os nfs 0 ias nfs1 si1 E P1) as P2.
  destruct (remove_old nfs1 si1) as [[nfs2 si2] g]. cbn [fst] in P2. destruct K as (_ & A & _ & V). destruct P2 as (N2 & _ & X2).
  assert (M : map dv nfs' = map (fun n => upd os (map nf_index nfs2) (dv n)) nfs2).
  { rewrite <- detect_fold_dv by assumption. pose proof (addrs_dv cfg ias (fold_left (detect_one os) (map nf_index nfs2) nfs2) si2) as C4.
    rewrite A in C4. cbn [fst] in C4. rewrite <- C4. destruct V as [(_ & c & V & _)|(_ & -> & _)]; [|reflexivity].
    pose proof (argv_dv (nc_ifl cfg) nfs4 0) as C5. now rewrite V in C5. }
  intros n Hn. apply (in_map dv) in Hn. rewrite M in Hn. apply in_map_iff in Hn as (m & Em & Hm).
  destruct (X2 m Hm) as (ia & _ & _ & Fm).
  assert (B : device_before nfs (nf_index m) = (nf_device_identified m, nf_device_name m)).
  { unfold device_before. change (find (index_is (nf_index m)) nfs) with (netif_byindex nfs (nf_index m)). rewrite Fm at 2 3. unfold fresh_of.
    now destruct (netif_byindex nfs (nf_index m)). }
  unfold upd, dv in Em. replace (existsb (fun j => j =? nf_index m) (map nf_index nfs2)) with true in Em.
  2:{ symmetry. apply existsb_exists. exists (nf_index m). split; [now apply in_map|lia]. }
  cbn [andb] in Em. unfold identified.
  destruct ((nf_type m =? 0) && (nf_device_identified m =? 0)) eqn:C.
  - injection Em as E1 E2 E3 E4. rewrite <- E1, B, <- E2, C. split; [now rewrite <- E3|]. rewrite <- E4. rewrite cstr_before_nul.
    destruct (no_device_id os (nf_index m)) as [|c t]; [reflexivity|]. rewrite zlen_cons. pose proof (zlen_nonneg _ t).
    now replace (1 + zlen t =? 0) with false by lia.
  - injection Em as E1 E2 E3 E4. rewrite <- E1, B, <- E2, C. split; [now rewrite <- E3|now rewrite <- E4].
Qed.

(** ** BSD *)
Lemma sysctl_node d node : sysctl_name d = Some node <-> device_node d node.
Proof.
  unfold sysctl_name. pose proof (zap_split d) as ZS. set (s := zap_unit d) in *. set (u := skipn (length s) d) in *.
  assert (L : forall l : list Z, (zlen l =? 0) = false <-> l <> []).
  { intros l. rewrite Z.eqb_neq. split; intros H K; apply H; [now subst|now apply zlen_0]. }
  split.
  - destruct (zlen d =? 0); [discriminate|]. destruct (zlen u =? 0) eqn:U; [discriminate|]. intros [= <-]. exists s, u.
    split; [assumption|]. split; [now apply L|]. reflexivity.
  - intros (s' & u' & H & N & ->). apply stem_zap in H as [-> ->]. fold s u in N |- *.
    replace (zlen u =? 0) with false by (symmetry; now apply L).
    replace (zlen d =? 0) with false; [reflexivity|]. symmetry. apply L. intros K. apply N. unfold u. rewrite K. now destruct (length s).
Qed.
Section refresh.
Variables (cfg : ncfg) (pf : platform) (b : bos) (nfs nfs1 : list netif) (si : sysinfo) (ret : Z) (nfs' : list netif) (si' : sysinfo)
  (gone : list Z) (ias : list ifaddr).
Hypotheses (HR : b_refreshed cfg pf nfs si) (HI : indices nfs1 = indices nfs) (HA : bo_ifaddrs b = Some ias) (HK : b_ok b)
  (HF : bsd_fetch cfg pf b nfs1 si = (ret, nfs', si', gone)).
Lemma b_devices n t : In n nfs' -> b_device pf b (nf_index n) t -> identified nfs1 t n.
Proof.
  intros Hn H. pose proof (fetch_devices _ _ _ _ _ _ _ _ _ (lin_ias pf b ias HA) (nodup1 cfg pf nfs nfs1 si HR HI)
    (as_lin cfg pf b nfs nfs1 si ret nfs' si' gone ias HR HI HA HK HF) n Hn) as K.
  replace t with (no_device_id (lin pf b ias) (nf_index n)); [exact K|]. clear K.
  cbn [no_device_id lin]. unfold b_device in H. destruct pf; [|now symmetry]. unfold bsd_driver.
  pose proof (proj2 (proj2 (proj2 (proj2 (proj2 HK)))) (nf_index n)) as S. rewrite <- cstr_before_nul in H, S.
  rewrite firstn_all2 by (unfold zlen in S; lia). destruct (sysctl_name (cstr (bo_driver b (nf_index n)))) as [node|] eqn:E.
  - apply sysctl_node in E. assert (Q : forall nd, device_node (cstr (bo_driver b (nf_index n))) nd -> nd = node).
    { intros nd Hd. apply sysctl_node in Hd, E. congruence. }
    destruct H as [(nd & H1 & H2)|(-> & H)].
    + rewrite (Q nd H1) in H2. now rewrite H2.
    + now rewrite (H node E).
  - destruct H as [(nd & H1 & H2)|(-> & H)]; [|reflexivity]. apply sysctl_node in H1. congruence.
Qed.
Lemma last_ifr_app a : forall c x, last_ifr (a ++ c) x = last_ifr c (last_ifr a x).
Proof.
  induction a as [|ia a IH]; intros c x; [reflexivity|]. cbn [app last_ifr]. destruct (ia_addr ia) as [[| | |]|]; apply IH.
Qed.
Lemma last_ifr_link x : last_link ias x -> ifr ias = x.
Proof.
  intros (a & t & i & hw & r & E & N). unfold ifr. rewrite E, last_ifr_app. cbn [last_ifr ia_addr ia_name].
  assert (R : forall y, last_ifr r y = y).
  { clear E. induction r as [|e r IH]; intros y; [reflexivity|]. cbn [last_ifr]. pose proof (N e (or_introl eq_refl)) as K. unfold link_of in K.
    destruct (ia_addr e) as [[| | |]|]; try discriminate K; apply IH; intros z Hz; apply N; now right. }
  rewrite R. apply short15. apply (proj1 (apart b ias HA HK) (mkIfa x (Some (SALink t i hw)))). rewrite E. apply in_app_iff. right. now left.
Qed.
Lemma b_vlans x : last_link ias x -> forall v, In v nfs' ->
  (nf_vlan_id v, nf_vlan_parent v) = if nf_type v =? -1 then b_vlan_of b nfs' x else (0, 0).
Proof.
  intros L v Hv. destruct (b_exact cfg pf b nfs nfs1 si ret nfs' si' gone ias HR HI HA HK HF) as (T & _ & _ & _ & _ & _ & G).
  rewrite (G v Hv). destruct (nf_type v =? -1) eqn:E; [|reflexivity]. unfold vlan_of, b_vlan_of.
  pose proof (table_links pf b ias HA nfs' T) as F. pose proof (F v Hv) as Fv.
  cbn [no_vlan no_vid lin]. rewrite (index_of_link b ias HA HK _ _ Fv). destruct T as (_ & _ & T). destruct (T v Hv) as [(_ & K & _) _].
  apply (kind_bsd_type pf b _ _ (links_short b ias HA HK _ _ Fv)) in K as [K _]. rewrite K. change NETIF_VLAN with (-1). rewrite E.
  rewrite (last_ifr_link x L). destruct (bo_vlan b x) as [[dev tag]|]; [reflexivity|].
  destruct (find (name_is (repeat 88 16)) nfs') as [p|] eqn:P; [|reflexivity]. exfalso. apply find_some in P as [P1 P2].
  unfold name_is in P2. destruct (list_eq_dec Z.eq_dec (nf_name p) (repeat 88 16)) as [P3|]; [|discriminate].
  pose proof (links_short b ias HA HK _ _ (F p P1)) as S. rewrite P3 in S. vm_compute in S. now apply S.
Qed.
End refresh.
