(** Refreshing the interfaces and building frames do not look at what was heard:
    both commute with forgetting it. *)
From Verif Require Import Base Types Tlv Protos Wire Lldp Cdp Edp Fdp Ndp Util Child Netif Send.
From Verif Require Import Lemmas VisProofs VisProps.

Section Forget.
(** Forgotten are the update mark and, when [b], the enabled protocols, when [m], the
    count of link events, when [d], the device name. *)
Context (b m d : bool).
Definition sh (n : netif) : netif :=
  set_update 0 (set_protos (if b then 0 else nf_protos n) (set_link_event (if m then 0 else nf_link_event n)
    (set_device (if d then 0 else nf_device_identified n) (if d then [] else nf_device_name n) n))).
Notation shs := (map sh).
Definition commutes (f : netif -> netif) : Prop := forall n, f (sh n) = sh (f n).

Lemma sh_assign f i nfs : commutes f -> nf_assign f i (shs nfs) = shs (nf_assign f i nfs).
Proof.
  intros H. induction nfs as [|n nfs IH]; [reflexivity|]. cbn [map nf_assign].
  change (nf_index (sh n)) with (nf_index n). destruct (nf_index n =? i); cbn [map]; [now rewrite H|now rewrite IH].
Qed.
Lemma sh_find (P : netif -> bool) nfs : (forall n, P (sh n) = P n) -> find P (shs nfs) = option_map sh (find P nfs).
Proof. intros H. induction nfs as [|n nfs IH]; [reflexivity|]. cbn [map find]. rewrite H. now destruct (P n). Qed.
Lemma sh_byindex nfs i : netif_byindex (shs nfs) i = option_map sh (netif_byindex nfs i).
Proof. now apply sh_find. Qed.
Lemma sh_byname nfs x : netif_byname (shs nfs) x = option_map sh (netif_byname nfs x).
Proof. now apply sh_find. Qed.
Lemma sh_filter (P : netif -> bool) nfs : (forall n, P (sh n) = P n) -> filter P (shs nfs) = shs (filter P nfs).
Proof. intros H. induction nfs as [|n nfs IH]; [reflexivity|]. cbn [map filter]. rewrite H, IH. now destruct (P n). Qed.
Lemma sh_index nfs : map nf_index (shs nfs) = map nf_index nfs.
Proof. rewrite map_map. now apply map_ext. Qed.
Lemma sh_member par last sub c la nfs : add_member par last sub c la (shs nfs) = shs (add_member par last sub c la nfs).
Proof. unfold add_member. rewrite sh_assign by easy. now rewrite sh_assign. Qed.

Lemma sh_bond_loop os par pn : forall k i last nfs, bond_loop os par pn k i last (shs nfs) = shs (bond_loop os par pn k i last nfs).
Proof.
  induction k as [|k IH]; intros i last nfs; [reflexivity|]. cbn [bond_loop].
  destruct (no_slave os pn i) as [[name state]|]; [|apply IH]. rewrite sh_byname.
  destruct (netif_byname nfs name) as [s|]; cbn [option_map]; [|apply IH].
  change (nf_type (sh s)) with (nf_type s). change (nf_index (sh s)) with (nf_index s).
  destruct (nf_type s <? NETIF_PARENT); [|apply IH]. rewrite sh_member. apply IH.
Qed.
Lemma sh_bridge_loop par : forall ports last nfs, bridge_loop par ports last (shs nfs) = shs (bridge_loop par ports last nfs).
Proof.
  induction ports as [|i ports IH]; intros last nfs; [reflexivity|]. cbn [bridge_loop]. rewrite sh_byindex.
  destruct (netif_byindex nfs i) as [s|]; cbn [option_map]; [|apply IH].
  change (nf_type (sh s)) with (nf_type s). change (nf_index (sh s)) with (nf_index s).
  destruct (nf_type s <? NETIF_PARENT); [|apply IH]. rewrite sh_member. apply IH.
Qed.
Lemma sh_team_loop par c : forall ports last nfs, team_loop par c ports last (shs nfs) = shs (team_loop par c ports last nfs).
Proof.
  induction ports as [|i ports IH]; intros last nfs; [reflexivity|]. cbn [team_loop]. rewrite sh_byindex.
  destruct (netif_byindex nfs i) as [s|]; cbn [option_map]; [|apply IH].
  change (nf_type (sh s)) with (nf_type s). change (nf_index (sh s)) with (nf_index s).
  destruct (NETIF_PARENT <? nf_type s); [apply IH|]. rewrite sh_member. apply IH.
Qed.
Lemma sh_team os p nfs : netif_team os (sh p) (shs nfs) = shs (netif_team os p nfs).
Proof.
  unfold netif_team. change (nf_index (sh p)) with (nf_index p).
  destruct (no_team os (nf_index p)) as [[[mode ports] active]|]; [|reflexivity].
  rewrite sh_assign by easy. rewrite sh_team_loop. destruct (mode =? NETIF_BONDING_FAILOVER); [|reflexivity]. now rewrite sh_assign.
Qed.
Lemma sh_bond os p nfs : netif_bond os (sh p) (shs nfs) = shs (netif_bond os p nfs).
Proof.
  unfold netif_bond. change (nf_index (sh p)) with (nf_index p). change (nf_name (sh p)) with (nf_name p).
  destruct (no_bond os (nf_name p)) as [[mode slaves]|]; [|reflexivity].
  destruct (mode =? BOND_MODE_8023AD); [rewrite sh_assign by easy; apply sh_bond_loop|].
  destruct (mode =? BOND_MODE_ACTIVEBACKUP); [rewrite sh_assign by easy|]; apply sh_bond_loop.
Qed.
Lemma sh_bridge os p nfs : netif_bridge os (sh p) (shs nfs) = shs (netif_bridge os p nfs).
Proof.
  unfold netif_bridge. change (nf_index (sh p)) with (nf_index p). change (nf_name (sh p)) with (nf_name p).
  destruct (no_bridge os (nf_name p)); [|reflexivity]. apply sh_bridge_loop.
Qed.
Lemma sh_vlan os p nfs : netif_vlan os (sh p) (shs nfs) = shs (netif_vlan os p nfs).
Proof.
  unfold netif_vlan. change (nf_index (sh p)) with (nf_index p). change (nf_name (sh p)) with (nf_name p).
  change (nf_vlan_id (sh p)) with (nf_vlan_id p).
  destruct (no_vlan os (nf_name p)); [|reflexivity]. rewrite sh_byname.
  destruct (netif_byname nfs l); [|reflexivity]. cbn [option_map]. now rewrite sh_assign.
Qed.
Lemma sh_device os p nfs : d = false -> netif_device_id os (sh p) (shs nfs) = shs (netif_device_id os p nfs).
Proof.
  intros D. unfold netif_device_id. change (nf_index (sh p)) with (nf_index p).
  change (nf_device_identified (sh p)) with (if d then 0 else nf_device_identified p).
  change (nf_device_name (sh p)) with (if d then [] else nf_device_name p). rewrite D.
  destruct (negb _); [reflexivity|]. cbv zeta. rewrite sh_assign; [reflexivity|]. intros n. unfold sh. rewrite D. reflexivity.
Qed.
Lemma sh_detect os nfs i : d = false -> detect_one os (shs nfs) i = shs (detect_one os nfs i).
Proof.
  intros D. unfold detect_one. rewrite sh_byindex. destruct (netif_byindex nfs i) as [n|]; [|reflexivity]. cbn [option_map].
  change (nf_type (sh n)) with (nf_type n).
  destruct (nf_type n =? NETIF_TEAMING); [apply sh_team|]. destruct (nf_type n =? NETIF_BONDING); [apply sh_bond|].
  destruct (nf_type n =? NETIF_BRIDGE); [apply sh_bridge|]. destruct (nf_type n =? NETIF_VLAN); [apply sh_vlan|].
  destruct (nf_type n =? NETIF_REGULAR); [now apply sh_device|reflexivity].
Qed.
Lemma sh_detects os : d = false -> forall l nfs, fold_left (detect_one os) l (shs nfs) = shs (fold_left (detect_one os) l nfs).
Proof. intros D. induction l as [|i l IH]; intros nfs; [reflexivity|]. cbn [fold_left]. rewrite sh_detect by assumption. apply IH. Qed.
(** Leaving the device names aside. *)
Lemma detect_names os T T' i : d = true -> shs T = shs T' -> shs (detect_one os T i) = shs (detect_one os T' i).
Proof.
  intros D E. pose proof (sh_byindex T i) as B1. pose proof (sh_byindex T' i) as B2. rewrite E, B2 in B1. unfold detect_one.
  destruct (netif_byindex T i) as [n|], (netif_byindex T' i) as [n'|]; cbn [option_map] in B1; try discriminate; [|assumption].
  assert (S : sh n = sh n') by congruence. clear B1 B2.
  assert (ET : nf_type n = nf_type n') by exact (f_equal nf_type S). rewrite <- ET.
  destruct (nf_type n =? NETIF_TEAMING); [now rewrite <- !sh_team, S, E|]. destruct (nf_type n =? NETIF_BONDING); [now rewrite <- !sh_bond, S, E|].
  destruct (nf_type n =? NETIF_BRIDGE); [now rewrite <- !sh_bridge, S, E|]. destruct (nf_type n =? NETIF_VLAN); [now rewrite <- !sh_vlan, S, E|].
  destruct (nf_type n =? NETIF_REGULAR); [|assumption].
  assert (K : forall q X, shs (netif_device_id os q X) = shs X).
  { intros q X. unfold netif_device_id. destruct (negb _); [reflexivity|]. cbv zeta.
    induction X as [|x X IH]; [reflexivity|]. cbn [nf_assign]. destruct (nf_index x =? nf_index q); cbn [map]; [|now rewrite IH].
    f_equal. unfold sh. rewrite D. reflexivity. }
  now rewrite !K.
Qed.
Lemma detects_names os : d = true -> forall l T T', shs T = shs T' -> shs (fold_left (detect_one os) l T) = shs (fold_left (detect_one os) l T').
Proof. intros D. induction l as [|i l IH]; intros T T' E; [exact E|]. cbn [fold_left]. apply IH. now apply detect_names. Qed.

Definition on3 (x : list netif * sysinfo * Z) := let '(nfs, si, c) := x in (shs nfs, si, c).
Definition on2 {A} (x : list netif * A) := let '(nfs, si) := x in (shs nfs, si).
Lemma sh_fetch_one cfg os x ia : d = false -> fetch_one cfg os (on3 x) ia = on3 (fetch_one cfg os x ia).
Proof.
  intros D. destruct x as [[nfs si] c]. cbn [on3]. unfold fetch_one. destruct (ia_addr ia) as [[h i a| | |]|]; try reflexivity.
  destruct (negb (h =? ARPHRD_ETHER)); [reflexivity|]. cbv zeta.
  destruct (netif_type os i (ia_name ia) =? NETIF_INVALID); [reflexivity|].
  destruct (negb _); [reflexivity|]. rewrite sh_byindex. cbn [on3]. f_equal. f_equal.
  destruct (netif_byindex nfs i) as [o|]; cbn [option_map].
  - change (nf_link_event (sh o)) with (if m then 0 else nf_link_event o).
    change (nf_device_identified (sh o)) with (if d then 0 else nf_device_identified o).
    change (nf_device_name (sh o)) with (if d then [] else nf_device_name o).
    change (nf_protos (sh o)) with (if b then 0 else nf_protos o).
    set (f0 := fresh_netif i (ia_name ia) (netif_type os i (ia_name ia)) (no_alias os i)).
    assert (K : f0 (if b then 0 else nf_protos o) (if m then 0 else nf_link_event o) (if d then 0 else nf_device_identified o) (if d then [] else nf_device_name o)
              = sh (f0 (nf_protos o) (nf_link_event o) (nf_device_identified o) (nf_device_name o))) by reflexivity.
    rewrite K. clear K. induction nfs as [|n nfs IH]; [reflexivity|]. cbn [map nf_assign].
    change (nf_index (sh n)) with (nf_index n). destruct (nf_index n =? i); cbn [map]; [reflexivity|now rewrite IH].
  - rewrite map_app. cbn [map]. do 2 f_equal. unfold sh. destruct b, m, d; reflexivity.
Qed.
Lemma sh_fetches cfg os : d = false -> forall ias x, fold_left (fetch_one cfg os) ias (on3 x) = on3 (fold_left (fetch_one cfg os) ias x).
Proof. intros D. induction ias as [|ia ias IH]; intros x; [reflexivity|]. cbn [fold_left]. rewrite sh_fetch_one by assumption. apply IH. Qed.
Lemma sh_remove nfs si : remove_old (shs nfs) si = let '(nfs', si', gone) := remove_old nfs si in (shs nfs', si', gone).
Proof.
  unfold remove_old. rewrite !sh_filter by easy. now rewrite sh_index.
Qed.
Lemma sh_addr_one cfg x ia : addr_one cfg (on2 x) ia = on2 (addr_one cfg x ia).
Proof.
  destruct x as [nfs si]. cbn [on2]. unfold addr_one. destruct (ia_addr ia) as [sa|]; [|reflexivity].
  rewrite sh_byname. destruct (netif_byname nfs (ia_name ia)) as [n|]; [|reflexivity]. cbn [option_map].
  change (nf_ipaddr4 (sh n)) with (nf_ipaddr4 n). change (nf_ipaddr6 (sh n)) with (nf_ipaddr6 n). change (nf_index (sh n)) with (nf_index n).
  destruct sa as [h i a|a|a|]; [| | |reflexivity].
  - cbn [on2]. now rewrite sh_assign.
  - destruct (addr_set (nf_ipaddr4 n)); [reflexivity|]. cbv zeta. rewrite sh_assign by easy. destruct (si_mnetif si); [reflexivity|].
    destruct (_ && _); reflexivity.
  - destruct (addr_set (nf_ipaddr6 n)); [reflexivity|]. destruct (linklocal a); [reflexivity|]. cbv zeta.
    rewrite sh_assign by easy. destruct (si_mnetif si); [reflexivity|]. destruct (_ && _); reflexivity.
Qed.
Lemma sh_addr_ones cfg : forall ias x, fold_left (addr_one cfg) ias (on2 x) = on2 (fold_left (addr_one cfg) ias x).
Proof. induction ias as [|ia ias IH]; intros x; [reflexivity|]. cbn [fold_left]. rewrite sh_addr_one. apply IH. Qed.
Lemma sh_addrs cfg ias nfs si : netif_addrs cfg ias (shs nfs) si = on2 (netif_addrs cfg ias nfs si).
Proof.
  unfold netif_addrs. change (shs nfs, si) with (on2 (nfs, si)). rewrite sh_addr_ones.
  destruct (fold_left (addr_one cfg) ias (nfs, si)) as [nfs1 si1]. cbn [on2].
  destruct (negb _); [reflexivity|]. destruct (si_mnetif si1) as [mi|]; [|reflexivity]. rewrite sh_byindex.
  destruct (netif_byindex nfs1 mi) as [mn|]; [|reflexivity]. cbn [option_map on2]. f_equal. rewrite !map_map. now apply map_ext.
Qed.
Lemma sh_argv : forall ifl nfs c, argv_loop ifl (shs nfs) c = on2 (argv_loop ifl nfs c).
Proof.
  induction ifl as [|x ifl IH]; intros nfs c; [reflexivity|]. cbn [argv_loop]. rewrite sh_byname.
  destruct (netif_byname nfs x) as [n|]; cbn [option_map]; [|apply IH]. change (nf_type (sh n)) with (nf_type n).
  destruct (nf_type n =? NETIF_VLAN); [apply IH|]. change (nf_index (sh n)) with (nf_index n). rewrite sh_assign by easy. apply IH.
Qed.
Lemma sh_fetch cfg os nfs si : d = false -> netif_fetch cfg os (shs nfs) si
  = let '(ret, nfs', si', gone) := netif_fetch cfg os nfs si in (ret, shs nfs', si', gone).
Proof.
  intros D. unfold netif_fetch. destruct (no_ifaddrs os) as [ias|]; [|reflexivity]. cbv zeta.
  replace (map (set_type NETIF_OLD) (shs nfs)) with (shs (map (set_type NETIF_OLD) nfs)) by (rewrite !map_map; now apply map_ext).
  match goal with |- context [fold_left (fetch_one cfg os) ias (shs ?n, ?s, 0)] => change (shs n, s, 0) with (on3 (n, s, 0)) end.
  rewrite sh_fetches by assumption. destruct (fold_left (fetch_one cfg os) ias _) as [[nfs1 si1] c]. cbn [on3].
  rewrite sh_remove. destruct (remove_old nfs1 si1) as [[nfs2 si2] gone]. rewrite sh_index, (sh_detects os D), sh_addrs.
  destruct (netif_addrs cfg ias _ si2) as [nfs4 si4]. cbn [on2].
  replace (match shs nfs4 with n :: _ => set_chassis (nf_hwaddr n) si4 | [] => si4 end)
    with (match nfs4 with n :: _ => set_chassis (nf_hwaddr n) si4 | [] => si4 end) by (destruct nfs4; reflexivity).
  destruct (0 <? zlen (nc_ifl cfg)); [|reflexivity]. rewrite sh_argv. destruct (argv_loop (nc_ifl cfg) nfs4 0) as [nfs5 c5]. reflexivity.
Qed.

(** ** Frames *)
Lemma sh_scan opts : forall l k, iter_scan opts (shs l) k = iter_scan opts l k.
Proof. induction l as [|n l IH]; intros k; [reflexivity|]. cbn [map iter_scan]. change (iter_skip opts (sh n)) with (iter_skip opts n). now rewrite IH. Qed.
Lemma sh_each opts nfs : netif_each opts (shs nfs) = shs (netif_each opts nfs).
Proof.
  unfold netif_each. rewrite map_length. generalize (S (length nfs)) as f. generalize (@None nat) as cur. intros cur f. revert cur.
  induction f as [|f IH]; intros cur; [reflexivity|]. cbn [netif_loop].
  assert (K : netif_iter opts cur (shs nfs) = netif_iter opts cur nfs).
  { unfold netif_iter. destruct cur; [rewrite skipn_map|]; apply sh_scan. }
  rewrite K. destruct (netif_iter opts cur nfs) as [k|]; [|reflexivity]. rewrite nth_error_map.
  destruct (nth_error nfs k); [|reflexivity]. cbn [option_map map]. now rewrite IH.
Qed.
Lemma sh_iter s n nfs : subif_iter (option_map sh s) (sh n) (shs nfs) = option_map sh (subif_iter s n nfs).
Proof.
  unfold subif_iter. destruct s as [s|]; cbn [option_map].
  - change (nf_index (sh s)) with (nf_index s). change (nf_index (sh n)) with (nf_index n). change (nf_subif (sh s)) with (nf_subif s).
    destruct (nf_index s =? nf_index n); [reflexivity|]. destruct (nf_subif s); [apply sh_byindex|reflexivity].
  - change (nf_type (sh n)) with (nf_type n). change (nf_subif (sh n)) with (nf_subif n).
    destruct (NETIF_PARENT <? nf_type n); [destruct (nf_subif n); [apply sh_byindex|reflexivity]|].
    destruct (nf_type n <? NETIF_REGULAR); reflexivity.
Qed.
Lemma sh_subifs n nfs : subif_each (sh n) (shs nfs) = shs (subif_each n nfs).
Proof.
  unfold subif_each. rewrite map_length. generalize (S (length nfs)) as f. intros f.
  enough (K : forall s, subif_loop f (option_map sh s) (sh n) (shs nfs) = shs (subif_loop f s n nfs)) by exact (K None).
  induction f as [|f IH]; intros s; [reflexivity|]. cbn [subif_loop]. rewrite sh_iter.
  destruct (subif_iter s n nfs) as [x|]; [|reflexivity]. cbn [option_map map]. f_equal. exact (IH (Some x)).
Qed.
Lemma sh_lldp_vlans : forall vs e, lldp_vlans (shs vs) e = lldp_vlans vs e.
Proof. induction vs as [|v vs IH]; intros e; [reflexivity|]. cbn [map lldp_vlans]. 
  change (nf_vlan_id (sh v)) with (nf_vlan_id v). change (nf_name (sh v)) with (nf_name v).
  destruct (lldp_private_tlv _ _ _ e); [|reflexivity]. apply IH. Qed.
Lemma sh_edp_vlans n : forall vs e, edp_vlans (sh n) (shs vs) e = edp_vlans n vs e.
Proof. induction vs as [|v vs IH]; intros e; [reflexivity|]. cbn [map edp_vlans].
  change (edp_vlan_tlv (sh n) (sh v)) with (edp_vlan_tlv n v). destruct (edp_vlan_tlv n v e); [|reflexivity]. apply IH. Qed.
Lemma sh_attached opts n par nfs : vlan_attached opts (sh n) (sh par) (shs nfs) = shs (vlan_attached opts n par nfs).
Proof. unfold vlan_attached. rewrite sh_each. now apply sh_filter. Qed.
Definition same_push (f g : enc -> option enc) : Prop := forall e, f e = g e.
Lemma push_same f g f' g' : same_push f f' -> same_push g g' -> same_push (f &&& g) (f' &&& g').
Proof. intros H1 H2 e. unfold andthen. rewrite H1. destruct (f' e); [apply H2|reflexivity]. Qed.
Lemma sh_parent (par : option netif) n : match option_map sh par with Some p => p | None => sh n end = sh (match par with Some p => p | None => n end).
Proof. now destruct par. Qed.
Lemma sh_build p opts c n par mgmt nfs si : d = false ->
  proto_build p opts c (sh n) (option_map sh par) (option_map sh mgmt) (shs nfs) si = proto_build p opts c n par mgmt nfs si.
Proof.
  intros D. unfold proto_build.
  assert (EC : cdp_packet p (sh n) (option_map sh par) (option_map sh mgmt) si = cdp_packet p n par mgmt si).
  { unfold cdp_packet. rewrite sh_parent. destruct par, mgmt; reflexivity. }
  destruct (p =? PROTO_LLDP).
  { unfold lldp_packet. rewrite !sh_parent. cbv zeta. set (par1 := match par with Some q => q | None => n end).
    replace (match option_map sh mgmt with Some m => m | None => sh par1 end) with (sh (match mgmt with Some m => m | None => par1 end)) by (now destruct mgmt).
    set (mg := match mgmt with Some q => q | None => par1 end). rewrite sh_attached.
    assert (DE : lldp_description opts (sh n) (sh par1) = lldp_description opts n par1).
    { unfold lldp_description. change (nf_device_name (sh n)) with (if d then [] else nf_device_name n). rewrite D. reflexivity. }
    rewrite DE.
    match goal with |- obind (?f ?x) _ = obind (?g ?y) _ => enough (K : same_push f g) by (rewrite (K x); reflexivity) end.
    repeat first [apply push_same; [|first [exact (fun e => eq_refl) | exact (sh_lldp_vlans _)]]|exact (fun e => eq_refl)]. }
  destruct (p =? PROTO_CDP); [exact EC|].
  destruct (p =? PROTO_EDP).
  { unfold edp_packet. rewrite !sh_parent, sh_attached. cbv zeta. set (par1 := match par with Some q => q | None => n end).
    match goal with |- obind (?f ?x) _ = obind (?g ?y) _ => enough (K : same_push f g) by (rewrite (K x); reflexivity) end.
    repeat first [apply push_same; [|first [exact (fun e => eq_refl) | exact (sh_edp_vlans _ _)]]|exact (fun e => eq_refl)]. }
  destruct (p =? PROTO_FDP); [destruct par, mgmt; reflexivity|].
  destruct (p =? PROTO_NDP); [destruct par; reflexivity|exact EC].
Qed.
End Forget.
