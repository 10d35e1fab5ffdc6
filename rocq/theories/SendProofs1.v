(** All data fit their C fields in every state of the daemon. *)
From Verif Require Import Base Types Tlv Protos Wire Util Child Netif Sysinfo Send Spec SpecAdv SpecChild SpecNetif SpecSend.
From Verif Require Import Lemmas VisProofs VisProps ChildProofs ChildProofs4 NetifProofs1 NetifProofs2.

(** ** Strings *)
Lemma cstr_sub s x : In x (cstr s) -> In x s /\ x <> 0.
Proof.
  induction s as [|b s IH]; cbn; [easy|]. destruct (b =? 0) eqn:E; [easy|]. intros [->|H]; [split; [now left|lia]|].
  destruct (IH H). tauto.
Qed.
Lemma bytes_sub (a b : list Z) : (forall x, In x a -> In x b) -> bytes b -> bytes a.
Proof. unfold bytes. rewrite !Forall_forall. firstorder. Qed.
Lemma in_firstn {A} k (l : list A) x : In x (firstn k l) -> In x l.
Proof. revert l. induction k as [|k IH]; intros [|y l]; cbn; [easy..|]. intros [->|H]; [now left|right; now apply IH]. Qed.
Lemma len_firstn {A} k (l : list A) : zlen (firstn k l) <= Z.of_nat k.
Proof. unfold zlen. rewrite firstn_length. lia. Qed.
Lemma cstring_firstn k n s : bytes s -> ~ In 0 s -> Z.of_nat k < n -> cstring n (firstn k s).
Proof.
  intros B N K. split; [|split].
  - apply (bytes_sub _ s); [|assumption]. intros x. apply in_firstn.
  - intros H. now apply N, (in_firstn k).
  - pose proof (len_firstn k s). lia.
Qed.
Lemma cstring_cut k n s : bytes s -> Z.of_nat k < n -> cstring n (firstn k (cstr s)).
Proof.
  intros B K. apply cstring_firstn; [|intros H; now apply cstr_sub in H|assumption].
  apply (bytes_sub _ s); [|assumption]. intros x H. now apply cstr_sub in H.
Qed.
Lemma bytes_zeros k : bytes (repeat 0 k).
Proof. unfold bytes. apply Forall_forall. intros x H. apply repeat_spec in H. subst x. unfold byte. lia. Qed.

(** ** Interfaces *)
Lemma forall_assign (P : netif -> Prop) f i nfs : (forall n, P n -> P (f n)) -> Forall P nfs -> Forall P (nf_assign f i nfs).
Proof.
  intros H F. induction F as [|n nfs Hn F IH]; cbn; [constructor|]. destruct (nf_index n =? i); constructor; auto.
Qed.
Definition well (nfs : list netif) : Prop := Forall netif_ok nfs.
Lemma well_in nfs n : well nfs -> In n nfs -> netif_ok n.
Proof. unfold well. rewrite Forall_forall. auto. Qed.
Ltac okn := unfold netif_ok; cbn [nf_index nf_name nf_description nf_hwaddr nf_mtu nf_duplex nf_autoneg_supported
  nf_autoneg_enabled nf_autoneg_pmd nf_mau nf_ipaddr4 nf_ipaddr6 nf_vlan_id nf_lacp_index nf_device_name
  set_type set_hwaddr set_ips set_argv set_child set_subif set_bonding_mode set_vlan set_device set_media
  set_link_event set_protos set_update fresh_netif]; intuition.
Lemma ok_type v n : netif_ok n -> netif_ok (set_type v n). Proof. okn. Qed.
Lemma ok_hwaddr v n : bytes v -> zlen v = 6 -> netif_ok n -> netif_ok (set_hwaddr v n). Proof. okn. Qed.
Lemma ok_ips a b n : bytes a -> zlen a = 4 -> bytes b -> zlen b = 16 -> netif_ok n -> netif_ok (set_ips a b n). Proof. okn. Qed.
Lemma ok_argv v n : netif_ok n -> netif_ok (set_argv v n). Proof. okn. Qed.
Lemma ok_child c la p n : 0 <= la < 256 -> netif_ok n -> netif_ok (set_child c la p n). Proof. okn. Qed.
Lemma ok_subif v n : netif_ok n -> netif_ok (set_subif v n). Proof. okn. Qed.
Lemma ok_bonding v n : netif_ok n -> netif_ok (set_bonding_mode v n). Proof. okn. Qed.
Lemma ok_vlan a b n : 0 <= a < 65536 -> netif_ok n -> netif_ok (set_vlan a b n). Proof. okn. Qed.
Lemma ok_device a b n : cstring 64 b -> netif_ok n -> netif_ok (set_device a b n). Proof. okn. Qed.
Lemma ok_link v n : netif_ok n -> netif_ok (set_link_event v n). Proof. okn. Qed.
Lemma ok_protos v n : netif_ok n -> netif_ok (set_protos v n). Proof. okn. Qed.
Lemma ok_update v n : netif_ok n -> netif_ok (set_update v n). Proof. okn. Qed.
Lemma ok_lacp n : netif_ok n -> 0 <= nf_lacp_index n < 256. Proof. okn. Qed.
Lemma ok_name n : netif_ok n -> nf_name n <> []. Proof. okn. Qed.
Lemma ok_dev n : netif_ok n -> cstring 64 (nf_device_name n). Proof. okn. Qed.
Lemma ok_hw n : netif_ok n -> bytes (nf_hwaddr n) /\ zlen (nf_hwaddr n) = 6. Proof. okn. Qed.
Lemma ok_ip n : netif_ok n -> bytes (nf_ipaddr4 n) /\ zlen (nf_ipaddr4 n) = 4 /\ bytes (nf_ipaddr6 n) /\ zlen (nf_ipaddr6 n) = 16. Proof. okn. Qed.
Lemma ok_media m d s e p u n : 0 <= m < 65536 -> -128 <= d < 128 -> -128 <= s < 128 -> -128 <= e < 128 ->
  0 <= p < 65536 -> 0 <= u < 65536 -> netif_ok n -> netif_ok (set_media m d s e p u n).
Proof. okn. Qed.
Lemma ok_mtu n : netif_ok n -> 0 <= nf_mtu n < 65536. Proof. okn. Qed.
Lemma ok_idx n : netif_ok n -> 0 <= nf_index n < 4294967296. Proof. okn. Qed.
Lemma ok_fresh index name ty alias pr li id dev :
  cstring 16 name -> name <> [] -> 0 <= index < 4294967296 -> bytes alias -> cstring 64 dev ->
  netif_ok (fresh_netif index name ty alias pr li id dev).
Proof.
  intros (B & N & L) E I A D. unfold netif_ok, fresh_netif.
  cbn [nf_index nf_name nf_description nf_hwaddr nf_mtu nf_duplex nf_autoneg_supported
    nf_autoneg_enabled nf_autoneg_pmd nf_mau nf_ipaddr4 nf_ipaddr6 nf_vlan_id nf_lacp_index nf_device_name].
  repeat match goal with |- _ /\ _ => split end; try (lia || apply bytes_zeros || exact D || reflexivity).
  - apply (cstring_firstn 15 16); [assumption|assumption|reflexivity].
  - destruct name; [contradiction|discriminate].
  - apply (cstring_cut 63 64); [assumption|reflexivity].
Qed.

(** The probed media state. *)
Lemma lor16 a b : 0 <= a < 65536 -> 0 <= b < 65536 -> 0 <= Z.lor a b < 65536.
Proof.
  intros A B. split; [apply Z.lor_nonneg; lia|]. destruct (Z.eq_dec (Z.lor a b) 0) as [->|E]; [lia|].
  change 65536 with (2 ^ 16). apply Z.log2_lt_pow2; [assert (0 <= Z.lor a b) by (apply Z.lor_nonneg; lia); lia|].
  rewrite Z.log2_lor by lia. apply Z.max_lub_lt.
  - destruct (Z.eq_dec a 0) as [->|]; [reflexivity|]. apply Z.log2_lt_pow2; lia.
  - destruct (Z.eq_dec b 0) as [->|]; [reflexivity|]. apply Z.log2_lt_pow2; lia.
Qed.
Lemma land16 a b : 0 <= a < 65536 -> 0 <= b -> 0 <= Z.land a b < 65536.
Proof.
  intros A B. split; [apply Z.land_nonneg; lia|]. destruct (Z.eq_dec (Z.land a b) 0) as [->|E]; [lia|].
  assert (0 <= Z.land a b) by (apply Z.land_nonneg; lia).
  change 65536 with (2 ^ 16). apply Z.log2_lt_pow2; [lia|].
  eapply Z.le_lt_trans; [apply Z.log2_land; lia|]. apply Z.min_lt_iff. left.
  destruct (Z.eq_dec a 0) as [->|]; [reflexivity|]. apply Z.log2_lt_pow2; lia.
Qed.
Lemma pmd_range adv : forall l a, 0 <= a < 65536 -> Forall (fun x => 0 <= snd x < 65536) l ->
  0 <= fold_left (fun acc (x : Z * Z) => if has adv (fst x) then Z.lor acc (snd x) else acc) l a < 65536.
Proof.
  induction l as [|x l IH]; intros a A F; cbn [fold_left]; [assumption|]. inversion F; subst.
  apply IH; [|assumption]. destruct (has adv (fst x)); [now apply lor16|assumption].
Qed.
Lemma mau_range e d : 0 <= mau_type e d < 65536.
Proof.
  unfold mau_type. repeat match goal with |- context [if ?b then _ else _] => destruct b end; lia.
Qed.
Lemma ok_probed os n : netif_ok n -> netif_ok (netif_media os n).
Proof.
  intros H. unfold netif_media. cbv zeta.
  set (mtu := match no_mtu os (nf_name n) with Some m => m mod 65536 | None => nf_mtu n end).
  assert (M : 0 <= mtu < 65536).
  { subst mtu. destruct (no_mtu os (nf_name n)); [apply Z.mod_pos_bound; lia|now apply ok_mtu]. }
  destruct (negb _); [apply ok_media; lia || assumption|].
  destruct (no_ecmd os (nf_index n)) as [e|]; [|apply ok_media; lia || assumption].
  assert (D : -128 <= (if ec_duplex e =? 1 then 1 else 0) < 128) by (destruct (ec_duplex e =? 1); lia).
  destruct (has _ _).
  - apply ok_media; try (assumption || lia || apply mau_range); [destruct (ec_autoneg e =? 1); lia|].
    apply pmd_range; [lia|]. unfold ecmd_to_lldp_pmd. repeat constructor; cbn; lia.
  - apply ok_media; try (assumption || lia || apply mau_range).
Qed.

(** ** Refreshing the table *)
Lemma well_member par last sub c la nfs : 0 <= la < 256 -> well nfs -> well (add_member par last sub c la nfs).
Proof.
  intros L W. unfold add_member. apply forall_assign; [intros n; apply ok_subif|].
  apply forall_assign; [intros n; now apply ok_child|assumption].
Qed.
Lemma well_bond os par pn : forall k i last nfs, well nfs -> well (bond_loop os par pn k i last nfs).
Proof.
  induction k as [|k IH]; intros i last nfs W; cbn [bond_loop]; [assumption|].
  destruct (no_slave os pn i) as [[x st]|]; [|now apply IH]. destruct (netif_byname nfs x) as [s|]; [|now apply IH].
  destruct (_ <? _); [|now apply IH]. apply IH, well_member; [apply Z.mod_pos_bound; lia|assumption].
Qed.
Lemma well_bridge par : forall ports last nfs, well nfs -> well (bridge_loop par ports last nfs).
Proof.
  induction ports as [|i ports IH]; intros last nfs W; cbn [bridge_loop]; [assumption|].
  destruct (netif_byindex nfs i) as [s|] eqn:E; [|now apply IH]. destruct (_ <? _); [|now apply IH].
  apply IH, well_member; [|assumption]. apply byindex_some in E as [E _]. apply ok_lacp. now apply (well_in nfs).
Qed.
Lemma well_team par ch : forall ports last nfs, well nfs -> well (team_loop par ch ports last nfs).
Proof.
  induction ports as [|i ports IH]; intros last nfs W; cbn [team_loop]; [assumption|].
  destruct (netif_byindex nfs i) as [s|] eqn:E; [|now apply IH]. destruct (_ <? _); [now apply IH|].
  apply IH, well_member; [|assumption]. apply byindex_some in E as [E _]. apply ok_lacp. now apply (well_in nfs).
Qed.
Lemma well_detect os i nfs : os_ok os -> well nfs -> well (detect_one os nfs i).
Proof.
  intros (_ & _ & O) W. unfold detect_one. destruct (netif_byindex nfs i) as [n|] eqn:E; [|assumption].
  apply byindex_some in E as [E _]. pose proof (well_in _ _ W E) as N.
  destruct (_ =? _).
  { unfold netif_team. destruct (no_team os (nf_index n)) as [[[mode ports] active]|]; [|assumption]. cbv zeta.
    assert (W2 : well (team_loop (nf_index n) (if mode =? NETIF_BONDING_FAILOVER then NETIF_CHILD_BACKUP else NETIF_CHILD_ACTIVE)
                    ports (nf_index n) (nf_assign (set_bonding_mode mode) (nf_index n) nfs))).
    { apply well_team, forall_assign; [intros m; apply ok_bonding|assumption]. }
    destruct (mode =? _); [|assumption]. apply forall_assign; [|assumption]. intros m M. apply ok_child; [now apply ok_lacp|assumption]. }
  destruct (_ =? _).
  { unfold netif_bond. destruct (no_bond os (nf_name n)) as [[mode k]|]; [|assumption]. apply well_bond.
    destruct (_ =? _); [apply forall_assign; [intros m; apply ok_bonding|assumption]|].
    destruct (_ =? _); [apply forall_assign; [intros m; apply ok_bonding|assumption]|assumption]. }
  destruct (_ =? _).
  { unfold netif_bridge. destruct (no_bridge os (nf_name n)); [now apply well_bridge|assumption]. }
  destruct (_ =? _).
  { unfold netif_vlan. destruct (no_vlan os (nf_name n)) as [d|]; [|assumption]. destruct (netif_byname nfs d) as [p|]; [|assumption].
    apply forall_assign; [|assumption]. intros m. apply ok_vlan.
    destruct (no_vid os (nf_name n)); [apply Z.mod_pos_bound; lia|]. unfold netif_ok in N. tauto. }
  destruct (_ =? _); [|assumption].
  unfold netif_device_id. destruct (negb _); [assumption|]. cbv zeta. apply forall_assign; [|assumption]. intros m. apply ok_device.
  destruct (_ =? _); [now apply ok_dev|]. apply (cstring_cut 63 64); [apply O|reflexivity].
Qed.
Lemma well_detects os : os_ok os -> forall l nfs, well nfs -> well (fold_left (detect_one os) l nfs).
Proof. intros O. induction l as [|i l IH]; intros nfs W; cbn; [assumption|]. apply IH, well_detect; assumption. Qed.
Lemma well_byname nfs x n : well nfs -> netif_byname nfs x = Some n -> netif_ok n.
Proof. intros W E. apply byname_in in E as [E _]. now apply (well_in nfs). Qed.
Lemma well_addr cfg nfs si ia : ifaddr_ok ia -> well nfs -> well (fst (addr_one cfg (nfs, si) ia)).
Proof.
  intros (_ & _ & A) W. unfold addr_one. destruct (ia_addr ia) as [sa|]; [|assumption].
  destruct (netif_byname nfs (ia_name ia)) as [n|] eqn:E; [|assumption].
  destruct (ok_ip n (well_byname _ _ _ W E)) as (P1 & P2 & P3 & P4).
  destruct sa as [t i hw|a|a|]; [|destruct A as [A1 A2]..|assumption].
  - destruct A as (_ & A1 & A2). cbn [fst]. apply forall_assign; [intros m; now apply ok_hwaddr|assumption].
  - destruct (addr_set _); [assumption|]. cbv zeta.
    assert (W1 : well (nf_assign (set_ips a (nf_ipaddr6 n)) (nf_index n) nfs)) by (apply forall_assign; [intros m; now apply ok_ips|assumption]).
    destruct (si_mnetif si); [assumption|]. destruct (_ && _); assumption.
  - destruct (addr_set _); [assumption|]. destruct (linklocal a); [assumption|]. cbv zeta.
    assert (W1 : well (nf_assign (set_ips (nf_ipaddr4 n) a) (nf_index n) nfs)) by (apply forall_assign; [intros m; now apply ok_ips|assumption]).
    destruct (si_mnetif si); [assumption|]. destruct (_ && _); assumption.
Qed.
Lemma well_addr_fold cfg : forall ias nfs si, Forall ifaddr_ok ias -> well nfs -> well (fst (fold_left (addr_one cfg) ias (nfs, si))).
Proof.
  induction ias as [|ia ias IH]; intros nfs si F W; cbn [fold_left]; [assumption|]. inversion F; subst.
  pose proof (well_addr cfg nfs si ia ltac:(assumption) W) as K.
  destruct (addr_one cfg (nfs, si) ia) as [nfs1 si1]. now apply IH.
Qed.
Lemma well_addrs cfg ias nfs si : Forall ifaddr_ok ias -> well nfs -> well (fst (netif_addrs cfg ias nfs si)).
Proof.
  intros F W. unfold netif_addrs. pose proof (well_addr_fold cfg ias nfs si F W) as K.
  destruct (fold_left (addr_one cfg) ias (nfs, si)) as [nfs1 si1]. cbn [fst] in K.
  destruct (negb _); [assumption|]. destruct (si_mnetif si1) as [m|]; [|assumption].
  destruct (netif_byindex nfs1 m) as [mn|] eqn:E; [|assumption]. cbn [fst].
  apply byindex_some in E as [E _]. destruct (ok_ip mn (well_in _ _ K E)) as (P1 & P2 & P3 & P4).
  apply Forall_map. eapply Forall_impl; [|exact K]. intros n Hn. now apply ok_ips.
Qed.
Lemma well_argv : forall ifl nfs c, well nfs -> well (fst (argv_loop ifl nfs c)).
Proof.
  induction ifl as [|x ifl IH]; intros nfs c W; cbn [argv_loop]; [assumption|].
  destruct (netif_byname nfs x) as [n|]; [|now apply IH]. destruct (_ =? _); [now apply IH|].
  apply IH, forall_assign; [intros m; apply ok_argv|assumption].
Qed.
Lemma well_one cfg os nfs si c ia : os_ok os -> ifaddr_ok ia -> well nfs -> well (fst (fst (fetch_one cfg os (nfs, si, c) ia))).
Proof.
  intros (_ & OA & _) (A1 & A2 & A3) W. unfold fetch_one. destruct (ia_addr ia) as [[t i hw|a|a|]|]; try assumption.
  destruct (negb _); [assumption|]. cbv zeta. destruct (_ =? _); [assumption|].
  destruct (no_flags os (firstn 15 (ia_name ia))) as [f|]; [|assumption]. destruct (has f IFF_UP); [|assumption]. cbn [negb fst].
  destruct A3 as (A3 & _). destruct (netif_byindex nfs i) as [o|] eqn:E.
  - apply byindex_some in E as [E _]. pose proof (ok_dev _ (well_in _ _ W E)) as D.
    apply forall_assign; [|assumption]. intros _ _. apply ok_fresh; try assumption. apply OA.
  - apply Forall_app. split; [assumption|]. constructor; [|constructor]. apply ok_fresh; try assumption; [apply OA|].
    split; [constructor|]. split; [easy|reflexivity].
Qed.
Lemma well_ones cfg os : os_ok os -> forall ias nfs si c, Forall ifaddr_ok ias -> well nfs ->
  well (fst (fst (fold_left (fetch_one cfg os) ias (nfs, si, c)))).
Proof.
  intros O. induction ias as [|ia ias IH]; intros nfs si c F W; cbn [fold_left]; [assumption|]. inversion F; subst.
  pose proof (well_one cfg os nfs si c ia O ltac:(assumption) W) as K.
  destruct (fetch_one cfg os (nfs, si, c) ia) as [[nfs1 si1] c1]. now apply IH.
Qed.
Lemma well_filter P nfs : well nfs -> well (filter P nfs).
Proof. unfold well. rewrite !Forall_forall. intros H n Hn. apply filter_In in Hn. now apply H. Qed.

(** ** The system information *)
(** What a refresh leaves alone, and the ranges of the rest. *)
Record si_keeps (a b : sysinfo) : Prop := mkKeeps {
  k_uts : si_uts_str b = si_uts_str a;
  k_rel : si_uts_rel b = si_uts_rel a;
  k_platform : si_platform b = si_platform a;
  k_host : si_hostname b = si_hostname a;
  k_country : si_country b = si_country a;
  k_location : si_location b = si_location a;
  k_med : si_cap_lldpmed b = si_cap_lldpmed a;
  k_dev : si_lldpmed_devtype b = si_lldpmed_devtype a;
  k_hinv : si_hinv b = si_hinv a }.
Lemma keeps_refl a : si_keeps a a. Proof. now constructor. Qed.
Lemma keeps_trans a b c : si_keeps a b -> si_keeps b c -> si_keeps a c.
Proof. intros [] []. constructor; congruence. Qed.
Lemma keeps_caps x y z a : si_keeps a (set_caps x y z a). Proof. now constructor. Qed.
Lemma keeps_mnetif m a : si_keeps a (set_mnetif m a). Proof. now constructor. Qed.
Lemma keeps_chassis h a : si_keeps a (set_chassis h a). Proof. now constructor. Qed.
Lemma sys_caps x y z si : 0 <= x < 65536 -> 0 <= y < 65536 -> 0 <= z < 65536 -> sysinfo_ok si -> sysinfo_ok (set_caps x y z si).
Proof. unfold sysinfo_ok. cbn. intuition. Qed.
Lemma sys_mnetif m si : sysinfo_ok si -> sysinfo_ok (set_mnetif m si). Proof. unfold sysinfo_ok. cbn. intuition. Qed.
Lemma sys_chassis h si : bytes h -> zlen h = 6 -> sysinfo_ok si -> sysinfo_ok (set_chassis h si).
Proof. unfold sysinfo_ok. cbn. intuition. Qed.
Lemma sys_ranges si : sysinfo_ok si -> 0 <= si_cap si < 65536 /\ 0 <= si_cap_active si < 65536 /\ 0 <= si_physif_count si < 65536.
Proof. unfold sysinfo_ok. intuition. Qed.
Definition sys_step (a b : sysinfo) : Prop := (sysinfo_ok a -> sysinfo_ok b) /\ si_keeps a b.
Lemma step_refl a : sys_step a a. Proof. split; [easy|apply keeps_refl]. Qed.
Lemma step_trans a b c : sys_step a b -> sys_step b c -> sys_step a c.
Proof. intros [A1 A2] [B1 B2]. split; [auto|eapply keeps_trans; eassumption]. Qed.
Lemma step_count ty up si : sys_step si (count_type ty up si).
Proof.
  unfold count_type. destruct (ty =? NETIF_REGULAR); [|destruct (ty =? NETIF_WIRELESS); [|destruct (ty =? NETIF_BRIDGE); [|apply step_refl]]].
  all: split; [|apply keeps_caps]; intros S; destruct (sys_ranges _ S) as (C1 & C2 & C3).
  - apply sys_caps; try assumption. apply Z.mod_pos_bound. lia.
  - apply sys_caps; try assumption; apply lor16; try assumption; destruct up; cbv; split; congruence.
  - apply sys_caps; try assumption; apply lor16; try assumption; destruct up; cbv; split; congruence.
Qed.
Lemma step_mnetif m si : sys_step si (set_mnetif m si).
Proof. split; [apply sys_mnetif|apply keeps_mnetif]. Qed.
Lemma step_one cfg os nfs si c ia : sys_step si (snd (fst (fetch_one cfg os (nfs, si, c) ia))).
Proof.
  unfold fetch_one. destruct (ia_addr ia) as [[t i hw|a|a|]|]; try apply step_refl.
  destruct (negb _); [apply step_refl|]. cbv zeta.
  set (up := match no_flags os _ with Some f => has f IFF_UP | None => false end).
  pose proof (step_count (netif_type os i (ia_name ia)) up si) as K.
  destruct (_ =? NETIF_INVALID); [exact K|]. destruct up; [|exact K]. cbn [negb fst snd].
  destruct (nc_mifname cfg) as [m|]; [|exact K]. destruct (beq _ m); [|exact K].
  eapply step_trans; [exact K|apply step_mnetif].
Qed.
Lemma step_ones cfg os : forall ias nfs si c, sys_step si (snd (fst (fold_left (fetch_one cfg os) ias (nfs, si, c)))).
Proof.
  induction ias as [|ia ias IH]; intros nfs si c; cbn [fold_left]; [apply step_refl|].
  pose proof (step_one cfg os nfs si c ia) as K. destruct (fetch_one cfg os (nfs, si, c) ia) as [[nfs1 si1] c1].
  eapply step_trans; [exact K|apply IH].
Qed.
Lemma step_addr cfg nfs si ia : sys_step si (snd (addr_one cfg (nfs, si) ia)).
Proof.
  unfold addr_one. destruct (ia_addr ia) as [sa|]; [|apply step_refl].
  destruct (netif_byname nfs (ia_name ia)) as [n|]; [|apply step_refl].
  destruct sa as [t i hw|a|a|]; try apply step_refl.
  - destruct (addr_set _); [apply step_refl|]. cbv zeta. destruct (si_mnetif si); [apply step_refl|].
    destruct (_ && _); [apply step_mnetif|apply step_refl].
  - destruct (addr_set _); [apply step_refl|]. destruct (linklocal a); [apply step_refl|]. cbv zeta. destruct (si_mnetif si); [apply step_refl|].
    destruct (_ && _); [apply step_mnetif|apply step_refl].
Qed.
Lemma step_addrs cfg ias nfs si : sys_step si (snd (netif_addrs cfg ias nfs si)).
Proof.
  unfold netif_addrs.
  assert (K : forall l a b, sys_step b (snd (fold_left (addr_one cfg) l (a, b)))).
  { induction l as [|ia l IH]; intros a b; cbn [fold_left]; [apply step_refl|].
    pose proof (step_addr cfg a b ia) as K. destruct (addr_one cfg (a, b) ia) as [a1 b1]. eapply step_trans; [exact K|apply IH]. }
  specialize (K ias nfs si). destruct (fold_left (addr_one cfg) ias (nfs, si)) as [nfs1 si1]. cbn [snd] in K.
  destruct (negb _); [exact K|]. destruct (si_mnetif si1) as [m|]; [|exact K]. destruct (netif_byindex nfs1 m); exact K.
Qed.
Lemma step_remove nfs si : sys_step si (snd (fst (remove_old nfs si))).
Proof.
  unfold remove_old. cbn [fst snd]. destruct (si_mnetif si) as [m|]; [|apply step_refl].
  destruct (existsb _ _); [apply step_mnetif|apply step_refl].
Qed.

Lemma fetch_well cfg os nfs si ret nfs' si' gone : os_ok os -> well nfs -> sysinfo_ok si ->
  netif_fetch cfg os nfs si = (ret, nfs', si', gone) -> well nfs' /\ sysinfo_ok si' /\ si_keeps si si'.
Proof.
  intros O W S. unfold netif_fetch. destruct (no_ifaddrs os) as [ias|] eqn:A.
  2:{ intros E. injection E as <- <- <- <-. split; [assumption|split; [assumption|apply keeps_refl]]. }
  pose proof (proj1 O _ A) as F. cbv zeta.
  set (si0 := set_caps _ _ 0 si). set (nfs0 := map (set_type NETIF_OLD) nfs).
  destruct (sys_ranges _ S) as (C1 & C2 & C3).
  assert (S0 : sysinfo_ok si0) by (apply sys_caps; try lia; try assumption; apply land16; try assumption; cbv; congruence).
  assert (W0 : well nfs0) by (apply Forall_map; eapply Forall_impl; [|exact W]; intros n; apply ok_type).
  pose proof (well_ones cfg os O ias nfs0 si0 0 F W0) as W1. pose proof (step_ones cfg os ias nfs0 si0 0) as [S1 K1].
  destruct (fold_left (fetch_one cfg os) ias (nfs0, si0, 0)) as [[nfs1 si1] count]. cbn [fst snd] in W1, S1, K1.
  pose proof (step_remove nfs1 si1) as [S2 K2].
  assert (W2 : well (fst (fst (remove_old nfs1 si1)))) by (unfold remove_old; cbn [fst]; now apply well_filter).
  destruct (remove_old nfs1 si1) as [[nfs2 si2] g]. cbn [fst snd] in W2, S2, K2.
  pose proof (well_detects os O (map nf_index nfs2) nfs2 W2) as W3. set (nfs3 := fold_left (detect_one os) _ nfs2) in *.
  pose proof (well_addrs cfg ias nfs3 si2 F W3) as W4. pose proof (step_addrs cfg ias nfs3 si2) as [S4 K4].
  destruct (netif_addrs cfg ias nfs3 si2) as [nfs4 si4]. cbn [fst snd] in W4, S4, K4.
  set (si5 := match nfs4 with [] => si4 | n :: _ => set_chassis (nf_hwaddr n) si4 end).
  assert (S5 : sysinfo_ok si5 /\ si_keeps si si5).
  { assert (K : si_keeps si si4).
    { eapply keeps_trans; [|exact K4]. eapply keeps_trans; [|exact K2]. eapply keeps_trans; [|exact K1]. apply keeps_caps. }
    subst si5. destruct nfs4 as [|n nfs4]; [split; [auto|exact K]|]. split; [|eapply keeps_trans; [exact K|apply keeps_chassis]].
    inversion W4; subst. destruct (ok_hw n ltac:(assumption)) as [G1 G2]. apply sys_chassis; auto. }
  destruct (0 <? zlen (nc_ifl cfg)).
  - pose proof (well_argv (nc_ifl cfg) nfs4 0 W4) as W5. destruct (argv_loop (nc_ifl cfg) nfs4 0) as [nfs5 c].
    intros E. injection E as _ <- <- _. tauto.
  - intros E. injection E as _ <- <- _. tauto.
Qed.
