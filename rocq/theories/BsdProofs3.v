(** What a refresh on BSD leaves. *)
From Verif Require Import Base Types Tlv Util Sysinfo Netif Bsd Spec SpecAdv SpecNetif SpecSend SpecNetif2 SpecSys SpecBsd.
From Verif Require Import Lemmas ChildProofs ChildProofs4 VisProofs NetifProofs1 NetifProofs2 NetifProofs3 NetifProofs6 NetifProofs9
  BsdProofs1 BsdProofs2.

Section transfer.
Variables (pf : platform) (b : bos) (ias : list ifaddr).
Hypothesis ias_b : bo_ifaddrs b = Some ias.
Hypothesis ok : b_ok b.
Let os := lin pf b ias.
Let rl := relabel pf b.
Lemma link_in x t i a : In (mkIfa x (Some (SALink t i a))) ias -> In (i, x) (links ias).
Proof. intros H. apply in_links. eexists. split; [exact H|reflexivity]. Qed.
Lemma accepted_iff t : accepted t = true <-> t = 6 \/ t = 209.
Proof. unfold accepted, IFT_BRIDGE, IFT_ETHER. lia. Qed.
Lemma relabel_link ia i a : In ia ias -> ia_addr (rl ia) = Some (SALink 1 i a) ->
  exists t, ia_addr ia = Some (SALink t i a) /\ (t = 6 \/ t = 209) /\ bsd_type pf b i (ia_name ia) <> NETIF_INVALID.
Proof.
  intros H. unfold rl, relabel. cbn [ia_addr]. destruct (ia_addr ia) as [[t j hw| | |]|]; try discriminate.
  destruct (accepted t) eqn:A; cbn [andb]; [|discriminate]. destruct (_ =? NETIF_INVALID) eqn:T; cbn [negb]; [discriminate|].
  intros [= -> ->]. exists t. split; [reflexivity|]. split; [now apply accepted_iff|lia].
Qed.
Lemma link_relabel ia i a t : ia_addr ia = Some (SALink t i a) -> (t = 6 \/ t = 209) ->
  bsd_type pf b i (ia_name ia) <> NETIF_INVALID -> ia_addr (rl ia) = Some (SALink 1 i a).
Proof.
  intros A T N. unfold rl, relabel. cbn [ia_addr]. rewrite A. apply accepted_iff in T. rewrite T.
  replace (_ =? NETIF_INVALID) with false by lia. reflexivity.
Qed.
Lemma short_of ia i a t : In ia ias -> ia_addr ia = Some (SALink t i a) -> In (i, ia_name ia) (links ias) /\ zlen (ia_name ia) <= 15.
Proof.
  intros H A. assert (L : In (i, ia_name ia) (links ias)) by (apply in_links; exists ia; split; [assumption|unfold link_of; now rewrite A]).
  split; [assumption|]. exact (links_short b ias ias_b ok _ _ L).
Qed.
(** A reported interface of a kind. *)
Lemma entry_kind ia i a ty : In ia ias ->
  (ia_addr (rl ia) = Some (SALink 1 i a) /\ kind os i (ia_name ia) ty
   <-> exists t, ia_addr ia = Some (SALink t i a) /\ (t = 6 \/ t = 209) /\ b_kind pf b i (ia_name ia) ty).
Proof.
  intros H. split.
  - intros (A & K). destruct (relabel_link ia i a H A) as (t & A' & T & N). exists t. split; [assumption|]. split; [assumption|].
    destruct (short_of ia i a t H A') as [L S]. apply kind_netif_type in K as [K _].
    unfold os in K. rewrite (lin_type pf b ias ias_b ok i _ L N) in K. rewrite <- K. now apply bsd_type_kind.
  - intros (t & A & T & K). destruct (short_of ia i a t H A) as [L S]. apply (kind_bsd_type pf b i _ S) in K as [K N].
    rewrite <- K in N. split; [now apply (link_relabel ia i a t)|]. rewrite <- K. rewrite <- (lin_type pf b ias ias_b ok i _ L N).
    apply netif_type_kind. now rewrite (lin_type pf b ias ias_b ok i _ L N).
Qed.
Lemma os_ias : no_ifaddrs os = Some (map rl ias).
Proof. exact (lin_ias pf b ias ias_b). Qed.
Lemma listed_kind x i ty : ((exists l a, no_ifaddrs os = Some l /\ In (mkIfa x (Some (SALink 1 i a))) l) /\ kind os i x ty)
  <-> b_listed b i x /\ b_kind pf b i x ty.
Proof.
  split.
  - intros ((l & a & E & H) & K). rewrite os_ias in E. injection E as <-. apply in_map_iff in H as (ia & E & H).
    assert (Ex : ia_name ia = x) by (apply (f_equal ia_name) in E; exact E). assert (Ea : ia_addr (rl ia) = Some (SALink 1 i a)) by now rewrite E.
    rewrite <- Ex in K. destruct (proj1 (entry_kind ia i a ty H) (conj Ea K)) as (t & A & T & KB).
    rewrite Ex in KB. split; [|assumption]. exists ias, t, a. split; [assumption|]. split; [|assumption].
    rewrite <- Ex, <- A. now destruct ia.
  - intros ((l & t & a & E & H & T) & K). rewrite ias_b in E. injection E as <-.
    destruct (proj2 (entry_kind _ i a ty H)) as [A KK]; [exists t; now repeat split|]. cbn [ia_name] in KK. split; [|assumption].
    exists (map rl ias), a. split; [exact os_ias|]. apply in_map_iff. eexists. split; [|exact H].
    unfold rl, relabel in *. cbn [ia_addr ia_name] in *. now rewrite A.
Qed.
Lemma listed_short x i : b_listed b i x -> zlen x <= 15.
Proof.
  intros (l & t & a & E & H & _). rewrite ias_b in E. injection E as <-. exact (proj2 (short_of _ i a t H eq_refl)).
Qed.
Lemma usable_as_iff i x ty : usable_as os i x ty <-> b_usable_as pf b i x ty.
Proof.
  unfold usable_as, b_usable_as. split.
  - intros (A & K & U). destruct (proj1 (listed_kind x i ty) (conj A K)) as [L BK]. split; [assumption|]. split; [assumption|].
    unfold b_up. now rewrite (short15 x (listed_short x i L)) in U.
  - intros (L & BK & U). destruct (proj2 (listed_kind x i ty) (conj L BK)) as [A K]. split; [assumption|]. split; [assumption|].
    now rewrite (short15 x (listed_short x i L)).
Qed.
Lemma usable_iff i : usable os i <-> b_usable pf b i.
Proof. unfold usable, b_usable. split; intros (x & ty & H); exists x, ty; now apply usable_as_iff. Qed.
Lemma usable_kind_iff ty : usable_kind os ty <-> b_usable_kind pf b ty.
Proof. unfold usable_kind, b_usable_kind. split; intros (i & x & H); exists i, x; now apply usable_as_iff. Qed.
Lemma reported_kind_iff ty : reported_kind os ty <-> b_reported_kind pf b ty.
Proof.
  unfold reported_kind, b_reported_kind. split.
  - intros (l & x & i & a & E & H & K). exists x, i. apply listed_kind. split; [now exists l, a|assumption].
  - intros (x & i & L & K). destruct (proj2 (listed_kind x i ty) (conj L K)) as ((l & a & E & H) & KK). now exists l, x, i, a.
Qed.
Lemma alias_of i x : In (i, x) (links ias) -> no_alias os i = match bo_descr b x with Some d => d | None => [] end.
Proof. intros H. cbn [no_alias os lin]. now rewrite (name_of_link b ias ias_b ok i x H). Qed.
Lemma usable_link i x ty : b_usable_as pf b i x ty -> In (i, x) (links ias).
Proof. intros ((l & t & a & E & H & _) & _). rewrite ias_b in E. injection E as <-. exact (link_in x t i a H). Qed.
Lemma table_transfer nfs : table_exact os nfs -> b_table pf b nfs.
Proof.
  intros (D & I & N). split; [assumption|]. split; [intros i; rewrite I; apply usable_iff|].
  intros n H. destruct (N n H) as (x & U & E & A). apply usable_as_iff in U. pose proof (usable_link _ _ _ U) as L.
  pose proof (links_short b ias ias_b ok _ _ L) as S. rewrite (short15 x S) in E. rewrite E. split; [assumption|].
  rewrite A, (alias_of _ _ L). destruct (bo_descr b x); [reflexivity|]. now rewrite firstn_nil.
Qed.
Lemma table_links nfs : b_table pf b nfs -> from_links ias nfs.
Proof. intros (_ & _ & N) n H. destruct (N n H) as [U _]. exact (usable_link _ _ _ U). Qed.
(** ** Members *)
Lemma nth_flat {A B} (l : list A) (g : A -> list B) (h : Z -> list B) : (forall i a, nth_error l i = Some a -> h (Z.of_nat i) = g a) ->
  flat_map h (from_to (zlen l)) = flat_map g l.
Proof.
  unfold from_to, zlen. rewrite Nat2Z.id. revert h. induction l as [|a l IH]; intros h H; [reflexivity|].
  cbn [length seq map flat_map]. rewrite (H 0%nat a eq_refl). f_equal. rewrite <- seq_shift, map_map.
  specialize (IH (fun z => h (z + 1))). rewrite <- IH.
  - rewrite !flat_map_concat_map, !map_map. f_equal. apply map_ext. intros n. f_equal. lia.
  - intros i x E. replace (Z.of_nat i + 1) with (Z.of_nat (S i)) by lia. now apply H.
Qed.
Lemma find_named nfs x : NoDup (indices nfs) -> from_links ias nfs ->
  find (name_is x) nfs = match index_of ias x with Some i => find (index_is i) nfs | None => None end.
Proof.
  intros D F. assert (E : find (name_is x) nfs = netif_byname nfs x).
  { unfold netif_byname. induction nfs as [|n nfs IH]; [reflexivity|]. cbn [find]. unfold name_is at 1.
    destruct (list_eq_dec Z.eq_dec (nf_name n) x) as [->|N]; [now rewrite beq_refl|]. replace (beq (nf_name n) x) with false by (symmetry; now apply beq_false).
    apply IH; [now inversion D|]. intros m Hm. apply F. now right. }
  rewrite E, (byname_byindex b ias ias_b ok nfs x D F). reflexivity.
Qed.
Lemma reported_lin nfs p : NoDup (indices nfs) -> from_links ias nfs -> In p nfs -> nf_type p <> 11 ->
  reported os nfs p = b_reported b nfs p.
Proof.
  intros D F Hp T. unfold reported, b_reported. destruct (nf_type p =? 12).
  { cbn [no_bond no_slave os lin]. destruct (bo_lagg b (nf_name p)) as [[proto ports]|]; [|reflexivity].
    apply nth_flat. intros i [x act] E. rewrite Nat2Z.id, E. cbn [fst snd]. now destruct act. }
  destruct (nf_type p =? 13).
  { cbn [no_bridge os lin]. destruct (bo_bridge b (nf_name p)) as [ports|]; [|reflexivity].
    induction ports as [|x ports IH]; [reflexivity|]. cbn [flat_map]. rewrite <- IH, flat_map_app. f_equal.
    unfold as_member. rewrite (find_named nfs x D F). destruct (index_of ias x) as [i|]; [|reflexivity]. cbn [flat_map]. now rewrite app_nil_r. }
  now replace (nf_type p =? 11) with false by lia.
Qed.
Lemma kinds_of i x ty : b_kind pf b i x ty -> ty <> 11.
Proof. intros H. destruct H; lia. Qed.
Lemma members_transfer nfs : b_table pf b nfs -> (consistent os nfs -> linked os nfs) -> b_consistent b nfs -> b_linked pf b nfs.
Proof.
  intros T H C. pose proof (table_links nfs T) as F. destruct T as (D & I & N).
  assert (T11 : forall p, In p nfs -> nf_type p <> 11).
  { intros p Hp. destruct (N p Hp) as [(_ & K & _) _]. exact (kinds_of _ _ _ K). }
  assert (R : forall p, In p nfs -> reported os nfs p = b_reported b nfs p) by (intros p Hp; apply reported_lin; auto).
  assert (RF : flat_map (fun p => map fst (reported os nfs p)) nfs = flat_map (fun p => map fst (b_reported b nfs p)) nfs).
  { rewrite !flat_map_concat_map. f_equal. apply map_ext_in. intros p Hp. now rewrite R. }
  assert (L : linked os nfs).
  { apply H. split; [rewrite RF; exact C|]. intros p ports active Hp E. contradiction (T11 p Hp). }
  intros p Hp. destruct (L p Hp) as (L1 & L2 & L3). split; [|split].
  - rewrite L1. unfold mode_of, b_mode. cbn [no_bond os lin]. destruct (nf_type p =? 12).
    + destruct (bo_lagg b (nf_name p)) as [[proto ports]|]; [|reflexivity]. unfold PROTO_LACP, PROTO_FAILOVER.
      destruct pf; destruct (proto =? _); try reflexivity; now destruct (proto =? 2).
    + now replace (nf_type p =? 11) with false by (specialize (T11 p Hp); lia).
  - intros K. destruct (L2 K) as (ms & M1 & M2 & M3). exists ms. split; [assumption|]. split; [now rewrite M2, R|assumption].
  - rewrite <- RF. exact L3.
Qed.
(** ** Addresses *)
Lemma hw_lin x : hw_of (map rl ias) x = hw_of ias x.
Proof.
  unfold hw_of. rewrite !flat_map_concat_map, map_map. f_equal. apply map_ext. intros ia. unfold rl, relabel. cbn [ia_addr ia_name].
  now destruct (ia_addr ia) as [[| | |]|].
Qed.
Lemma v4_lin x : v4_of (map rl ias) x = v4_of ias x.
Proof.
  unfold v4_of. rewrite !flat_map_concat_map, map_map. f_equal. apply map_ext. intros ia. unfold rl, relabel. cbn [ia_addr ia_name].
  now destruct (ia_addr ia) as [[| | |]|].
Qed.
Lemma v6_lin x : v6_of (map rl ias) x = v6_of ias x.
Proof.
  unfold v6_of. rewrite !flat_map_concat_map, map_map. f_equal. apply map_ext. intros ia. unfold rl, relabel. cbn [ia_addr ia_name].
  now destruct (ia_addr ia) as [[| | |]|].
Qed.
Lemma main_hw_lin x : main_hw (map rl ias) x = main_hw ias x. Proof. unfold main_hw. now rewrite hw_lin. Qed.
Lemma main4_lin x : main4 (map rl ias) x = main4 ias x. Proof. unfold main4. now rewrite v4_lin. Qed.
Lemma main6_lin x : main6 (map rl ias) x = main6 ias x. Proof. unfold main6. now rewrite v6_lin. Qed.
Lemma addressed_lin cfg nfs si : addressed cfg (map rl ias) nfs si -> addressed cfg ias nfs si.
Proof.
  intros H n Hn. destruct (H n Hn) as (A & B & C). rewrite main_hw_lin in A. rewrite main4_lin in B. rewrite main6_lin in C. now repeat split.
Qed.
Lemma wanted_lin cfg n : wanted cfg (map rl ias) n <-> wanted cfg ias n.
Proof. unfold wanted. now rewrite main4_lin, main6_lin. Qed.
Lemma number_map {A B} (f : A -> B) (P : B -> Prop) (Q : A -> Prop) : forall l k, (forall x, In x l -> (P (f x) <-> Q x)) ->
  number P (map f l) k -> number Q l k.
Proof.
  induction l as [|x l IH]; intros k H N; cbn [map] in N; inversion N; subst.
  - constructor.
  - apply num_yes; [apply H; [now left|assumption]|]. apply IH; [|assumption]. intros y Hy. apply H. now right.
  - apply num_no; [rewrite <- (H x); [assumption|now left]|]. apply IH; [|assumption]. intros y Hy. apply H. now right.
Qed.
Lemma regular_iff ia : In ia ias -> (regular_entry os (rl ia) <-> b_entry pf b (fun _ ty => ty = 0) ia).
Proof.
  intros H. unfold regular_entry, b_entry. change (ia_name (rl ia)) with (ia_name ia). split.
  - intros (i & a & A & K). destruct (proj1 (entry_kind ia i a 0 H) (conj A K)) as (t & A' & T & KB). exists t, i, a, 0. now repeat split.
  - intros (t & i & a & ty & A & T & K & ->). exists i, a. apply entry_kind; [assumption|]. exists t. now repeat split.
Qed.
Lemma up_iff ia : In ia ias -> (up_entry os (rl ia) <-> b_entry pf b (fun x _ => b_up b x) ia).
Proof.
  intros H. unfold up_entry, b_entry. change (ia_name (rl ia)) with (ia_name ia). split.
  - intros (i & a & ty & A & K & U). destruct (proj1 (entry_kind ia i a ty H) (conj A K)) as (t & A' & T & KB). exists t, i, a, ty.
    split; [assumption|]. split; [assumption|]. split; [assumption|]. unfold b_up. now rewrite (short15 _ (proj2 (short_of ia i a t H A'))) in U.
  - intros (t & i & a & ty & A & T & K & U). exists i, a, ty.
    destruct (proj2 (entry_kind ia i a ty H)) as [A' K']; [exists t; now repeat split|]. split; [assumption|]. split; [assumption|].
    now rewrite (short15 _ (proj2 (short_of ia i a t H A))).
Qed.
Lemma lin_os_ok : os_ok os.
Proof.
  split; [|split].
  - intros l E. rewrite os_ias in E. injection E as <-. apply Forall_map. destruct (proj1 ok ias ias_b) as [F _].
    eapply Forall_impl; [|exact F]. intros ia (H1 & H2 & H3). unfold ifaddr_ok, rl, relabel. cbn [ia_name ia_addr].
    split; [assumption|]. split; [assumption|]. now destruct (ia_addr ia) as [[| | |]|].
  - intros i. cbn [no_alias os lin]. destruct (bo_descr b (name_of ias i)) as [d|] eqn:E; [|constructor].
    exact (proj1 (proj2 (proj2 (proj2 ok))) _ d E).
  - intros i. cbn [no_device_id os lin]. destruct pf; [|constructor]. destruct (sysctl_name _) as [s|]; [|constructor].
    destruct (bo_sysctl b s) as [v|] eqn:E; [|constructor]. destruct (proj1 (proj2 (proj2 (proj2 (proj2 ok)))) s v E) as [(C & _) _]. exact C.
Qed.
Lemma lin_apart : names_apart (map rl ias).
Proof.
  destruct (apart b ias ias_b ok) as [A B]. assert (L : forall ia, link_of (rl ia) = link_of ia).
  { intros ia. unfold link_of, rl, relabel. cbn [ia_addr ia_name]. now destruct (ia_addr ia) as [[| | |]|]. }
  split.
  - intros ia H. apply in_map_iff in H as (x & <- & H). exact (A x H).
  - intros x y i j c d Hx Hy. apply in_map_iff in Hx as (x' & <- & Hx). apply in_map_iff in Hy as (y' & <- & Hy). rewrite !L. now apply B.
Qed.
End transfer.

(** ** Refreshes *)
Lemma as_linux cfg pf b nfs si : b_ok b -> NoDup (indices nfs) ->
  exists os, bsd_fetch cfg pf b nfs si = netif_fetch cfg os nfs si
    /\ (no_ifaddrs os = None <-> bo_ifaddrs b = None).
Proof.
  intros K D. destruct (bo_ifaddrs b) as [ias|] eqn:E.
  - exists (lin pf b ias). split; [now apply fetch_lin|]. cbn [no_ifaddrs lin]. rewrite E. easy.
  - exists (lin pf b []). split; [unfold bsd_fetch, netif_fetch; cbn [no_ifaddrs lin]; rewrite E; reflexivity|].
    cbn [no_ifaddrs lin]. now rewrite E.
Qed.
Lemma b_refreshed_linux cfg pf nfs si : b_refreshed cfg pf nfs si -> exists oss, refreshed cfg oss nfs si.
Proof.
  induction 1 as [si H|nfs nfs1 si b ret nfs' si' gone H (oss & IH) Hi K F].
  - exists []. now constructor.
  - destruct (refreshed_inv _ _ _ _ IH) as [D _]. rewrite <- Hi in D. destruct (as_linux cfg pf b nfs1 si K D) as (os & E & _).
    rewrite E in F. exists (oss ++ [os]). now apply (ref_fetch cfg oss nfs nfs1 si os ret nfs' si' gone).
Qed.
Lemma caps_iff (P Q P' Q' : Prop) before after : (P <-> P') -> (Q <-> Q') -> caps_are P Q before after -> caps_are P' Q' before after.
Proof.
  intros HP HQ H i Hi. specialize (H i Hi). destruct (i =? 1); [now rewrite H|]. destruct (i =? 5); [now rewrite H|]. exact H.
Qed.
Section refresh.
Variables (cfg : ncfg) (pf : platform) (b : bos) (nfs nfs1 : list netif) (si : sysinfo) (ret : Z) (nfs' : list netif) (si' : sysinfo)
  (gone : list Z) (ias : list ifaddr).
Hypotheses (HR : b_refreshed cfg pf nfs si) (HI : indices nfs1 = indices nfs) (HA : bo_ifaddrs b = Some ias) (HK : b_ok b)
  (HF : bsd_fetch cfg pf b nfs1 si = (ret, nfs', si', gone)).
Lemma nodup1 : NoDup (indices nfs1).
Proof. destruct (b_refreshed_linux _ _ _ _ HR) as (oss & H). rewrite HI. exact (proj1 (refreshed_inv _ _ _ _ H)). Qed.
Lemma as_lin : netif_fetch cfg (lin pf b ias) nfs1 si = (ret, nfs', si', gone).
Proof. rewrite <- (fetch_lin pf b ias HA HK cfg nfs1 si nodup1). exact HF. Qed.
Lemma b_exact :
  b_table pf b nfs' /\ (forall n, In n nfs' -> survives nfs1 n)
  /\ (forall i, In i gone <-> In i (indices nfs1) /\ ~ b_usable pf b i)
  /\ mgmt_in si' nfs' /\ no_dangling nfs' /\ (b_consistent b nfs' -> b_linked pf b nfs') /\ tagged (lin pf b ias) nfs'.
Proof.
  destruct (b_refreshed_linux _ _ _ _ HR) as (oss & H).
  assert (N : no_ifaddrs (lin pf b ias) <> None) by (rewrite (lin_ias pf b ias HA); discriminate).
  destruct (refresh_exact _ _ _ _ _ _ _ _ _ _ H HI N as_lin) as (X1 & X2 & X3 & X4 & X5 & X6 & X7).
  pose proof (table_transfer pf b ias HA HK nfs' X1) as T.
  split; [assumption|]. split; [intros n Hn; exact (proj1 (X2 n Hn))|]. split.
  - intros i. rewrite X3. now rewrite (usable_iff pf b ias HA HK i).
  - split; [assumption|]. split; [assumption|]. split; [|assumption]. now apply (members_transfer pf b ias HA HK nfs' T).
Qed.
Lemma b_rest :
  addressed cfg ias nfs' si'
  /\ si_hwaddr si' = match nfs' with n :: _ => main_hw ias (nf_name n) | [] => si_hwaddr si end
  /\ marked cfg nfs'
  /\ (nc_ifl cfg <> [] -> all_found cfg nfs' -> ret = zlen (nc_ifl cfg) mod 65536)
  /\ (nc_ifl cfg <> [] -> ~ all_found cfg nfs' -> ret = 0)
  /\ (nc_ifl cfg = [] -> exists k, number (b_entry pf b (fun x _ => b_up b x)) ias k /\ ret = k mod 65536)
  /\ (forall n, In n nfs' -> nc_mifname cfg = Some (nf_name n) -> si_mnetif si' = Some (nf_index n))
  /\ (forall m, si_mnetif si' = Some m -> si_mnetif si = Some m \/ exists n, In n nfs' /\ nf_index n = m /\ wanted cfg ias n)
  /\ ((forall m, si_mnetif si = Some m -> ~ In m (indices nfs')) -> forall n, In n nfs' -> wanted cfg ias n -> si_mnetif si' <> None).
Proof.
  destruct (b_refreshed_linux _ _ _ _ HR) as (oss & H).
  destruct (refresh_rest _ _ _ _ _ _ _ _ _ _ _ H HI (lin_ias pf b ias HA) (lin_os_ok pf b ias HA HK) (lin_apart pf b ias HA HK) as_lin)
    as (A1 & A2 & A3 & A4 & A5 & A6 & A7 & A8 & A9).
  split; [now apply (addressed_lin pf b ias)|]. split.
  { rewrite A2. destruct nfs' as [|n r]; [reflexivity|]. apply main_hw_lin. }
  split; [assumption|]. split; [assumption|]. split; [assumption|]. split.
  { intros E. destruct (A6 E) as (k & N & R). exists k. split; [|assumption].
    apply (number_map (relabel pf b) (up_entry (lin pf b ias))); [|exact N]. intros ia Hia. now apply (up_iff pf b ias HA HK). }
  split; [assumption|]. split.
  - intros m Hm. destruct (A8 m Hm) as [K|(n & K1 & K2 & K3)]; [now left|right]. exists n. split; [assumption|]. split; [assumption|].
    now apply (wanted_lin pf b ias).
  - intros K n Hn W. apply (A9 K n Hn). now apply (wanted_lin pf b ias).
Qed.
Lemma b_caps :
  caps_are (b_reported_kind pf b 13) (b_reported_kind pf b 1) (si_cap si) (si_cap si')
  /\ caps_are (b_usable_kind pf b 13) (b_usable_kind pf b 1) (si_cap_active si) (si_cap_active si')
  /\ exists k, number (b_entry pf b (fun _ ty => ty = 0)) ias k /\ si_physif_count si' = k mod 65536.
Proof.
  destruct (fetch_caps _ _ _ _ _ _ _ _ _ (lin_ias pf b ias HA) nodup1 as_lin) as (A & B & k & N & C).
  split; [|split].
  - exact (caps_iff _ _ _ _ _ _ (reported_kind_iff pf b ias HA HK 13) (reported_kind_iff pf b ias HA HK 1) A).
  - exact (caps_iff _ _ _ _ _ _ (usable_kind_iff pf b ias HA HK 13) (usable_kind_iff pf b ias HA HK 1) B).
  - exists k. split; [|assumption]. apply (number_map (relabel pf b) (regular_entry (lin pf b ias))); [|exact N].
    intros ia Hia. now apply (regular_iff pf b ias HA HK).
Qed.
End refresh.
