(** Interfaces in memory: detection of settings, addresses, and the interface list. *)
From Verif Require Import Base Types Tlv Util Netif NetMem SpecNetif SpecNetMem.
From Verif Require Import Lemmas NetifProofs1 NetMemProofs.

Ltac sp := repeat match goal with |- _ /\ _ => split end; try assumption; try reflexivity; try apply alike_refl.
(** A computation on the memory succeeds and the table without pointers becomes [X]. *)
Definition res (l : list Z) (m : mem) (X : list netif) (r : option mem) : Prop :=
  exists m', r = Some m' /\ inv l m' /\ alike m m' /\ view_of l m' = X.
Lemma res_ret l m : inv l m -> res l m (view_of l m) (Some m).
Proof. intros I. exists m. split; [reflexivity|]. split; [assumption|]. split; [apply alike_refl|reflexivity]. Qed.
Lemma res_bind l m X Y r k : res l m X r ->
  (forall m', inv l m' -> alike m m' -> view_of l m' = X -> res l m' Y (k m')) -> res l m Y (obind r k).
Proof.
  intros (m1 & -> & I & A & V) H. cbn [obind]. destruct (H m1 I A V) as (m2 & -> & I2 & A2 & V2).
  exists m2. split; [reflexivity|]. split; [assumption|]. split; [now apply (alike_trans _ m1)|assumption].
Qed.
Lemma res_store l m a n f g : inv l m -> m a = Some n -> nf_index (f n) = nf_index n -> ptrs_in l (f n) ->
  shown m (f n) = g (shown m n) -> res l m (nf_assign g (nf_index n) (view_of l m)) (m_store f a m).
Proof.
  intros I E Ei Hp Eg. destruct (store_ok l m a n f g I E Ei Hp Eg) as (m' & -> & I' & A & _ & _ & V).
  exists m'. sp.
Qed.
Lemma keeps l m a n : inv l m -> m a = Some n -> ptrs_in l n.
Proof. intros I E. now apply (i_ptrs _ _ I a). Qed.
Lemma alike_some m m' a n : alike m m' -> m a = Some n -> exists n', m' a = Some n' /\ nf_index n' = nf_index n.
Proof.
  intros A E. pose proof (A a) as H. rewrite E in H. destruct (m' a) as [n'|]; cbn in H; [|discriminate].
  exists n'. split; [reflexivity|]. congruence.
Qed.

Lemma add_member_ok l m par last sub child lacp np nl ns : inv l m -> m par = Some np -> m last = Some nl -> m sub = Some ns ->
  res l m (add_member (nf_index np) (nf_index nl) (nf_index ns) child (lacp ns) (view_of l m)) (m_add_member par last sub child lacp m).
Proof.
  intros I Ep El Es. unfold m_add_member, add_member.
  apply (res_bind l m (nf_assign (set_child child (lacp ns) (Some (nf_index np))) (nf_index ns) (view_of l m))).
  - apply res_store; [assumption|assumption|reflexivity| |].
    + split; cbn.
      * intros p K. injection K as <-. now apply (some_live l m par np).
      * apply (keeps l m sub ns I Es).
    + unfold shown, set_child, set_subif. cbn. now rewrite Ep.
  - intros m1 I1 A1 V1. rewrite <- V1. destruct (alike_some _ _ _ _ A1 El) as (nl1 & El1 & <-).
    apply res_store; [assumption|assumption|reflexivity| |].
    + split; cbn.
      * apply (keeps l m1 last nl1 I1 El1).
      * intros p K. injection K as <-. now apply (some_live l m sub ns).
    + unfold shown, set_child, set_subif. cbn. destruct (alike_some _ _ _ _ A1 Es) as (ns1 & -> & <-). reflexivity.
Qed.

Lemma bond_loop_ok os l pname : forall k i m par last np nl, inv l m -> m par = Some np -> m last = Some nl ->
  res l m (bond_loop os (nf_index np) pname k i (nf_index nl) (view_of l m)) (m_bond_loop os l par pname k i last m).
Proof.
  induction k as [|k IH]; intros i m par last np nl I Ep El; [now apply res_ret|]. cbn [bond_loop m_bond_loop].
  destruct (no_slave os pname i) as [[name state]|]; [|now apply IH].
  destruct (byname_ok l m name I) as (r & -> & Hr). cbn [obind]. destruct r as [a|]; [|rewrite Hr; now apply IH].
  destruct Hr as (s & Ha & Es & ->). rewrite Es. cbn [obind]. change (nf_type (shown m s)) with (nf_type s).
  change (nf_index (shown m s)) with (nf_index s). destruct (nf_type s <? NETIF_PARENT); [|now apply IH].
  eapply res_bind.
  - apply (add_member_ok l m par last a _ (fun _ => i mod 256) np nl s); assumption.
  - intros m1 I1 A1 V1. cbn beta in V1. rewrite <- V1. destruct (alike_some _ _ _ _ A1 Ep) as (np1 & Ep1 & <-).
    destruct (alike_some _ _ _ _ A1 Es) as (ns1 & Es1 & <-). now apply IH.
Qed.
Lemma bridge_loop_ok l : forall ports m par last np nl, inv l m -> m par = Some np -> m last = Some nl ->
  res l m (bridge_loop (nf_index np) ports (nf_index nl) (view_of l m)) (m_bridge_loop l par ports last m).
Proof.
  induction ports as [|i ports IH]; intros m par last np nl I Ep El; [now apply res_ret|]. cbn [bridge_loop m_bridge_loop].
  destruct (byindex_ok l m i I) as (r & -> & Hr). cbn [obind]. destruct r as [a|]; [|rewrite Hr; now apply IH].
  destruct Hr as (s & Ha & Es & Ei & ->). rewrite Es. cbn [obind]. change (nf_type (shown m s)) with (nf_type s).
  change (nf_index (shown m s)) with (nf_index s). change (nf_lacp_index (shown m s)) with (nf_lacp_index s).
  destruct (nf_type s <? NETIF_PARENT); [|now apply IH].
  eapply res_bind.
  - apply (add_member_ok l m par last a _ nf_lacp_index np nl s); assumption.
  - intros m1 I1 A1 V1. rewrite <- V1. destruct (alike_some _ _ _ _ A1 Ep) as (np1 & Ep1 & <-).
    destruct (alike_some _ _ _ _ A1 Es) as (ns1 & Es1 & <-). now apply IH.
Qed.
Lemma team_loop_ok l child : forall ports m par last np nl, inv l m -> m par = Some np -> m last = Some nl ->
  res l m (team_loop (nf_index np) child ports (nf_index nl) (view_of l m)) (m_team_loop l par child ports last m).
Proof.
  induction ports as [|i ports IH]; intros m par last np nl I Ep El; [now apply res_ret|]. cbn [team_loop m_team_loop].
  destruct (byindex_ok l m i I) as (r & -> & Hr). cbn [obind]. destruct r as [a|]; [|rewrite Hr; now apply IH].
  destruct Hr as (s & Ha & Es & Ei & ->). rewrite Es. cbn [obind]. change (nf_type (shown m s)) with (nf_type s).
  change (nf_index (shown m s)) with (nf_index s). change (nf_lacp_index (shown m s)) with (nf_lacp_index s).
  destruct (NETIF_PARENT <? nf_type s); [now apply IH|].
  eapply res_bind.
  - apply (add_member_ok l m par last a _ nf_lacp_index np nl s); assumption.
  - intros m1 I1 A1 V1. rewrite <- V1. destruct (alike_some _ _ _ _ A1 Ep) as (np1 & Ep1 & <-).
    destruct (alike_some _ _ _ _ A1 Es) as (ns1 & Es1 & <-). now apply IH.
Qed.
(** Stores that do not concern pointers. *)
Lemma store_plain l m a n f g : inv l m -> m a = Some n -> nf_index (f n) = nf_index n -> nf_parent (f n) = nf_parent n ->
  nf_subif (f n) = nf_subif n -> shown m (f n) = g (shown m n) ->
  res l m (nf_assign g (nf_index n) (view_of l m)) (m_store f a m).
Proof.
  intros I E Ei Hp Hs Eg. apply res_store; try assumption. destruct (keeps l m a n I E) as [K1 K2].
  split; intros p Hq; [rewrite Hp in Hq; now apply K1|rewrite Hs in Hq; now apply K2].
Qed.
Ltac plain_at g := eapply (store_plain _ _ _ _ _ g); [assumption|eassumption|reflexivity|reflexivity|reflexivity|reflexivity].
Ltac plain := apply store_plain; [assumption|eassumption|reflexivity|reflexivity|reflexivity|reflexivity].
Lemma assign_absent g i nfs : netif_byindex nfs i = None -> nf_assign g i nfs = nfs.
Proof.
  unfold netif_byindex. induction nfs as [|n nfs IH]; [reflexivity|]. cbn. destruct (nf_index n =? i); [discriminate|].
  intros H. now rewrite IH.
Qed.

Lemma team_ok os l par m p : inv l m -> m par = Some p -> res l m (netif_team os (shown m p) (view_of l m)) (m_team os l par m).
Proof.
  intros I Ep. unfold m_team, netif_team. rewrite Ep. cbn [obind]. change (nf_index (shown m p)) with (nf_index p).
  destruct (no_team os (nf_index p)) as [[[mode ports] active]|]; [|now apply res_ret].
  eapply res_bind; [plain_at (set_bonding_mode mode)|]. intros m1 I1 A1 V1. rewrite <- V1. destruct (alike_some _ _ _ _ A1 Ep) as (p1 & Ep1 & <-).
  eapply res_bind; [apply team_loop_ok; eassumption|]. intros m2 I2 A2 V2. rewrite <- V2.
  destruct (mode =? NETIF_BONDING_FAILOVER); [|now apply res_ret].
  destruct (byindex_ok l m2 active I2) as (r & -> & Hr). cbn [obind]. destruct r as [a|].
  - destruct Hr as (s & Ha & Es & <- & _). plain.
  - rewrite assign_absent by assumption. now apply res_ret.
Qed.
Lemma bond_ok os l par m p : inv l m -> m par = Some p -> res l m (netif_bond os (shown m p) (view_of l m)) (m_bond os l par m).
Proof.
  intros I Ep. unfold m_bond, netif_bond. rewrite Ep. cbn [obind]. change (nf_index (shown m p)) with (nf_index p).
  change (nf_name (shown m p)) with (nf_name p). destruct (no_bond os (nf_name p)) as [[mode slaves]|]; [|now apply res_ret].
  destruct (mode =? BOND_MODE_8023AD); [|destruct (mode =? BOND_MODE_ACTIVEBACKUP)].
  - eapply res_bind; [plain_at (set_bonding_mode NETIF_BONDING_LACP)|]. intros m1 I1 A1 V1. rewrite <- V1. destruct (alike_some _ _ _ _ A1 Ep) as (p1 & Ep1 & <-).
    apply bond_loop_ok; assumption.
  - eapply res_bind; [plain_at (set_bonding_mode NETIF_BONDING_FAILOVER)|]. intros m1 I1 A1 V1. rewrite <- V1. destruct (alike_some _ _ _ _ A1 Ep) as (p1 & Ep1 & <-).
    apply bond_loop_ok; assumption.
  - cbn [obind]. apply bond_loop_ok; assumption.
Qed.
Lemma bridge_ok os l par m p : inv l m -> m par = Some p -> res l m (netif_bridge os (shown m p) (view_of l m)) (m_bridge os l par m).
Proof.
  intros I Ep. unfold m_bridge, netif_bridge. rewrite Ep. cbn [obind]. change (nf_index (shown m p)) with (nf_index p).
  change (nf_name (shown m p)) with (nf_name p). destruct (no_bridge os (nf_name p)) as [ports|]; [|now apply res_ret].
  apply bridge_loop_ok; assumption.
Qed.
Lemma vlan_ok os l par m p : inv l m -> m par = Some p -> res l m (netif_vlan os (shown m p) (view_of l m)) (m_vlan os l par m).
Proof.
  intros I Ep. unfold m_vlan, netif_vlan. rewrite Ep. cbn [obind]. change (nf_index (shown m p)) with (nf_index p).
  change (nf_name (shown m p)) with (nf_name p). change (nf_vlan_id (shown m p)) with (nf_vlan_id p).
  destruct (no_vlan os (nf_name p)) as [dev|]; [|now apply res_ret].
  destruct (byname_ok l m dev I) as (r & -> & Hr). cbn [obind]. destruct r as [a|]; [|rewrite Hr; now apply res_ret].
  destruct Hr as (s & Ha & Es & ->). rewrite Es. cbn [obind]. plain.
Qed.
Lemma device_ok os l par m p : inv l m -> m par = Some p -> res l m (netif_device_id os (shown m p) (view_of l m)) (m_device_id os par m).
Proof.
  intros I Ep. unfold m_device_id, netif_device_id. rewrite Ep. cbn [obind]. change (nf_index (shown m p)) with (nf_index p).
  change (nf_device_identified (shown m p)) with (nf_device_identified p). change (nf_device_name (shown m p)) with (nf_device_name p).
  destruct (negb _); [now apply res_ret|]. plain.
Qed.
Lemma detect_ok os l : forall todo m, inv l m -> (forall a, In a todo -> In a l) ->
  res l m (fold_left (detect_one os) (map nf_index (blocks todo m)) (view_of l m)) (m_detect os l todo m).
Proof.
  induction todo as [|a todo IH]; intros m I Ht; [now apply res_ret|]. cbn [m_detect].
  destruct (live_some l m a I) as (n & En); [apply Ht; now left|]. rewrite En. cbn [obind].
  rewrite (blocks_cons a todo m n En). cbn [map fold_left].
  assert (H : res l m (detect_one os (view_of l m) (nf_index n))
    (if nf_type n =? NETIF_TEAMING then m_team os l a m
        else if nf_type n =? NETIF_BONDING then m_bond os l a m
        else if nf_type n =? NETIF_BRIDGE then m_bridge os l a m
        else if nf_type n =? NETIF_VLAN then m_vlan os l a m
        else if nf_type n =? NETIF_REGULAR then m_device_id os a m
        else Some m)).
  { unfold detect_one. rewrite (view_at l m a n I En). change (nf_type (shown m n)) with (nf_type n).
    destruct (_ =? _); [now apply team_ok|]. destruct (_ =? _); [now apply bond_ok|].
    destruct (_ =? _); [now apply bridge_ok|]. destruct (_ =? _); [now apply vlan_ok|].
    destruct (_ =? _); [now apply device_ok|]. now apply res_ret. }
  eapply res_bind; [exact H|]. intros m1 I1 A1 V1. rewrite <- V1.
  rewrite <- (alike_index todo m m1); [|intros b Hb; apply (i_live _ _ I), Ht; now right|assumption].
  apply IH; [assumption|]. intros b Hb. apply Ht. now right.
Qed.

(** Addresses. *)
Definition seen_si (m : mem) (si : sysinfo) : sysinfo := set_mnetif (index_at m (si_mnetif si)) si.
Definition mgmt_live (l : list Z) (si : sysinfo) : Prop := forall p, si_mnetif si = Some p -> In p l.
Definition res2 (l : list Z) (m : mem) (X : list netif * sysinfo) (r : option (mem * sysinfo)) : Prop :=
  exists m' si', r = Some (m', si') /\ inv l m' /\ alike m m' /\ mgmt_live l si' /\ (view_of l m', seen_si m' si') = X.
Lemma seen_alike m m' si : alike m m' -> seen_si m' si = seen_si m si.
Proof. intros A. unfold seen_si. now rewrite (alike_at m m'). Qed.
Lemma res2_of l m X r si : res l m X r -> mgmt_live l si -> res2 l m (X, seen_si m si) (let? m1 := r in Some (m1, si)).
Proof.
  intros (m1 & -> & I & A & <-) M. exists m1, si. split; [reflexivity|]. split; [assumption|]. split; [assumption|]. split; [assumption|].
  now rewrite (seen_alike m m1).
Qed.
Lemma mnetif_seen l m si : inv l m -> mgmt_live l si ->
  match si_mnetif si with
  | Some p => exists n, m p = Some n /\ si_mnetif (seen_si m si) = Some (nf_index n)
  | None => si_mnetif (seen_si m si) = None
  end.
Proof.
  intros I M. unfold seen_si, mgmt_live in *. destruct (si_mnetif si) as [p|] eqn:E; [|reflexivity].
  destruct (live_some l m p I (M p eq_refl)) as (n & En). exists n. split; [assumption|]. cbn. now rewrite En.
Qed.
Lemma seen_set m si a n : m a = Some n -> seen_si m (set_mnetif (Some a) si) = set_mnetif (Some (nf_index n)) (seen_si m si).
Proof. intros E. unfold seen_si, set_mnetif. cbn. now rewrite E. Qed.
Lemma res2_pick l m X r si a n (b : bool) : res l m X r -> mgmt_live l si -> m a = Some n -> In a l ->
  res2 l m (X, if b then set_mnetif (Some (nf_index n)) (seen_si m si) else seen_si m si)
    (let? m1 := r in Some (m1, if b then set_mnetif (Some a) si else si)).
Proof.
  intros (m1 & -> & I & A & <-) M E Ha. destruct (alike_some _ _ _ _ A E) as (n1 & E1 & Ei).
  eexists m1, _. split; [reflexivity|]. split; [assumption|]. split; [assumption|]. destruct b.
  - split; [intros p K; cbn in K; congruence|]. now rewrite (seen_set m1 si a n1 E1), Ei, (seen_alike m m1).
  - split; [assumption|]. now rewrite (seen_alike m m1).
Qed.
Lemma addr_one_ok cfg l m si ia : inv l m -> mgmt_live l si ->
  res2 l m (addr_one cfg (view_of l m, seen_si m si) ia) (m_addr_one cfg l (m, si) ia).
Proof.
  intros I M. assert (R : res2 l m (view_of l m, seen_si m si) (Some (m, si))).
  { exists m, si. sp. }
  unfold m_addr_one, addr_one. destruct (ia_addr ia) as [sa|]; [|exact R].
  destruct (byname_ok l m (ia_name ia) I) as (r & -> & Hr). cbn [obind]. destruct r as [a|]; [|rewrite Hr; exact R].
  destruct Hr as (n & Ha & En & ->). rewrite En. cbn [obind].
  change (nf_ipaddr4 (shown m n)) with (nf_ipaddr4 n). change (nf_ipaddr6 (shown m n)) with (nf_ipaddr6 n). change (nf_index (shown m n)) with (nf_index n).
  pose proof (mnetif_seen l m si I M) as K.
  destruct sa as [ht ix hw|x|x|].
  - apply res2_of; [plain|assumption].
  - destruct (addr_set (nf_ipaddr4 n)); [exact R|].
    assert (W : res l m (nf_assign (set_ips x (nf_ipaddr6 n)) (nf_index n) (view_of l m)) (m_store (fun n => set_ips x (nf_ipaddr6 n) n) a m)) by plain.
    destruct (si_mnetif si) as [p|].
    + destruct K as (np & _ & ->). now apply res2_of.
    + rewrite K. destruct (_ && _).
      * now apply (res2_pick l m _ _ si a n true).
      * now apply (res2_pick l m _ _ si a n false).
  - destruct (addr_set (nf_ipaddr6 n)); [exact R|]. destruct (linklocal x); [exact R|].
    assert (W : res l m (nf_assign (set_ips (nf_ipaddr4 n) x) (nf_index n) (view_of l m)) (m_store (fun n => set_ips (nf_ipaddr4 n) x n) a m)) by plain.
    destruct (si_mnetif si) as [p|].
    + destruct K as (np & _ & ->). now apply res2_of.
    + rewrite K. destruct (_ && _).
      * now apply (res2_pick l m _ _ si a n true).
      * now apply (res2_pick l m _ _ si a n false).
  - exact R.
Qed.
Lemma addr_all_ok cfg l : forall ias m si, inv l m -> mgmt_live l si ->
  res2 l m (fold_left (addr_one cfg) ias (view_of l m, seen_si m si)) (m_addr_all cfg l ias (m, si)).
Proof.
  induction ias as [|ia ias IH]; intros m si I M.
  - exists m, si. sp.
  - cbn [fold_left m_addr_all]. destruct (addr_one_ok cfg l m si ia I M) as (m1 & si1 & -> & I1 & A1 & M1 & <-). cbn [obind].
    destruct (IH m1 si1 I1 M1) as (m2 & si2 & -> & I2 & A2 & M2 & <-). exists m2, si2. sp.
    now apply (alike_trans _ m1).
Qed.
(** A store into each element of the queue. *)
Lemma assign_in_map (f : netif -> netif) (todo : list netif) : forall done nfs, NoDup (map nf_index (done ++ todo)) ->
  (forall n, nf_index (f n) = nf_index n) ->
  nfs = map f done ++ todo -> fold_left (fun t i => nf_assign f i t) (map nf_index todo) nfs = map f (done ++ todo).
Proof.
  induction todo as [|n todo IH]; intros done nfs Hd Hf ->.
  - cbn. now rewrite !app_nil_r.
  - cbn [map fold_left]. replace (done ++ n :: todo) with ((done ++ [n]) ++ todo) in * by now rewrite <- app_assoc.
    apply IH; [assumption|assumption|]. rewrite map_app. cbn [map]. rewrite <- app_assoc. cbn [app].
    assert (K : ~ In (nf_index n) (map nf_index done)).
    { rewrite !map_app in Hd. cbn [map] in Hd. rewrite <- app_assoc in Hd. apply NoDup_remove_2 in Hd. intros K. apply Hd. apply in_or_app. now left. }
    clear -K Hf. induction done as [|x done IH]; cbn.
    + now rewrite Z.eqb_refl.
    + rewrite Hf. replace (nf_index x =? nf_index n) with false.
      * f_equal. apply IH. intros H. apply K. now right.
      * symmetry. apply Z.eqb_neq. intros E. apply K. now left.
Qed.
Lemma assign_each (f : netif -> netif) nfs : NoDup (map nf_index nfs) -> (forall n, nf_index (f n) = nf_index n) ->
  fold_left (fun t i => nf_assign f i t) (map nf_index nfs) nfs = map f nfs.
Proof. intros Hd Hf. now apply (assign_in_map f nfs [] nfs). Qed.
Lemma view_index l m : map nf_index (view_of l m) = map nf_index (blocks l m).
Proof. unfold view_of. now rewrite map_map. Qed.
Lemma copy_fold l mg v4 v6 : forall todo m g, inv l m -> (forall a, In a todo -> In a l) -> m mg = Some g -> nf_ipaddr4 g = v4 -> nf_ipaddr6 g = v6 ->
  res l m (fold_left (fun t i => nf_assign (set_ips v4 v6) i t) (map nf_index (blocks todo m)) (view_of l m)) (m_copy_ips mg todo m).
Proof.
  induction todo as [|a todo IH]; intros m g I Ht Eg E4 E6; [now apply res_ret|]. cbn [m_copy_ips]. rewrite Eg. cbn [obind]. rewrite E4, E6.
  destruct (live_some l m a I) as (n & En); [apply Ht; now left|]. rewrite (blocks_cons a todo m n En). cbn [map fold_left].
  destruct (store_ok l m a n (set_ips v4 v6) (set_ips v4 v6) I En eq_refl) as (m1 & -> & I1 & A1 & Ea & Eo & V1); [apply (keeps l m a n I En)|reflexivity|].
  cbn [obind]. rewrite <- V1. rewrite <- (alike_index todo m m1); [|intros b Hb; apply (i_live _ _ I), Ht; now right|assumption].
  assert (H : exists g1, m1 mg = Some g1 /\ nf_ipaddr4 g1 = v4 /\ nf_ipaddr6 g1 = v6).
  { destruct (Z.eq_dec mg a) as [->|N].
    - exists (set_ips v4 v6 n). now rewrite Ea.
    - exists g. now rewrite (Eo mg N). }
  destruct H as (g1 & Eg1 & K4 & K6).
  destruct (IH m1 g1 I1) as (m2 & -> & I2 & A2 & V2); try assumption; [intros b Hb; apply Ht; now right|].
  exists m2. split; [reflexivity|]. split; [assumption|]. split; [now apply (alike_trans _ m1)|assumption].
Qed.
Lemma copy_ok l mg m g : inv l m -> m mg = Some g ->
  res l m (map (set_ips (nf_ipaddr4 g) (nf_ipaddr6 g)) (view_of l m)) (m_copy_ips mg l m).
Proof.
  intros I E. rewrite <- (assign_each (set_ips (nf_ipaddr4 g) (nf_ipaddr6 g))); [|rewrite view_index; apply (i_index _ _ I)|reflexivity].
  rewrite view_index. now apply (copy_fold l mg _ _ l m g).
Qed.
Lemma addrs_ok cfg ias l m si : inv l m -> mgmt_live l si ->
  res2 l m (netif_addrs cfg ias (view_of l m) (seen_si m si)) (m_addrs cfg ias l m si).
Proof.
  intros I M. unfold m_addrs, netif_addrs. destruct (addr_all_ok cfg l ias m si I M) as (m1 & si1 & -> & I1 & A1 & M1 & <-). cbn [obind].
  assert (R : res2 l m (view_of l m1, seen_si m1 si1) (Some (m1, si1))).
  { exists m1, si1. sp. }
  destruct (negb _); [exact R|]. pose proof (mnetif_seen l m1 si1 I1 M1) as K. destruct (si_mnetif si1) as [p|] eqn:Ep.
  - destruct K as (g & Eg & ->). rewrite (view_at l m1 p g I1 Eg). change (nf_ipaddr4 (shown m1 g)) with (nf_ipaddr4 g).
    change (nf_ipaddr6 (shown m1 g)) with (nf_ipaddr6 g).
    destruct (copy_ok l p m1 g I1 Eg) as (m2 & -> & I2 & A2 & V2). exists m2, si1. split; [reflexivity|]. split; [assumption|].
    split; [now apply (alike_trans _ m1)|]. split; [assumption|]. now rewrite V2, (seen_alike m1 m2).
  - rewrite K. exact R.
Qed.
Lemma argv_ok l : forall ifl m c, inv l m ->
  exists m' c', m_argv_loop ifl l m c = Some (m', c') /\ inv l m' /\ alike m m' /\ argv_loop ifl (view_of l m) c = (view_of l m', c').
Proof.
  induction ifl as [|x ifl IH]; intros m c I.
  - exists m, c. sp.
  - cbn [m_argv_loop argv_loop]. destruct (byname_ok l m x I) as (r & -> & Hr). cbn [obind]. destruct r as [a|]; [|rewrite Hr; now apply IH].
    destruct Hr as (n & Ha & En & ->). rewrite En. cbn [obind]. change (nf_type (shown m n)) with (nf_type n). change (nf_index (shown m n)) with (nf_index n).
    destruct (_ =? _); [now apply IH|].
    assert (W : res l m (nf_assign (set_argv 1) (nf_index n) (view_of l m)) (m_store (set_argv 1) a m)) by plain.
    destruct W as (m1 & -> & I1 & A1 & <-). cbn [obind]. destruct (IH m1 (c + 1) I1) as (m2 & c2 & E2 & I2 & A2 & V2).
    exists m2, c2. sp. now apply (alike_trans _ m1).
Qed.
