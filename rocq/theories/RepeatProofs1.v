(** netif_fetch a second time with the same answers of the kernel: the same table and
    the same system information. *)
From Verif Require Import Base Types Tlv Util Netif Spec SpecNetif.
From Verif Require Import Lemmas VisProofs VisProps ChildProofs ChildProofs4 NetifProofs1 NetifProofs2 FlowProofs1.

(** ** The detection loop, looked up *)
Definition last_entry (os : nos) (l : list ifaddr) (i : Z) : option ifaddr :=
  fold_left (fun o ia => match entry_of os ia with Some j => if j =? i then Some ia else o | None => o end) l None.
Lemma last_snoc os l ia i : last_entry os (l ++ [ia]) i
  = match entry_of os ia with Some j => if j =? i then Some ia else last_entry os l i | None => last_entry os l i end.
Proof. unfold last_entry. now rewrite fold_left_app. Qed.
Definition tab1 (cfg : ncfg) (os : nos) (l : list ifaddr) (st : list netif * sysinfo * Z) := fold_left (fetch_one cfg os) l st.

Lemma byindex_snoc T x i : netif_byindex (T ++ [x]) i = match netif_byindex T i with Some n => Some n | None => if nf_index x =? i then Some x else None end.
Proof.
  unfold netif_byindex. induction T as [|n T IH]; [reflexivity|]. cbn [find app]. destruct (nf_index n =? i); [reflexivity|exact IH].
Qed.
(** What is carried over from the old entry. *)
Definition carried (os : nos) (o : option netif) (ia : ifaddr) (i : Z) : netif :=
  let f := fresh_netif i (ia_name ia) (netif_type os i (ia_name ia)) (no_alias os i) in
  match o with None => f 0 0 0 [] | Some o => f (nf_protos o) (nf_link_event o) (nf_device_identified o) (nf_device_name o) end.
Lemma carried_twice os o ia ia' i : carried os (Some (carried os o ia i)) ia' i = carried os o ia' i.
Proof. destruct o; reflexivity. Qed.

Lemma tab_lookup cfg os S si c l T si' c' i : fold_left (fetch_one cfg os) l (S, si, c) = (T, si', c') ->
  netif_byindex T i = match last_entry os l i with Some ia => Some (carried os (netif_byindex S i) ia i) | None => netif_byindex S i end.
Proof.
  revert T si' c'. induction l as [|ia l IH] using rev_ind; intros T si' c' H; [now injection H as <- _ _|].
  rewrite fold_left_app in H. cbn [fold_left] in H. rewrite last_snoc.
  destruct (fold_left (fetch_one cfg os) l (S, si, c)) as [[T1 s1] c1] eqn:E. specialize (IH T1 s1 c1 eq_refl).
  destruct (entry_of os ia) as [j|] eqn:EE.
  - destruct (fetch_one_yes cfg os T1 s1 c1 ia j EE) as (s & F & _). rewrite F in H. injection H as <- _ _.
    destruct (Z.eqb_spec j i) as [->|NE].
    + rewrite IH. assert (K : netif_byindex (match netif_byindex T1 i with
        | Some o => nf_assign (fun _ => carried os (Some o) ia i) i T1 | None => T1 ++ [carried os None ia i] end) i = Some (carried os (netif_byindex T1 i) ia i)).
      { destruct (netif_byindex T1 i) as [o|] eqn:B.
        - rewrite byindex_assign by reflexivity. rewrite Z.eqb_refl, B. reflexivity.
        - rewrite byindex_snoc, B. cbn. now rewrite Z.eqb_refl. }
      rewrite <- IH. change (netif_byindex (match netif_byindex T1 i with
        | Some o => nf_assign (fun _ => carried os (Some o) ia i) i T1 | None => T1 ++ [carried os None ia i] end) i = Some (carried os (netif_byindex S i) ia i)).
      rewrite K, IH. destruct (last_entry os l i); [|reflexivity]. now rewrite carried_twice.
    + rewrite <- IH. destruct (netif_byindex T1 j) as [o|].
      * rewrite byindex_assign by reflexivity. destruct (Z.eqb_spec i j); [congruence|reflexivity].
      * rewrite byindex_snoc. cbn [fresh_netif nf_index]. destruct (Z.eqb_spec j i); [congruence|]. now destruct (netif_byindex T1 i).
  - destruct (fetch_one_not cfg os T1 s1 c1 ia EE) as (s & F & _). rewrite F in H. injection H as <- _ _. exact IH.
Qed.
(** The number of usable entries. *)
Lemma tab_count cfg os l : forall S S' si si' c, snd (fold_left (fetch_one cfg os) l (S, si, c)) = snd (fold_left (fetch_one cfg os) l (S', si', c)).
Proof.
  induction l as [|ia l IH]; intros S S' si si' c; [reflexivity|]. cbn [fold_left]. destruct (entry_of os ia) as [j|] eqn:EE.
  - destruct (fetch_one_yes cfg os S si c ia j EE) as (s & F & _). destruct (fetch_one_yes cfg os S' si' c ia j EE) as (s' & F' & _).
    rewrite F, F'. apply IH.
  - destruct (fetch_one_not cfg os S si c ia EE) as (s & F & _). destruct (fetch_one_not cfg os S' si' c ia EE) as (s' & F' & _).
    rewrite F, F'. apply IH.
Qed.
(** Nothing new: the order stays. *)
Lemma last_some os l i : last_entry os l i <> None <-> NetifProofs1.seen os l i.
Proof.
  induction l as [|ia l IH] using rev_ind; [split; [now intros []|intros (ia & [] & _)]|].
  rewrite last_snoc, seen_snoc. destruct (entry_of os ia) as [j|].
  - destruct (Z.eqb_spec j i) as [->|NE]; [split; [now right|discriminate]|]. rewrite IH. split; [now left|]. intros [K|K]; [exact K|congruence].
  - rewrite IH. split; [now left|]. intros [K|K]; [exact K|discriminate].
Qed.
Lemma tab_indices cfg os S si c : forall l T si' c', (forall i, NetifProofs1.seen os l i -> In i (indices S)) ->
  fold_left (fetch_one cfg os) l (S, si, c) = (T, si', c') -> indices T = indices S.
Proof.
  induction l as [|ia l IH] using rev_ind; intros T si' c' HS H; [now injection H as <- _ _|].
  rewrite fold_left_app in H. cbn [fold_left] in H. destruct (fold_left (fetch_one cfg os) l (S, si, c)) as [[T1 s1] c1] eqn:E.
  assert (I1 : indices T1 = indices S).
  { apply (IH T1 s1 c1); [|reflexivity]. intros i K. apply HS. rewrite seen_snoc. now left. }
  destruct (entry_of os ia) as [j|] eqn:EE.
  - destruct (fetch_one_yes cfg os T1 s1 c1 ia j EE) as (s & F & _). rewrite F in H. injection H as <- _ _.
    assert (J : In j (indices T1)) by (rewrite I1; apply HS; rewrite seen_snoc; now right).
    destruct (netif_byindex T1 j) as [o|] eqn:B; [|now apply byindex_none in B].
    rewrite <- I1. apply assign_keeps. intros n <-. reflexivity.
  - destruct (fetch_one_not cfg os T1 s1 c1 ia EE) as (s & F & _). rewrite F in H. injection H as <- _ _. exact I1.
Qed.

(** ** Tables with the same interfaces in the same order *)
Lemma same_tables {A} (g : netif -> A) : forall T T', indices T = indices T' -> NoDup (indices T) ->
  (forall i n n', netif_byindex T i = Some n -> netif_byindex T' i = Some n' -> g n = g n') -> map g T = map g T'.
Proof.
  induction T as [|n T IH]; intros [|n' T'] E Hd H; try discriminate; [reflexivity|].
  unfold indices in E, Hd. cbn [map] in E, Hd. assert (E1 : nf_index n = nf_index n') by congruence. assert (E2 : indices T = indices T') by (unfold indices; congruence).
  inversion Hd as [|? ? Hn Hd']; subst. cbn [map]. f_equal.
  - apply (H (nf_index n)); unfold netif_byindex; cbn [find]; [|rewrite E1]; now rewrite Z.eqb_refl.
  - apply IH; [exact E2|exact Hd'|]. intros i m m' B B'.
    assert (NI : nf_index n <> i).
    { intros <-. apply Hn. apply byindex_some in B. destruct B as [B1 B2]. rewrite <- B2. now apply in_map. }
    apply (H i); unfold netif_byindex; cbn [find]; [|rewrite <- E1]; (destruct (Z.eqb_spec (nf_index n) i); [congruence|assumption]).
Qed.

(** ** Device names *)
Definition dkey (n : netif) : Z * Z * Z * list Z := (nf_index n, nf_type n, nf_device_identified n, nf_device_name n).
Definition named (os : nos) (k : Z * Z * Z * list Z) : Z * Z * Z * list Z :=
  let '(i, ty, id, name) := k in
  if (ty =? NETIF_REGULAR) && (id =? 0)
  then (i, ty, 1, let d := no_device_id os i in if zlen d =? 0 then name else firstn 63 (cstr d)) else k.
Lemma named_twice os k : named os (named os k) = named os k.
Proof. destruct k as [[[i ty] id] name]. unfold named. destruct (ty =? NETIF_REGULAR) eqn:E; cbn [andb]; [|now rewrite E]. destruct (id =? 0) eqn:E2; rewrite E; cbn; [reflexivity|now rewrite E2]. Qed.
Definition named_at (os : nos) (i : Z) (k : Z * Z * Z * list Z) := if fst (fst (fst k)) =? i then named os k else k.
Definition gentle (f : netif -> netif) : Prop := forall n, dkey (f n) = dkey n.
Lemma gentle_assign f i nfs : gentle f -> map dkey (nf_assign f i nfs) = map dkey nfs.
Proof. intros H. apply assign_keeps. intros n _. apply H. Qed.
Lemma add_member_dkey par last sub ch la nfs : map dkey (add_member par last sub ch la nfs) = map dkey nfs.
Proof. unfold add_member. rewrite !gentle_assign; [reflexivity|intros n; reflexivity|intros n; reflexivity]. Qed.
Lemma bond_loop_dkey os par pn : forall k i last nfs, map dkey (bond_loop os par pn k i last nfs) = map dkey nfs.
Proof.
  induction k as [|k IH]; intros i last nfs; cbn [bond_loop]; [reflexivity|].
  destruct (no_slave os pn i) as [[nm st]|]; [|apply IH]. destruct (netif_byname nfs nm) as [s|]; [|apply IH].
  destruct (_ <? _); [|apply IH]. rewrite IH. apply add_member_dkey.
Qed.
Lemma bridge_loop_dkey par : forall ports last nfs, map dkey (bridge_loop par ports last nfs) = map dkey nfs.
Proof.
  induction ports as [|p ports IH]; intros last nfs; cbn [bridge_loop]; [reflexivity|].
  destruct (netif_byindex nfs p) as [s|]; [|apply IH]. destruct (_ <? _); [|apply IH]. rewrite IH. apply add_member_dkey.
Qed.
Lemma team_loop_dkey par ch : forall ports last nfs, map dkey (team_loop par ch ports last nfs) = map dkey nfs.
Proof.
  induction ports as [|p ports IH]; intros last nfs; cbn [team_loop]; [reflexivity|].
  destruct (netif_byindex nfs p) as [s|]; [|apply IH]. destruct (_ <? _); [apply IH|]. rewrite IH. apply add_member_dkey.
Qed.
Lemma assign_keys (g : Z * Z * Z * list Z -> Z * Z * Z * list Z) f i : (forall n, nf_index n = i -> dkey (f n) = g (dkey n)) ->
  forall nfs, NoDup (indices nfs) -> map dkey (nf_assign f i nfs) = map (fun k => if fst (fst (fst k)) =? i then g k else k) (map dkey nfs).
Proof.
  intros H. induction nfs as [|n nfs IH]; intros Hd; [reflexivity|]. unfold indices in Hd. cbn [map] in Hd. inversion Hd as [|? ? Hn Hd']; subst. cbn [nf_assign map].
  change (fst (fst (fst (dkey n)))) with (nf_index n). destruct (Z.eqb_spec (nf_index n) i) as [E|E]; cbn [map].
  - rewrite (H n E). f_equal. rewrite <- (map_id (map dkey nfs)) at 1. apply map_ext_in. intros k Hk. apply in_map_iff in Hk. destruct Hk as (x & <- & Hx).
    change (fst (fst (fst (dkey x)))) with (nf_index x). destruct (Z.eqb_spec (nf_index x) i) as [Q|Q]; [|reflexivity].
    exfalso. apply Hn. rewrite E, <- Q. now apply in_map.
  - now rewrite IH.
Qed.
Lemma at_same os i ks : (forall k, In k ks -> fst (fst (fst k)) = i -> named os k = k) -> map (named_at os i) ks = ks.
Proof. intros H. rewrite <- (map_id ks) at 2. apply map_ext_in. intros k Hk. unfold named_at. destruct (Z.eqb_spec (fst (fst (fst k))) i); [now apply H|reflexivity]. Qed.
Lemma detect_dkey os nfs i : NoDup (indices nfs) -> map dkey (detect_one os nfs i) = map (named_at os i) (map dkey nfs).
Proof.
  intros Hd. unfold detect_one. destruct (netif_byindex nfs i) as [n|] eqn:B.
  2: { rewrite at_same; [reflexivity|]. intros k Hk <-. apply in_map_iff in Hk. destruct Hk as (x & <- & Hx). apply byindex_none in B. exfalso. apply B. exact (in_map nf_index nfs x Hx). }
  assert (IN : forall x, In x nfs -> nf_index x = i -> x = n).
  { intros x Hx <-. pose proof (byindex_in nfs x Hd Hx) as K. congruence. }
  pose proof (proj2 (byindex_some _ _ _ B)) as EI.
  assert (ST : nf_type n <> NETIF_REGULAR \/ nf_device_identified n <> 0 -> map (named_at os i) (map dkey nfs) = map dkey nfs).
  { intros K. apply at_same. intros k Hk Ek. apply in_map_iff in Hk. destruct Hk as (x & <- & Hx). rewrite (IN x Hx Ek). unfold named, dkey.
    destruct (Z.eqb_spec (nf_type n) NETIF_REGULAR); [|reflexivity]. destruct (Z.eqb_spec (nf_device_identified n) 0); [|reflexivity]. exfalso. destruct K; auto. }
  destruct (Z.eqb_spec (nf_type n) NETIF_TEAMING) as [Q|Q].
  { rewrite ST by (left; rewrite Q; discriminate). unfold netif_team. destruct (no_team os (nf_index n)) as [[[m p] a]|]; [|reflexivity]. destruct (_ =? _).
    - rewrite gentle_assign by (intros x; reflexivity). rewrite team_loop_dkey. now apply gentle_assign.
    - rewrite team_loop_dkey. now apply gentle_assign. }
  clear Q. destruct (Z.eqb_spec (nf_type n) NETIF_BONDING) as [Q|Q].
  { rewrite ST by (left; rewrite Q; discriminate). unfold netif_bond. destruct (no_bond os (nf_name n)) as [[m s]|]; [|reflexivity]. rewrite bond_loop_dkey.
    destruct (_ =? _); [now apply gentle_assign|]. destruct (_ =? _); [now apply gentle_assign|reflexivity]. }
  clear Q. destruct (Z.eqb_spec (nf_type n) NETIF_BRIDGE) as [Q|Q].
  { rewrite ST by (left; rewrite Q; discriminate). unfold netif_bridge. destruct (no_bridge os (nf_name n)); [apply bridge_loop_dkey|reflexivity]. }
  clear Q. destruct (Z.eqb_spec (nf_type n) NETIF_VLAN) as [Q|Q].
  { rewrite ST by (left; rewrite Q; discriminate). unfold netif_vlan. destruct (no_vlan os (nf_name n)) as [d|]; [|reflexivity].
    destruct (netif_byname nfs d); [now apply gentle_assign|reflexivity]. }
  clear Q. destruct (Z.eqb_spec (nf_type n) NETIF_REGULAR) as [Q|Q]; [|now rewrite ST by (now left)].
  unfold netif_device_id. destruct (Z.eqb_spec (nf_device_identified n) 0) as [D|D]; cbn [negb]; [|now rewrite ST by (now right)].
  cbv zeta. rewrite EI.
  (* the only entry with that index is [n] *)
  assert (Q2 : forall l, (forall x, In x l -> nf_index x = i -> x = n) -> NoDup (indices l) ->
    map dkey (nf_assign (set_device 1 (if zlen (no_device_id os i) =? 0 then nf_device_name n else firstn 63 (cstr (no_device_id os i)))) i l)
    = map (named_at os i) (map dkey l)).
  { clear IN ST B Hd. induction l as [|x l IH]; intros IN Hd; [reflexivity|]. unfold indices in Hd. cbn [map] in Hd. inversion Hd as [|? ? Hn Hd']; subst.
    cbn [nf_assign map]. unfold named_at at 1. change (fst (fst (fst (dkey x)))) with (nf_index x).
    destruct (Z.eqb_spec (nf_index x) (nf_index n)) as [E|E]; cbn [map].
    - rewrite (IN x (or_introl eq_refl) E). f_equal.
      + unfold named, dkey. cbn [set_device nf_type nf_index nf_device_identified nf_device_name]. rewrite Q, D. reflexivity.
      + symmetry. apply at_same. intros k Hk Ek. apply in_map_iff in Hk. destruct Hk as (y & <- & Hy). exfalso. apply Hn.
        change (nf_index y = nf_index n) in Ek. rewrite E, <- Ek. now apply in_map.
    - f_equal. apply IH; [|assumption]. intros y Hy. apply IN. now right. }
  now apply Q2.
Qed.
Lemma detect_indices os nfs i : indices (detect_one os nfs i) = indices nfs.
Proof. apply core_index, detect_core. Qed.
Lemma keys_indices ks nfs : map dkey nfs = ks -> indices nfs = map (fun k => fst (fst (fst k))) ks.
Proof. intros <-. rewrite map_map. reflexivity. Qed.
Lemma detects_dkey os : forall l nfs, NoDup (indices nfs) ->
  map dkey (fold_left (detect_one os) l nfs) = map (fun k => if existsb (fun i => fst (fst (fst k)) =? i) l then named os k else k) (map dkey nfs).
Proof.
  induction l as [|i l IH]; intros nfs Hd; [cbn; now rewrite map_id|]. cbn [fold_left]. rewrite IH by (now rewrite detect_indices).
  rewrite detect_dkey by assumption. rewrite map_map. apply map_ext. intros k. unfold named_at. cbn [existsb].
  assert (NI : fst (fst (fst (named os k))) = fst (fst (fst k))) by (destruct k as [[[a b] c] d]; unfold named; now destruct (_ && _)).
  destruct (fst (fst (fst k)) =? i); cbn [orb]; [|reflexivity]. rewrite NI. rewrite named_twice. now destruct (existsb _ l).
Qed.
Lemma detect_all_dkey os nfs : NoDup (indices nfs) ->
  map dkey (fold_left (detect_one os) (map nf_index nfs) nfs) = map (named os) (map dkey nfs).
Proof.
  intros Hd. rewrite detects_dkey by assumption. apply map_ext_in. intros k Hk. apply in_map_iff in Hk. destruct Hk as (x & <- & Hx).
  replace (existsb _ _) with true; [reflexivity|]. symmetry. apply existsb_exists. exists (nf_index x). split; [now apply in_map|]. apply Z.eqb_refl.
Qed.
Lemma addr_one_dkey cfg nfs si ia : map dkey (fst (addr_one cfg (nfs, si) ia)) = map dkey nfs.
Proof.
  unfold addr_one. destruct (ia_addr ia) as [sa|]; [|reflexivity]. destruct (netif_byname nfs (ia_name ia)) as [n|]; [|reflexivity].
  destruct sa as [h i a|a|a|]; [now apply gentle_assign| | |reflexivity].
  - destruct (addr_set _); [reflexivity|]. destruct (si_mnetif si); [now apply gentle_assign|].
    destruct (_ && _); now apply gentle_assign.
  - destruct (addr_set _); [reflexivity|]. destruct (linklocal a); [reflexivity|].
    destruct (si_mnetif si); [now apply gentle_assign|]. destruct (_ && _); now apply gentle_assign.
Qed.
Lemma addr_fold_dkey cfg : forall ias nfs si, map dkey (fst (fold_left (addr_one cfg) ias (nfs, si))) = map dkey nfs.
Proof.
  induction ias as [|ia ias IH]; intros nfs si; cbn [fold_left]; [reflexivity|].
  pose proof (addr_one_dkey cfg nfs si ia) as H. destruct (addr_one cfg (nfs, si) ia) as [a b]. now rewrite IH.
Qed.
Lemma addrs_dkey cfg ias nfs si : map dkey (fst (netif_addrs cfg ias nfs si)) = map dkey nfs.
Proof.
  unfold netif_addrs. pose proof (addr_fold_dkey cfg ias nfs si) as H.
  destruct (fold_left _ _ _) as [a b]. cbn [fst] in H. destruct (negb _); [assumption|].
  destruct (si_mnetif b) as [m|]; [|assumption]. destruct (netif_byindex a m) as [mn|]; [|assumption].
  cbn [fst]. rewrite map_map. rewrite <- H. now apply map_ext.
Qed.
Lemma argv_dkey : forall ifl nfs c, map dkey (fst (argv_loop ifl nfs c)) = map dkey nfs.
Proof.
  induction ifl as [|x ifl IH]; intros nfs c; cbn [argv_loop]; [reflexivity|].
  destruct (netif_byname nfs x) as [n|]; [|apply IH]. destruct (_ =? _); [apply IH|]. rewrite IH. now apply gentle_assign.
Qed.
