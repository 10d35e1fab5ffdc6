(** Interfaces in memory: creation and removal, and the whole refresh. *)
From Verif Require Import Base Types Tlv Util Netif NetMem SpecNetif SpecNetMem SpecWalk Child.
From Verif Require Import Lemmas NetifProofs1 NetMemProofs NetMemProofs2.

(** Marking. *)
Lemma all_fold l f : (forall m n, shown m (f n) = f (shown m n)) -> (forall n, nf_index (f n) = nf_index n) ->
  (forall n, nf_parent (f n) = nf_parent n) -> (forall n, nf_subif (f n) = nf_subif n) ->
  forall todo m, inv l m -> (forall a, In a todo -> In a l) ->
  res l m (fold_left (fun t i => nf_assign f i t) (map nf_index (blocks todo m)) (view_of l m)) (m_all f todo m).
Proof.
  intros Hs Hi Hp Hq. induction todo as [|a todo IH]; intros m I Ht; [now apply res_ret|]. cbn [m_all].
  destruct (live_some l m a I) as (n & En); [apply Ht; now left|]. rewrite (blocks_cons a todo m n En). cbn [map fold_left].
  eapply res_bind; [apply (store_plain l m a n f f); auto|]. intros m1 I1 A1 V1. rewrite <- V1.
  rewrite <- (alike_index todo m m1); [|intros b Hb; apply (i_live _ _ I), Ht; now right|assumption].
  apply IH; [assumption|]. intros b Hb. apply Ht. now right.
Qed.
Lemma mark_ok l m : inv l m -> res l m (map (set_type NETIF_OLD) (view_of l m)) (m_all (set_type NETIF_OLD) l m).
Proof.
  intros I. rewrite <- (assign_each (set_type NETIF_OLD)); [|rewrite view_index; apply (i_index _ _ I)|reflexivity].
  rewrite view_index. now apply all_fold.
Qed.
Lemma view_types l m v : inv l m -> (forall x, In x (view_of l m) -> nf_type x = v) -> forall a n, m a = Some n -> nf_type n = v.
Proof.
  intros I H a n E. change (nf_type n) with (nf_type (shown m n)). apply H. unfold view_of. apply in_map.
  apply (blocks_in _ _ a); [now apply (some_live l m a n)|assumption].
Qed.

(** The loop over getifaddrs. *)
Definition cleared (m : mem) : Prop := forall a n, m a = Some n -> nf_type n <> NETIF_OLD -> nf_parent n = None /\ nf_subif n = None.
Record fetching (st : nst) : Prop := mkFetching {
  f_inv : inv (ns_list st) (ns_mem st);
  f_new : forall a, In a (ns_list st) -> a < ns_next st;
  f_mgmt : mgmt_live (ns_list st) (ns_si st);
  f_clear : cleared (ns_mem st)
}.
Definition pure (st : nst) : list netif * sysinfo := (view_of (ns_list st) (ns_mem st), seen_si (ns_mem st) (ns_si st)).
Lemma count_mnetif ty up si : si_mnetif (count_type ty up si) = si_mnetif si.
Proof. unfold count_type. now repeat destruct (_ =? _). Qed.
Lemma count_seen m ty up si : seen_si m (count_type ty up si) = count_type ty up (seen_si m si).
Proof. unfold seen_si. rewrite count_mnetif. unfold count_type. now repeat destruct (_ =? _). Qed.
Lemma fetching_si st si : fetching st -> mgmt_live (ns_list st) si -> fetching (with_si st si).
Proof. intros [A B C D] H. now constructor. Qed.

Lemma alloc_ok st n0 : fetching st -> nf_parent n0 = None -> nf_subif n0 = None ->
  netif_byindex (view_of (ns_list st) (ns_mem st)) (nf_index n0) = None ->
  let st' := mkNst (ns_list st ++ [ns_next st]) (poke (ns_mem st) (ns_next st) (Some n0)) (ns_next st + 1) (ns_si st) in
  fetching st' /\ pure st' = (fst (pure st) ++ [n0], snd (pure st)).
Proof.
  intros [I N M C] Hp Hq Hi. destruct st as [l m nx si]. cbn [ns_list ns_mem ns_next ns_si] in *.
  assert (Nl : ~ In nx l) by (intros K; apply N in K; lia).
  assert (El : forall a, In a l -> poke m nx (Some n0) a = m a) by (intros a Ha; apply poke_other; intros ->; contradiction).
  assert (Eb : blocks (l ++ [nx]) (poke m nx (Some n0)) = blocks l m ++ [n0]).
  { rewrite blocks_app, (blocks_ext l m) by assumption. f_equal. unfold blocks. cbn. now rewrite poke_same. }
  assert (Ei : forall o, (forall p, o = Some p -> In p l) -> index_at (poke m nx (Some n0)) o = index_at m o).
  { intros [p|] K; [|reflexivity]. cbn. now rewrite El by now apply K. }
  apply byindex_none in Hi. unfold indices in Hi. rewrite view_index in Hi.
  split.
  - constructor; cbn [ns_list ns_mem ns_next ns_si].
    + constructor.
      * apply nodup_snoc; [apply (i_once _ _ I)|assumption].
      * intros a. rewrite in_app_iff. destruct (Z.eq_dec a nx) as [->|Na].
        -- rewrite poke_same. split; [intros _; right; now left|discriminate].
        -- rewrite poke_other by assumption. rewrite (i_live _ _ I). split; [now left|]. intros [K|[K|[]]]; [assumption|congruence].
      * rewrite Eb, map_app. apply nodup_snoc; [apply (i_index _ _ I)|assumption].
      * intros a n E. destruct (Z.eq_dec a nx) as [->|Na].
        -- rewrite poke_same in E. assert (n = n0) by congruence. subst n. split; intros p K; congruence.
        -- rewrite poke_other in E by assumption. destruct (i_ptrs _ _ I a n E) as [K1 K2].
           split; intros p K; apply in_or_app; left; [now apply K1|now apply K2].
    + intros a Ha. apply in_app_or in Ha as [Ha|[<-|[]]]; [apply N in Ha; lia|lia].
    + intros p K. apply in_or_app. left. now apply M.
    + intros a n E T. destruct (Z.eq_dec a nx) as [->|Na].
      * rewrite poke_same in E. assert (n = n0) by congruence. subst n. now split.
      * rewrite poke_other in E by assumption. now apply (C a n).
  - unfold pure. cbn [ns_list ns_mem ns_next ns_si fst snd]. f_equal.
    + unfold view_of. rewrite Eb, map_app. f_equal.
      * apply map_ext_in. intros x Hx. unfold blocks in Hx. apply in_flat_map in Hx as (a & Ha & Hx).
        destruct (m a) as [na|] eqn:Ea; [|easy]. destruct Hx as [->|[]]. destruct (i_ptrs _ _ I a x Ea) as [K1 K2].
        unfold shown. now rewrite !Ei.
      * cbn [map]. f_equal. unfold shown. rewrite Hp, Hq. cbn [index_at]. destruct n0. cbn in *. now subst.
    + unfold seen_si. rewrite Ei; [reflexivity|exact M].
Qed.

Lemma fetch_one_ok cfg os st c ia : fetching st ->
  exists st' c', m_fetch_one cfg os (st, c) ia = Some (st', c') /\ fetching st'
    /\ fetch_one cfg os (fst (pure st), snd (pure st), c) ia = (fst (pure st'), snd (pure st'), c').
Proof.
  intros F. unfold m_fetch_one, fetch_one.
  assert (R : exists st' c', Some (st, c) = Some (st', c') /\ fetching st'
     /\ (fst (pure st), snd (pure st), c) = (fst (pure st'), snd (pure st'), c')) by (now exists st, c).
  destruct (ia_addr ia) as [[ht index hw|x|x|]|]; try exact R. clear R.
  destruct (negb (ht =? ARPHRD_ETHER)); [now exists st, c|]. cbn zeta.
  set (up := match no_flags os (firstn 15 (ia_name ia)) with Some f => has f IFF_UP | None => false end).
  set (ty := netif_type os index (ia_name ia)). set (si1 := count_type ty up (ns_si st)).
  assert (M1 : mgmt_live (ns_list st) si1) by (intros p K; unfold si1 in K; rewrite count_mnetif in K; now apply (f_mgmt _ F)).
  assert (F1 : fetching (with_si st si1)) by now apply fetching_si.
  assert (E1 : (fst (pure st), count_type ty up (snd (pure st))) = pure (with_si st si1)).
  { unfold pure. cbn [fst snd with_si ns_list ns_mem ns_si]. unfold si1. now rewrite count_seen. }
  pose proof (f_equal fst E1) as E1a. pose proof (f_equal snd E1) as E1b. cbn [fst snd] in E1a, E1b. clear E1.
  rewrite E1a, E1b. set (st1 := with_si st si1) in *. clearbody st1. clear E1a E1b M1 si1 F st.
  destruct (ty =? NETIF_INVALID); [now exists st1, c|]. destruct (negb up); [now exists st1, c|].
  set (alias := no_alias os index).
  (* the interface is found or created *)
  assert (G : exists a n st2, In a (ns_list st2) /\ ns_mem st2 a = Some n /\ nf_index n = index /\ fetching st2 /\
     (let? found := m_byindex (ns_list st1) (ns_mem st1) index in
      match found with
      | None => Some (ns_next st1, mkNst (ns_list st1 ++ [ns_next st1])
           (poke (ns_mem st1) (ns_next st1) (Some (fresh_netif index (ia_name ia) ty alias 0 0 0 []))) (ns_next st1 + 1) (ns_si st1))
      | Some a => let? m := m_store (fun o => fresh_netif index (ia_name ia) ty alias (nf_protos o)
                             (nf_link_event o) (nf_device_identified o) (nf_device_name o)) a (ns_mem st1) in
                  Some (a, with_mem st1 m)
      end) = Some (a, st2)
     /\ pure st2 = (match netif_byindex (fst (pure st1)) index with
            | None => fst (pure st1) ++ [fresh_netif index (ia_name ia) ty alias 0 0 0 []]
            | Some o =>
                nf_assign (fun _ => fresh_netif index (ia_name ia) ty alias (nf_protos o)
                             (nf_link_event o) (nf_device_identified o) (nf_device_name o))
                  index (fst (pure st1))
            end, snd (pure st1))).
  { destruct (byindex_ok (ns_list st1) (ns_mem st1) index (f_inv _ F1)) as (r & Er & Hr). rewrite Er. cbn [obind].
    destruct r as [a|].
    - destruct Hr as (n & Ha & En & Ei & Ef). change (fst (pure st1)) with (view_of (ns_list st1) (ns_mem st1)). rewrite Ef.
      set (f := fun o => fresh_netif index (ia_name ia) ty alias (nf_protos o) (nf_link_event o) (nf_device_identified o) (nf_device_name o)).
      destruct (store_ok (ns_list st1) (ns_mem st1) a n f (fun _ => f n) (f_inv _ F1) En) as (m1 & E1 & I1 & A1 & Ea & Eo & V1);
        [now symmetry|split; intros p K; discriminate K|reflexivity|].
      rewrite E1. cbn [obind]. exists a, (f n), (with_mem st1 m1). split; [exact Ha|]. split; [exact Ea|]. split; [reflexivity|].
      split; [|split; [reflexivity|]].
      + constructor; cbn [with_mem ns_list ns_mem ns_next ns_si]; [assumption|apply (f_new _ F1)|apply (f_mgmt _ F1)|].
        intros b nb Eb T. destruct (Z.eq_dec b a) as [->|Nb].
        * rewrite Ea in Eb. assert (nb = f n) by congruence. subst nb. now split.
        * rewrite (Eo b Nb) in Eb. now apply (f_clear _ F1 b).
      + unfold pure. cbn [with_mem ns_list ns_mem ns_si fst snd]. rewrite V1, Ei. f_equal. now apply seen_alike.
    - destruct (alloc_ok st1 (fresh_netif index (ia_name ia) ty alias 0 0 0 []) F1 eq_refl eq_refl) as (F2 & P2); [exact Hr|].
      exists (ns_next st1). eexists _, _. split; [|split; [|split; [|split; [exact F2|split; [reflexivity|]]]]].
      + cbn [ns_list]. apply in_or_app. right. now left.
      + cbn [ns_mem]. apply poke_same.
      + reflexivity.
      + change (fst (pure st1)) with (view_of (ns_list st1) (ns_mem st1)) in *. rewrite Hr. exact P2. }
  destruct G as (a & n & st2 & Ha & En & Ei & F2 & Eg & P2). 
  match goal with |- exists st' c', ?X = _ /\ _ =>
    assert (EE : X = Some (with_si st2 (match nc_mifname cfg with
                    | Some x => if beq (firstn 15 (ia_name ia)) x then set_mnetif (Some a) (ns_si st2) else ns_si st2
                    | None => ns_si st2 end), c + 1)) end.
  { destruct (m_byindex (ns_list st1) (ns_mem st1) index) as [found|]; [|discriminate Eg]. cbn [obind] in Eg |- *.
    rewrite Eg. reflexivity. }
  rewrite EE. clear EE Eg. eexists _, _. split; [reflexivity|]. pose proof (f_equal fst P2) as Pa. pose proof (f_equal snd P2) as Pb. cbn [fst snd] in Pa, Pb.
  rewrite <- Pa, <- Pb. clear P2 Pa Pb.
  destruct (nc_mifname cfg) as [x|]; [destruct (beq _ x)|].
  - split.
    + apply fetching_si; [assumption|]. intros p K. cbn in K. assert (p = a) by congruence. now subst p.
    + unfold pure. cbn [with_si ns_list ns_mem ns_si fst snd]. now rewrite (seen_set _ _ _ n En), Ei.
  - split; [apply fetching_si; [assumption|apply (f_mgmt _ F2)]|reflexivity].
  - split; [apply fetching_si; [assumption|apply (f_mgmt _ F2)]|reflexivity].
Qed.
Lemma fetch_all_ok cfg os : forall ias st c, fetching st ->
  exists st' c', m_fetch_all cfg os ias (st, c) = Some (st', c') /\ fetching st'
    /\ fold_left (fetch_one cfg os) ias (fst (pure st), snd (pure st), c) = (fst (pure st'), snd (pure st'), c').
Proof.
  induction ias as [|ia ias IH]; intros st c F; [now exists st, c|]. cbn [m_fetch_all fold_left].
  destruct (fetch_one_ok cfg os st c ia F) as (st1 & c1 & -> & F1 & ->). cbn [obind]. now apply IH.
Qed.

(** Removal. *)
Definition old (n : netif) : bool := nf_type n =? NETIF_OLD.
Definition goes (m : mem) (r : list Z) (a : Z) : bool :=
  existsb (Z.eqb a) r && match m a with Some n => old n | None => false end.
Lemma filter_filter {A} (p q : A -> bool) l : filter p (filter q l) = filter (fun x => p x && q x) l.
Proof.
  induction l as [|x l IH]; [reflexivity|]. cbn. destruct (q x); cbn; rewrite ?andb_true_r, ?andb_false_r; [destruct (p x); now rewrite IH|exact IH].
Qed.
Lemma in_existsb a r : existsb (Z.eqb a) r = true <-> In a r.
Proof.
  rewrite existsb_exists. split.
  - intros (x & H & E). assert (a = x) by lia. now subst x.
  - intros H. exists a. split; [assumption|lia].
Qed.
Lemma remove_loop : forall r st closed, NoDup r -> (forall a, In a r -> ns_mem st a <> None) ->
  exists st', m_remove_old r st closed = Some (st', closed ++ map nf_index (filter old (blocks r (ns_mem st))))
    /\ ns_list st' = filter (fun a => negb (goes (ns_mem st) r a)) (ns_list st)
    /\ (forall a, ns_mem st' a = if goes (ns_mem st) r a then None else ns_mem st a)
    /\ ns_next st' = ns_next st
    /\ ns_si st' = match si_mnetif (ns_si st) with
                   | Some b => if goes (ns_mem st) r b then set_mnetif None (ns_si st) else ns_si st
                   | None => ns_si st
                   end.
Proof.
  induction r as [|x r IH]; intros st closed D L.
  - exists st. cbn. rewrite app_nil_r. split; [reflexivity|]. split; [|split; [reflexivity|split; [reflexivity|]]].
    + unfold goes. cbn. now induction (ns_list st) as [|a l IHl]; [|cbn; f_equal].
    + now destruct (si_mnetif (ns_si st)).
  - inversion D as [|? ? Hx D']; subst. cbn [m_remove_old]. destruct (ns_mem st x) as [n|] eqn:En; [|exfalso; apply (L x); [now left|assumption]].
    cbn [obind]. rewrite (blocks_cons x r _ n En). cbn [filter]. change (nf_type n =? NETIF_OLD) with (old n).
    destruct (old n) eqn:O; cbn [negb].
    + set (si1 := match si_mnetif (ns_si st) with Some b => if b =? x then set_mnetif None (ns_si st) else ns_si st | None => ns_si st end).
      set (st1 := mkNst (filter (fun b => negb (b =? x)) (ns_list st)) (poke (ns_mem st) x None) (ns_next st) si1).
      destruct (IH st1 (closed ++ [nf_index n]) D') as (st' & E & H1 & H2 & H3 & H4).
      { intros a Ha. unfold st1. cbn [ns_mem]. rewrite poke_other by (intros ->; contradiction). apply L. now right. }
      exists st'. assert (G : forall a, goes (ns_mem st) (x :: r) a = (a =? x) || goes (ns_mem st1) r a).
      { intros a. unfold goes, st1. cbn [existsb ns_mem]. destruct (a =? x) eqn:Ea; cbn [orb andb].
        - assert (a = x) by lia. subst a. now rewrite En, O.
        - now rewrite poke_other by lia. }
      rewrite E. unfold st1 at 1. cbn [ns_mem].
      rewrite (blocks_ext r (ns_mem st)) by (intros a Ha; apply poke_other; intros ->; contradiction).
      cbn [map]. rewrite <- app_assoc. cbn [app]. split; [reflexivity|].
      split; [|split; [|split]].
      * rewrite H1. unfold st1 at 2. cbn [ns_list]. rewrite filter_filter. apply filter_ext. intros a. rewrite G.
        now rewrite negb_orb, andb_comm.
      * intros a. rewrite H2, G. unfold st1 at 2. cbn [ns_mem]. destruct (a =? x) eqn:Ea; cbn [orb].
        -- assert (a = x) by lia. subst a. rewrite poke_same. now destruct (goes _ _ _).
        -- now rewrite poke_other by lia.
      * exact H3.
      * rewrite H4. unfold st1 at 1 3 4 5. cbn [ns_si]. unfold si1. destruct (si_mnetif (ns_si st)) as [b|] eqn:Eb; [|now rewrite Eb].
        rewrite G. destruct (b =? x) eqn:Ex; cbn [orb]; [reflexivity|]. now rewrite Eb.
    + destruct (IH st closed D') as (st' & E & H1 & H2 & H3 & H4); [intros a Ha; apply L; now right|].
      exists st'. assert (G : forall a, goes (ns_mem st) (x :: r) a = goes (ns_mem st) r a).
      { intros a. unfold goes. cbn [existsb]. destruct (a =? x) eqn:Ea; cbn [orb]; [|reflexivity].
        assert (a = x) by lia. subst a. now rewrite En, O, !andb_false_r. }
      split; [exact E|]. split; [|split; [|split]].
      * rewrite H1. apply filter_ext. intros a. now rewrite G.
      * intros a. now rewrite H2, G.
      * exact H3.
      * rewrite H4. destruct (si_mnetif (ns_si st)) as [b|]; [now rewrite G|reflexivity].
Qed.
Lemma blocks_filter m : forall l, (forall a, In a l -> m a <> None) ->
  blocks (filter (fun a => negb match m a with Some n => old n | None => false end) l) m = filter (fun n => negb (old n)) (blocks l m).
Proof.
  induction l as [|a l IH]; intros L; [reflexivity|]. destruct (m a) as [n|] eqn:E; [|exfalso; apply (L a); [now left|assumption]].
  rewrite (blocks_cons a l m n E). cbn [filter]. rewrite E. destruct (old n); cbn [negb].
  - apply IH. intros b Hb. apply L. now right.
  - rewrite (blocks_cons a _ m n E). f_equal. apply IH. intros b Hb. apply L. now right.
Qed.
Lemma shown_clear m n : nf_parent n = None -> nf_subif n = None -> shown m n = n.
Proof. intros Hp Hq. unfold shown. rewrite Hp, Hq. cbn [index_at]. destruct n. cbn in *. now subst. Qed.
Lemma nodup_filter_map {A B} (g : A -> B) (p : A -> bool) l : NoDup (map g l) -> NoDup (map g (filter p l)).
Proof.
  induction l as [|x l IH]; intros D; [constructor|]. cbn in D |- *. inversion D as [|? ? Hx D']; subst. destruct (p x); [|now apply IH].
  cbn. constructor; [|now apply IH]. intros K. apply Hx. apply in_map_iff in K as (y & E & K). apply filter_In in K as [K _].
  apply in_map_iff. now exists y.
Qed.
Lemma filter_map {A B} (g : A -> B) (p : B -> bool) l : filter p (map g l) = map g (filter (fun x => p (g x)) l).
Proof. induction l as [|x l IH]; [reflexivity|]. cbn. destruct (p (g x)); cbn; now rewrite IH. Qed.

Lemma remove_ok st : fetching st ->
  exists st' gone, m_remove_old (ns_list st) st [] = Some (st', gone) /\ fetching st'
    /\ remove_old (fst (pure st)) (snd (pure st)) = (fst (pure st'), snd (pure st'), gone).
Proof.
  intros [I N M C]. destruct (remove_loop (ns_list st) st [] (i_once _ _ I)) as (st' & E & H1 & H2 & H3 & H4);
    [intros a Ha; now apply (i_live _ _ I)|].
  cbn [app] in E. eexists st', _. split; [exact E|].
  set (l := ns_list st) in *. set (m := ns_mem st) in *. set (si := ns_si st) in *.
  set (dead := fun a => match m a with Some n => old n | None => false end).
  assert (G : forall a, goes m l a = dead a).
  { intros a. unfold goes, dead. destruct (m a) as [n|] eqn:Ea; [|apply andb_false_r].
    rewrite (proj2 (in_existsb a l)); [reflexivity|]. now apply (some_live l m a n). }
  assert (El : ns_list st' = filter (fun a => negb (dead a)) l) by (rewrite H1; apply filter_ext; intros a; now rewrite G).
  assert (Em : forall a, ns_mem st' a = if dead a then None else m a) by (intros a; now rewrite H2, G).
  assert (Eb : blocks (ns_list st') (ns_mem st') = filter (fun n => negb (old n)) (blocks l m)).
  { rewrite El. rewrite (blocks_ext _ m).
    - unfold dead. apply blocks_filter. intros a Ha. now apply (i_live _ _ I).
    - intros a Ha. apply filter_In in Ha as [_ Ha]. rewrite Em. now destruct (dead a). }
  assert (Cl : forall a n, ns_mem st' a = Some n -> nf_parent n = None /\ nf_subif n = None).
  { intros a n Ea. rewrite Em in Ea. unfold dead in Ea. destruct (m a) as [k|] eqn:Ek; [|discriminate]. destruct (old k) eqn:O; [discriminate|].
    assert (k = n) by congruence. subst k. apply (C a n Ek). unfold old in O. lia. }
  assert (F' : fetching st').
  { constructor.
    - constructor.
      + rewrite El. apply NoDup_filter. apply (i_once _ _ I).
      + intros a. rewrite El, filter_In, Em. unfold dead. destruct (m a) as [n|] eqn:Ea.
        * pose proof (some_live _ _ _ _ I Ea). destruct (old n); cbn; intuition discriminate.
        * split; [contradiction|]. intros [K _]. apply (i_live _ _ I) in K. contradiction.
      + rewrite Eb. apply nodup_filter_map. apply (i_index _ _ I).
      + intros a n Ea. destruct (Cl a n Ea) as [K1 K2]. split; intros p K; congruence.
    - intros a Ha. rewrite H3. apply N. rewrite El in Ha. now apply filter_In in Ha as [Ha _].
    - intros p K. rewrite El, filter_In. rewrite H4 in K. destruct (si_mnetif si) as [b|] eqn:Es; [|congruence]. rewrite G in K.
      destruct (dead b) eqn:Db; [discriminate K|]. assert (b = p) by congruence. subst b. split; [now apply M|]. now rewrite Db.
    - intros a n Ea _. now apply (Cl a n). }
  split; [exact F'|]. unfold remove_old. 
  assert (Ev : fst (pure st') = filter (fun n => negb (nf_type n =? NETIF_OLD)) (fst (pure st))).
  { unfold pure. cbn [fst]. unfold view_of. fold l m. rewrite Eb, filter_map. cbn [nf_type].
    assert (K : forall n, In n (filter (fun n => negb (old n)) (blocks l m)) -> nf_parent n = None /\ nf_subif n = None).
    { intros n Hn. rewrite <- Eb in Hn. unfold blocks in Hn. apply in_flat_map in Hn as (a & Ha & Hn).
      destruct (ns_mem st' a) as [k|] eqn:Ek; [|easy]. destruct Hn as [->|[]]. now apply (Cl a n). }
    transitivity (filter (fun n => negb (old n)) (blocks l m)).
    - rewrite <- map_id. apply map_ext_in. intros n Hn. destruct (K n Hn). now apply shown_clear.
    - rewrite <- map_id at 1. apply map_ext_in. intros n Hn. destruct (K n Hn). symmetry. now apply shown_clear. }
  assert (Eg : map nf_index (filter old (blocks l m)) = map nf_index (filter (fun n => nf_type n =? NETIF_OLD) (fst (pure st)))).
  { unfold pure. cbn [fst]. unfold view_of. fold l m. rewrite filter_map, map_map. reflexivity. }
  rewrite <- Ev, Eg. f_equal. f_equal.
  change (snd (pure st)) with (seen_si m si). change (snd (pure st')) with (seen_si (ns_mem st') (ns_si st')).
  rewrite <- Eg. pose proof (mnetif_seen l m si I M) as K. rewrite H4. unfold mgmt_live in M. destruct (si_mnetif si) as [b|] eqn:Es.
  - destruct K as (n & En & ->). rewrite G. unfold dead. rewrite En.
    assert (X : existsb (fun i => i =? nf_index n) (map nf_index (filter old (blocks l m))) = old n).
    { apply eq_iff_eq_true. rewrite existsb_exists. split.
      - intros (i & Hi & Ei). apply in_map_iff in Hi as (k & Ek & Hk). apply filter_In in Hk as [Hk Ok].
        unfold blocks in Hk. apply in_flat_map in Hk as (a & Ha & Hk). destruct (m a) as [k'|] eqn:Ea; [|easy]. destruct Hk as [->|[]].
        assert (a = b) by (apply (index_address l m a b k n); try assumption; lia). subst a. congruence.
      - intros O. exists (nf_index n). split; [|lia]. apply in_map. apply filter_In. split; [|assumption].
        apply (blocks_in _ _ b); [now apply M|assumption]. }
    rewrite X. destruct (old n) eqn:O.
    + reflexivity.
    + unfold seen_si. rewrite Es. f_equal. cbn [index_at]. rewrite Em. unfold dead. now rewrite En, O.
  - rewrite K. unfold seen_si. now rewrite Es.
Qed.

(** The whole refresh. *)
Lemma sound_inv st : sound st -> inv (ns_list st) (ns_mem st).
Proof.
  intros [A B _ D P Q _]. constructor; try assumption. intros a n E. split; intros p K; [now apply (P a n)|now apply (Q a n)].
Qed.
Lemma sound_of l m nx si : inv l m -> (forall a, In a l -> a < nx) -> mgmt_live l si -> sound (mkNst l m nx si).
Proof.
  intros [A B C D] N M. constructor; cbn [ns_list ns_mem ns_next ns_si]; try assumption.
  - intros a n p E K. exact (proj1 (D a n E) p K).
  - intros a n p E K. exact (proj2 (D a n E) p K).
Qed.
Lemma pure_is st : pure st = (table_of st, sysinfo_of st). Proof. reflexivity. Qed.

Lemma fetch_ok cfg os st : sound st ->
  exists ret st' gone, m_fetch cfg os st = Some (ret, st', gone) /\ sound st'
    /\ netif_fetch cfg os (table_of st) (sysinfo_of st) = (ret, table_of st', sysinfo_of st', gone).
Proof.
  intros Sd. unfold m_fetch, netif_fetch. destruct (no_ifaddrs os) as [ias|]; [|now exists 0, st, []].
  pose proof (sound_inv _ Sd) as I. cbn zeta. set (keep := Z.lor CAP_HOST CAP_ROUTER).
  set (si0 := set_caps (Z.land (si_cap (ns_si st)) keep) (Z.land (si_cap_active (ns_si st)) keep) 0 (ns_si st)).
  destruct (mark_ok _ _ I) as (m0 & -> & I0 & A0 & V0). cbn [obind].
  assert (F0 : fetching (with_si (with_mem st m0) si0)).
  { constructor; cbn [with_si with_mem ns_list ns_mem ns_next ns_si]; [assumption|apply (so_new _ Sd)|exact (so_mgmt _ Sd)|].
    intros a n E T. exfalso. apply T. apply (view_types _ _ NETIF_OLD I0) with a; [|assumption]. intros x Hx. rewrite V0 in Hx.
    apply in_map_iff in Hx as (y & <- & _). reflexivity. }
  destruct (fetch_all_ok cfg os ias _ 0 F0) as (st1 & c1 & -> & F1 & E1). cbn [obind].
  replace (fst (pure (with_si (with_mem st m0) si0))) with (map (set_type NETIF_OLD) (table_of st)) in E1 by (symmetry; exact V0).
  replace (snd (pure (with_si (with_mem st m0) si0)))
    with (set_caps (Z.land (si_cap (sysinfo_of st)) keep) (Z.land (si_cap_active (sysinfo_of st)) keep) 0 (sysinfo_of st)) in E1.
  2: { unfold pure. cbn [snd with_si with_mem ns_list ns_mem ns_si]. rewrite (seen_alike (ns_mem st) m0) by assumption. reflexivity. }
  rewrite E1. clear E1. destruct (remove_ok st1 F1) as (st2 & gone & -> & F2 & ->). cbn [obind].
  set (l := ns_list st2). destruct (detect_ok os l l (ns_mem st2) (f_inv _ F2)) as (m3 & -> & I3 & A3 & V3); [auto|]. cbn [obind].
  change (fst (pure st2)) with (view_of l (ns_mem st2)). change (snd (pure st2)) with (seen_si (ns_mem st2) (ns_si st2)). rewrite view_index, <- V3.
  destruct (addrs_ok cfg ias l m3 (ns_si st2) I3 (f_mgmt _ F2)) as (m4 & si4 & -> & I4 & A4 & M4 & E4). cbn [obind].
  rewrite (seen_alike (ns_mem st2) m3) in E4 by assumption. rewrite <- E4. clear E4.
  set (hw := match view_of l m4 with n :: _ => set_chassis (nf_hwaddr n) (seen_si m4 si4) | [] => seen_si m4 si4 end).
  assert (H5 : exists si5, match l with
                  | a :: _ => let? n := m4 a in Some (set_chassis (nf_hwaddr n) si4)
                  | [] => Some si4
                  end = Some si5 /\ mgmt_live l si5 /\ seen_si m4 si5 = hw).
  { unfold hw, view_of. destruct l as [|a l'] eqn:El.
    - now exists si4.
    - destruct (live_some (a :: l') m4 a I4) as (n & En); [now left|]. rewrite En, (blocks_cons a l' m4 n En). cbn [obind map].
      eexists. split; [reflexivity|]. split; [exact M4|reflexivity]. }
  destruct H5 as (si5 & -> & M5 & <-). cbn [obind].
  destruct (0 <? zlen (nc_ifl cfg)).
  - destruct (argv_ok l (nc_ifl cfg) m4 0 I4) as (m5 & c5 & -> & I5 & A5 & ->). cbn [obind].
    eexists _, _, _. split; [reflexivity|]. split; [apply sound_of; [assumption|apply (f_new _ F2)|assumption]|].
    unfold table_of, sysinfo_of. cbn [ns_list ns_mem ns_si]. fold (seen_si m5 si5). now rewrite (seen_alike m4 m5).
  - eexists _, _, _. split; [reflexivity|]. split; [apply sound_of; [assumption|apply (f_new _ F2)|assumption]|]. reflexivity.
Qed.

(** Histories. *)
Lemma changed_sound st st' : sound st -> changed st st' -> sound st'.
Proof.
  intros [A B N D P Q G] (El & En & Es & Em). constructor; rewrite ?El, ?En, ?Es; try assumption.
  - intros a. rewrite <- B. specialize (Em a). destruct (ns_mem st a), (ns_mem st' a); try contradiction; split; congruence.
  - rewrite (alike_index _ (ns_mem st)); [assumption|intros a; apply B|]. intros a. specialize (Em a).
    destruct (ns_mem st a), (ns_mem st' a); try contradiction; [|reflexivity]. cbn. now destruct Em as (-> & _).
  - intros a n p E K. specialize (Em a). rewrite E in Em. destruct (ns_mem st a) as [n0|] eqn:E0; [|contradiction].
    destruct Em as (_ & E1 & _). apply (P a n0 p E0). congruence.
  - intros a n p E K. specialize (Em a). rewrite E in Em. destruct (ns_mem st a) as [n0|] eqn:E0; [|contradiction].
    destruct Em as (_ & _ & E1). apply (Q a n0 p E0). congruence.
Qed.
Lemma visited_sound cfg oss st : visited cfg oss st -> sound st.
Proof.
  induction 1 as [si nx H|oss st st' _ IH Hc|oss os st st' ret gone _ IH E].
  - constructor; cbn [ns_list ns_mem ns_next ns_si]; try easy; [apply NoDup_nil|apply NoDup_nil|]. intros p K. congruence.
  - now apply (changed_sound st).
  - destruct (fetch_ok cfg os st IH) as (r & s & g & E' & S' & _). rewrite E in E'. congruence.
Qed.
Lemma visited_goes_on cfg oss st os : visited cfg oss st ->
  exists ret st' gone, m_fetch cfg os st = Some (ret, st', gone) /\ visited cfg (oss ++ [os]) st'.
Proof.
  intros V. destruct (fetch_ok cfg os st (visited_sound _ _ _ V)) as (ret & st' & gone & E & _).
  exists ret, st', gone. split; [assumption|]. now apply (vis_fetch cfg oss os st st' ret gone).
Qed.

(** Iteration. *)
Lemma scan_ok opts m0 : forall l m k, (forall a, In a l -> m a <> None) ->
  (forall a n, m a = Some n -> iter_skip opts (shown m0 n) = iter_skip opts n) ->
  m_iter_scan opts l m = Some (match iter_scan opts (map (shown m0) (blocks l m)) k with Some j => nth_error l (j - k) | None => None end)
  /\ (forall j, iter_scan opts (map (shown m0) (blocks l m)) k = Some j -> (k <= j)%nat).
Proof.
  unfold m_iter_scan. induction l as [|a l IH]; intros m k L Hs; [split; [reflexivity|discriminate]|].
  destruct (m a) as [n|] eqn:E; [|exfalso; apply (L a); [now left|assumption]].
  rewrite (blocks_cons a l m n E). cbn [map iter_scan m_find]. rewrite E, (Hs a n E). cbn [obind].
  destruct (iter_skip opts n); cbn [negb].
  - destruct (IH m (S k)) as [E1 E2]; [intros b Hb; apply L; now right|assumption|]. rewrite E1. split.
    + f_equal. destruct (iter_scan _ _ _) as [j|]; [|reflexivity]. specialize (E2 j eq_refl).
      replace (j - k)%nat with (S (j - S k)) by lia. reflexivity.
    + intros j K. specialize (E2 j K). lia.
  - replace (k - k)%nat with O by lia. split; [reflexivity|]. intros j K. assert (k = j) by congruence. lia.
Qed.
Lemma skip_shown opts l m n : inv l m -> ptrs_in l n -> iter_skip opts (shown m n) = iter_skip opts n.
Proof.
  intros I [_ P]. unfold iter_skip. cbn [shown set_subif nf_child nf_argv nf_type nf_subif set_child]. f_equal. f_equal.
  destruct (nf_subif n) as [p|]; [|reflexivity]. destruct (live_some l m p I (P p eq_refl)) as (k & Ek). cbn [index_at]. now rewrite Ek.
Qed.
Lemma behind_skipn : forall l a k, NoDup l -> nth_error l k = Some a -> behind a l = skipn (S k) l.
Proof.
  induction l as [|b l IH]; intros a [|k] D E; try discriminate; cbn [nth_error] in E; inversion D as [|? ? Hb D']; subst; cbn [behind].
  - assert (b = a) by congruence. subst b. now rewrite Z.eqb_refl.
  - replace (b =? a) with false; [now rewrite (IH a k)|]. symmetry. apply Z.eqb_neq. intros ->. apply Hb. now apply nth_error_In in E.
Qed.
Lemma skipn_blocks m : forall l k, (forall a, In a l -> m a <> None) -> blocks (skipn k l) m = skipn k (blocks l m).
Proof.
  induction l as [|a l IH]; intros [|k] L; try reflexivity. destruct (m a) as [n|] eqn:E; [|exfalso; apply (L a); [now left|assumption]].
  rewrite (blocks_cons a l m n E). cbn [skipn]. apply IH. intros b Hb. apply L. now right.
Qed.
Lemma iter_first opts st : sound st ->
  m_iter opts None (ns_list st) (ns_mem st)
  = Some (match netif_iter opts None (table_of st) with Some j => nth_error (ns_list st) j | None => None end).
Proof.
  intros Sd. pose proof (sound_inv _ Sd) as I. unfold m_iter, netif_iter, table_of.
  destruct (scan_ok opts (ns_mem st) (ns_list st) (ns_mem st) 0) as [E _].
  - intros a Ha. now apply (i_live _ _ I).
  - intros a n E. apply (skip_shown opts (ns_list st)); [assumption|]. now apply (i_ptrs _ _ I a).
  - rewrite E. f_equal. destruct (iter_scan _ _ _) as [j|]; [|reflexivity]. now rewrite Nat.sub_0_r.
Qed.
Lemma nth_error_skipn' {A} (l : list A) : forall n k, nth_error (skipn n l) k = nth_error l (n + k).
Proof. induction l as [|x l IH]; intros [|n] k; cbn; try reflexivity; [now destruct k|apply IH]. Qed.
Lemma iter_next opts st k a : sound st -> nth_error (ns_list st) k = Some a ->
  m_iter opts (Some a) (ns_list st) (ns_mem st)
  = Some (match netif_iter opts (Some k) (table_of st) with Some j => nth_error (ns_list st) j | None => None end).
Proof.
  intros Sd Ek. pose proof (sound_inv _ Sd) as I. unfold m_iter, netif_iter, table_of.
  destruct (live_some _ _ a I) as (n & En); [now apply nth_error_In in Ek|]. rewrite En. cbn [obind].
  rewrite (behind_skipn _ _ k (i_once _ _ I) Ek). rewrite skipn_map, <- skipn_blocks by (intros b Hb; now apply (i_live _ _ I)).
  destruct (scan_ok opts (ns_mem st) (skipn (S k) (ns_list st)) (ns_mem st) (S k)) as [E K].
  - intros b Hb. apply (i_live _ _ I). rewrite <- (firstn_skipn (S k) (ns_list st)). apply in_or_app. now right.
  - intros b x Eb. apply (skip_shown opts (ns_list st)); [assumption|]. now apply (i_ptrs _ _ I b).
  - rewrite E. f_equal. destruct (iter_scan _ _ _) as [j|]; [|reflexivity]. specialize (K j eq_refl).
    rewrite nth_error_skipn'. f_equal. lia.
Qed.
Lemma ptr_deref st o : sound st -> (forall p, o = Some p -> In p (ns_list st)) ->
  match o with
  | Some p => exists n, ns_mem st p = Some n /\ index_at (ns_mem st) o = Some (nf_index n)
                /\ netif_byindex (table_of st) (nf_index n) = Some (shown (ns_mem st) n)
  | None => index_at (ns_mem st) o = None
  end.
Proof.
  intros Sd H. destruct o as [p|]; [|reflexivity]. pose proof (sound_inv _ Sd) as I.
  destruct (live_some _ _ p I (H p eq_refl)) as (n & En). exists n. split; [assumption|]. split; [cbn; now rewrite En|].
  now apply (view_at _ _ p n I).
Qed.
Lemma subif_ok st a n : sound st -> ns_mem st a = Some n -> forall k,
  exists r, m_call k a (ns_mem st) = Some r /\
    match r with
    | Some s => exists ns, ns_mem st s = Some ns /\ call k (shown (ns_mem st) n) (table_of st) = Some (shown (ns_mem st) ns)
    | None => call k (shown (ns_mem st) n) (table_of st) = None
    end.
Proof.
  intros Sd En. pose proof (sound_inv _ Sd) as I.
  assert (D : forall b nb, ns_mem st b = Some nb ->
    match nf_subif nb with
    | Some s => exists ns, ns_mem st s = Some ns /\
        match nf_subif (shown (ns_mem st) nb) with Some i => netif_byindex (table_of st) i | None => None end = Some (shown (ns_mem st) ns)
    | None => nf_subif (shown (ns_mem st) nb) = None
    end).
  { intros b nb Eb. pose proof (ptr_deref st (nf_subif nb) Sd) as K. cbn [shown set_subif nf_subif]. destruct (nf_subif nb) as [s|] eqn:Eq; [|reflexivity].
    destruct K as (ns & Es & E1 & E2). { intros p K. assert (s = p) by congruence. subst s. now apply (proj2 (i_ptrs _ _ I b nb Eb)). }
    exists ns. split; [assumption|]. now rewrite E1. }
  induction k as [|k IH].
  - cbn [m_call call]. unfold m_subif_iter, subif_iter. rewrite En. cbn [obind]. eexists. split; [reflexivity|].
    change (nf_type (shown (ns_mem st) n)) with (nf_type n). destruct (NETIF_PARENT <? nf_type n).
    + specialize (D a n En). destruct (nf_subif n) as [s|]; [exact D|now rewrite D].
    + destruct (nf_type n <? NETIF_REGULAR); [reflexivity|]. now exists n.
  - cbn [m_call call]. destruct IH as (r & -> & Hr). destruct r as [s|].
    + destruct Hr as (ns & Es & ->). unfold m_subif_iter, subif_iter.
      change (nf_index (shown (ns_mem st) ns)) with (nf_index ns). change (nf_index (shown (ns_mem st) n)) with (nf_index n).
      destruct (s =? a) eqn:F.
      * exists None. split; [reflexivity|]. assert (s = a) by lia. subst s. replace ns with n by congruence. now rewrite Z.eqb_refl.
      * rewrite Es. cbn [obind]. eexists. split; [reflexivity|].
        replace (nf_index ns =? nf_index n) with false.
        -- specialize (D s ns Es). destruct (nf_subif ns) as [t|]; [exact D|now rewrite D].
        -- symmetry. apply Z.eqb_neq. intros E. assert (s = a) by (apply (index_address _ _ s a ns n I); assumption). lia.
    + exists None. split; [reflexivity|]. now rewrite Hr.
Qed.
Lemma top_ok st a n : sound st -> ns_mem st a = Some n ->
  exists t nt, m_top a (ns_mem st) = Some t /\ ns_mem st t = Some nt
    /\ top_of (table_of st) (shown (ns_mem st) n) = shown (ns_mem st) nt.
Proof.
  intros Sd En. pose proof (sound_inv _ Sd) as I. unfold m_top, top_of. rewrite En. cbn [obind].
  pose proof (ptr_deref st (nf_parent n) Sd) as K. cbn [shown set_subif nf_parent set_child].
  destruct (nf_parent n) as [p|] eqn:Ep.
  - destruct K as (np & Es & E1 & E2). { intros q K. assert (p = q) by congruence. subst p. now apply (proj1 (i_ptrs _ _ I a n En)). }
    rewrite Es. cbn [obind]. exists p, np. split; [reflexivity|]. split; [assumption|]. rewrite E1, E2. reflexivity.
  - exists a, n. split; [reflexivity|]. split; [assumption|]. reflexivity.
Qed.
