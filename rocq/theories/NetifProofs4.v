(** Members of aggregates after netif_fetch: all interfaces. *)
From Verif Require Import Base Types Tlv Util Netif Spec SpecAdv SpecNetif.
From Verif Require Import Lemmas VisProofs VisProps ChildProofs ChildProofs4 NetifProofs1 NetifProofs2 NetifProofs3.

Lemma same_fields {B} (g : netif -> B) d f i nfs j : (forall m, nf_index m = i -> nf_index (f m) = i) ->
  (forall m, g (f m) = g m) -> look g d (nf_assign f i nfs) j = look g d nfs j.
Proof. exact (look_same g d f i nfs j). Qed.
Lemma as_member_in nfs is st s c : In (s, c) (as_member nfs is st) ->
  c = st /\ exists n, In n nfs /\ is n = true /\ nf_index n = s /\ nf_type n < 10.
Proof.
  unfold as_member. destruct (find is nfs) as [n|] eqn:F; [|easy]. destruct (nf_type n <? 10) eqn:T; [|easy].
  intros [K|[]]. injection K as <- <-. apply find_some in F as [F1 F2]. split; [reflexivity|]. exists n. repeat split; (assumption || lia).
Qed.
Lemma reported_in os nfs p s : In s (map fst (reported os nfs p)) -> exists n, In n nfs /\ nf_index n = s /\ nf_type n < 10.
Proof.
  intros H. apply in_map_iff in H as ([s' c] & E & H). cbn in E. subst s'. unfold reported in H.
  destruct (_ =? _).
  { destruct (no_bond os (nf_name p)) as [[m k]|]; [|easy]. apply in_flat_map in H as (i & _ & H).
    destruct (no_slave os (nf_name p) i) as [[x st]|]; [|easy]. apply as_member_in in H as (_ & n & H1 & _ & H2). now exists n. }
  destruct (_ =? _).
  { destruct (no_bridge os (nf_name p)) as [l|]; [|easy]. apply in_flat_map in H as (i & _ & H).
    apply as_member_in in H as (_ & n & H1 & _ & H2). now exists n. }
  destruct (_ =? _); [|easy].
  destruct (no_team os (nf_index p)) as [[[m l] a]|]; [|easy]. apply in_flat_map in H as (i & _ & H).
  apply as_member_in in H as (_ & n & H1 & _ & H2). now exists n.
Qed.
Lemma team_states nfs mode active : forall l,
  let ch := if mode =? 2 then 2 else 1 in
  let r := flat_map (fun i => as_member nfs (index_is i) (if (mode =? 2) && negb (i =? active) then 2 else 1)) l in
  map fst (flat_map (fun i => as_member nfs (index_is i) ch) l) = map fst r
  /\ forall s c, In (s, c) r -> c = (if (mode =? 2) && negb (s =? active) then 2 else 1).
Proof.
  intros l ch r. split.
  - subst r. induction l as [|i l IH]; [reflexivity|]. cbn [flat_map]. rewrite !map_app, IH. f_equal.
    unfold as_member. destruct (find (index_is i) nfs); [|reflexivity]. now destruct (_ <? _).
  - intros s c H. apply in_flat_map in H as (i & _ & H). apply as_member_in in H as (-> & n & _ & Hi & Hs & _).
    unfold index_is in Hi. replace i with s by lia. reflexivity.
Qed.

Lemma nodup_app_l {A} (a b : list A) : NoDup (a ++ b) -> NoDup a.
Proof.
  induction a as [|x a IH]; cbn; intros H; [constructor|]. inversion H as [|? ? Hx H']; subst. constructor; [|now apply IH].
  intros K. apply Hx, in_app_iff. now left.
Qed.
Lemma nodup_app_r {A} (a b : list A) : NoDup (a ++ b) -> NoDup b.
Proof. induction a as [|x a IH]; cbn; intros H; [assumption|]. inversion H; subst. now apply IH. Qed.

Section detect.
Variable os : nos.
Variable base : list netif.
Hypothesis base_nodup : NoDup (indices base).
Hypothesis base_type : forall n, In n base -> nf_type n <> 10.
Hypothesis base_cons : consistent os base.

Definition rep (i : Z) : list (Z * Z) := look (reported os base) [] base i.
Definition mde (i : Z) : Z := look (mode_of os) 0 base i.
Definition typ (i : Z) : Z := look nf_type 0 base i.

Lemma rep_ports i s : In s (map fst (rep i)) -> In s (indices base) /\ typ s < 10.
Proof.
  unfold rep, look. destruct (netif_byindex base i) as [p|]; [|easy]. intros H. apply reported_in in H as (n & H1 & <- & H2).
  split; [now apply in_map|]. unfold typ, look. now rewrite (byindex_in base n base_nodup H1).
Qed.
Lemma byindex_core nfs i n : map core nfs = map core base -> netif_byindex nfs i = Some n ->
  exists b, netif_byindex base i = Some b /\ core n = core b.
Proof.
  intros HC H. pose proof (core_find (index_is i) nfs base (index_is_core i) HC) as F. unfold netif_byindex in H.
  change (fun n => nf_index n =? i) with (index_is i) in H. rewrite H in F. unfold netif_byindex.
  change (fun n => nf_index n =? i) with (index_is i). destruct (find (index_is i) base) as [b|]; [|discriminate]. exists b.
  split; [reflexivity|]. cbn in F. congruence.
Qed.

(** One aggregate or plain interface. *)
Definition settled (i : Z) (nfs nfs' : list netif) : Prop :=
  (10 < typ i -> path (sub nfs') (sub nfs' i) (map fst (rep i)))
  /\ (forall j, ~ In j (map fst (rep i)) -> j <> i \/ typ i <= 10 -> sub nfs' j = sub nfs j)
  /\ (forall j, ~ In j (map fst (rep i)) -> par nfs' j = par nfs j /\ chi nfs' j = chi nfs j)
  /\ (forall s c, In (s, c) (rep i) -> par nfs' s = Some i /\ chi nfs' s = c)
  /\ (forall j, bmo nfs' j = if j =? i then mde i else bmo nfs j).

Lemma settled_links i nfs nfs1 nfs' l : 10 < typ i -> In i (indices base) -> map core nfs = map core base ->
  map core nfs1 = map core base ->
  (forall j, sub nfs1 j = sub nfs j) -> (forall j, par nfs1 j = par nfs j /\ chi nfs1 j = chi nfs j) ->
  (forall j, bmo nfs1 j = if j =? i then mde i else bmo nfs j) ->
  nfs' = link_loop i i l nfs1 -> map fst (map sc l) = map fst (rep i) -> NoDup (map fst (rep i)) ->
  (forall s, In s (i :: map fst (rep i)) -> sub nfs s = None) ->
  (forall s c, In (s, c) (rep i) -> In (s, c) (map sc l)) ->
  settled i nfs nfs'.
Proof.
  intros Ht Ii HC HC1 S1 S2 S3 -> HL HD HS HB.
  assert (HI : map idx l = map fst (rep i)) by (rewrite <- HL, map_map; reflexivity).
  pose proof (core_index _ _ HC1) as X1.
  destruct (link_spec i l i nfs1) as (P1 & P2 & P3 & P4 & P5).
  { now rewrite X1. } { rewrite HI, X1. intros s Hs. now apply rep_ports in Hs. } { now rewrite HI. }
  { rewrite HI. intros K. apply rep_ports in K. lia. } { intros s Hs. rewrite HI in Hs. rewrite S1. now apply HS. }
  rewrite HI in *. split; [intros _; exact P1|]. split; [|split; [|split]].
  - intros j Hj [K|K]; [|lia]. rewrite P2; [apply S1|]. intros [->|Q]; [now apply K|now apply Hj].
  - intros j Hj. destruct (P3 j Hj) as [-> ->]. apply S2.
  - intros s c H. apply HB in H. apply in_map_iff in H as ([[s' c'] la] & E & H). cbn in E. injection E as -> ->. now apply (P4 s c la).
  - intros j. rewrite P5. apply S3.
Qed.
Lemma settled_plain i nfs nfs' : typ i <= 10 -> rep i = [] -> mde i = 0 -> bmo nfs i = 0 ->
  (forall j, sub nfs' j = sub nfs j) -> (forall j, par nfs' j = par nfs j /\ chi nfs' j = chi nfs j) ->
  (forall j, bmo nfs' j = bmo nfs j) -> settled i nfs nfs'.
Proof.
  intros Ht Hr Hm Hb S1 S2 S3. unfold settled. rewrite Hr. cbn [map In]. split; [lia|]. split; [intros; apply S1|].
  split; [intros; apply S2|]. split; [easy|]. intros j. rewrite S3. destruct (j =? i) eqn:E; [|reflexivity].
  replace j with i by lia. congruence.
Qed.

Lemma detect_settled i nfs : In i (indices base) -> map core nfs = map core base ->
  NoDup (map fst (rep i)) -> (forall s, In s (map fst (rep i)) -> sub nfs s = None) ->
  (10 < typ i -> sub nfs i = None) -> bmo nfs i = 0 ->
  settled i nfs (detect_one os nfs i).
Proof.
  intros Ii HC HD HS HSi HB0. unfold detect_one.
  assert (Ii' : In i (indices nfs)) by now rewrite (core_index _ _ HC).
  destruct (byindex_ex nfs i Ii') as [n Hn]. rewrite Hn. destruct (byindex_core nfs i n HC Hn) as (b & Hb & Cb).
  apply byindex_some in Hn as Hn'. destruct Hn' as [Nin Ni]. apply core_fields in Cb as Cf. destruct Cf as (C1 & C2 & C3).
  assert (Rb : rep i = reported os base b) by (unfold rep, look; now rewrite Hb).
  assert (Mb : mde i = mode_of os b) by (unfold mde, look; now rewrite Hb).
  assert (Tb : typ i = nf_type b) by (unfold typ, look; now rewrite Hb).
  assert (Bi : nf_index b = i) by congruence.
  assert (Bin : In b base) by now apply byindex_some in Hb.
  assert (Same : forall f g, mild f -> (forall m, nf_subif (f m) = nf_subif m) -> (forall m, nf_parent (f m) = nf_parent m) ->
     (forall m, nf_child (f m) = nf_child m) ->
     (forall m, nf_bonding_mode (f m) = g) ->
     map core (nf_assign f i nfs) = map core base /\ (forall j, sub (nf_assign f i nfs) j = sub nfs j)
     /\ (forall j, par (nf_assign f i nfs) j = par nfs j /\ chi (nf_assign f i nfs) j = chi nfs j)
     /\ (forall j, bmo (nf_assign f i nfs) j = if j =? i then g else bmo nfs j)).
  { intros f g M M1 M2 M3 M4. assert (FI : forall m, nf_index m = i -> nf_index (f m) = i).
    { intros m <-. specialize (M m). apply core_fields in M. now destruct M. }
    split; [rewrite mild_assign; assumption|]. split; [intros j; now apply look_same|].
    split; [intros j; split; now apply look_same|]. intros j. unfold bmo. rewrite look_assign by assumption.
    destruct (j =? i); [|reflexivity]. destruct (netif_byindex nfs i) eqn:E; [apply M4|discriminate]. }
  rewrite C3. change NETIF_TEAMING with 11. change NETIF_BONDING with 12. change NETIF_BRIDGE with 13.
  change NETIF_VLAN with (-1). change NETIF_REGULAR with 0.
  destruct (nf_type b =? 11) eqn:T1.
  { unfold netif_team. rewrite Ni. unfold reported in Rb. replace (nf_type b =? 12) with false in Rb by lia.
    replace (nf_type b =? 13) with false in Rb by lia. rewrite T1 in Rb.
    unfold mode_of in Mb. replace (nf_type b =? 12) with false in Mb by lia. rewrite T1 in Mb. rewrite Bi in Rb, Mb.
    destruct (no_team os i) as [[[mode ports] active]|] eqn:NT.
    2:{ split; [intros _; rewrite Rb; cbn; apply HSi; lia|]. rewrite Rb. cbn [map In]. split; [reflexivity|]. split; [now split|].
        split; [easy|]. intros j. destruct (j =? i) eqn:E; [|reflexivity]. replace j with i by lia. congruence. }
    destruct (Same (set_bonding_mode mode) mode) as (Q1 & Q2 & Q3 & Q4); try (intros m; reflexivity).
    set (ch := if mode =? NETIF_BONDING_FAILOVER then NETIF_CHILD_BACKUP else NETIF_CHILD_ACTIVE).
    destruct (team_links i ch base base_type ports i _ Q1) as (l & L1 & L2). rewrite L1.
    destruct (team_states base mode active ports) as [V1 V2]. rewrite <- Rb in V1, V2.
    assert (EC : ch = if mode =? 2 then 2 else 1) by reflexivity. rewrite <- EC in V1.
    set (nfs2 := link_loop i i l (nf_assign (set_bonding_mode mode) i nfs)).
    assert (LI : map idx l = map fst (rep i)) by (rewrite <- V1, <- L2, map_map; reflexivity).
    assert (X1 : indices (nf_assign (set_bonding_mode mode) i nfs) = indices base) by now apply core_index.
    assert (NI : ~ In i (map fst (rep i))) by (intros K; apply rep_ports in K; lia).
    destruct (link_spec i l i (nf_assign (set_bonding_mode mode) i nfs)) as (P1 & P2 & P3 & P4 & P5).
    { now rewrite X1. } { rewrite LI, X1. intros s Hs. now apply rep_ports in Hs. } { now rewrite LI. } { now rewrite LI. }
    { intros s Hs. rewrite LI in Hs. rewrite Q2. destruct Hs as [<-|Hs]; [apply HSi; lia|now apply HS]. }
    fold nfs2 in P1, P2, P3, P4, P5. rewrite LI in *.
    assert (CH : forall s c, In (s, c) (rep i) -> par nfs2 s = Some i /\ chi nfs2 s = ch).
    { intros s c H. assert (In s (map idx l)) as K by (rewrite LI; now apply (in_map fst) in H).
      apply in_map_iff in K as ([[s' c'] la] & E & K). cbn in E. subst s'. pose proof (P4 s c' la K) as [Y1 Y2].
      replace ch with c'; [now split|]. apply (in_map sc) in K. rewrite L2 in K. unfold sc in K. cbn [fst] in K.
      apply in_flat_map in K as (x & _ & K). apply as_member_in in K as (-> & _). reflexivity. }
    destruct (mode =? NETIF_BONDING_FAILOVER) eqn:MF.
    - set (f := fun s => set_child NETIF_CHILD_ACTIVE (nf_lacp_index s) (nf_parent s) s).
      assert (FI : forall m, nf_index m = active -> nf_index (f m) = active) by ixs.
      assert (ES : forall j, sub (nf_assign f active nfs2) j = sub nfs2 j) by (intros j; now apply look_same).
      assert (EP : forall j, par (nf_assign f active nfs2) j = par nfs2 j) by (intros j; now apply look_same).
      assert (EB : forall j, bmo (nf_assign f active nfs2) j = bmo nfs2 j) by (intros j; now apply look_same).
      assert (X2 : indices nfs2 = indices base) by (unfold nfs2; now rewrite link_indices).
      assert (EH : forall j, chi (nf_assign f active nfs2) j = if (j =? active) && existsb (Z.eqb active) (indices base) then 1 else chi nfs2 j).
      { intros j. unfold chi. rewrite look_assign by assumption. destruct (j =? active) eqn:E; cbn [andb]; [|reflexivity].
        destruct (existsb (Z.eqb active) (indices base)) eqn:EX.
        - apply existsb_exists in EX as (y & EX & Ey). replace y with active in EX by lia. rewrite <- X2 in EX.
          destruct (byindex_ex nfs2 active EX) as [z ->]. reflexivity.
        - unfold look. replace j with active by lia. destruct (netif_byindex nfs2 active) as [z|] eqn:Z0; [|reflexivity].
          exfalso. apply not_true_iff_false in EX. apply EX. apply existsb_exists. exists active. split; [|lia]. rewrite <- X2.
          apply byindex_some in Z0 as [Z1 <-]. now apply in_map. }
      assert (Hact : In active (map fst (rep i)) \/ ~ In active (indices base)).
      { destruct base_cons as [_ K]. replace (rep i) with (reported os base b) by (unfold rep, look; now rewrite Hb).
        apply (K b ports active Bin); [lia|]. rewrite Bi, NT. f_equal. f_equal. f_equal. change NETIF_BONDING_FAILOVER with 2 in MF. lia. }
      split; [intros _; rewrite ES; apply (path_ext (sub nfs2)); [intros s _; now rewrite ES|exact P1]|].
      split; [|split; [|split]].
      + intros j Hj [K|K]; [|lia]. rewrite ES, P2; [apply Q2|]. intros [->|Y]; [now apply K|now apply Hj].
      + intros j Hj. destruct (P3 j Hj) as [Y1 Y2]. rewrite EP, EH, Y1, Y2. destruct (Q3 j) as [-> ->]. split; [reflexivity|].
        destruct (j =? active) eqn:E; cbn [andb]; [|reflexivity]. replace j with active in Hj by lia.
        destruct Hact as [K|K]; [contradiction|]. replace (existsb (Z.eqb active) (indices base)) with false; [reflexivity|].
        symmetry. apply not_true_is_false. intros EX. apply existsb_exists in EX as (y & EX & Ey). apply K. replace active with y by lia. assumption.
      + intros s c H. destruct (CH s c H) as [Y1 Y2]. rewrite EP, EH, Y1. split; [reflexivity|]. rewrite (V2 s c H).
        change NETIF_BONDING_FAILOVER with 2 in MF. rewrite MF. cbn [andb]. destruct (s =? active) eqn:E; cbn [negb andb].
        * replace (existsb (Z.eqb active) (indices base)) with true; [reflexivity|]. symmetry. apply existsb_exists. exists active.
          split; [|lia]. replace active with s by lia. apply (in_map fst) in H. now apply rep_ports in H.
        * rewrite Y2, EC, MF. reflexivity.
      + intros j. rewrite EB, P5, Q4, Mb. reflexivity.
    - split; [intros _; exact P1|]. split; [|split; [|split]].
      + intros j Hj [K|K]; [|lia]. rewrite P2; [apply Q2|]. intros [->|Y]; [now apply K|now apply Hj].
      + intros j Hj. destruct (P3 j Hj) as [-> ->]. apply Q3.
      + intros s c H. destruct (CH s c H) as [Y1 Y2]. split; [assumption|]. rewrite Y2, (V2 s c H), EC.
        change NETIF_BONDING_FAILOVER with 2 in MF. now rewrite MF.
      + intros j. rewrite P5, Q4, Mb. reflexivity. }
  destruct (nf_type b =? 12) eqn:T2.
  { unfold netif_bond. rewrite C2, Ni. unfold reported in Rb. rewrite T2 in Rb. unfold mode_of in Mb. rewrite T2 in Mb.
    destruct (no_bond os (nf_name b)) as [[mode k]|].
    2:{ split; [intros _; rewrite Rb; cbn; apply HSi; lia|]. rewrite Rb. cbn [map In]. split; [reflexivity|]. split; [now split|].
        split; [easy|]. intros j. destruct (j =? i) eqn:E; [|reflexivity]. replace j with i by lia. congruence. }
    set (nfs1 := if mode =? BOND_MODE_8023AD then _ else _).
    assert (N1 : map core nfs1 = map core base /\ (forall j, sub nfs1 j = sub nfs j)
      /\ (forall j, par nfs1 j = par nfs j /\ chi nfs1 j = chi nfs j) /\ (forall j, bmo nfs1 j = if j =? i then mde i else bmo nfs j)).
    { unfold nfs1. rewrite Mb. change BOND_MODE_8023AD with 4. change BOND_MODE_ACTIVEBACKUP with 1.
      destruct (mode =? 4); [apply (Same (set_bonding_mode NETIF_BONDING_LACP)); intros m; reflexivity|].
      destruct (mode =? 1); [apply (Same (set_bonding_mode NETIF_BONDING_FAILOVER)); intros m; reflexivity|].
      split; [assumption|]. split; [reflexivity|]. split; [now split|]. intros j. destruct (j =? i) eqn:E; [|reflexivity].
      replace j with i by lia. assumption. }
    destruct N1 as (Q1 & Q2 & Q3 & Q4).
    destruct (bond_links os i (nf_name b) base (Z.to_nat k) 0 i nfs1 Q1) as (l & L1 & L2). rewrite L1.
    assert (L3 : map sc l = rep i).
    { rewrite L2, Rb. reflexivity. }
    apply (settled_links i nfs nfs1 _ l); try assumption; try lia; try reflexivity.
    - now rewrite L3.
    - intros s [<-|Hs]; [apply HSi; lia|now apply HS].
    - intros s c H. now rewrite L3. }
  destruct (nf_type b =? 13) eqn:T3.
  { unfold netif_bridge. rewrite C2, Ni. unfold reported in Rb. rewrite T2, T3 in Rb. unfold mode_of in Mb. rewrite T1, T2 in Mb.
    destruct (no_bridge os (nf_name b)) as [ports|].
    2:{ split; [intros _; rewrite Rb; cbn; apply HSi; lia|]. rewrite Rb. cbn [map In]. split; [reflexivity|]. split; [now split|].
        split; [easy|]. intros j. destruct (j =? i) eqn:E; [|reflexivity]. replace j with i by lia. congruence. }
    destruct (bridge_links i base ports i nfs HC) as (l & L1 & L2). rewrite L1, <- Rb in *.
    apply (settled_links i nfs nfs _ l); try assumption; try lia; try reflexivity.
    - now split.
    - intros j. destruct (j =? i) eqn:E; [|reflexivity]. replace j with i by lia. congruence.
    - now rewrite L2.
    - intros s [<-|Hs]; [apply HSi; lia|now apply HS].
    - intros s c H. now rewrite L2. }
  unfold reported in Rb. unfold mode_of in Mb. rewrite T1, T2, T3 in Rb. rewrite T1, T2 in Mb.
  destruct (Z_le_gt_dec (typ i) 10) as [TL|TL].
  2:{ replace (nf_type b =? -1) with false by lia. replace (nf_type b =? 0) with false by lia.
      split; [intros _; rewrite Rb; cbn; apply HSi; lia|]. rewrite Rb. cbn [map In]. split; [reflexivity|]. split; [now split|].
      split; [easy|]. intros j. destruct (j =? i) eqn:E; [|reflexivity]. replace j with i by lia. congruence. }
  destruct (nf_type b =? -1) eqn:T4.
  { unfold netif_vlan. destruct (no_vlan os (nf_name n)) as [d|]; [|apply settled_plain; try assumption; try lia; now split].
    destruct (netif_byname nfs d) as [q|]; [|apply settled_plain; try assumption; try lia; now split].
    apply settled_plain; try assumption; intros j; [|split|]; apply look_same; (ixs || (intros m; reflexivity)). }
  destruct (nf_type b =? 0) eqn:T5; [|apply settled_plain; try assumption; try lia; now split].
  unfold netif_device_id. destruct (negb _); [apply settled_plain; try assumption; try lia; now split|].
  apply settled_plain; try assumption; intros j; [|split|]; apply look_same; (ixs || (intros m; reflexivity)).
Qed.

(** ** All of them *)
Definition all (done : list Z) : list Z := flat_map (fun i => map fst (rep i)) done.
Definition linv (done : list Z) (nfs : list netif) : Prop :=
  map core nfs = map core base
  /\ (forall i, In i done -> 10 < typ i -> path (sub nfs) (sub nfs i) (map fst (rep i)))
  /\ (forall i s c, In i done -> In (s, c) (rep i) -> par nfs s = Some i /\ chi nfs s = c)
  /\ (forall j, ~ In j (all done) -> par nfs j = None /\ chi nfs j = 0)
  /\ (forall j, ~ In j (all done) -> ~ In j done \/ typ j <= 10 -> sub nfs j = None)
  /\ (forall j, bmo nfs j = if in_dec Z.eq_dec j done then mde j else 0).
Lemma all_split a i b : NoDup (all (a ++ i :: b)) ->
  NoDup (map fst (rep i)) /\ (forall s, In s (map fst (rep i)) -> ~ In s (all a)).
Proof.
  unfold all. rewrite flat_map_app. cbn [flat_map]. set (X := flat_map _ a). set (Y := flat_map _ b). intros H. split.
  - apply nodup_app_r in H. now apply nodup_app_l in H.
  - intros s Hs K. clear -H Hs K. induction X as [|x X IH]; [easy|]. cbn in H. inversion H as [|? ? Hx H']; subst.
    destruct K as [->|K]; [apply Hx; rewrite !in_app_iff; tauto|now apply IH].
Qed.
Lemma linv_step done i rest nfs : indices base = done ++ i :: rest -> NoDup (all (indices base)) ->
  linv done nfs -> linv (done ++ [i]) (detect_one os nfs i).
Proof.
  intros HI HN (I1 & I2 & I3 & I4 & I5 & I6). rewrite HI in HN. destruct (all_split done i rest HN) as [D1 D2].
  assert (Ii : In i (indices base)) by (rewrite HI; apply in_app_iff; right; now left).
  assert (Nd : ~ In i done).
  { intros K. rewrite HI in base_nodup. apply NoDup_remove_2 in base_nodup. apply base_nodup, in_app_iff. now left. }
  assert (Agg : forall k, 10 < typ k -> forall d, ~ In k (all d)).
  { intros k Hk d K. apply in_flat_map in K as (x & _ & K). apply rep_ports in K. lia. }
  assert (Al : forall j, In j (all (done ++ [i])) <-> In j (all done) \/ In j (map fst (rep i))).
  { intros j. unfold all. rewrite flat_map_app, in_app_iff. cbn [flat_map]. rewrite app_nil_r. reflexivity. }
  destruct (detect_settled i nfs Ii I1 D1) as (S1 & S2 & S3 & S4 & S5).
  { intros s Hs. apply I5; [now apply D2|]. apply rep_ports in Hs as [_ Hs]. right. lia. }
  { intros Ht. apply I5; [now apply Agg|]. now left. }
  { rewrite I6. destruct (in_dec _ _ _); [contradiction|reflexivity]. }
  split; [rewrite detect_core; assumption|]. split; [|split; [|split; [|split]]].
  - intros k Hk Ht. apply in_app_iff in Hk as [Hk|[<-|[]]]; [|now apply S1].
    assert (k <> i) by (intros ->; contradiction).
    rewrite S2; [| |left; assumption].
    2:{ intros K. apply rep_ports in K. lia. }
    apply (path_ext (sub nfs)); [|now apply I2]. intros s Hs. symmetry. apply S2.
    + intros K. apply (D2 s K). apply in_flat_map. now exists k.
    + destruct (Z_le_gt_dec (typ i) 10); [now right|left]. intros ->. apply rep_ports in Hs. lia.
  - intros k s c Hk Hs. apply in_app_iff in Hk as [Hk|[<-|[]]]; [|now apply S4].
    destruct (S3 s) as [-> ->]; [|now apply I3]. intros K. apply (D2 s K). apply in_flat_map. exists k. split; [assumption|].
    now apply (in_map fst) in Hs.
  - intros j Hj. rewrite Al in Hj. destruct (S3 j) as [-> ->]; [tauto|]. apply I4. tauto.
  - intros j Hj Hk. rewrite Al in Hj. rewrite S2; [|tauto|].
    + apply I5; [tauto|]. destruct Hk as [Hk|Hk]; [left|now right]. intros K. apply Hk, in_app_iff. now left.
    + destruct Hk as [Hk|Hk].
      * left. intros ->. apply Hk, in_app_iff. right. now left.
      * destruct (Z.eq_dec j i) as [->|]; [now right|now left].
  - intros j. rewrite S5. rewrite I6. destruct (j =? i) eqn:E.
    + replace j with i by lia. destruct (in_dec Z.eq_dec i (done ++ [i])) as [|K]; [reflexivity|]. exfalso. apply K, in_app_iff. right. now left.
    + destruct (in_dec Z.eq_dec j done) as [K|K], (in_dec Z.eq_dec j (done ++ [i])) as [Q|Q]; try reflexivity.
      * exfalso. apply Q, in_app_iff. now left.
      * apply in_app_iff in Q as [Q|[Q|[]]]; [contradiction|lia].
Qed.
Lemma linv_fold : NoDup (all (indices base)) -> forall rest done nfs, indices base = done ++ rest -> linv done nfs ->
  linv (done ++ rest) (fold_left (detect_one os) rest nfs).
Proof.
  intros HN. induction rest as [|i rest IH]; intros done nfs HI H; cbn [fold_left]; [now rewrite app_nil_r|].
  replace (done ++ i :: rest) with ((done ++ [i]) ++ rest) by now rewrite <- app_assoc. apply IH.
  - now rewrite <- app_assoc.
  - now apply linv_step with rest.
Qed.
Lemma all_base : all (indices base) = flat_map (fun p => map fst (reported os base p)) base.
Proof.
  unfold all, indices. rewrite flat_map_concat_map, map_map, <- flat_map_concat_map.
  assert (G : forall l, incl l base -> flat_map (fun x => map fst (rep (nf_index x))) l = flat_map (fun p => map fst (reported os base p)) l).
  { induction l as [|x l IH]; intros H; [reflexivity|]. cbn [flat_map]. rewrite IH by (intros y Hy; apply H; now right). f_equal.
    unfold rep, look. rewrite (byindex_in base x base_nodup) by (apply H; now left). reflexivity. }
  apply G. intros x Hx; exact Hx.
Qed.
End detect.
