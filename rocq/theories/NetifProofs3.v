(** Members of aggregates after netif_fetch. *)
From Verif Require Import Base Types Tlv Util Netif Spec SpecAdv SpecNetif.
From Verif Require Import Lemmas VisProofs VisProps ChildProofs ChildProofs4 NetifProofs1 NetifProofs2.

(** ** The pointers as functions of the index *)
Definition look {B} (g : netif -> B) (d : B) (nfs : list netif) (i : Z) : B :=
  match netif_byindex nfs i with Some n => g n | None => d end.
Definition sub (nfs : list netif) := look nf_subif None nfs.
Definition par (nfs : list netif) := look nf_parent None nfs.
Definition chi (nfs : list netif) := look nf_child 0 nfs.
Definition bmo (nfs : list netif) := look nf_bonding_mode 0 nfs.
Lemma look_assign {B} (g : netif -> B) d f i nfs j : (forall m, nf_index m = i -> nf_index (f m) = i) ->
  look g d (nf_assign f i nfs) j
  = if j =? i then match netif_byindex nfs i with Some n => g (f n) | None => d end else look g d nfs j.
Proof.
  intros H. unfold look. rewrite byindex_assign by assumption. destruct (j =? i) eqn:E; [|reflexivity].
  replace j with i by lia. now destruct (netif_byindex nfs i).
Qed.
Lemma look_same {B} (g : netif -> B) d f i nfs j : (forall m, nf_index m = i -> nf_index (f m) = i) ->
  (forall m, g (f m) = g m) -> look g d (nf_assign f i nfs) j = look g d nfs j.
Proof.
  intros H K. rewrite look_assign by assumption. destruct (j =? i) eqn:E; [|reflexivity]. unfold look.
  replace j with i by lia. destruct (netif_byindex nfs i); [apply K|reflexivity].
Qed.
Lemma byindex_ex nfs i : In i (indices nfs) -> exists n, netif_byindex nfs i = Some n.
Proof.
  intros H. destruct (netif_byindex nfs i) as [n|] eqn:E; [now exists n|]. apply byindex_none in E. contradiction.
Qed.
Ltac ixs := let m := fresh in let E := fresh in intros m E; exact E.
Lemma member_sub p last s c la nfs j : In last (indices nfs) ->
  sub (add_member p last s c la nfs) j = if j =? last then Some s else sub nfs j.
Proof.
  intros H. unfold add_member, sub. rewrite look_assign by ixs.
  rewrite look_same by (ixs || (intros m; reflexivity)).
  rewrite byindex_assign by ixs. destruct (byindex_ex nfs last H) as [n ->]. now destruct (last =? s).
Qed.
Lemma member_par p last s c la nfs j : In s (indices nfs) ->
  par (add_member p last s c la nfs) j = if j =? s then Some p else par nfs j.
Proof.
  intros H. unfold add_member, par. rewrite look_same by (ixs || (intros m; reflexivity)).
  rewrite look_assign by ixs. destruct (byindex_ex nfs s H) as [n ->]. reflexivity.
Qed.
Lemma member_chi p last s c la nfs j : In s (indices nfs) ->
  chi (add_member p last s c la nfs) j = if j =? s then c else chi nfs j.
Proof.
  intros H. unfold add_member, chi. rewrite look_same by (ixs || (intros m; reflexivity)).
  rewrite look_assign by ixs. destruct (byindex_ex nfs s H) as [n ->]. reflexivity.
Qed.
Lemma member_bmo p last s c la nfs j : bmo (add_member p last s c la nfs) j = bmo nfs j.
Proof. unfold add_member, bmo. now rewrite !look_same by (ixs || (intros m; reflexivity)). Qed.
Lemma member_indices p last s c la nfs : indices (add_member p last s c la nfs) = indices nfs.
Proof. apply core_index, add_member_core. Qed.

(** ** Linking a resolved list *)
Fixpoint link_loop (p last : Z) (l : list (Z * Z * Z)) (nfs : list netif) : list netif :=
  match l with
  | [] => nfs
  | (s, c, la) :: l' => link_loop p s l' (add_member p last s c la nfs)
  end.
Definition idx (x : Z * Z * Z) : Z := fst (fst x).
Fixpoint path (f : Z -> option Z) (o : option Z) (l : list Z) : Prop :=
  match l with
  | [] => o = None
  | s :: l' => o = Some s /\ path f (f s) l'
  end.
Lemma path_ext f g : forall l o, (forall s, In s l -> f s = g s) -> path f o l -> path g o l.
Proof.
  induction l as [|s l IH]; intros o H; cbn; [easy|]. intros [E K]. split; [assumption|]. rewrite <- H by now left.
  apply IH; [|assumption]. intros x Hx. apply H. now right.
Qed.
Lemma link_indices p : forall l last nfs, indices (link_loop p last l nfs) = indices nfs.
Proof. induction l as [|[[s c] la] l IH]; intros last nfs; cbn [link_loop]; [reflexivity|]. rewrite IH. apply member_indices. Qed.
Lemma link_spec p : forall l last nfs,
  In last (indices nfs) -> incl (map idx l) (indices nfs) -> NoDup (map idx l) -> ~ In last (map idx l) ->
  (forall s, In s (last :: map idx l) -> sub nfs s = None) ->
  let n' := link_loop p last l nfs in
  path (sub n') (sub n' last) (map idx l)
  /\ (forall j, ~ In j (last :: map idx l) -> sub n' j = sub nfs j)
  /\ (forall j, ~ In j (map idx l) -> par n' j = par nfs j /\ chi n' j = chi nfs j)
  /\ (forall s c la, In (s, c, la) l -> par n' s = Some p /\ chi n' s = c)
  /\ (forall j, bmo n' j = bmo nfs j).
Proof.
  induction l as [|[[s c] la] l IH]; intros last nfs Hl Hi Hd Hn Hs; cbn [link_loop map idx path].
  - split; [apply Hs; now left|]. split; [reflexivity|]. split; [now split|]. split; [easy|reflexivity].
  - cbn [map idx fst] in *. inversion Hd as [|? ? Hsl Hd']; subst.
    assert (Is : In s (indices nfs)) by (apply Hi; now left).
    set (nfs1 := add_member p last s c la nfs).
    assert (I1 : indices nfs1 = indices nfs) by apply member_indices.
    destruct (IH s nfs1) as (P1 & P2 & P3 & P4 & P5).
    { now rewrite I1. } { rewrite I1. intros x Hx. apply Hi. now right. } { assumption. } { assumption. }
    { intros x Hx. unfold nfs1. rewrite member_sub by assumption.
      destruct (x =? last) eqn:E; [|apply Hs; now right]. exfalso. apply Hn. replace last with x by lia. exact Hx. }
    set (n' := link_loop p s l nfs1) in *.
    assert (SL : sub n' last = Some s).
    { rewrite P2 by exact Hn. unfold nfs1. rewrite member_sub by assumption. now rewrite Z.eqb_refl. }
    split; [split; [exact SL|exact P1]|]. split; [|split; [|split]].
    + intros j Hj. rewrite P2 by (intros K; apply Hj; now right). unfold nfs1. rewrite member_sub by assumption.
      replace (j =? last) with false; [reflexivity|]. symmetry. apply Z.eqb_neq. intros ->. apply Hj. now left.
    + intros j Hj. destruct (P3 j) as [Q1 Q2]; [intros K; apply Hj; now right|]. rewrite Q1, Q2. unfold nfs1.
      rewrite member_par, member_chi by assumption.
      replace (j =? s) with false; [now split|]. symmetry. apply Z.eqb_neq. intros ->. apply Hj. now left.
    + intros x cx lx [K|K]; [|now apply (P4 x cx lx)]. injection K as <- <- <-.
      destruct (P3 s) as [Q1 Q2]; [assumption|]. rewrite Q1, Q2. unfold nfs1. rewrite member_par, member_chi by assumption.
      now rewrite Z.eqb_refl.
    + intros j. rewrite P5. apply member_bmo.
Qed.

(** ** The loops link what is reported *)
Lemma core_find (P : netif -> bool) a b : (forall n m, core n = core m -> P n = P m) -> map core a = map core b ->
  option_map core (find P a) = option_map core (find P b).
Proof.
  intros HP. revert b. induction a as [|n a IH]; intros [|m b] H; cbn in *; try discriminate; [reflexivity|].
  assert (E1 : core n = core m) by exact (f_equal (fun l => hd (core n) l) H).
  assert (E2 : map core a = map core b) by exact (f_equal (@tl _) H).
  rewrite (HP n m E1). destruct (P m); [cbn; now f_equal|]. now apply IH.
Qed.
Lemma core_fields n m : core n = core m -> nf_index n = nf_index m /\ nf_name n = nf_name m /\ nf_type n = nf_type m.
Proof. intros H. unfold core in H. injection H. intros. now repeat split. Qed.
Lemma name_is_beq x n : name_is x n = beq (nf_name n) x.
Proof.
  unfold name_is. destruct (list_eq_dec _ _ _) as [->|E]; [symmetry; apply beq_refl|]. symmetry. now apply beq_false.
Qed.
Lemma member_core a b is st : (forall n m, core n = core m -> is n = is m) -> map core a = map core b ->
  as_member a is st = as_member b is st.
Proof.
  intros H E. pose proof (core_find is a b H E) as F. unfold as_member.
  destruct (find is a) as [n|], (find is b) as [m|]; cbn in F; try discriminate; [|reflexivity].
  assert (C : core n = core m) by congruence. apply core_fields in C as (-> & _ & ->). reflexivity.
Qed.
Lemma name_is_core x n m : core n = core m -> name_is x n = name_is x m.
Proof. intros H. apply core_fields in H as (_ & H & _). unfold name_is. now rewrite H. Qed.
Lemma index_is_core x n m : core n = core m -> index_is x n = index_is x m.
Proof. intros H. apply core_fields in H as (H & _ & _). unfold index_is. now rewrite H. Qed.
Lemma reported_core os a b p q : map core a = map core b -> core p = core q -> reported os a p = reported os b q.
Proof.
  intros E C. apply core_fields in C as (C1 & C2 & C3). unfold reported. rewrite C1, C2, C3.
  destruct (_ =? _).
  { destruct (no_bond os (nf_name q)) as [[m k]|]; [|reflexivity]. induction (from_to k) as [|i l IH]; [reflexivity|]. cbn [flat_map].
    rewrite IH. f_equal. destruct (no_slave os (nf_name q) i) as [[x st]|]; [|reflexivity]. apply member_core; [apply name_is_core|assumption]. }
  destruct (_ =? _).
  { destruct (no_bridge os (nf_name q)) as [l|]; [|reflexivity]. induction l as [|i l IH]; [reflexivity|]. cbn [flat_map].
    rewrite IH. f_equal. apply member_core; [apply index_is_core|assumption]. }
  destruct (_ =? _); [|reflexivity].
  destruct (no_team os (nf_index q)) as [[[m l] a']|]; [|reflexivity]. induction l as [|i l IH]; [reflexivity|]. cbn [flat_map].
  rewrite IH. f_equal. apply member_core; [apply index_is_core|assumption].
Qed.
Definition sc (x : Z * Z * Z) : Z * Z := fst x.
Lemma find_byname nfs x : find (name_is x) nfs = netif_byname nfs x.
Proof.
  unfold netif_byname. induction nfs as [|n nfs IH]; [reflexivity|]. cbn. rewrite name_is_beq. now destruct (beq _ _).
Qed.
Lemma bond_links os p pn base : forall k i last nfs, map core nfs = map core base ->
  exists l, bond_loop os p pn k i last nfs = link_loop p last l nfs
    /\ map sc l = flat_map (fun i => match no_slave os pn i with
                                     | Some (x, st) => as_member base (name_is x) (if st =? 1 then 2 else 1)
                                     | None => []
                                     end) (map (fun j => i + Z.of_nat j) (seq 0 k)).
Proof.
  induction k as [|k IH]; intros i last nfs HC; [exists []; now split|].
  cbn [bond_loop seq map flat_map]. rewrite Z.add_0_r, <- seq_shift, map_map.
  assert (SQ : map (fun x => i + Z.of_nat (S x)) (seq 0 k) = map (fun j => (i + 1) + Z.of_nat j) (seq 0 k)) by (apply map_ext; lia).
  rewrite SQ. destruct (no_slave os pn i) as [[x st]|].
  2:{ destruct (IH (i + 1) last nfs HC) as (l & L1 & L2). exists l. now split. }
  rewrite (member_core base nfs _ _ (name_is_core x) (eq_sym HC)). unfold as_member. rewrite find_byname.
  destruct (netif_byname nfs x) as [s|].
  2:{ destruct (IH (i + 1) last nfs HC) as (l & L1 & L2). exists l. now split. }
  change NETIF_PARENT with 10. destruct (nf_type s <? 10).
  2:{ destruct (IH (i + 1) last nfs HC) as (l & L1 & L2). exists l. now split. }
  match goal with |- context [add_member p last (nf_index s) ?c ?la nfs] =>
    destruct (IH (i + 1) (nf_index s) (add_member p last (nf_index s) c la nfs)) as (l & L1 & L2);
      [rewrite add_member_core; exact HC|exists ((nf_index s, c, la) :: l)] end.
  cbn [link_loop map]. split; [exact L1|]. rewrite L2. reflexivity.
Qed.
Lemma bridge_links p base : forall ports last nfs, map core nfs = map core base ->
  exists l, bridge_loop p ports last nfs = link_loop p last l nfs
    /\ map sc l = flat_map (fun i => as_member base (index_is i) 1) ports.
Proof.
  induction ports as [|i ports IH]; intros last nfs HC; [exists []; now split|]. cbn [bridge_loop flat_map].
  rewrite (member_core base nfs _ _ (index_is_core i) (eq_sym HC)). unfold as_member, netif_byindex.
  change (fun n => nf_index n =? i) with (index_is i). destruct (find (index_is i) nfs) as [s|].
  2:{ destruct (IH last nfs HC) as (l & L1 & L2). exists l. now split. }
  change NETIF_PARENT with 10. destruct (nf_type s <? 10).
  2:{ destruct (IH last nfs HC) as (l & L1 & L2). exists l. now split. }
  match goal with |- context [add_member p last (nf_index s) ?c ?la nfs] =>
    destruct (IH (nf_index s) (add_member p last (nf_index s) c la nfs)) as (l & L1 & L2);
      [rewrite add_member_core; exact HC|exists ((nf_index s, c, la) :: l)] end.
  cbn [link_loop map]. split; [exact L1|]. rewrite L2. reflexivity.
Qed.
Lemma team_links p ch base : (forall n, In n base -> nf_type n <> 10) -> forall ports last nfs, map core nfs = map core base ->
  exists l, team_loop p ch ports last nfs = link_loop p last l nfs
    /\ map sc l = flat_map (fun i => as_member base (index_is i) ch) ports.
Proof.
  intros HT. induction ports as [|i ports IH]; intros last nfs HC; [exists []; now split|]. cbn [team_loop flat_map].
  rewrite (member_core base nfs _ _ (index_is_core i) (eq_sym HC)). unfold as_member, netif_byindex.
  change (fun n => nf_index n =? i) with (index_is i). destruct (find (index_is i) nfs) as [s|] eqn:F.
  2:{ destruct (IH last nfs HC) as (l & L1 & L2). exists l. now split. }
  assert (T : nf_type s <> 10).
  { apply find_some in F as [F _]. destruct (core_in _ _ _ HC F) as (m & Hm & Cm). apply core_fields in Cm as (_ & _ & ->). now apply HT. }
  change NETIF_PARENT with 10. replace (10 <? nf_type s) with (negb (nf_type s <? 10)) by lia. destruct (nf_type s <? 10); cbn [negb].
  2:{ destruct (IH last nfs HC) as (l & L1 & L2). exists l. now split. }
  match goal with |- context [add_member p last (nf_index s) ?c ?la nfs] =>
    destruct (IH (nf_index s) (add_member p last (nf_index s) c la nfs)) as (l & L1 & L2);
      [rewrite add_member_core; exact HC|exists ((nf_index s, c, la) :: l)] end.
  cbn [link_loop map]. split; [exact L1|]. rewrite L2. reflexivity.
Qed.
