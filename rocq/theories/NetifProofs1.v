(** The table after the detection loop of netif_fetch. *)
From Verif Require Import Base Types Tlv Util Netif Spec SpecNetif.
From Verif Require Import Lemmas VisProofs VisProps ChildProofs4.

(** ** Assignments *)
Lemma assign_keeps {B} (g : netif -> B) f i nfs :
  (forall n, nf_index n = i -> g (f n) = g n) -> map g (nf_assign f i nfs) = map g nfs.
Proof.
  intros H. induction nfs as [|n nfs IH]; [reflexivity|]. cbn. destruct (nf_index n =? i) eqn:E; cbn.
  - now rewrite H by lia.
  - now rewrite IH.
Qed.
Lemma assign_in f i nfs n : In n (nf_assign f i nfs) ->
  In n nfs \/ exists o, In o nfs /\ nf_index o = i /\ n = f o.
Proof.
  induction nfs as [|m nfs IH]; cbn; [easy|]. destruct (nf_index m =? i) eqn:E.
  - intros [<-|H]; [right; exists m; intuition lia|left; now right].
  - intros [<-|H]; [left; now left|]. destruct (IH H) as [K|(o & K & K')]; [left; now right|right; exists o; intuition].
Qed.
Lemma assign_split f i nfs n : NoDup (indices nfs) -> (forall m, nf_index (f m) = nf_index m) ->
  In n (nf_assign f i nfs) ->
  (nf_index n <> i /\ In n nfs) \/ (nf_index n = i /\ exists o, In o nfs /\ nf_index o = i /\ n = f o).
Proof.
  intros Hd Hf. induction nfs as [|m nfs IH]; cbn; [easy|]. inversion Hd as [|? ? Hm Hd']; subst.
  destruct (nf_index m =? i) eqn:E.
  - intros [<-|H].
    + right. rewrite Hf. split; [lia|]. exists m. intuition lia.
    + left. split; [|now right]. intros K. apply Hm. replace (nf_index m) with (nf_index n) by lia. now apply in_map.
  - intros [<-|H]; [left; split; [lia|now left]|]. destruct (IH Hd' H) as [[K K']|(K & o & K' & K'')].
    + left. split; [assumption|now right].
    + right. split; [assumption|]. exists o. intuition.
Qed.
Lemma byindex_none nfs i : netif_byindex nfs i = None <-> ~ In i (indices nfs).
Proof.
  unfold netif_byindex, indices. split.
  - intros H K. apply in_map_iff in K as (n & Hn & K). pose proof (find_none _ _ H n K). cbn in *. lia.
  - intros H. destruct (find _ _) as [n|] eqn:E; [|reflexivity]. apply find_some in E as [K E]. contradiction H.
    apply in_map_iff. exists n. split; [lia|assumption].
Qed.
Lemma byindex_assign f i nfs j : (forall m, nf_index m = i -> nf_index (f m) = i) ->
  netif_byindex (nf_assign f i nfs) j = if j =? i then option_map f (netif_byindex nfs j) else netif_byindex nfs j.
Proof.
  intros Hf. unfold netif_byindex. induction nfs as [|m nfs IH]; cbn; [now destruct (j =? i)|].
  destruct (nf_index m =? i) eqn:E; cbn.
  - rewrite Hf by lia. destruct (j =? i) eqn:F.
    + assert (j = i) by lia. subst j. rewrite Z.eqb_refl, E. reflexivity.
    + replace (i =? j) with false by lia. replace (nf_index m =? j) with false by lia. reflexivity.
  - rewrite IH. destruct (nf_index m =? j) eqn:F; [|reflexivity].
    replace (j =? i) with false by lia. reflexivity.
Qed.

(** ** Kinds *)
Lemma first15 (l : list Z) : zlen (firstn 15 l) <= 15.
Proof. unfold zlen. rewrite firstn_length. lia. Qed.
Lemma netif_type_kind os index name : netif_type os index name <> NETIF_INVALID ->
  kind os index name (netif_type os index name).
Proof.
  unfold netif_type. destruct (no_wireless os name) eqn:E1; [now constructor|].
  destruct (no_device os index) eqn:E2; [now constructor|].
  destruct (no_vlan os name) as [b|] eqn:E3; [intros _; now apply kind_vlan with b|].
  destruct (no_driver os index) as [d|] eqn:E4; [|intros K; contradiction K; reflexivity].
  intros H. apply (kind_driver _ _ _ d); try assumption. rewrite <- cstr_before_nul.
  assert (HL : zlen (firstn 15 (cstr d)) <= 15) by apply first15. revert H HL.
  generalize (firstn 15 (cstr d)) as x. intros x H HL.
  destruct (zlen x =? 0) eqn:E0; [now contradiction H|].
  destruct (beq x (bs "bonding")) eqn:B1; [apply beq_true in B1; now apply drv_bond|].
  destruct (beq x (bs "team")) eqn:B2; [apply beq_true in B2; now apply drv_team|].
  destruct (beq x (bs "bridge")) eqn:B3; [apply beq_true in B3; now apply drv_bridge|].
  destruct (beq x (bs "802.1Q VLAN Support")) eqn:B4.
  { apply beq_true in B4. rewrite B4 in HL. exfalso. revert HL. vm_compute. intuition. }
  destruct (beq x (bs "tun")) eqn:B5; [apply beq_true in B5; apply drv_tap; rewrite B5; now left|].
  destruct (beq x (bs "veth")) eqn:B6; [apply beq_true in B6; apply drv_tap; rewrite B6; right; now left|].
  destruct (beq x (bs "vxlan")) eqn:B7; [apply beq_true in B7; apply drv_tap; rewrite B7; right; right; now left|].
  cbn [orb]. apply drv_other. apply beq_false in B1, B2, B3, B5, B6, B7.
  intros [K|[K|[K|[K|[K|[K|[K|[]]]]]]]]; try (now apply eq_sym in K). now rewrite <- K in E0.
Qed.
Lemma kind_netif_type os index name ty : kind os index name ty -> netif_type os index name = ty /\ ty <> NETIF_INVALID.
Proof.
  intros H. unfold netif_type, NETIF_INVALID. inversion H as [E1|E1 E2|b E1 E2 E3|d t E1 E2 E3 E4 Hd]; subst; rewrite E1; [now split| | |].
  - rewrite E2. now split.
  - rewrite E2, E3. now split.
  - rewrite E2, E3, E4, cstr_before_nul.
    assert (HL : zlen (firstn 15 (before_nul d)) <= 15) by apply first15.
    revert Hd HL. generalize (firstn 15 (before_nul d)) as x. intros x Hd HL.
    destruct Hd as [Hi|Hi|Hi|Hi|Hi]; [rewrite Hi; now split|rewrite Hi; now split|rewrite Hi; now split| |].
    + cbn [In] in Hi. destruct Hi as [<-|[<-|[<-|[]]]]; now split.
    + assert (Hn : forall y, In y [[]; bs "bonding"; bs "team"; bs "bridge"; bs "tun"; bs "veth"; bs "vxlan"] -> beq x y = false).
      { intros y Hy. apply beq_false. intros ->. now apply Hi. }
      assert (zlen x <> 0). { intros K. apply zlen_0 in K. apply Hi. now left. }
      replace (zlen x =? 0) with false by lia.
      rewrite (Hn (bs "bonding")), (Hn (bs "team")), (Hn (bs "bridge")), (Hn (bs "tun")), (Hn (bs "veth")), (Hn (bs "vxlan")) by (cbn; intuition).
      replace (beq x (bs "802.1Q VLAN Support")) with false; [now split|]. symmetry. apply beq_false. intros ->.
      revert HL. vm_compute. intuition.
Qed.
Lemma kind_range os index name ty : kind os index name ty -> -1 <= ty <= 13 /\ ty <> 10.
Proof.
  intros H; inversion H as [| | |d t E1 E2 E3 E4 Hd]; subst; try lia. inversion Hd; subst; lia.
Qed.

(** ** The detection loop *)
Definition up (os : nos) (name : list Z) : bool :=
  match no_flags os (firstn 15 name) with Some f => has f IFF_UP | None => false end.
Definition entry_of (os : nos) (ia : ifaddr) : option Z :=
  match ia_addr ia with
  | Some (SALink h i _) =>
      if (h =? ARPHRD_ETHER) && negb (netif_type os i (ia_name ia) =? NETIF_INVALID) && up os (ia_name ia)
      then Some i else None
  | _ => None
  end.
Definition fresh_of (os : nos) (nfs : list netif) (ia : ifaddr) (i : Z) : netif :=
  let name := ia_name ia in
  match netif_byindex nfs i with
  | None => fresh_netif i name (netif_type os i name) (no_alias os i) 0 0 0 []
  | Some o => fresh_netif i name (netif_type os i name) (no_alias os i) (nf_protos o)
                (nf_link_event o) (nf_device_identified o) (nf_device_name o)
  end.
Definition seen (os : nos) (l : list ifaddr) (i : Z) : Prop := exists ia, In ia l /\ entry_of os ia = Some i.
Lemma fresh_index os nfs ia i : nf_index (fresh_of os nfs ia i) = i.
Proof. unfold fresh_of. now destruct (netif_byindex nfs i). Qed.
Lemma fresh_type os nfs ia i : nf_type (fresh_of os nfs ia i) = netif_type os i (ia_name ia).
Proof. unfold fresh_of. now destruct (netif_byindex nfs i). Qed.

(** One step in closed form. *)
Lemma fetch_one_not cfg os nfs si c ia : entry_of os ia = None ->
  exists si', fetch_one cfg os (nfs, si, c) ia = (nfs, si', c) /\ si_mnetif si' = si_mnetif si.
Proof.
  unfold entry_of, fetch_one. destruct (ia_addr ia) as [[h i a| | |]|]; try (eexists; split; [reflexivity|reflexivity]).
  destruct (h =? ARPHRD_ETHER); cbn [negb andb]; [|eexists; split; reflexivity].
  fold (up os (ia_name ia)). assert (M : forall ty u, si_mnetif (count_type ty u si) = si_mnetif si).
  { intros ty u. unfold count_type. now repeat destruct (_ =? _). }
  destruct (netif_type os i (ia_name ia) =? NETIF_INVALID); cbn [negb andb]; [intros _; eexists; split; [reflexivity|apply M]|].
  destruct (up os (ia_name ia)); [discriminate|]. intros _. cbn [negb]. eexists; split; [reflexivity|apply M].
Qed.
Lemma fetch_one_yes cfg os nfs si c ia i : entry_of os ia = Some i ->
  exists si', fetch_one cfg os (nfs, si, c) ia =
    ((match netif_byindex nfs i with
      | None => nfs ++ [fresh_netif i (ia_name ia) (netif_type os i (ia_name ia)) (no_alias os i) 0 0 0 []]
      | Some o => nf_assign (fun _ => fresh_netif i (ia_name ia) (netif_type os i (ia_name ia)) (no_alias os i)
                    (nf_protos o) (nf_link_event o) (nf_device_identified o) (nf_device_name o)) i nfs
      end), si', c + 1)
    /\ (si_mnetif si' = si_mnetif si \/ si_mnetif si' = Some i).
Proof.
  unfold entry_of, fetch_one. destruct (ia_addr ia) as [[h j a| | |]|]; try discriminate.
  destruct (h =? ARPHRD_ETHER); cbn [negb andb]; [|discriminate].
  fold (up os (ia_name ia)). assert (M : forall ty u, si_mnetif (count_type ty u si) = si_mnetif si).
  { intros ty u. unfold count_type. now repeat destruct (_ =? _). }
  destruct (netif_type os j (ia_name ia) =? NETIF_INVALID); cbn [negb andb]; [discriminate|].
  destruct (up os (ia_name ia)); [|discriminate]. intros H. injection H as ->. cbn [negb].
  eexists. split; [reflexivity|]. destruct (nc_mifname cfg) as [m|]; [|left; apply M].
  destruct (beq _ _); [right; reflexivity|left; apply M].
Qed.

Lemma nodup_snoc {A} (l : list A) x : NoDup l -> ~ In x l -> NoDup (l ++ [x]).
Proof.
  induction 1 as [|y l Hy Hl IH]; cbn; intros H; [repeat constructor; easy|]. constructor.
  - rewrite in_app_iff. cbn. intuition.
  - apply IH. intuition.
Qed.
Section fetch.
Variable cfg : ncfg.
Variable os : nos.
Variable nfs : list netif.
Definition phase1 (l : list ifaddr) (tbl : list netif) : Prop :=
  NoDup (indices tbl)
  /\ (forall n, In n tbl ->
        (~ seen os l (nf_index n) /\ exists o, In o nfs /\ n = set_type NETIF_OLD o)
        \/ (exists ia, In ia l /\ entry_of os ia = Some (nf_index n) /\ n = fresh_of os nfs ia (nf_index n)))
  /\ (forall i, In i (indices tbl) <-> In i (indices nfs) \/ seen os l i).
Lemma phase1_start : NoDup (indices nfs) -> phase1 [] (map (set_type NETIF_OLD) nfs).
Proof.
  intros H. assert (E : indices (map (set_type NETIF_OLD) nfs) = indices nfs).
  { unfold indices. rewrite map_map. now apply map_ext. }
  split; [now rewrite E|]. split.
  - intros n Hn. apply in_map_iff in Hn as (o & <- & Ho). left. split; [intros (ia & [] & _)|]. now exists o.
  - intros i. rewrite E. split; [now left|]. intros [K|(ia & [] & _)]; assumption.
Qed.
Lemma seen_snoc l ia i : seen os (l ++ [ia]) i <-> seen os l i \/ entry_of os ia = Some i.
Proof.
  unfold seen. split.
  - intros (x & Hx & E). apply in_app_iff in Hx as [Hx|[<-|[]]]; [left; now exists x|now right].
  - intros [(x & Hx & E)|E]; [exists x|exists ia]; (split; [apply in_app_iff; cbn; tauto|assumption]).
Qed.
Lemma phase1_step l tbl si c ia tbl' si' c' : NoDup (indices nfs) -> phase1 l tbl ->
  fetch_one cfg os (tbl, si, c) ia = (tbl', si', c') -> phase1 (l ++ [ia]) tbl'.
Proof.
  intros Hnd (Hd & Hn & Hi) H. destruct (entry_of os ia) as [i|] eqn:E.
  - destruct (fetch_one_yes cfg os tbl si c ia i E) as (s & F & _). rewrite F in H. injection H as <- _ _. clear F.
    destruct (netif_byindex tbl i) as [o|] eqn:B.
    + (* present: replaced *)
      pose proof (byindex_some _ _ _ B) as [Bo Bi].
      match goal with |- phase1 _ (nf_assign ?f i tbl) => set (F := f) end.
      assert (FI : forall m, nf_index m = i -> nf_index (F m) = nf_index m) by (intros m <-; reflexivity).
      assert (EI : indices (nf_assign F i tbl) = indices tbl) by (apply assign_keeps; exact FI).
      assert (EF : F o = fresh_of os nfs ia i).
      { destruct (Hn o Bo) as [(_ & q & Hq & ->)|(x & _ & _ & Hx)].
        - cbn in Bi. unfold F, fresh_of. pose proof (byindex_in nfs q Hnd Hq) as BQ. rewrite Bi in BQ. rewrite BQ. reflexivity.
        - rewrite Bi in Hx. unfold F. rewrite Hx. unfold fresh_of. now destruct (netif_byindex nfs i). }
      split; [now rewrite EI|]. split.
      * intros n K. apply in_split in K as (a & b & K).
        destruct (Z.eq_dec (nf_index n) i) as [Q|Q].
        { right. exists ia. rewrite Q. split; [apply in_app_iff; cbn; tauto|]. split; [assumption|].
          assert (KN : netif_byindex (nf_assign F i tbl) i = Some (F o)).
          { rewrite byindex_assign by (intros; rewrite FI; assumption). now rewrite Z.eqb_refl, B. }
          assert (KM : netif_byindex (nf_assign F i tbl) (nf_index n) = Some n).
          { apply byindex_in; [change (NoDup (indices (nf_assign F i tbl))); now rewrite EI|]. rewrite K. apply in_app_iff. right. now left. }
          rewrite Q, KN in KM. injection KM as KM. now rewrite <- KM. }
        { assert (In n tbl).
          { assert (In n (nf_assign F i tbl)) as KI by (rewrite K; apply in_app_iff; right; now left).
            apply assign_in in KI as [KI|(m & _ & Km & ->)]; [assumption|]. rewrite FI in Q by assumption. contradiction. }
          destruct (Hn n H) as [(S1 & S2)|(x & S1 & S2 & S3)]; [left|right].
          - split; [|assumption]. rewrite seen_snoc. intros [S|S]; [now apply S1|congruence].
          - exists x. split; [apply in_app_iff; tauto|]. now split. }
      * intros j. rewrite EI, Hi, seen_snoc. split; [tauto|]. intros [K|[K|K]]; [tauto|tauto|].
        apply Hi. replace j with i by congruence. rewrite <- Bi. now apply in_map.
    + (* new *)
      apply byindex_none in B. assert (Bn : ~ In i (indices nfs)) by (intros K; apply B, Hi; now left).
      set (F := fresh_netif i (ia_name ia) (netif_type os i (ia_name ia)) (no_alias os i) 0 0 0 []).
      assert (EF : F = fresh_of os nfs ia i).
      { unfold fresh_of. apply byindex_none in Bn. now rewrite Bn. }
      unfold phase1. unfold indices. rewrite map_app. cbn [map]. change (nf_index F) with i. split; [|split].
      * now apply nodup_snoc.
      * intros n K. apply in_app_iff in K as [K|[<-|[]]].
        { destruct (Hn n K) as [(S1 & S2)|(x & S1 & S2 & S3)]; [left|right].
          - split; [|assumption]. rewrite seen_snoc. intros [S|S]; [now apply S1|].
            apply B. replace i with (nf_index n) by congruence. now apply in_map.
          - exists x. split; [apply in_app_iff; tauto|]. now split. }
        { right. exists ia. change (nf_index F) with i. split; [apply in_app_iff; cbn; tauto|]. now split. }
      * intros j. rewrite in_app_iff. cbn [In]. fold (indices tbl). fold (indices nfs). rewrite Hi, seen_snoc, E. intuition congruence.
  - destruct (fetch_one_not cfg os tbl si c ia E) as (s & F & _). rewrite F in H. injection H as <- _ _.
    split; [assumption|]. split.
    + intros n K. destruct (Hn n K) as [(S1 & S2)|(x & S1 & S2 & S3)]; [left|right].
      * split; [|assumption]. rewrite seen_snoc. intros [S|S]; [now apply S1|congruence].
      * exists x. split; [apply in_app_iff; tauto|]. now split.
    + intros j. rewrite Hi, seen_snoc, E. intuition congruence.
Qed.
Lemma phase1_fold : NoDup (indices nfs) -> forall r l tbl si c tbl' si' c', phase1 l tbl ->
  fold_left (fetch_one cfg os) r (tbl, si, c) = (tbl', si', c') -> phase1 (l ++ r) tbl'.
Proof.
  intros Hnd. induction r as [|ia r IH]; intros l tbl si c tbl' si' c' H; cbn [fold_left].
  - intros K. injection K as <- _ _. now rewrite app_nil_r.
  - destruct (fetch_one cfg os (tbl, si, c) ia) as [[t s] c1] eqn:E. intros K.
    replace (l ++ ia :: r) with ((l ++ [ia]) ++ r) by now rewrite <- app_assoc.
    exact (IH _ t s c1 _ _ _ (phase1_step _ _ _ _ _ _ _ _ Hnd H E) K).
Qed.
(** The management interface during the loop. *)
Lemma phase1_mgmt : NoDup (indices nfs) -> forall r l tbl si c tbl' si' c', phase1 l tbl ->
  mgmt_in si tbl -> fold_left (fetch_one cfg os) r (tbl, si, c) = (tbl', si', c') -> mgmt_in si' tbl'.
Proof.
  intros Hnd. induction r as [|ia r IH]; intros l tbl si c tbl' si' c' H Hm; cbn [fold_left].
  - intros K. injection K as <- <- _. assumption.
  - destruct (fetch_one cfg os (tbl, si, c) ia) as [[t s] c1] eqn:E. intros K.
    pose proof (phase1_step _ _ _ _ _ _ _ _ Hnd H E) as H1. refine (IH (l ++ [ia]) t s c1 tbl' si' c' H1 _ K).
    intros m Em. destruct H1 as (_ & _ & Hi). apply Hi. rewrite seen_snoc. destruct H as (_ & _ & Hj).
    destruct (entry_of os ia) as [i|] eqn:F.
    + destruct (fetch_one_yes cfg os tbl si c ia i F) as (s' & G & D). rewrite G in E. injection E as _ <- _.
      destruct D as [D|D]; rewrite D in Em; [|right; right; congruence]. apply Hm, Hj in Em. tauto.
    + destruct (fetch_one_not cfg os tbl si c ia F) as (s' & G & D). rewrite G in E. injection E as _ <- _.
      rewrite D in Em. apply Hm, Hj in Em. tauto.
Qed.
End fetch.
