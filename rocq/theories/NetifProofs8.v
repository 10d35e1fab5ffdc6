(** netif_fetch as a whole: addresses, capabilities, management interface,
    interfaces of the command line. *)
From Verif Require Import Base Types Tlv Util Netif Spec SpecAdv SpecNetif SpecSend SpecNetif2.
From Verif Require Import Lemmas VisProofs VisProps ChildProofs ChildProofs4 NetifProofs1 NetifProofs2 NetifProofs3
  NetifProofs5 NetifProofs6 NetifProofs7.

(** ** What member detection leaves alone *)
Definition ad (n : netif) := (nf_hwaddr n, nf_ipaddr4 n, nf_ipaddr6 n, nf_argv n).
Definition soft (f : netif -> netif) : Prop := forall n, ad (f n) = ad n.
Lemma soft_assign f i nfs : soft f -> map ad (nf_assign f i nfs) = map ad nfs.
Proof. intros H. apply assign_keeps. intros n _. apply H. Qed.
Lemma add_member_ad par last sub ch la nfs : map ad (add_member par last sub ch la nfs) = map ad nfs.
Proof. unfold add_member. rewrite !soft_assign; [reflexivity|intros n; reflexivity|intros n; reflexivity]. Qed.
Lemma bond_loop_ad os par pn : forall k i last nfs, map ad (bond_loop os par pn k i last nfs) = map ad nfs.
Proof.
  induction k as [|k IH]; intros i last nfs; cbn [bond_loop]; [reflexivity|].
  destruct (no_slave os pn i) as [[nm st]|]; [|apply IH]. destruct (netif_byname nfs nm) as [s|]; [|apply IH].
  destruct (_ <? _); [|apply IH]. rewrite IH. apply add_member_ad.
Qed.
Lemma bridge_loop_ad par : forall ports last nfs, map ad (bridge_loop par ports last nfs) = map ad nfs.
Proof.
  induction ports as [|p ports IH]; intros last nfs; cbn [bridge_loop]; [reflexivity|].
  destruct (netif_byindex nfs p) as [s|]; [|apply IH]. destruct (_ <? _); [|apply IH]. rewrite IH. apply add_member_ad.
Qed.
Lemma team_loop_ad par ch : forall ports last nfs, map ad (team_loop par ch ports last nfs) = map ad nfs.
Proof.
  induction ports as [|p ports IH]; intros last nfs; cbn [team_loop]; [reflexivity|].
  destruct (netif_byindex nfs p) as [s|]; [|apply IH]. destruct (_ <? _); [apply IH|]. rewrite IH. apply add_member_ad.
Qed.
Lemma detect_ad os nfs i : map ad (detect_one os nfs i) = map ad nfs.
Proof.
  unfold detect_one. destruct (netif_byindex nfs i) as [n|]; [|reflexivity].
  destruct (_ =? _).
  { unfold netif_team. destruct (no_team os (nf_index n)) as [[[m p] a]|]; [|reflexivity]. destruct (_ =? _).
    - rewrite soft_assign by (intros x; reflexivity). rewrite team_loop_ad. now apply soft_assign.
    - rewrite team_loop_ad. now apply soft_assign. }
  destruct (_ =? _).
  { unfold netif_bond. destruct (no_bond os (nf_name n)) as [[m s]|]; [|reflexivity]. rewrite bond_loop_ad.
    destruct (_ =? _); [now apply soft_assign|]. destruct (_ =? _); [now apply soft_assign|reflexivity]. }
  destruct (_ =? _).
  { unfold netif_bridge. destruct (no_bridge os (nf_name n)); [apply bridge_loop_ad|reflexivity]. }
  destruct (_ =? _).
  { unfold netif_vlan. destruct (no_vlan os (nf_name n)) as [d|]; [|reflexivity].
    destruct (netif_byname nfs d); [now apply soft_assign|reflexivity]. }
  destruct (_ =? _); [|reflexivity].
  unfold netif_device_id. destruct (negb _); [reflexivity|]. now apply soft_assign.
Qed.
Lemma detect_all_ad os : forall l nfs, map ad (fold_left (detect_one os) l nfs) = map ad nfs.
Proof. induction l as [|i l IH]; intros nfs; cbn [fold_left]; [reflexivity|]. rewrite IH. apply detect_ad. Qed.
Lemma ad_in a b n : map ad a = map ad b -> In n a -> exists m, In m b /\ ad n = ad m.
Proof.
  intros H K. apply (in_map ad) in K. rewrite H in K. apply in_map_iff in K as (m & E & Hm). now exists m.
Qed.

(** ** The phases, in full *)
Lemma fetch_full cfg os nfs si ret nfs' si' gone ias : no_ifaddrs os = Some ias -> NoDup (indices nfs) ->
  netif_fetch cfg os nfs si = (ret, nfs', si', gone) ->
  exists nfs1 si1 count nfs2 si2 nfs3 nfs4 si4,
    fold_left (fetch_one cfg os) ias
      (map (set_type NETIF_OLD) nfs, set_caps (Z.land (si_cap si) 12) (Z.land (si_cap_active si) 12) 0 si, 0)
      = (nfs1, si1, count)
    /\ remove_old nfs1 si1 = (nfs2, si2, gone)
    /\ phase2 os nfs ias nfs2 /\ map core nfs3 = map core nfs2 /\ map ad nfs3 = map ad nfs2
    /\ netif_addrs cfg ias nfs3 si2 = (nfs4, si4)
    /\ si' = match nfs4 with n :: _ => set_chassis (nf_hwaddr n) si4 | [] => si4 end
    /\ ((nc_ifl cfg <> [] /\ exists c, argv_loop (nc_ifl cfg) nfs4 0 = (nfs', c)
            /\ ret = (if c =? zlen (nc_ifl cfg) then c else 0) mod 65536)
        \/ (nc_ifl cfg = [] /\ nfs' = nfs4 /\ ret = count mod 65536)).
Proof.
  intros E Hd. unfold netif_fetch. rewrite E.
  change (Z.lor CAP_HOST CAP_ROUTER) with 12. set (si0 := set_caps _ _ _ si).
  destruct (fold_left (fetch_one cfg os) ias _) as [[nfs1 si1] count] eqn:F1.
  destruct (remove_old nfs1 si1) as [[nfs2 si2] g] eqn:R.
  set (nfs3 := fold_left (detect_one os) _ _). destruct (netif_addrs cfg ias nfs3 si2) as [nfs4 si4] eqn:A.
  set (si5 := match nfs4 with _ :: _ => _ | _ => _ end). intros H.
  pose proof (phase1_fold cfg os nfs Hd ias [] _ _ _ _ _ _ (phase1_start os nfs Hd) F1) as P1. cbn [app] in P1.
  pose proof (remove_phase2 os nfs ret ias nfs1 si1 E P1) as P2. rewrite R in P2. cbn [fst] in P2.
  exists nfs1, si1, count, nfs2, si2, nfs3, nfs4, si4.
  assert (X : gone = g /\ si' = si5 /\ ((nc_ifl cfg <> [] /\ exists c, argv_loop (nc_ifl cfg) nfs4 0 = (nfs', c)
            /\ ret = (if c =? zlen (nc_ifl cfg) then c else 0) mod 65536)
        \/ (nc_ifl cfg = [] /\ nfs' = nfs4 /\ ret = count mod 65536))).
  { destruct (0 <? zlen (nc_ifl cfg)) eqn:L.
    - destruct (argv_loop (nc_ifl cfg) nfs4 0) as [nfs5 c] eqn:AL. injection H as <- <- <- <-.
      split; [reflexivity|]. split; [reflexivity|]. left. split; [|now exists c]. intros K. rewrite K in L. discriminate L.
    - injection H as <- <- <- <-. split; [reflexivity|]. split; [reflexivity|]. right.
      split; [|now split]. apply zlen_0. pose proof (zlen_nonneg _ (nc_ifl cfg)). lia. }
  destruct X as (-> & -> & X). split; [reflexivity|]. split; [exact R|]. split; [exact P2|].
  split; [apply detect_all_core|]. split; [apply detect_all_ad|]. split; [exact A|]. split; [reflexivity|exact X].
Qed.

(** Names in the table. *)
Lemma core_names a b : map core a = map core b -> names a = names b.
Proof.
  intros H. apply (f_equal (map (fun x : Z * list Z * Z * list Z * Z * Z * Z => snd (fst (fst (fst (fst (fst x)))))))) in H.
  now rewrite !map_map in H.
Qed.
Lemma phase2_name os nfs ias tbl n : names_apart ias -> phase2 os nfs ias tbl -> In n tbl ->
  exists ia, In ia ias /\ entry_of os ia = Some (nf_index n) /\ link_of ia = Some (nf_index n, nf_name n).
Proof.
  intros (H1 & H2) (_ & _ & P) Hn. destruct (P n Hn) as (ia & I1 & I2 & I3). exists ia. split; [assumption|]. split; [assumption|].
  assert (N : nf_name n = firstn 15 (ia_name ia)).
  { rewrite I3. unfold fresh_of. now destruct (netif_byindex nfs (nf_index n)). }
  assert (L : firstn 15 (ia_name ia) = ia_name ia).
  { apply firstn_all2. specialize (H1 ia I1). unfold zlen in H1. lia. }
  unfold link_of. unfold entry_of in I2. destruct (ia_addr ia) as [[h j a| | |]|]; try discriminate.
  destruct (_ && _); [|discriminate]. injection I2 as ->. congruence.
Qed.
Lemma phase2_names os nfs ias tbl : names_apart ias -> phase2 os nfs ias tbl -> NoDup (names tbl).
Proof.
  intros H P. assert (G : forall n m, In n tbl -> In m tbl -> nf_name n = nf_name m -> nf_index n = nf_index m).
  { intros n m Hn Hm E. destruct (phase2_name _ _ _ _ _ H P Hn) as (x & X1 & _ & X2).
    destruct (phase2_name _ _ _ _ _ H P Hm) as (y & Y1 & _ & Y2). rewrite E in X2. now apply (proj2 H x y _ _ _ _ X1 Y1 X2 Y2). }
  destruct P as (D & _). clear H. induction tbl as [|n tbl IH]; [constructor|]. cbn in *. inversion D as [|? ? D1 D2]; subst. constructor.
  - intros K. apply in_map_iff in K as (m & K1 & K2). apply D1. rewrite <- (G m n); [now apply in_map|now right|now left|assumption].
  - apply IH; try assumption. intros a b Ha Hb. apply G; now right.
Qed.
Lemma phase2_zero_ad os nfs ias tbl n : phase2 os nfs ias tbl -> In n tbl -> ad n = (repeat 0 6, repeat 0 4, repeat 0 16, 0).
Proof.
  intros (_ & _ & P) Hn. destruct (P n Hn) as (ia & _ & _ & ->). unfold fresh_of. now destruct (netif_byindex nfs (nf_index n)).
Qed.

(** ** The interfaces of the command line *)
Lemma argv_keeps {B} (pj : netif -> B) : (forall a n, pj (set_argv a n) = pj n) -> forall ifl nfs c, map pj (fst (argv_loop ifl nfs c)) = map pj nfs.
Proof. intros H ifl nfs c. apply argv_pj. exact H. Qed.
Definition ok_arg (nfs : list netif) (x : list Z) : bool :=
  match netif_byname nfs x with Some n => negb (nf_type n =? -1) | None => false end.
Lemma byname_map f nfs x : (forall n, nf_name (f n) = nf_name n) -> netif_byname (map f nfs) x = option_map f (netif_byname nfs x).
Proof.
  intros H. unfold netif_byname. induction nfs as [|n nfs IH]; [reflexivity|]. cbn. rewrite H. destruct (beq (nf_name n) x); [reflexivity|exact IH].
Qed.
Definition mark (x : list Z) (n : netif) : netif := if beq (nf_name n) x && negb (nf_type n =? -1) then set_argv 1 n else n.
Lemma mark_name x n : nf_name (mark x n) = nf_name n. Proof. unfold mark. now destruct (_ && _). Qed.
Lemma mark_index x n : nf_index (mark x n) = nf_index n. Proof. unfold mark. now destruct (_ && _). Qed.
Lemma mark_type x n : nf_type (mark x n) = nf_type n. Proof. unfold mark. now destruct (_ && _). Qed.
Lemma argv_step nfs x : NoDup (indices nfs) -> NoDup (names nfs) ->
  (match netif_byname nfs x with
   | None => nfs
   | Some n => if nf_type n =? NETIF_VLAN then nfs else nf_assign (set_argv 1) (nf_index n) nfs
   end) = map (mark x) nfs.
Proof.
  intros H1 H2. assert (I : forall f : netif -> netif, (forall n, In n nfs -> f n = n) -> nfs = map f nfs).
  { intros f Hf. rewrite <- map_id at 1. apply map_ext_in. intros n Hn. symmetry. now apply Hf. }
  destruct (netif_byname nfs x) as [n|] eqn:B.
  - assert (U : forall m, In m nfs -> beq (nf_name m) x = true -> m = n).
    { intros m Hm E. apply byname_in in B as [B1 B2]. apply beq_true in E. apply (nodup_same nf_name nfs); auto. congruence. }
    change NETIF_VLAN with (-1). destruct (nf_type n =? -1) eqn:T.
    + apply I. intros m Hm. unfold mark. destruct (beq (nf_name m) x) eqn:E; [|reflexivity]. rewrite (U m Hm E), T. reflexivity.
    + rewrite (assign_named _ _ _ _ H1 H2 B). apply map_ext_in. intros m Hm. unfold mark.
      destruct (beq (nf_name m) x) eqn:E; [|reflexivity]. rewrite (U m Hm E), T. reflexivity.
  - apply I. intros m Hm. unfold mark. now rewrite (byname_none _ _ _ B Hm).
Qed.
Lemma ok_arg_mark x nfs y : ok_arg (map (mark x) nfs) y = ok_arg nfs y.
Proof.
  unfold ok_arg. rewrite byname_map by apply mark_name. destruct (netif_byname nfs y) as [n|]; [|reflexivity]. cbn [option_map].
  now rewrite mark_type.
Qed.
Lemma argv_all : forall ifl nfs c, NoDup (indices nfs) -> NoDup (names nfs) ->
  argv_loop ifl nfs c
  = (map (fun n => fold_left (fun n x => mark x n) ifl n) nfs, c + zlen (filter (ok_arg nfs) ifl)).
Proof.
  induction ifl as [|x ifl IH]; intros nfs c H1 H2; cbn [argv_loop fold_left filter].
  - rewrite map_id, zlen_nil. f_equal. lia.
  - pose proof (argv_step nfs x H1 H2) as S.
    assert (K : argv_loop ifl (map (mark x) nfs) (c + (if ok_arg nfs x then 1 else 0))
      = (map (fun n => fold_left (fun n0 x0 => mark x0 n0) ifl (mark x n)) nfs,
         c + zlen (if ok_arg nfs x then x :: filter (ok_arg nfs) ifl else filter (ok_arg nfs) ifl))).
    { rewrite IH.
      - rewrite map_map. f_equal. rewrite (filter_ext (ok_arg (map (mark x) nfs)) (ok_arg nfs)) by (intros; apply ok_arg_mark).
        destruct (ok_arg nfs x); [rewrite zlen_cons|]; lia.
      - unfold indices in *. rewrite map_map. rewrite (map_ext _ nf_index); [assumption|]. intros; apply mark_index.
      - unfold names in *. rewrite map_map. rewrite (map_ext _ nf_name); [assumption|]. intros; apply mark_name. }
    rewrite <- K, <- S. unfold ok_arg. destruct (netif_byname nfs x) as [n|]; [|now rewrite Z.add_0_r].
    change NETIF_VLAN with (-1). destruct (nf_type n =? -1); cbn [negb]; [now rewrite Z.add_0_r|reflexivity].
Qed.
Lemma marks_name ifl : forall n, nf_name (fold_left (fun n x => mark x n) ifl n) = nf_name n.
Proof. induction ifl as [|x ifl IH]; intros n; cbn [fold_left]; [reflexivity|]. now rewrite IH, mark_name. Qed.
Lemma marks_type ifl : forall n, nf_type (fold_left (fun n x => mark x n) ifl n) = nf_type n.
Proof. induction ifl as [|x ifl IH]; intros n; cbn [fold_left]; [reflexivity|]. now rewrite IH, mark_type. Qed.
Lemma marks_argv ifl : forall n, nf_argv (fold_left (fun n x => mark x n) ifl n)
  = if existsb (same (nf_name n)) ifl && negb (nf_type n =? -1) then 1 else nf_argv n.
Proof.
  induction ifl as [|x ifl IH]; intros n; cbn [fold_left existsb]; [reflexivity|]. rewrite IH, mark_name, mark_type, same_beq. unfold mark.
  destruct (beq (nf_name n) x), (existsb (same (nf_name n)) ifl), (nf_type n =? -1); reflexivity.
Qed.
Lemma filter_all {A} (f : A -> bool) l : zlen (filter f l) = zlen l <-> forall x, In x l -> f x = true.
Proof.
  induction l as [|a l IH]; cbn [filter]; [easy|]. assert (L : zlen (filter f l) <= zlen l).
  { clear. induction l as [|a l IH]; cbn [filter]; [lia|]. destruct (f a); rewrite ?zlen_cons; lia. }
  destruct (f a) eqn:E; rewrite ?zlen_cons.
  - split.
    + intros H x [<-|Hx]; [assumption|]. apply IH; [lia|assumption].
    + intros H. rewrite (proj2 IH); [reflexivity|]. intros x Hx. apply H. now right.
  - split; [lia|]. intros H. rewrite (H a) in E by now left. discriminate.
Qed.
Lemma filter_le {A} (f : A -> bool) l : zlen (filter f l) <= zlen l.
Proof. induction l as [|a l IH]; cbn [filter]; [lia|]. destruct (f a); rewrite ?zlen_cons; lia. Qed.

(** ** Addresses *)
Lemma addrs_phase cfg ias nfs si nfs4 si4 : Forall ia_sizes ias -> NoDup (indices nfs) -> NoDup (names nfs) ->
  (forall n, In n nfs -> ad n = (repeat 0 6, repeat 0 4, repeat 0 16, 0)) -> mgmt_in si nfs ->
  netif_addrs cfg ias nfs si = (nfs4, si4) ->
  addressed cfg ias nfs4 si4 /\ names nfs4 = names nfs /\ indices nfs4 = indices nfs /\ map nf_type nfs4 = map nf_type nfs
  /\ (forall n, In n nfs4 -> nf_argv n = 0).
Proof.
  intros Hs H1 H2 Hz Hm E.
  pose proof (addrs_core cfg ias nfs si) as C. rewrite E in C. cbn [fst] in C.
  pose proof (addrs_pj nf_argv (fun _ _ _ => eq_refl) (fun _ _ => eq_refl) cfg ias nfs si) as PA. rewrite E in PA. cbn [fst] in PA.
  split; [|split; [now apply core_names|split; [now apply core_index|split]]].
  2:{ apply (f_equal (map (fun x : Z * list Z * Z * list Z * Z * Z * Z => snd (fst (fst (fst (fst x))))))) in C. now rewrite !map_map in C. }
  2:{ intros n Hn. apply (in_map nf_argv) in Hn. rewrite PA in Hn. apply in_map_iff in Hn as (m & <- & Hn). apply Hz in Hn.
      unfold ad in Hn. now injection Hn. }
  unfold netif_addrs in E. pose proof (addr_fold_map cfg ias nfs si H1 H2) as F.
  assert (MI : mgmt_in (snd (fold_left (addr_one cfg) ias (nfs, si))) (fst (fold_left (addr_one cfg) ias (nfs, si)))).
  { clear -Hm. revert nfs si Hm. induction ias as [|ia l IH]; intros nfs si H; cbn [fold_left]; [assumption|].
    pose proof (addr_one_mgmt cfg nfs si ia H) as K. destruct (addr_one cfg (nfs, si) ia) as [a b]. now apply IH. }
  destruct (fold_left _ _ _) as [a b]. cbn [fst snd] in F, MI. subst a.
  assert (V : forall n, In n nfs -> nf_hwaddr (fold_left upd ias n) = main_hw ias (nf_name n)
     /\ nf_ipaddr4 (fold_left upd ias n) = main4 ias (nf_name n) /\ nf_ipaddr6 (fold_left upd ias n) = main6 ias (nf_name n)).
  { intros n Hn. specialize (Hz n Hn). unfold ad in Hz. injection Hz as Z1 Z2 Z3 Z4. split; [|split].
    - rewrite fold_upd_hw, Z1. reflexivity.
    - rewrite fold_upd_4; [|assumption|intros _; exact Z2]. rewrite Z2. reflexivity.
    - rewrite fold_upd_6; [|assumption|intros _; exact Z3]. rewrite Z3. reflexivity. }
  assert (HB : has (nc_opts cfg) OPT_MADDR = Z.testbit (nc_opts cfg) 8) by (apply (has_bit _ 8); lia). rewrite HB in E. clear HB.
  unfold addressed, address_name. destruct (Z.testbit (nc_opts cfg) 8); cbn [negb] in E.
  - destruct (si_mnetif b) as [m|] eqn:SM.
    + assert (K : In m (indices (map (fold_left upd ias) nfs))) by now apply MI.
      destruct (byindex_ex _ _ K) as [mn BM]. rewrite BM in E. injection E as <- <-. rewrite SM.
      pose proof (byindex_some _ _ _ BM) as [BM1 BM2].
      apply in_map_iff in BM1 as (k & <- & Hk).
      assert (G : find (index_is m) (map (set_ips (nf_ipaddr4 (fold_left upd ias k)) (nf_ipaddr6 (fold_left upd ias k))) (map (fold_left upd ias) nfs))
        = Some (set_ips (nf_ipaddr4 (fold_left upd ias k)) (nf_ipaddr6 (fold_left upd ias k)) (fold_left upd ias k))).
      { clear -BM. unfold netif_byindex in BM. revert BM. generalize (map (fold_left upd ias) nfs) as l. induction l as [|x l IH]; [discriminate|].
        cbn. unfold index_is at 1. cbn. destruct (nf_index x =? m); [congruence|exact IH]. }
      rewrite G. cbn [nf_name set_ips]. rewrite fold_upd_name. destruct (V k Hk) as (_ & V2 & V3).
      intros n Hn. apply in_map_iff in Hn as (n1 & <- & Hn). apply in_map_iff in Hn as (n0 & <- & Hn). destruct (V n0 Hn) as (W1 & _ & _).
      cbn [nf_name nf_hwaddr nf_ipaddr4 nf_ipaddr6 set_ips]. rewrite fold_upd_name. now repeat split.
    + injection E as <- <-. rewrite SM. intros n Hn. apply in_map_iff in Hn as (n0 & <- & Hn). rewrite fold_upd_name. now apply V.
  - injection E as <- <-. intros n Hn. apply in_map_iff in Hn as (n0 & <- & Hn). rewrite fold_upd_name. now apply V.
Qed.
