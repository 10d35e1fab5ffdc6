(** Link events are limited (C36); heard protocols are sent (C54). *)
From Verif Require Import Base Types Tlv Msg Protos Wire Util Child Netif Parent Sysinfo Send Spec SpecRound SpecNet SpecChild SpecAdv SpecNetif SpecSend.
From Verif Require Import Lemmas VisProofs EncProps NetProofs ParentProofs TypesProofs ChildProofs4 ChildProofs7 NetifProofs1 NetifProofs2 NetifProofs5 SendProofs1 SendProofs2 SendProofs3 SendProofs4 SendProofs5 SendProofs6.

Definition le (T : list netif) (j : Z) : Z := match netif_byindex T j with Some n => nf_link_event n | None => 0 end.
Definition fine (T : list netif) : Prop := Forall (fun n => 0 <= nf_link_event n < 256) T.
Lemma le_range T j : fine T -> 0 <= le T j < 256.
Proof.
  intros F. unfold le. destruct (netif_byindex T j) as [n|] eqn:E; [|lia]. apply byindex_some in E as [E _].
  unfold fine in F. rewrite Forall_forall in F. now apply F.
Qed.
Lemma media_le os n : nf_link_event (netif_media os n) = nf_link_event n.
Proof. destruct (media_form os n) as (d & s & e & p & u & E & _). now rewrite E. Qed.
Lemma media_index os n : nf_index (netif_media os n) = nf_index n.
Proof. exact (f_equal nf_index (media_bare os n)). Qed.
Lemma fine_assign f i T : (forall n, 0 <= nf_link_event n < 256 -> 0 <= nf_link_event (f n) < 256) -> fine T -> fine (nf_assign f i T).
Proof.
  intros H. induction T as [|n T IH]; intros F; [constructor|]. inversion F; subst. cbn [nf_assign].
  destruct (nf_index n =? i); constructor; auto; now apply IH.
Qed.

Lemma index_assign f i T : (forall n, nf_index (f n) = nf_index n) -> indices (nf_assign f i T) = indices T.
Proof. intros H. unfold indices. induction T as [|n T IH]; [reflexivity|]. cbn [nf_assign]. destruct (_ =? _); cbn [map]; [now rewrite H|now rewrite IH]. Qed.

(** ** One interface *)
Lemma sub_le cfg os si index top T seq eff i : fine T ->
  exists T' seq' eff', send_sub cfg os si index top (T, seq, eff) i = (T', seq', eff') /\ fine T' /\ indices T' = indices T
  /\ (index <> NETIF_INDEX_MAX -> In i (indices T) -> forall j, le T' j = if (j =? i) && (index =? i) then (le T j + 1) mod 256 else le T j).
Proof.
  intros F. unfold send_sub.
  destruct (negb (index =? NETIF_INDEX_MAX) && negb (index =? i)) eqn:M.
  { exists T, seq, eff. repeat split; [assumption|]. intros N _ j. replace (index =? i) with false by lia. now rewrite andb_false_r. }
  destruct (netif_byindex T i) as [s0|] eqn:B.
  2:{ exists T, seq, eff. repeat split; [assumption|]. intros N K. now apply byindex_none in B. }
  set (ev := if index =? NETIF_INDEX_MAX then 0 else (nf_link_event s0 + 1) mod 256).
  assert (R : 0 <= ev < 256) by (subst ev; destruct (_ =? _); [lia|apply Z.mod_pos_bound; lia]).
  cbv zeta. set (T1 := nf_assign (set_link_event ev) i T). set (T2 := nf_assign (netif_media os) i T1).
  assert (F1 : fine T1) by (apply fine_assign; [intros n _; exact R|assumption]).
  assert (F2 : fine T2) by (apply fine_assign; [intros n Hn; now rewrite media_le|assumption]).
  assert (I1 : indices T1 = indices T). { apply index_assign. reflexivity. }
  assert (I2 : indices T2 = indices T). { rewrite <- I1. apply index_assign. apply media_index. }
  assert (L1 : index <> NETIF_INDEX_MAX -> In i (indices T) -> forall j, le T1 j = if (j =? i) && (index =? i) then (le T j + 1) mod 256 else le T j).
  { intros N K j. unfold le, T1. rewrite byindex_assign by (intros m Hm; exact Hm). destruct (j =? i) eqn:J; [|reflexivity].
    apply Z.eqb_eq in J. subst j. rewrite B. cbn [option_map]. replace (index =? i) with true by lia. cbn [andb].
    change (nf_link_event (set_link_event ev s0)) with ev. subst ev. now replace (index =? NETIF_INDEX_MAX) with false by lia. }
  assert (L2 : forall j, le T2 j = le T1 j).
  { intros j. unfold le, T2. rewrite byindex_assign by (intros m <-; apply media_index). destruct (j =? i); [|reflexivity].
    destruct (netif_byindex T1 j); [|reflexivity]. cbn [option_map]. apply media_le. }
  destruct (send_skip cfg s0). { exists T1, seq, eff. now repeat split. }
  destruct (negb (has (sc_opts cfg) OPT_SEND)). { do 3 eexists. split; [reflexivity|]. split; [assumption|]. split; [assumption|]. intros N K j. rewrite L2. now apply L1. }
  destruct (netif_byindex T2 i) as [s|]; [destruct (netif_byindex T2 top) as [t|]|].
  1: destruct (fold_left _ _ _) as [edp' eff2].
  all: do 3 eexists; (split; [reflexivity|]); (split; [assumption|]); (split; [assumption|]); intros N K j; rewrite L2; now apply L1.
Qed.
Definition hits (index : Z) (l : list Z) : Z := Z.of_nat (count_occ Z.eq_dec l index).
Lemma hits_app index l m : hits index (l ++ m) = hits index l + hits index m.
Proof. unfold hits. rewrite count_occ_app. lia. Qed.
Lemma hits_nonneg index l : 0 <= hits index l. Proof. unfold hits. lia. Qed.
Lemma hits_cons index i l : hits index (i :: l) = (if i =? index then 1 else 0) + hits index l.
Proof. unfold hits. cbn [count_occ]. destruct (Z.eq_dec i index) as [->|N]; [rewrite Z.eqb_refl; lia|]. replace (i =? index) with false by lia. lia. Qed.
Definition bumped (index : Z) (T T' : list netif) (k : Z) : Prop :=
  fine T' /\ indices T' = indices T
  /\ (index <> NETIF_INDEX_MAX -> forall j, le T' j = if j =? index then (le T j + k) mod 256 else le T j).
Lemma bumped_refl index T : fine T -> bumped index T T 0.
Proof.
  intros F. split; [assumption|]. split; [reflexivity|]. intros _ j. pose proof (le_range T j F). rewrite Z.add_0_r, Z.mod_small by lia. now destruct (j =? index).
Qed.
Lemma bumped_trans index T T1 T2 a b : bumped index T T1 a -> bumped index T1 T2 b -> bumped index T T2 (a + b).
Proof.
  intros (A1 & A2 & A3) (B1 & B2 & B3). split; [assumption|]. split; [congruence|]. intros N j. rewrite (B3 N), (A3 N).
  destruct (j =? index); [|reflexivity]. rewrite Z.add_mod_idemp_l by lia. f_equal. lia.
Qed.
Lemma subs_le cfg os si index top : forall l T seq eff, fine T -> incl l (indices T) ->
  exists T' seq' eff', fold_left (send_sub cfg os si index top) l (T, seq, eff) = (T', seq', eff') /\ bumped index T T' (hits index l).
Proof.
  induction l as [|i l IH]; intros T seq eff F I.
  - exists T, seq, eff. split; [reflexivity|]. now apply bumped_refl.
  - cbn [fold_left]. destruct (sub_le cfg os si index top T seq eff i F) as (T1 & s1 & e1 & -> & F1 & I1 & L1).
    destruct (IH T1 s1 e1 F1) as (T2 & s2 & e2 & -> & B). { rewrite I1. intros x Hx. apply I. now right. }
    exists T2, s2, e2. split; [reflexivity|]. rewrite hits_cons. apply (bumped_trans index T T1 T2); [|assumption].
    split; [assumption|]. split; [assumption|]. intros N j. rewrite (L1 N (I i (or_introl eq_refl))). pose proof (le_range T j F).
    destruct (j =? index) eqn:J.
    + destruct (index =? i) eqn:K; [replace (j =? i) with true by lia; replace (i =? index) with true by lia; reflexivity|].
      rewrite andb_false_r. replace (i =? index) with false by lia. rewrite Z.add_0_r, Z.mod_small by lia. reflexivity.
    + destruct (index =? i) eqn:K; [replace (j =? i) with false by lia; reflexivity|]. now rewrite andb_false_r.
Qed.
Definition visits (cfg : scfg) (nfs : list netif) (top : netif) : list Z :=
  if send_skip cfg top then [] else map nf_index (subif_each top nfs).
Lemma visits_incl cfg nfs top : In top nfs -> incl (visits cfg nfs top) (indices nfs).
Proof.
  intros H. unfold visits. destruct (send_skip cfg top); [easy|]. intros x Hx. apply in_map_iff in Hx as (m & <- & Hm). apply in_map. now apply (subif_incl nfs top H).
Qed.
Lemma tops_le cfg os si index nfs : forall tops T seq eff, fine T -> indices T = indices nfs -> incl tops nfs ->
  exists T' seq' eff', fold_left (send_top cfg os si index nfs) tops (T, seq, eff) = (T', seq', eff')
   /\ bumped index T T' (hits index (flat_map (visits cfg nfs) tops)).
Proof.
  induction tops as [|t tops IH]; intros T seq eff F E I.
  - exists T, seq, eff. split; [reflexivity|]. now apply bumped_refl.
  - cbn [fold_left flat_map]. rewrite hits_app.
    assert (K : exists T1 s1 e1, send_top cfg os si index nfs (T, seq, eff) t = (T1, s1, e1) /\ bumped index T T1 (hits index (visits cfg nfs t))).
    { pose proof (visits_incl cfg nfs t (I t (or_introl eq_refl))) as V. unfold send_top, visits in *. destruct (send_skip cfg t).
      - exists T, seq, eff. split; [reflexivity|]. now apply bumped_refl.
      - apply subs_le; [assumption|]. now rewrite E. }
    destruct K as (T1 & s1 & e1 & -> & B1). destruct (IH T1 s1 e1) as (T2 & s2 & e2 & -> & B2).
    + apply B1.
    + rewrite <- E. apply B1.
    + intros x Hx. apply I. now right.
    + exists T2, s2, e2. split; [reflexivity|]. now apply (bumped_trans index T T1 T2).
Qed.
Definition all_visits (cfg : scfg) (nfs : list netif) : list Z := flat_map (visits cfg nfs) (netif_each (sc_opts cfg) nfs).
Lemma loop_le cfg os index nfs si seq : NoDup (indices nfs) -> fine nfs ->
  bumped index nfs (fst (fst (send_loop cfg os index nfs si seq))) (hits index (all_visits cfg nfs)).
Proof.
  intros ND F. unfold send_loop. destruct (tops_le cfg os si index nfs (netif_each (sc_opts cfg) nfs) nfs seq [] F eq_refl) as (T & s & e & -> & B).
  - rewrite netif_each_filter by (eapply NoDup_map_inv; exact ND). intros x Hx. now apply filter_In in Hx.
  - exact B.
Qed.

(** ** At most two visits *)
Lemma hits_nodup index l : NoDup l -> hits index l <= 1.
Proof. intros N. unfold hits. pose proof (proj1 (NoDup_count_occ Z.eq_dec l) N index). lia. Qed.
Lemma hits_members nfs index l : NoDup (indices nfs) ->
  hits index (map nf_index (flat_map (fun r : Z * Z => match at_index nfs (Some (fst r)) with Some m => [m] | None => [] end) l)) <= hits index (map fst l).
Proof.
  intros ND. induction l as [|r l IH]; [unfold hits; cbn; lia|]. cbn [flat_map map]. rewrite map_app, hits_app, hits_cons.
  destruct (at_index nfs (Some (fst r))) as [m|] eqn:E.
  - cbn [at_index] in E. apply find_some in E as [_ E]. unfold index_is in E. cbn [map]. rewrite hits_cons. change (hits index []) with 0.
    replace (nf_index m) with (fst r) by lia. lia.
  - cbn [map]. change (hits index []) with 0. destruct (fst r =? index); lia.
Qed.
Lemma skip_type cfg n : send_skip cfg n = false -> 0 <= nf_type n.
Proof. unfold send_skip. rewrite !orb_false_iff. change NETIF_REGULAR with 0. lia. Qed.
Lemma hits_filter index (f g : netif -> list Z) (P : netif -> bool) l : (forall x, In x l -> hits index (f x) <= hits index (g x)) ->
  hits index (flat_map f (filter P l)) <= hits index (flat_map g l).
Proof.
  induction l as [|x l IH]; intros H; [unfold hits; cbn; lia|]. specialize (IH (fun y Hy => H y (or_intror Hy))). specialize (H x (or_introl eq_refl)).
  cbn [filter]. cbn [flat_map]. rewrite (hits_app index (g x)). pose proof (hits_nonneg index (g x)). destruct (P x); cbn [flat_map]; rewrite ?hits_app; lia.
Qed.
Lemma hits_split index (f g : netif -> list Z) l : hits index (flat_map (fun x => f x ++ g x) l) = hits index (flat_map f l) + hits index (flat_map g l).
Proof. induction l as [|x l IH]; [reflexivity|]. cbn [flat_map]. rewrite !hits_app, IH. lia. Qed.
Lemma visits_two cfg os nfs index : NoDup (indices nfs) -> linked os nfs -> consistent os nfs -> 0 <= hits index (all_visits cfg nfs) <= 2.
Proof.
  intros ND L C. split; [apply hits_nonneg|]. unfold all_visits. rewrite netif_each_filter by (eapply NoDup_map_inv; exact ND).
  transitivity (hits index (flat_map (fun x => [nf_index x] ++ map fst (reported os nfs x)) nfs)).
  - apply hits_filter. intros top Ht. unfold visits. destruct (send_skip cfg top) eqn:S; [apply hits_nonneg|].
    destruct (stands_each os nfs top ND L C Ht (skip_type _ _ S)) as [-> _]. unfold stands_for. rewrite hits_app.
    destruct (nf_type top <=? 10).
    + cbn [map]. pose proof (hits_nonneg index (map fst (reported os nfs top))). lia.
    + pose proof (hits_members nfs index (reported os nfs top) ND). pose proof (hits_nonneg index [nf_index top]). lia.
  - rewrite hits_split. assert (E : flat_map (fun x => [nf_index x]) nfs = indices nfs) by (unfold indices; clear; induction nfs as [|x l IH]; [reflexivity|cbn; now rewrite IH]).
    rewrite E. pose proof (hits_nodup index _ ND). pose proof (hits_nodup index _ (proj1 C)). lia.
Qed.

(** ** Frames are sent on visited interfaces only *)
Lemma frames_due_in cfg os nfs si i p f : forall ds seq, In (i, p, f) (frames_due cfg os nfs si seq ds) -> exists top sub, In (top, sub, p) ds /\ nf_index sub = i.
Proof.
  induction ds as [|[[t s] q] ds IH]; intros seq; [easy|]. cbn [frames_due fst snd]. intros H. apply in_app_or in H as [H|H].
  - destruct (zlen _ <=? 1518); [|easy]. destruct H as [H|[]]. injection H as <- <- _. exists t, s. split; [now left|reflexivity].
  - destruct (IH _ H) as (t' & s' & K1 & K2). exists t', s'. split; [now right|assumption].
Qed.
Lemma frames_visited cfg os nfs si seq index i p f : NoDup (indices nfs) -> index <> NETIF_INDEX_MAX ->
  In (i, p, f) (frames_due cfg os nfs si seq (all_due cfg index nfs)) -> i = index /\ 1 <= hits index (all_visits cfg nfs).
Proof.
  intros ND N H. apply frames_due_in in H as (top & sub & H & <-). unfold all_due in H. apply in_flat_map in H as (t & Ht & H).
  unfold whole in H. destruct (eligible cfg t) eqn:El; [|easy]. apply in_flat_map in H as (s & Hs & H).
  assert (X : top = t /\ sub = s /\ index = nf_index s).
  { unfold on in H. destruct (hit index s && eligible cfg s && opt cfg 1) eqn:Hh; [|easy].
    apply in_map_iff in H as (q & H & _). injection H as <- <- <-. split; [reflexivity|]. split; [reflexivity|].
    rewrite !andb_true_iff in Hh. destruct Hh as [[Hh _] _]. unfold hit in Hh. lia. }
  destruct X as (-> & -> & ->). split; [reflexivity|].
  assert (K : In (nf_index s) (all_visits cfg nfs)).
  { unfold all_visits. rewrite netif_each_filter by (eapply NoDup_map_inv; exact ND). apply in_flat_map. exists t. split; [assumption|].
    unfold visits. rewrite (skip_eligible cfg t t eq_refl), El. cbn [negb]. now apply in_map. }
  unfold hits. apply (count_occ_In Z.eq_dec) in K. lia.
Qed.

(** ** The count of link events over a refresh *)
Lemma fetch_fine cfg os st ret nfs si gone : inv st -> fine (table st) -> netif_fetch (sc_net cfg) os (table st) (st_si st) = (ret, nfs, si, gone) -> fine nfs.
Proof.
  intros I F E. destruct (no_ifaddrs os) as [ias|] eqn:A; [|rewrite (fetch_none _ _ _ _ A) in E; now injection E as _ <- _ _].
  destruct I as [I1 I2 I3 I4 I5 I6 I7]. destruct (fetch_exact _ _ _ _ _ _ _ _ _ A I2 E) as (_ & X & _).
  unfold fine in *. rewrite Forall_forall in *. intros n Hn. destruct (X n Hn) as [[S1 S2] _].
  destruct (in_dec Z.eq_dec (nf_index n) (indices (table st))) as [K|K].
  - apply in_map_iff in K as (o & Ho & Io). destruct (S1 o Io Ho) as [_ ->]. now apply F.
  - destruct (S2 K) as [_ ->]. lia.
Qed.
Lemma fetch_le cfg os st ret nfs si gone i : inv st -> netif_fetch (sc_net cfg) os (table st) (st_si st) = (ret, nfs, si, gone) ->
  no_ifaddrs os = None \/ usable os i -> le nfs i = le (table st) i.
Proof.
  intros I E U. destruct (no_ifaddrs os) as [ias|] eqn:A; [|rewrite (fetch_none _ _ _ _ A) in E; now injection E as _ <- _ _].
  destruct U as [U|U]; [discriminate|].
  destruct I as [I1 I2 I3 I4 I5 I6 I7]. destruct (fetch_exact _ _ _ _ _ _ _ _ _ A I2 E) as ((N & T & _) & X & _).
  apply T in U. unfold le. destruct (netif_byindex nfs i) as [n|] eqn:B; [|now apply byindex_none in B]. apply byindex_some in B as [B1 B2].
  destruct (X n B1) as [[S1 S2] _]. destruct (netif_byindex (table st) i) as [o|] eqn:B'.
  - apply byindex_some in B' as [B3 B4]. apply (S1 o B3). lia.
  - apply byindex_none in B'. rewrite <- B2 in B'. now apply S2.
Qed.
Lemma core_fine cfg os index st st1 eff : inv st -> fine (table st) -> core cfg os index st st1 eff -> fine (table st1).
Proof.
  intros I F C. destruct C as [FL|ret nfs si gone eff FL E Z X|ret nfs si gone T eff FL E Z G W N S HT HL X]; [assumption|exact (fetch_fine _ _ _ _ _ _ _ I F E)|].
  unfold table. cbn [st_child c_nfs set_nfs]. rewrite <- HL. apply (loop_le cfg os index nfs si (st_edp st) N). exact (fetch_fine _ _ _ _ _ _ _ I F E).
Qed.
Lemma fixed_le nfs : forall nfs', map fixed nfs = map fixed nfs' -> forall i, le nfs i = le nfs' i.
Proof.
  induction nfs as [|n nfs IH]; intros [|m l] E i; try discriminate; [reflexivity|]. cbn [map] in E. apply cons_inj in E as [E1 E2].
  unfold le, netif_byindex in *. cbn [find]. pose proof (f_equal nf_index E1) as X. cbn in X. rewrite X. pose proof (f_equal nf_link_event E1) as Y. cbn in Y.
  destruct (nf_index m =? i); [exact Y|now apply IH].
Qed.
Lemma fixed_fine nfs : forall nfs', map fixed nfs = map fixed nfs' -> fine nfs -> fine nfs'.
Proof.
  induction nfs as [|n nfs IH]; intros [|m l] E F; try discriminate; [constructor|]. cbn [map] in E. apply cons_inj in E as [E1 E2]. inversion F; subst.
  pose proof (f_equal nf_link_event E1) as Y. cbn in Y. constructor; [lia|now apply IH].
Qed.
Lemma send_table cfg os index timeout now st st' eff : os_ok os -> inv st -> child_send cfg os index timeout now st = (st', eff) ->
  exists st1 eff1, core cfg os index st st1 eff1 /\ frames eff = frames eff1 /\ map fixed (table st') = map fixed (table st1).
Proof.
  intros O I H. destruct (send_core _ _ _ _ _ _ _ _ O I H) as (st1 & eff1 & C & F & _ & _ & E). exists st1, eff1. split; [assumption|]. split; [assumption|].
  unfold table. destruct (_ && _); rewrite E; [apply expire_fixed|reflexivity].
Qed.
Lemma send_fine cfg os index timeout now st st' eff : os_ok os -> inv st -> fine (table st) -> child_send cfg os index timeout now st = (st', eff) -> fine (table st').
Proof.
  intros O I F H. destruct (send_table _ _ _ _ _ _ _ _ O I H) as (st1 & eff1 & C & _ & E). apply (fixed_fine (table st1)); [now symmetry|].
  exact (core_fine _ _ _ _ _ _ I F C).
Qed.
Lemma step_fine cfg st e st' eff : inv st -> fine (table st) -> event_ok e -> send_step cfg st e = DOk (st', eff) -> fine (table st').
Proof.
  intros I F O H. destruct e as [os now|os hatype flags index now|e].
  - cbn in H. injection H as H. exact (send_fine _ _ _ _ _ _ _ _ O I F H).
  - cbn in H. injection H as H. unfold child_link in H. destruct (negb _); [injection H as <- <-; assumption|]. destruct (negb _); [injection H as <- <-; assumption|].
    exact (send_fine _ _ _ _ _ _ _ _ O I F H).
  - destruct (child_frames _ _ _ _ _ I H) as (E & _). apply (fixed_fine (table st)); [now symmetry|assumption].
Qed.
Lemma running_fine cfg st : running cfg st -> fine (table st).
Proof.
  induction 1 as [os country location S C L|st e st' eff R IH O H]; [constructor|].
  exact (step_fine _ _ _ _ _ (running_inv _ _ R) IH O H).
Qed.

(** ** C36 *)
Lemma steady_step cfg i st e st' eff : running cfg st -> steady i e -> send_step cfg st e = DOk (st', eff) ->
  le (table st) i <= le (table st') i /\ (sends i eff = true -> le (table st) i <= 3 /\ le (table st) i + 1 <= le (table st') i).
Proof.
  intros R S H. pose proof (running_inv _ _ R) as I. pose proof (running_fine _ _ R) as F. clear R.
  assert (Q : forall x, frames x = [] -> sends i x = true -> le (table st) i <= 3 /\ le (table st) i + 1 <= le (table st') i) by (intros x Hx; unfold sends; now rewrite Hx).
  destruct e as [os now|os hatype flags k now|e]; [now destruct S| |].
  2:{ destruct (child_frames _ _ _ _ _ I H) as (E & E2 & _). rewrite (fixed_le _ _ E). split; [lia|]. unfold sends. now rewrite E2. }
  destruct S as (O & Hk & U & C). cbn [send_step] in H. injection H as H. unfold child_link in H.
  destruct (negb _). { injection H as <- <-. split; [lia|now apply Q]. }
  destruct (negb _). { injection H as <- <-. split; [lia|now apply Q]. }
  rewrite Z.mod_small in H by lia. assert (NM : k <> NETIF_INDEX_MAX) by (unfold NETIF_INDEX_MAX; lia).
  destruct (send_table _ _ _ _ _ _ _ _ O I H) as (st1 & eff1 & CO & FR & E). rewrite (fixed_le _ _ E).
  assert (Q' : frames eff1 = [] -> sends i eff = true -> le (table st) i <= 3 /\ le (table st) i + 1 <= le (table st1) i) by (intros Hx; unfold sends; now rewrite FR, Hx).
  destruct CO as [FL|ret nfs si gone x FL EF Z X|ret nfs si gone T x FL EF Z G W N S HT HL X].
  - split; [lia|now apply Q'].
  - change (table (mkSt (set_nfs (st_child st) nfs) si (st_edp st))) with nfs in *. rewrite (fetch_le _ _ _ _ _ _ _ _ I EF U). split; [lia|].
    intros K. destruct (Q' X K) as [Q1 Q2]. rewrite (fetch_le _ _ _ _ _ _ _ _ I EF U) in Q2. lia.
  - change (table (mkSt (set_nfs (st_child st) T) si (after (st_edp st) (all_due cfg k nfs)))) with T in *. pose proof (fetch_fine _ _ _ _ _ _ _ I F EF) as FF.
    destruct (loop_le cfg os k nfs si (st_edp st) N FF) as (_ & _ & B). rewrite HL in B. rewrite (B NM), (fetch_le _ _ _ _ _ _ _ _ I EF U).
    assert (A : exists ias, no_ifaddrs os = Some ias) by (destruct (no_ifaddrs os) as [ias|] eqn:A; [eauto|rewrite (fetch_none _ _ _ _ A) in EF; injection EF as <- _ _ _; lia]).
    destruct A as [ias A]. destruct (fetch_exact _ _ _ _ _ _ _ _ _ A (inv_nodup _ I) EF) as (TE & _).
    pose proof (C _ TE) as CC. pose proof (fetch_linked _ _ _ _ _ _ _ _ _ A (inv_nodup _ I) EF CC) as LK.
    pose proof (visits_two cfg os nfs k N LK CC) as V. pose proof (le_range _ i F) as LR.
    assert (L3 : i = k -> le (table st) i <= 3).
    { intros ->. unfold flapping in FL. unfold le. destruct (netif_byindex (table st) k) as [n|]; [|lia]. unfold NETIF_INDEX_MAX in *. lia. }
    destruct (i =? k) eqn:IK.
    + specialize (L3 ltac:(lia)). rewrite Z.mod_small by lia. split; [lia|]. intros K. split; [assumption|].
      unfold sends in K. rewrite FR, X in K. apply existsb_exists in K as ([[i' p] f] & K1 & K2). cbn [fst] in K2.
      destruct (frames_visited _ _ _ _ _ _ _ _ _ N NM K1) as [_ K3]. lia.
    + split; [lia|]. intros K. unfold sends in K. rewrite FR, X in K. apply existsb_exists in K as ([[i' p] f] & K1 & K2). cbn [fst] in K2.
      destruct (frames_visited _ _ _ _ _ _ _ _ _ N NM K1) as [K3 _]. lia.
Qed.
Lemma steady_ok i e : steady i e -> event_ok e.
Proof. destruct e; cbn; tauto. Qed.
Lemma flap_bound cfg i : forall es st st' effs, running cfg st -> Forall (steady i) es -> send_run cfg st es = DOk (st', effs) ->
  zlen (filter (sends i) effs) <= Z.max 0 (4 - le (table st) i).
Proof.
  induction es as [|e es IH]; intros st st' effs R S H; cbn [send_run] in H.
  - injection H as <- <-. cbn [filter]. rewrite zlen_nil. lia.
  - destruct (send_step cfg st e) as [[st1 eff1]| | | |] eqn:E; cbn [dbind] in H; try discriminate.
    destruct (send_run cfg st1 es) as [[st2 effs2]| | | |] eqn:E2; cbn [dbind] in H; try discriminate. injection H as <- <-.
    inversion S; subst. pose proof (run_event cfg st e st1 eff1 R (steady_ok _ _ H1) E) as R1. specialize (IH st1 st2 effs2 R1 H2 E2).
    destruct (steady_step _ _ _ _ _ _ R H1 E) as [L1 L2]. cbn [filter]. destruct (sends i eff1); [|lia].
    rewrite zlen_cons. destruct (L2 eq_refl). lia.
Qed.

(** ** C54 *)
Lemma advert_range p f proto ttl attrs : 0 <= p < 6 -> SpecChild.advert p f proto ttl attrs -> In proto [0; 1; 2; 3; 4; 5].
Proof.
  intros Hp (pl & _ & H). assert (Y : p = 0 \/ p = 1 \/ p = 2 \/ p = 3 \/ p = 4 \/ p = 5) by lia.
  repeat (destruct Y as [->|Y]); try subst p.
  - destruct H as (u & _ & ->). cbn. tauto.
  - destruct H as (v & _ & ->). destruct (v =? 1); cbn; tauto.
  - destruct H as (_ & _ & ->). cbn. tauto.
  - destruct H as (_ & ->). cbn. tauto.
  - destruct H as (_ & _ & _ & ->). cbn. tauto.
  - destruct H as (v & _ & ->). destruct (v =? 1); cbn; tauto.
Qed.
Lemma heard_sent cfg st d index p f now now2 sub top proto ttl attrs st1 eff1 os nfs si now3 top' sub' :
  running cfg st -> opt cfg 1 = true -> opt cfg 3 = true -> (opt cfg 5 = true -> nf_argv sub <> 0 \/ nf_argv top <> 0) ->
  uplink (table st) sub top -> bytes f -> carries d index p 0 f -> 0 <= p < 6 -> 60 <= zlen f <= 1518 -> now <> -1 ->
  netif_byindex (table st) index = Some sub -> netif_byaddr (table st) (firstn 6 (skipn 6 f)) = None ->
  SpecChild.advert p f proto ttl attrs -> ttl <> 0 -> send_step cfg st (EvChild (CRecv d now now2)) = DOk (st1, eff1) ->
  os_ok os -> refresh cfg os st1 nfs si -> consistent os nfs ->
  In top' nfs -> nf_index top' = nf_index top -> selected cfg top' = true -> eligible cfg top' = true ->
  In sub' (stands_for os nfs top') -> nf_index sub' = index -> eligible cfg sub' = true ->
  zlen (frame_due cfg os nfs si 0 (top', sub', proto)) <= 1518 ->
  exists f', In (SFrame index proto f') (snd (child_send cfg os NETIF_INDEX_MAX true now3 st1)).
Proof.
  intros R O1 O3 O5 UP Bf Cd Hp Lf Hnow Hsub Ha Ad Tt H Oo Rf Co Ht' Hi Sel El Hs' Hsi Els Fit.
  pose proof (running_inv _ _ R) as I. cbn [send_step child_step] in H.
  destruct (child_queue (sc_opts cfg) (st_child st) d now now2) as [[c e1]| | | |] eqn:E; cbn [dbind] in H; try discriminate.
  destruct (frame_enables (sc_opts cfg) (st_child st) d index p f now now2 sub proto ttl attrs c e1 top O3 O5 (inv_nodup _ I) UP Bf Cd Hp Lf Hnow Hsub Ha Ad Tt E) as (top1 & T1 & T2 & T3).
  assert (R1 : running cfg st1).
  { apply (run_event cfg st (EvChild (CRecv d now now2)) st1 eff1 R Logic.I). cbn [send_step child_step]. rewrite E. cbn [dbind]. exact H. }
  injection H as <- <-.
  destruct (refresh_facts _ _ _ _ _ Oo (running_inv _ _ R1) Rf) as (_ & _ & _ & SV & _).
  apply (periodic_iff cfg os now3 _ nfs si index proto R1 Oo Rf Co). split; [assumption|]. exists top', sub'.
  pose proof (advert_range _ _ _ _ _ Hp Ad) as PR.
  assert (EN : enabled cfg top' proto = true).
  { unfold enabled. apply orb_true_iff. right. apply byindex_some in T1 as [T1 T1']. destruct (SV top' Ht') as [[S1 _] _].
    destruct (S1 top1 T1 ltac:(lia)) as [-> _]. rewrite T3 by (cbn in PR; lia). rewrite Z.eqb_refl. apply orb_true_r. }
  repeat (split; [assumption|]). assumption.
Qed.
