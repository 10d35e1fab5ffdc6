(** Proofs of C142. *)
From Verif Require Import Base Types Tlv Util Child Netif Sysinfo Send Opts Getopt Config Spec SpecAdv SpecNetif SpecNetif2 SpecSend SpecOpts SpecGetopt SpecCmd SpecFlow.
From Verif Require Import Lemmas OptsProofs GetoptProofs NetifProofs6 NetifProofs7 NetifProofs9 SendProofs4 SendProofs6 FlowProofs1 FlowProofs2 RepeatProofs4.

(** ** The table of a running child *)
Lemma sh_idx b T : map nf_index (map (sh b false false) T) = map nf_index T.
Proof. rewrite map_map. apply map_ext. reflexivity. Qed.
Lemma like_idx b T T' : map (sh b false false) T = map (sh b false false) T' -> indices T = indices T'.
Proof. intros E. unfold indices. rewrite <- (sh_idx b T), E. apply sh_idx. Qed.
Lemma like_prot T T' : map (sh false false false) T = map (sh false false false) T' -> map nf_protos T = map nf_protos T'.
Proof. intros E. apply (f_equal (map nf_protos)) in E. rewrite !map_map in E. exact E. Qed.
Definition two (n : netif) : Z * Z := (nf_index n, nf_protos n).
Lemma two_assign f i T : (forall n, two (f n) = two n) -> map two (nf_assign f i T) = map two T.
Proof. intros H. induction T as [|n T IH]; [reflexivity|]. cbn [nf_assign]. destruct (nf_index n =? i); cbn [map]; [now rewrite H|now rewrite IH]. Qed.
Lemma media_two os n : two (netif_media os n) = two n.
Proof. unfold netif_media. cbv zeta. destruct (negb _); [reflexivity|]. destruct (no_ecmd os (nf_index n)); [|reflexivity]. now destruct (has _ _). Qed.
Lemma sub_two cfg os si index top x i : map two (fst (fst (send_sub cfg os si index top x i))) = map two (fst (fst x)).
Proof.
  destruct x as [[T c] e]. unfold send_sub. destruct (_ && _); [reflexivity|]. destruct (netif_byindex T i) as [s|]; [|reflexivity]. cbv zeta.
  destruct (send_skip cfg s); [now apply two_assign|].
  match goal with |- context [nf_assign (netif_media os) i ?X] => set (T2 := nf_assign (netif_media os) i X); assert (K : map two T2 = map two T) end.
  { unfold T2. rewrite two_assign by apply media_two. now apply two_assign. }
  destruct (negb _); [exact K|]. destruct (netif_byindex T2 i) as [u|]; [|exact K]. destruct (netif_byindex T2 top) as [t|]; [|exact K].
  destruct (fold_left (send_proto cfg T2 si t u) _ (c, [])). exact K.
Qed.
Lemma subs_two cfg os si index top : forall l x, map two (fst (fst (fold_left (send_sub cfg os si index top) l x))) = map two (fst (fst x)).
Proof. induction l as [|i l IH]; intros x; [reflexivity|]. cbn [fold_left]. rewrite IH. apply sub_two. Qed.
Lemma loop_two cfg os index T si c : map two (fst (fst (send_loop cfg os index T si c))) = map two T.
Proof.
  unfold send_loop. change (map two T) with (map two (fst (fst (T, c, @nil seff)))). generalize (T, c, @nil seff) as x. generalize (netif_each (sc_opts cfg) T) as l.
  induction l as [|n l IH]; intros x; [reflexivity|]. cbn [fold_left]. rewrite IH. unfold send_top. destruct (send_skip cfg n); [reflexivity|apply subs_two].
Qed.
Lemma two_split T T' : map two T = map two T' -> indices T = indices T' /\ map nf_protos T = map nf_protos T'.
Proof. intros E. split; [apply (f_equal (map fst)) in E|apply (f_equal (map snd)) in E]; rewrite !map_map in E; exact E. Qed.
(** A run leaves the table of before, or the one of the refresh. *)
Lemma send_shape cfg os index timeout now st st' eff : child_send cfg os index timeout now st = (st', eff) ->
  (st_si st' = st_si st /\ indices (table st') = indices (table st) /\ (opt cfg 3 = false -> map nf_protos (table st') = map nf_protos (table st)))
  \/ exists ret nfs gone, netif_fetch (sc_net cfg) os (table st) (st_si st) = (ret, nfs, st_si st', gone) /\ indices (table st') = indices nfs
     /\ (opt cfg 3 = false -> map nf_protos (table st') = map nf_protos nfs).
Proof.
  unfold child_send. cbv zeta.
  match goal with |- context [let '(_, _) := ?a in _] => set (A := a) end. intros H.
  assert (X : st_si st' = st_si (fst A) /\ indices (table st') = indices (table (fst A)) /\ (opt cfg 3 = false -> map nf_protos (table st') = map nf_protos (table (fst A)))).
  { destruct A as [st1 e1]. cbn [fst]. destruct (timeout && has (sc_opts cfg) OPT_RECV); [|injection H as <- _; now repeat split].
    pose proof (child_expire_still true cfg now (st_child st1) (or_introl eq_refl)) as K1.
    assert (K2 : opt cfg 3 = false -> map (sh false false false) (c_nfs (fst (child_expire (sc_opts cfg) now (st_child st1)))) = map (sh false false false) (c_nfs (st_child st1))).
    { intros A3. apply child_expire_still. right. now apply auto_off. }
    destruct (child_expire (sc_opts cfg) now (st_child st1)) as [c' e2]. cbn [fst] in K1, K2. injection H as <- _. cbn [st_si table st_child].
    split; [reflexivity|]. split; [exact (like_idx true _ _ K1)|]. intros A3. exact (like_prot _ _ (K2 A3)). }
  clear H. destruct X as (X1 & X2 & X3). rewrite X1, X2.
  assert (Y : (st_si (fst A) = st_si st /\ indices (table (fst A)) = indices (table st) /\ (opt cfg 3 = false -> map nf_protos (table (fst A)) = map nf_protos (table st)))
    \/ exists ret nfs gone, netif_fetch (sc_net cfg) os (table st) (st_si st) = (ret, nfs, st_si (fst A), gone) /\ indices (table (fst A)) = indices nfs
     /\ (opt cfg 3 = false -> map nf_protos (table (fst A)) = map nf_protos nfs)).
  { unfold A. clear. destruct (negb (index =? NETIF_INDEX_MAX) && match netif_byindex (c_nfs (st_child st)) index with Some n => 3 <? nf_link_event n | None => false end); [left; now repeat split|].
    right. change (table st) with (c_nfs (st_child st)). destruct (netif_fetch (sc_net cfg) os (c_nfs (st_child st)) (st_si st)) as [[[ret nfs] si] gone]. exists ret, nfs, gone.
    destruct (ret =? 0); [now repeat split|]. destruct (negb (index =? NETIF_INDEX_MAX) && _); [now repeat split|].
    pose proof (loop_two cfg os index nfs si (st_edp st)) as L. destruct (send_loop cfg os index nfs si (st_edp st)) as [[nfs' edp] eff]. cbn [fst] in L.
    apply two_split in L as [L1 L2]. cbn [fst st_si table st_child c_nfs set_nfs]. split; [reflexivity|]. split; [exact L1|intros _; exact L2]. }
  destruct Y as [(Y1 & Y2 & Y3)|(ret & nfs & gone & Y1 & Y2 & Y3)].
  - left. split; [assumption|]. split; [assumption|]. intros A3. now rewrite (X3 A3), (Y3 A3).
  - right. exists ret, nfs, gone. split; [assumption|]. split; [assumption|]. intros A3. now rewrite (X3 A3), (Y3 A3).
Qed.
Lemma step_shape cfg st e st' eff : send_step cfg st e = DOk (st', eff) ->
  (st_si st' = st_si st /\ indices (table st') = indices (table st) /\ (opt cfg 3 = false -> map nf_protos (table st') = map nf_protos (table st)))
  \/ exists os ret nfs gone, netif_fetch (sc_net cfg) os (table st) (st_si st) = (ret, nfs, st_si st', gone) /\ indices (table st') = indices nfs
     /\ (opt cfg 3 = false -> map nf_protos (table st') = map nf_protos nfs).
Proof.
  intros H. destruct e as [os now|os hatype flags index now|e].
  - cbn [send_step] in H. injection H as H. destruct (send_shape _ _ _ _ _ _ _ _ H) as [K|K]; [now left|right; now exists os].
  - cbn [send_step] in H. injection H as H. unfold child_link in H. destruct (negb _); [injection H as <- _; left; now repeat split|].
    destruct (negb _); [injection H as <- _; left; now repeat split|]. destruct (send_shape _ _ _ _ _ _ _ _ H) as [K|K]; [now left|right; now exists os].
  - left. destruct (child_kept true cfg st e st' eff (or_introl eq_refl) H) as ((K1 & K2 & _) & _). split; [assumption|]. split; [exact (like_idx true _ _ K1)|].
    intros A3. destruct (child_kept false cfg st e st' eff (or_intror (auto_off cfg A3)) H) as ((K3 & _) & _). exact (like_prot _ _ K3).
Qed.
Lemma running_refreshed cfg st : running cfg st -> exists oss nfs, refreshed (sc_net cfg) oss nfs (st_si st) /\ indices (table st) = indices nfs.
Proof.
  induction 1 as [os country location S C L|st e st' eff R (oss & nfs & IH1 & IH2) O H].
  - exists [], []. split; [|reflexivity]. apply ref_start. now destruct (boot_ok _ _ _ S C L) as (_ & _ & _ & B).
  - destruct (step_shape _ _ _ _ _ H) as [(K1 & K2 & _)|(os & ret & nfs' & gone & K1 & K2 & _)].
    + exists oss, nfs. rewrite K1, K2. now split.
    + exists (oss ++ [os]), nfs'. split; [|assumption]. exact (ref_fetch _ _ _ _ _ _ _ _ _ _ IH1 IH2 K1).
Qed.
(** Without -a nothing is enabled by what is heard. *)
Definition none_heard (T : list netif) : Prop := Forall (fun p => p = 0) (map nf_protos T).
Lemma none_sh T : none_heard T <-> map (sh true false false) T = map (sh false false false) T.
Proof.
  unfold none_heard. induction T as [|n T IH]; [split; constructor|]. cbn [map]. split.
  - intros H. inversion H as [|x y H1 H2]; subst. apply IH in H2. rewrite H2. f_equal. unfold sh. now rewrite H1.
  - intros H. injection H as H1 H2. constructor; [|now apply IH]. unfold sh in H1. congruence.
Qed.
Lemma fetch_none cfg os T si ret nfs si' gone : none_heard T -> netif_fetch cfg os T si = (ret, nfs, si', gone) -> none_heard nfs.
Proof.
  intros N F. apply none_sh in N. apply none_sh.
  pose proof (sh_fetch true false false cfg os T si eq_refl) as A. pose proof (sh_fetch false false false cfg os T si eq_refl) as B.
  rewrite F in A, B. rewrite N, B in A. now injection A.
Qed.
Lemma running_none cfg st : opt cfg 3 = false -> running cfg st -> none_heard (table st).
Proof.
  intros A3. induction 1 as [os country location S C L|st e st' eff R IH O H]; [constructor|].
  unfold none_heard in *. destruct (step_shape _ _ _ _ _ H) as [(_ & _ & K)|(os & ret & nfs' & gone & K1 & _ & K)]; rewrite (K A3); [assumption|].
  exact (fetch_none _ _ _ _ _ _ _ _ IH K1).
Qed.

(** ** The configuration *)
Lemma name_is_iff x m : name_is x m = true <-> nf_name m = x.
Proof. unfold name_is. destruct (list_eq_dec Z.eq_dec (nf_name m) x); split; congruence. Qed.
Section conf.
Variables (n : naming) (o : list (Z * list Z)) (names : list (list Z)) (s : setup).
Hypothesis M : main_opts n o names = Some s.
Let cfg := conf_of s names.
Lemma opt_has b i : 0 <= i -> b = 2 ^ i -> opt cfg i = has (u_opts s) b.
Proof. intros Hi ->. unfold opt, cfg, conf_of. cbn [sc_net nc_opts]. symmetry. now apply EncProofs3.has_b. Qed.
Lemma opt_on b i xs : In (b, xs) switched_on -> 0 <= i -> b = 2 ^ i -> opt cfg i = given xs o.
Proof. intros Hin Hi Hb. rewrite (opt_has b i Hi Hb). now apply (opts_switches n o names s M). Qed.
Lemma opt_send : opt cfg 1 = negb (given (bs "s") o).
Proof. rewrite (opt_has OPT_SEND 1) by (reflexivity || lia). apply (opts_switches n o names s M). right. now left. Qed.
Lemma opt_argv : opt cfg 5 = true <-> names <> [].
Proof. rewrite (opt_has OPT_ARGV 5) by (reflexivity || lia). now apply (opts_switches n o names s M). Qed.
Lemma eligible_allowed m : eligible cfg m = true <-> allowed o m.
Proof.
  unfold eligible, allowed. rewrite (opt_on OPT_WIRELESS 9 (bs "w")), (opt_on OPT_TAP 10 (bs "t")) by (cbn; auto 20 || reflexivity || lia).
  assert (E : negb (existsb (fun x => name_is x m) (sc_excl cfg)) = true <-> forall x, In x (args_of 101 o) -> firstn 15 x <> nf_name m).
  { unfold cfg, conf_of. cbn [sc_excl]. destruct (opts_values n o names s M) as (_ & _ & -> & _). rewrite Bool.negb_true_iff.
    split.
    - intros H x Hx Ex. assert (K : existsb (fun x => name_is x m) (map (firstn 15) (args_of 101 o)) = true); [|congruence].
      apply existsb_exists. exists (firstn 15 x). split; [now apply in_map|]. now apply name_is_iff.
    - intros H. destruct (existsb _ _) eqn:K; [|reflexivity]. exfalso. apply existsb_exists in K as (y & Y1 & Y2). apply in_map_iff in Y1 as (x & <- & Hx).
      apply (H x Hx). symmetry. now apply name_is_iff. }
  rewrite <- E. clear E. destruct (given (bs "w") o), (given (bs "t") o), (negb (existsb _ (sc_excl cfg))); cbn [orb andb]; rewrite ?Bool.andb_true_r, ?Bool.andb_false_r; lia.
Qed.
Lemma enabled_asked T m p : (opt cfg 3 = false -> none_heard T) -> In m T -> In p [0; 1; 2; 3; 4; 5] -> enabled cfg m p = true <-> asked o m p.
Proof.
  intros N Hm Hp. unfold enabled, asked.
  assert (E : sc_enabled cfg p = given (letter_of p) o).
  { unfold cfg, conf_of. cbn [sc_enabled]. destruct (opts_switches n o names s M) as (_ & _ & _ & P & P5).
    destruct Hp as [<-|[<-|[<-|[<-|[<-|[<-|[]]]]]]]; cbn [Z.to_nat]; try (apply P; cbn; auto 10).
    transitivity false; [exact P5|]. symmetry. change (letter_of 5) with (@nil Z). clear. induction o as [|[x a] l IH]; [reflexivity|exact IH]. }
  rewrite E. rewrite (opt_on OPT_AUTO 3 (bs "a")) in N by (cbn; auto || reflexivity || lia).
  destruct (given (letter_of p) o); [cbn; tauto|]. cbn [orb]. destruct (given (bs "a") o).
  - split; [intros H; right; now split|intros [H|[_ H]]; [discriminate|assumption]].
  - specialize (N eq_refl). assert (Z0 : nf_protos m = 0) by (unfold none_heard in N; rewrite Forall_forall in N; apply N; now apply in_map).
    rewrite Z0, Z.testbit_0_l. split; [discriminate|intros [H|[H _]]; discriminate].
Qed.
Lemma selected_chosen T m : marked (sc_net cfg) T -> In m T -> selected cfg m = true <-> chosen names m.
Proof.
  intros K Hm. specialize (K m Hm). unfold selected. pose proof opt_argv as A. unfold cfg, conf_of in K. cbn [sc_net nc_ifl] in K. unfold chosen.
  destruct (opt cfg 5).
  - assert (Nn : names <> []) by now apply A. rewrite K. clear K A. destruct names as [|x l] eqn:En; [congruence|]. rewrite <- En in *. clear En.
    split.
    + destruct (existsb _ names && negb (nf_type m =? -1)) eqn:E; [|discriminate]. intros _. apply andb_prop in E as [E1 E2].
      apply existsb_exists in E1 as (y & Y1 & Y2). rewrite same_beq in Y2. apply beq_true in Y2. subst y. split; [assumption|lia].
    + intros [H1 H2]. replace (existsb (SpecNetif2.same (nf_name m)) names) with true by (symmetry; apply existsb_exists; exists (nf_name m); split; [assumption|rewrite same_beq; apply beq_refl]).
      replace (nf_type m =? -1) with false by lia. reflexivity.
  - destruct names as [|x l]; [lia|]. exfalso. assert (X : false = true) by (apply A; discriminate). discriminate.
Qed.
End conf.

Lemma cmd_frames n perm words s names o os now st nfs si i p ias :
  main_argv n perm words = Some (s, names) -> says perm daemon_letters words o names ->
  running (conf_of s names) st -> os_ok os -> no_ifaddrs os = Some ias -> names_apart ias ->
  refresh (conf_of s names) os st nfs si -> consistent os nfs ->
  ((exists f, In (SFrame i p f) (snd (child_send (conf_of s names) os NETIF_INDEX_MAX true now st)))
   <-> given (bs "s") o = false /\ exists top sub,
        In top nfs /\ chosen names top /\ allowed o top
        /\ In sub (stands_for os nfs top) /\ allowed o sub /\ nf_index sub = i
        /\ In p [0; 1; 2; 3; 4; 5] /\ asked o top p
        /\ zlen (frame_due (conf_of s names) os nfs si 0 (top, sub, p)) <= 1518).
Proof.
  intros A Y R O E NA F C. apply daemon_iff in A as (o' & Y' & M). destruct (says_unique _ _ _ _ _ _ _ (or_introl eq_refl) Y Y') as [<- _]. clear Y'.
  rewrite (periodic_iff _ _ _ _ _ _ _ _ R O F C). rewrite (opt_send n o names s M).
  destruct (running_refreshed _ _ R) as (oss & nfs0 & R1 & R2). destruct F as (ret & gone & F & _).
  destruct (refresh_rest _ _ _ _ _ _ _ _ _ _ _ R1 R2 E O NA F) as (_ & _ & MK & _).
  assert (NH : opt (conf_of s names) 3 = false -> none_heard nfs) by (intros A3; exact (fetch_none _ _ _ _ _ _ _ _ (running_none _ _ A3 R) F)).
  split; intros (S1 & top & sub & H1 & H2 & H3 & H4 & H5 & H6 & H7 & H8 & H9).
  - split; [now destruct (given _ o)|]. exists top, sub. split; [assumption|]. split; [now apply (selected_chosen n o names s M nfs)|].
    split; [now apply (eligible_allowed n o names s M)|]. split; [assumption|]. split; [now apply (eligible_allowed n o names s M)|].
    split; [assumption|]. split; [assumption|]. split; [now apply (enabled_asked n o names s M nfs)|assumption].
  - split; [now rewrite S1|]. exists top, sub. split; [assumption|]. split; [now apply (selected_chosen n o names s M nfs)|].
    split; [now apply (eligible_allowed n o names s M)|]. split; [assumption|]. split; [now apply (eligible_allowed n o names s M)|].
    split; [assumption|]. split; [assumption|]. split; [now apply (enabled_asked n o names s M nfs)|assumption].
Qed.
