(** Signals, exit status, capabilities and the pid file. *)
From Verif Require Import Base Types Start SpecStart Lemmas StartProofs1 StartProofs2 StartProofs3.

(** A program that ends with status 1 at the first vital call that fails. *)
Definition stops {A} (k : kernel) (m : proc A) : Prop :=
  forall h, exists t, snd (m h) = h ++ t
  /\ forall a c b, t = a ++ c :: b -> vital c -> a_ret (k (h ++ a ++ [c])) = -1 -> b = [] /\ fst (m h) = EExit 1.
Lemma stops_none A k (m : proc A) : (forall h, snd (m h) = h) -> stops k m.
Proof. intros E h. exists []. split; [now rewrite E, app_nil_r|]. intros a c b H. now destruct a. Qed.
Lemma stops_ret A k (a : A) : stops k (ret a). Proof. now apply stops_none. Qed.
Lemma stops_exit A k s : stops k (@exit A s). Proof. now apply stops_none. Qed.
Lemma stops_fatal A k opts : stops k (@fatal A k opts 0). Proof. now apply stops_none. Qed.
Lemma stops_ub A k : stops k (fun h => (@EUB A, h)). Proof. now apply stops_none. Qed.
Lemma one_split A (x : A) a c b : [x] = a ++ c :: b -> a = [] /\ c = x /\ b = [].
Proof. destruct a as [|y [|? ?]]; cbn; intros E; try discriminate E. now injection E as <- <-. Qed.
Lemma stops_sys k c : ~ vital c -> stops k (sys k c).
Proof.
  intros H h. exists [c]. split; [reflexivity|]. intros a d b E V. apply one_split in E as (-> & -> & ->). contradiction.
Qed.
Lemma stops_need k opts c : stops k (need k opts 0 c).
Proof.
  intros h. exists [c]. unfold need, seq, sys, fatal. cbn. split; [now destruct (_ =? -1)|].
  intros a d b E V R. apply one_split in E as (-> & -> & ->). cbn in R. rewrite R. cbn. now split.
Qed.
Lemma stops_seq A B k (m : proc A) (f : A -> proc B) : stops k m -> (forall a, stops k (f a)) -> stops k (seq m f).
Proof.
  intros Hm Hf h. unfold seq. destruct (Hm h) as (t & E & F). destruct (m h) as [[x|s|] h']; cbn [fst snd] in E, F; subst h'.
  2:{ exists t. split; [reflexivity|]. intros a c b Et V R. destruct (F a c b Et V R) as [-> F2]. split; [reflexivity|]. now injection F2 as ->. }
  2:{ exists t. split; [reflexivity|]. intros a c b Et V R. destruct (F a c b Et V R) as [_ F2]. discriminate F2. }
  destruct (Hf x (h ++ t)) as (t2 & E2 & F2). exists (t ++ t2). split; [now rewrite E2, <- app_assoc|].
  intros a c b Et V R.
  assert (H : (exists b', t = a ++ c :: b') \/ exists a', a = t ++ a' /\ t2 = a' ++ c :: b).
  { clear -Et. revert a Et. induction t as [|y t IH]; intros a Et.
    - right. exists a. now split.
    - destruct a as [|z a]; cbn in Et; injection Et as -> Et.
      + left. now exists t.
      + destruct (IH a Et) as [(b' & ->)|(a' & -> & ->)]; [left; now exists b'|right; now exists a']. }
  destruct H as [(b' & Ht)|(a' & -> & Ht)].
  - destruct (F a c b' Ht V R) as [_ F3]. discriminate F3.
  - apply (F2 a' c b Ht V). now rewrite <- !app_assoc in *.
Qed.
Lemma stops_pair k opts : stops k (my_socketpair k opts).
Proof. unfold my_socketpair. repeat (apply stops_seq; [apply stops_need|intros _]). apply stops_ret. Qed.
Lemma stops_pidfile k opts : stops k (pidfile k opts).
Proof.
  unfold pidfile. do 3 (apply stops_seq; [apply stops_need|intros _]).
  apply stops_seq; [apply stops_sys; easy|]. intros p. generalize (dec (a_ret p) ++ [10]). intros t h.
  exists [KWritePid t]. unfold seq, sys, fatal. cbn. split; [now destruct (_ <=? 0)|].
  intros a c b E V R. apply one_split in E as (-> & -> & ->). cbn in R. rewrite R. cbn. now split.
Qed.
Lemma stops_prefork k opts user : stops k (pre_fork k opts user).
Proof.
  unfold pre_fork. apply stops_seq.
  { destruct (has opts OPT_DEBUG); [apply stops_ret|]. intros h. exists [KGetpw user].
    unfold seq, sys, fatal. cbn. split; [now destruct (_ =? -1)|].
    intros a c b E V R. apply one_split in E as (-> & -> & ->). cbn in R. rewrite R. cbn. now split. }
  intros pw. apply stops_seq; [apply stops_sys; easy|]. intros _.
  apply stops_seq; [destruct (has opts OPT_DAEMON); [apply stops_pidfile|apply stops_ret]|]. intros _.
  apply stops_seq; [apply stops_pair|]. intros _. apply stops_seq; [apply stops_pair|]. intros _. apply stops_ret.
Qed.
Lemma stops_check k opts l : stops k (check_components k opts 0 l).
Proof.
  induction l as [|q l IH]; cbn [check_components]; [apply stops_ret|]. apply stops_seq; [apply stops_sys; easy|]. intros a.
  destruct (negb _); [apply stops_fatal|]. destruct (_ || _); [apply stops_fatal|]. destruct (negb _); [apply stops_fatal|]. exact IH.
Qed.
Lemma stops_child k opts pw : stops k (child_init k opts pw).
Proof.
  unfold child_init. apply stops_seq.
  { destruct (_ || _); [apply stops_ret|]. unfold child_socket.
    apply stops_seq; [apply stops_sys; easy|]. intros s. apply stops_seq.
    { destruct (_ =? -1); [|apply stops_ret]. destruct (_ =? 93); [apply stops_need|apply stops_fatal]. }
    intros _. apply stops_seq; [apply stops_sys; easy|]. intros old. apply stops_seq; [apply stops_sys; easy|]. intros u.
    apply stops_seq; [destruct (_ && _); [apply stops_fatal|apply stops_ret]|]. intros _.
    apply stops_seq; [apply stops_need|]. intros b. apply stops_seq; [destruct (has _ _); [apply stops_need|apply stops_ret]|].
    intros _. apply stops_seq; [apply stops_need|]. intros _. destruct pw as [p|]; [|apply stops_ub].
    apply stops_seq; [apply stops_need|]. intros _. apply stops_seq; [apply stops_sys; easy|]. intros _. apply stops_ret. }
  intros _. apply stops_seq; [apply stops_need|]. intros _. apply stops_seq.
  { destruct (has opts OPT_DEBUG); [apply stops_ret|]. apply stops_seq.
    - unfold my_chroot. destruct (negb _); [apply stops_fatal|]. destruct (_ >=? _); [apply stops_fatal|].
      apply stops_seq; [apply stops_check|]. intros _. repeat (apply stops_seq; [apply stops_need|intros _]). apply stops_ret.
    - intros _. apply stops_seq.
      + unfold my_drop_privs. apply stops_seq; [apply stops_need|]. intros _. destruct pw as [p|]; [|apply stops_ub].
        repeat (apply stops_seq; [apply stops_need|intros _]). apply stops_ret.
      + intros _. unfold my_rlimit_child. repeat (apply stops_seq; [apply stops_need|intros _]). apply stops_ret. }
  intros _. apply stops_seq; [apply stops_sys; easy|]. intros _. destruct (has opts OPT_ONCE); [apply stops_exit|].
  repeat (apply stops_seq; [apply stops_sys; easy|intros _]). apply stops_fatal.
Qed.

(** A run of main: it ends before the fork, or goes on behind it. *)
Inductive outcome (k : kernel) (lib : caplib) (opts : Z) (user : list Z) (w : world) : ending unit -> list call -> Prop :=
| Early h : Forall quiet h ->
    (forall a c b, h = a ++ c :: b -> vital c -> a_ret (k (a ++ [c])) = -1 -> b = []) -> outcome k lib opts user w (EExit 1) h
| Forked h pw e h' : Forall quiet h -> (pw = None -> has opts OPT_DEBUG = true) ->
    (has opts OPT_DAEMON = true -> Q3 k w (after k w h) h) ->
    (forall a c b, h = a ++ c :: b -> vital c -> a_ret (k (a ++ [c])) <> -1) ->
    (let f := a_ret (k (h ++ [KFork])) in
     if f =? -1 then fatal k opts (-1) else if f =? 0 then child_init k opts pw else parent_init k lib opts f) (h ++ [KFork]) = (e, h') ->
    outcome k lib opts user w e h'.
Lemma main_outcome k lib opts user w e h : main_start k lib opts user [] = (e, h) -> outcome k lib opts user w e h.
Proof.
  rewrite main_split. unfold seq. pose proof (t_prefork k w opts user []) as T. pose proof (stops_prefork k opts user []) as (t & S1 & S2).
  assert (D k w (Q0 w) []) as HD by (split; [constructor|reflexivity]). specialize (T HD).
  destruct (pre_fork k opts user []) as [[pw|s|] h1] eqn:E; cbn [fst snd app] in *; [| |destruct T].
  - subst t. destruct T as [[T1 T2] T3]. unfold post_fork, seq, sys. intros R.
    apply (Forked k lib opts user w h1 pw e h); try assumption.
    intros a c b Eh V F. destruct (S2 a c b Eh V F) as [_ X]. discriminate X.

  - subst t. destruct T as [-> T]. intros R. injection R as <- <-. apply Early; [assumption|].
    intros a c b Eh V F. now apply (S2 a c b).
Qed.

Lemma fork_unique h1 t pre post : Forall quiet h1 -> Forall (fun c => c <> KFork) t ->
  h1 ++ KFork :: t = pre ++ KFork :: post -> pre = h1 /\ post = t.
Proof.
  intros Hq Ht. revert pre. induction Hq as [|c h1 [Hc _] _ IH]; intros pre E.
  - destruct pre as [|d pre]; cbn in E; [now injection E as ->|]. injection E as <- E. rewrite Forall_forall in Ht.
    exfalso. apply (Ht KFork); [|reflexivity]. rewrite E. apply in_app_iff. right. now left.
  - destruct pre as [|d pre]; cbn in E; [injection E as -> _; now destruct Hc|]. injection E as <- E.
    destruct (IH pre E) as [-> ->]. now split.
Qed.
(** What happens behind the fork. *)
Lemma rest_run k lib opts pw h e h' :
  (let f := a_ret (k (h ++ [KFork])) in
   if f =? -1 then fatal k opts (-1) else if f =? 0 then child_init k opts pw else parent_init k lib opts f) (h ++ [KFork]) = (e, h') ->
  exists t, h' = h ++ KFork :: t /\ Forall (signals (a_ret (k (h ++ [KFork])))) t
  /\ (a_ret (k (h ++ [KFork])) = 0 -> Forall quiet t).
Proof.
  cbv zeta. set (f := a_ret (k (h ++ [KFork]))). intros R.
  assert (S : forall P, only P (if f =? -1 then fatal k opts (-1) else if f =? 0 then child_init k opts pw else parent_init k lib opts f) ->
    exists t, h' = h ++ KFork :: t /\ Forall P t).
  { intros P O. destruct (O (h ++ [KFork])) as (t & E & F). rewrite R in E. cbn in E. exists t. split; [|assumption].
    now rewrite E, <- app_assoc. }
  destruct (f =? 0) eqn:E0.
  - assert (f = 0) as F0 by lia. rewrite F0 in *. destruct (S quiet (only_child k opts pw)) as (t & -> & F).
    exists t. split; [reflexivity|]. split; [|now intros _]. eapply Forall_impl; [|exact F]. intros c [C1 C2]. split; [assumption|].
    intros p s ->. now destruct (C2 p s).
  - destruct (S (signals f)) as (t & -> & F).
    { destruct (f =? -1) eqn:E1; [|apply only_parent]. replace f with (-1) by lia. apply only_fatal. }
    exists t. split; [reflexivity|]. split; [assumption|]. lia.
Qed.

Theorem main_kills k lib opts user e h : main_start k lib opts user [] = (e, h) ->
  (forall pre post, h = pre ++ KFork :: post -> a_ret (k (pre ++ [KFork])) <> -1) ->
  forall p s, In (KKill p s) h ->
  exists pre post, h = pre ++ KFork :: post /\ a_ret (k (pre ++ [KFork])) = p /\ p <> 0 /\ p <> -1.
Proof.
  intros R Hf p s Hin. set (w := mkW 0 0 None [47] None None None None 0 None None false).
  destruct (main_outcome k lib opts user w e h R) as [h Hq _|h1 pw e h' Hq _ _ _ Hr].
  - rewrite Forall_forall in Hq. apply Hq in Hin as [_ Hin]. now destruct (Hin p s).
  - destruct (rest_run _ _ _ _ _ _ _ Hr) as (t & -> & H1 & H2). specialize (Hf h1 t eq_refl).
    apply in_app_iff in Hin as [Hin|[Hin|Hin]]; [rewrite Forall_forall in Hq; apply Hq in Hin as [_ Hin]; now destruct (Hin p s)|discriminate Hin|].
    exists h1, t. split; [reflexivity|]. rewrite Forall_forall in H1. destruct (H1 _ Hin) as [_ H3]. specialize (H3 p s eq_refl).
    subst p. split; [reflexivity|]. split; [|assumption]. intros E0. specialize (H2 E0). rewrite Forall_forall in H2.
    apply H2 in Hin as [_ Hin]. now destruct (Hin (a_ret (k (h1 ++ [KFork]))) s).
Qed.
Theorem signal_kills k opts sig pid h e h' : parent_signal k opts sig pid h = (e, h') ->
  exists t, h' = h ++ t /\ forall p s, In (KKill p s) t -> p = pid.
Proof.
  intros R. assert (O : only (signals pid) (parent_signal k opts sig pid)).
  { unfold parent_signal. destruct (_ || _); [apply only_quit|]. destruct (_ =? 1); [apply only_ret|apply only_fatal]. }
  destruct (O h) as (t & E & F). rewrite R in E. cbn in E. exists t. split; [assumption|]. intros p s Hin.
  rewrite Forall_forall in F. apply F in Hin as [_ Hin]. now apply (Hin p s).
Qed.

(** No null pointer. *)
Definition nub {A} (m : proc A) : Prop := forall h, fst (m h) <> EUB.
Lemma nub_ret A (a : A) : nub (ret a). Proof. intros h. discriminate. Qed.
Lemma nub_exit A s : nub (@exit A s). Proof. intros h. discriminate. Qed.
Lemma nub_sys k c : nub (sys k c). Proof. intros h. discriminate. Qed.
Lemma nub_seq A B (m : proc A) (f : A -> proc B) : nub m -> (forall a, nub (f a)) -> nub (seq m f).
Proof.
  intros Hm Hf h. unfold seq. specialize (Hm h). destruct (m h) as [[a|s|] h']; [apply Hf|discriminate|now destruct Hm].
Qed.
Lemma nub_quit A k opts sig pid : nub (@parent_quit A k opts sig pid).
Proof.
  unfold parent_quit. repeat (apply nub_seq; [|intros ?]); try apply nub_exit; try apply nub_sys.
  - destruct (_ >? 0); [apply nub_ret|apply nub_sys].
  - destruct (has _ _); [apply nub_sys|apply nub_ret].
Qed.
Lemma nub_fatal A k opts pid : nub (@fatal A k opts pid).
Proof. unfold fatal. destruct (pid =? 0); [apply nub_exit|apply nub_quit]. Qed.
Lemma nub_need k opts pid c : nub (need k opts pid c).
Proof. unfold need. apply nub_seq; [apply nub_sys|]. intros a. destruct (_ =? -1); [apply nub_fatal|apply nub_ret]. Qed.
Lemma nub_check k opts l : nub (check_components k opts 0 l).
Proof.
  induction l as [|q l IH]; cbn [check_components]; [apply nub_ret|]. apply nub_seq; [apply nub_sys|]. intros a.
  destruct (negb _); [apply nub_fatal|]. destruct (_ || _); [apply nub_fatal|]. destruct (negb _); [apply nub_fatal|]. exact IH.
Qed.
Ltac nub := repeat first [apply nub_ret | apply nub_exit | apply nub_fatal | apply nub_need | apply nub_sys
  | apply nub_seq; [|intros ?] | match goal with |- nub (if ?b then _ else _) => destruct b end].
Lemma nub_child k opts pw : (pw = None -> has opts OPT_DEBUG = true) -> nub (child_init k opts pw).
Proof.
  intros H.
  assert (N1 : pw <> None -> nub (child_socket k opts pw)) by (intros Hp; unfold child_socket; destruct pw; [nub|now destruct Hp]).
  assert (N2 : nub (my_chroot k opts 0 chroot_dir)).
  { unfold my_chroot. destruct (negb _); [nub|]. destruct (_ >=? _); [nub|]. apply nub_seq; [apply nub_check|intros _; nub]. }
  assert (N3 : pw <> None -> nub (my_drop_privs k opts 0 pw)) by (intros Hp; unfold my_drop_privs; destruct pw; [nub|now destruct Hp]).
  assert (N4 : nub (my_rlimit_child k opts 0)) by (unfold my_rlimit_child; nub).
  unfold child_init. destruct (has opts OPT_DEBUG) eqn:E; cbn [orb].
  - destruct (has opts OPT_ONCE); nub.
  - assert (Hp : pw <> None) by (intros Hp; now apply H in Hp). specialize (N1 Hp). specialize (N3 Hp).
    apply nub_seq; [destruct (has opts OPT_ONCE); [apply nub_ret|exact N1]|]. intros _. apply nub_seq; [apply nub_need|]. intros _.
    apply nub_seq; [apply nub_seq; [exact N2|intros _; apply nub_seq; [exact N3|intros _; exact N4]]|]. intros _.
    apply nub_seq; [apply nub_sys|]. intros _. destruct (has opts OPT_ONCE); [apply nub_exit|].
    apply nub_seq; [apply nub_sys|]. intros _. apply nub_seq; [apply nub_sys|]. intros _. apply nub_fatal.
Qed.
Lemma nub_parent k lib opts pid : nub (parent_init k lib opts pid).
Proof. unfold parent_init. destruct lib; nub. Qed.
Theorem main_no_null k lib opts user : fst (main_start k lib opts user []) <> EUB.
Proof.
  destruct (main_start k lib opts user []) as [e h] eqn:R. cbn. set (w := mkW 0 0 None [47] None None None None 0 None None false).
  destruct (main_outcome k lib opts user w e h R) as [h Hq _|h1 pw e h' Hq Hpw _ _ Hr]; [discriminate|].
  assert (N : nub (if a_ret (k (h1 ++ [KFork])) =? -1 then fatal k opts (-1)
    else if a_ret (k (h1 ++ [KFork])) =? 0 then child_init k opts pw else parent_init k lib opts (a_ret (k (h1 ++ [KFork]))))).
  { destruct (_ =? -1); [apply nub_fatal|]. destruct (_ =? 0); [now apply nub_child|apply nub_parent]. }
  specialize (N (h1 ++ [KFork])). cbv zeta in Hr. now rewrite Hr in N.
Qed.

(** The exit status. *)
Theorem main_status k lib opts user e h pre c post : main_start k lib opts user [] = (e, h) ->
  h = pre ++ c :: post -> vital c -> a_ret (k (pre ++ [c])) = -1 ->
  (forall a b, pre ++ [c] = a ++ KFork :: b -> a_ret (k (a ++ [KFork])) = 0) ->
  post = [] /\ e = EExit 1.
Proof.
  intros R Eh V F Hf. set (w := mkW 0 0 None [47] None None None None 0 None None false).
  destruct (main_outcome k lib opts user w e h R) as [h Hq Hs|h1 pw e h' Hq Hpw _ Hs Hr].
  - split; [now apply (Hs pre c)|reflexivity].
  - destruct (rest_run _ _ _ _ _ _ _ Hr) as (t & Et & H1 & H2).
    assert (C : (exists b, h1 = pre ++ c :: b) \/ (pre = h1 /\ c = KFork) \/ exists a, pre = h1 ++ KFork :: a /\ t = a ++ c :: post).
    { rewrite Et in Eh. clear -Eh. revert pre Eh. induction h1 as [|x h1 IH]; intros pre Eh; destruct pre as [|y pre]; cbn in Eh; injection Eh as E1 E2; subst.
      - right. now left.
      - right. right. now exists pre.
      - left. now exists h1.
      - destruct (IH pre E2) as [(b & ->)|[(-> & ->)|(a & -> & ->)]]; [left; now exists b|right; now left|right; right; now exists a]. }
    destruct C as [(b & ->)|[(-> & ->)|(a & -> & ->)]].
    + now destruct (Hs pre c b eq_refl V).
    + specialize (Hf h1 [] eq_refl). lia.
    + assert (E0 : a_ret (k (h1 ++ [KFork])) = 0).
      { apply (Hf h1 (a ++ [c])). now rewrite <- app_assoc. }
      cbv zeta in Hr. rewrite E0 in Hr. cbn [Z.eqb] in Hr. destruct (stops_child k opts pw (h1 ++ [KFork])) as (t' & S1 & S2).
      rewrite Hr in S1, S2. cbn [fst snd] in S1, S2. apply (S2 a c post); [|assumption|].
      * rewrite Et in S1. rewrite <- app_assoc in S1. cbn [app] in S1. apply app_inv_head in S1. now injection S1 as <-.
      * rewrite <- app_assoc. cbn [app]. now rewrite <- app_assoc in F.
Qed.

(** The pid file. *)
Theorem main_pidfile k lib opts user w e h pre post : main_start k lib opts user [] = (e, h) ->
  has opts OPT_DAEMON = true -> h = pre ++ KFork :: post ->
  w_locked (after k w pre) = true
  /\ exists a b old m, pre = a ++ KGetpid :: b
  /\ (let t := dec (a_ret (k (a ++ [KGetpid]))) ++ [10] in
      w_pidfile (after k w pre) = Some (t ++ skipn (length t) old, m))
  /\ match w_pidfile w with Some pf => pf = (old, m) | None => old = [] end.
Proof.
  intros R Ho Eh. destruct (main_outcome k lib opts user w e h R) as [h Hq Hs|h1 pw e h' Hq Hpw H3 Hs Hr].
  - rewrite Eh in Hq. apply Forall_app in Hq as [_ Hq]. inversion Hq as [|? ? [K _] _]. now destruct K.
  - destruct (rest_run _ _ _ _ _ _ _ Hr) as (t & Et & H1 & _). rewrite Et in Eh. apply fork_unique in Eh as [-> ->]; [|assumption|].
    + destruct (H3 Ho) as (L & a & b & old & m & -> & P). split; [assumption|]. exists a, b, old, m. split; [reflexivity|]. exact P.
    + eapply Forall_impl; [|exact H1]. intros c [K _]. exact K.
Qed.

(** Capabilities of the privileged process. *)
Theorem parent_caps k lib opts pid w e h pre post : parent_init k lib opts pid [] = (e, h) -> has opts OPT_DEBUG = false ->
  lib <> NoCaps -> h = pre ++ KLoop :: post -> w_caps (after k w pre) = Some kept_caps.
Proof.
  intros R Hd Hl Eh. unfold parent_init in R. rewrite Hd in R.
  set (C := fun past c => c = KLoop -> w_caps (after k w past) = Some kept_caps).
  assert (A : always C h); [|now apply (A pre KLoop post Eh)].
  set (G := fun h => always C h /\ (w_caps (after k w h) = Some kept_caps)).
  assert (Sn : forall h c, always C h -> c <> KLoop -> always C (h ++ [c])).
  { intros h1 c H N. apply always_snoc; [assumption|]. now intros ->. }
  set (NL := fun c : call => c <> KLoop).
  assert (ON : forall A (m : proc A) h1, only NL m -> always C h1 -> always C (snd (m h1))).
  { intros A m h1 O H. destruct (O h1) as (t & -> & F). clear -Sn H F. revert h1 H. induction F as [|c t Hc _ IH]; intros h1 H; [now rewrite app_nil_r|].
    replace (h1 ++ c :: t) with ((h1 ++ [c]) ++ t) by now rewrite <- app_assoc. apply IH. now apply Sn. }
  assert (OQ : forall A sig p, only NL (@parent_quit A k opts sig p)).
  { intros A sig p. unfold parent_quit. repeat (apply only_seq; [|intros ?]); try apply only_exit; try (apply only_sys; discriminate).
    - destruct (_ >? 0); [apply only_ret|apply only_sys; discriminate].
    - destruct (has _ _); [apply only_sys; discriminate|apply only_ret]. }
  assert (OF : forall A p, only NL (@fatal A k opts p)).
  { intros A p. unfold fatal. destruct (p =? 0); [apply only_exit|apply OQ]. }
  assert (TN : forall c (Q : list call -> Prop), c <> KLoop -> triple (always C) (need k opts pid c)
    (fun _ h => always C h /\ exists h0, h = h0 ++ [c] /\ a_ret (k h) <> -1) (fun _ => always C)).
  { intros c _ N h1 H. unfold need, seq, sys. cbn. destruct (a_ret (k (h1 ++ [c])) =? -1) eqn:E.
    - pose proof (ON answer (fatal k opts pid) (h1 ++ [c]) (OF _ _) (Sn _ _ H N)) as K2.
      assert (F : forall A, match @fatal A k opts pid (h1 ++ [c]) with (EExit _, _) => True | _ => False end).
      { intros A. unfold fatal, parent_quit, seq, sys, ret, exit. destruct (pid =? 0); [exact I|]. cbn.
        destruct (_ >? 0); now destruct (has _ _). }
      specialize (F answer). destruct (@fatal answer k opts pid (h1 ++ [c])) as [[a|s|] h']; [destruct F|exact K2|destruct F].
    - cbn. split; [now apply Sn|]. exists h1. split; [reflexivity|lia]. }
  assert (T : triple (always C) (parent_init k lib opts pid) (fun _ => always C) (fun _ => always C)).
  { unfold parent_init. rewrite Hd. eapply t_seq; [apply (TN KSocket (fun _ => True)); discriminate|]. intros s. cbv beta.
    apply (t_seq _ _ _ _ _ (fun _ => G)).
    - assert (TC : triple (always C) (need k opts pid (KCaps kept_caps)) (fun _ => G) (fun _ => always C)).
      { eapply t_post; [apply (TN (KCaps kept_caps) (fun _ => True)); discriminate|]. intros a h1 (H & h0 & -> & Hr). split; [assumption|].
        rewrite after_snoc. cbn [succeeded]. replace (a_ret (k (h0 ++ [KCaps kept_caps])) =? -1) with false by lia. cbn [negb].
        now destruct (after k w h0). }
      destruct lib; [now destruct Hl| |].
      + eapply t_pre; [exact TC|]. now intros h1 [H _].
      + eapply t_seq; [eapply t_pre; [apply (TN KCapText (fun _ => True)); discriminate|now intros h1 [H _]]|].
        intros a. cbv beta. eapply t_pre; [exact TC|]. now intros h1 [H _].
    - intros _. apply (t_seq _ _ _ _ _ (fun _ => G)).
      + apply t_sys'. intros h1 [H1 H2]. split; [now apply Sn|]. rewrite after_snoc. destruct (succeeded _ _); [|assumption].
        now destruct (after k w h1).
      + intros x. destruct (negb _); [apply t_exit'; now intros h1 [H1 _]|].
        apply (t_seq _ _ _ _ _ (fun _ => always C)).
        * apply t_sys'. intros h1 [H1 H2]. apply always_snoc; [assumption|]. now intros _.
        * intros _ h1 H1. pose proof (ON unit (fatal k opts pid) h1 (OF _ _) H1) as K.
          pose proof (nub_fatal unit k opts pid h1) as N.
          destruct (fatal k opts pid h1) as [[a|s'|] h']; [exact K|exact K|now destruct N]. }
  specialize (T [] (always_nil C)). unfold parent_init in T. rewrite Hd, R in T. destruct e; [exact T|exact T|destruct T].
Qed.
