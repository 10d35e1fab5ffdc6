(** Proofs for C124. *)
From Verif Require Import Base Types Tlv Checks Wire Parent RawMem SpecRaw Lemmas ChildProofs.

Definition listens (cfg : pcfg) : bool := has (pc_opts cfg) OPT_RECV && negb (has (pc_opts cfg) OPT_DEBUG).
Definition evt (x : Z * rawfd) : Z * Z := (rf_fd (snd x), fst x).
Record raw_ok (cfg : pcfg) (st : rst) : Prop := {
  w_list : rs_list st = map fst (rs_mem st);
  w_nodup : NoDup (map fst (rs_mem st));
  w_fresh : Forall (fun x => fst x < rs_next st) (rs_mem st);
  w_events : rs_events st = if listens cfg then map evt (rs_mem st) else [];
  w_pcap : has (pc_opts cfg) OPT_DEBUG = false -> Forall (fun x => rf_pcap (snd x) = true) (rs_mem st)
}.
Lemma start_ok cfg : raw_ok cfg raw_start.
Proof. split; cbn; try constructor. now destruct (listens cfg). Qed.

Lemma deref_at st p r : NoDup (map fst (rs_mem st)) -> In (p, r) (rs_mem st) -> deref st p = DOk r.
Proof.
  unfold deref. intros N I. assert (E : find (fun x => fst x =? p) (rs_mem st) = Some (p, r)); [|now rewrite E].
  revert N I. induction (rs_mem st) as [|x l IH]; [easy|]. cbn [map find]. intros N I. inversion N; subst.
  destruct I as [->|I]; [cbn [fst]; now rewrite Z.eqb_refl|]. destruct (fst x =? p) eqn:E; [|now apply IH].
  exfalso. apply H1. replace (fst x) with p by lia. apply in_map_iff. now exists (p, r).
Qed.
Lemma touch_ok st l : (forall p, In p l -> In p (map fst (rs_mem st))) -> touch st l = DOk tt.
Proof.
  induction l as [|p l IH]; intros H; [reflexivity|]. cbn [touch]. assert (D : exists r, deref st p = DOk r).
  { unfold deref. destruct (find _ _) as [x|] eqn:E; [now eexists|]. exfalso. specialize (H p (or_introl eq_refl)).
    apply in_map_iff in H as (x & Ex & Hx). pose proof (find_none _ _ E x Hx) as K. cbn in K. lia. }
  destruct D as [r ->]. cbn [dbind]. apply IH. intros q Hq. apply H. now right.
Qed.
Lemma walk_find st i : NoDup (map fst (rs_mem st)) -> forall m, (forall x, In x m -> In x (rs_mem st)) ->
  raw_walk st (map fst m) i = DOk (option_map fst (find (fun x => rf_index (snd x) =? i) m)).
Proof.
  intros N. induction m as [|[p r] m IH]; intros H; [reflexivity|]. cbn [map raw_walk find fst snd].
  rewrite (deref_at st p r N) by (apply H; now left). cbn [dbind]. destruct (rf_index r =? i); [reflexivity|].
  apply IH. intros x Hx. apply H. now right.
Qed.
Lemma byindex_find m i : rfd_byindex (map snd m) i = option_map snd (find (fun x : Z * rawfd => rf_index (snd x) =? i) m).
Proof. induction m as [|x m IH]; [reflexivity|]. unfold rfd_byindex in *. cbn. destruct (rf_index (snd x) =? i); [reflexivity|exact IH]. Qed.
Lemma walk_ok cfg st i : raw_ok cfg st -> raw_byindex st i = DOk (option_map fst (find (fun x => rf_index (snd x) =? i) (rs_mem st))).
Proof. intros [L N _ _ _]. unfold raw_byindex. rewrite L. now apply walk_find. Qed.
Lemma find_split {A} (f : A -> bool) l x : find f l = Some x -> exists a b, l = a ++ x :: b /\ f x = true /\ forall y, In y a -> f y = false.
Proof.
  induction l as [|y l IH]; [discriminate|]. cbn [find]. destruct (f y) eqn:E.
  - intros [= ->]. exists [], l. now repeat split.
  - intros H. destruct (IH H) as (a & b & -> & F & G). exists (y :: a), b. repeat split; [exact F|]. intros z [<-|Hz]; [exact E|now apply G].
Qed.
(** ** The last block *)
Lemma deref_last mem n r l ev nx : ~ In n (map fst mem) -> deref (mkRst (mem ++ [(n, r)]) l ev nx) n = DOk r.
Proof.
  intros N. unfold deref. cbn [rs_mem]. assert (E : find (fun x => fst x =? n) (mem ++ [(n, r)]) = Some (n, r)); [|now rewrite E].
  induction mem as [|x mem IH]; cbn [app find fst]; [now rewrite Z.eqb_refl|]. destruct (fst x =? n) eqn:E.
  - exfalso. apply N. left. lia.
  - apply IH. intros K. apply N. now right.
Qed.
Lemma put_last mem n r0 r l ev nx : ~ In n (map fst mem) ->
  raw_put n r (mkRst (mem ++ [(n, r0)]) l ev nx) = DOk (mkRst (mem ++ [(n, r)]) l ev nx).
Proof.
  intros N. unfold raw_put. rewrite deref_last by exact N. cbn [dbind rs_mem rs_list rs_events rs_next]. do 2 f_equal.
  rewrite map_app. cbn [map fst]. rewrite Z.eqb_refl. f_equal. rewrite <- (map_id mem) at 2. apply map_ext_in. intros x Hx.
  destruct (fst x =? n) eqn:E; [|reflexivity]. exfalso. apply N. replace n with (fst x) by lia. now apply in_map.
Qed.
Lemma drop_at (f : Z * rawfd -> Z) p a x b : f x = p -> ~ In p (map f a) -> ~ In p (map f b) ->
  filter (fun y => negb (f y =? p)) (a ++ x :: b) = a ++ b.
Proof.
  intros E A B. rewrite filter_app. cbn [filter]. replace (f x =? p) with true by lia. cbn [negb]. f_equal.
  - revert A. clear. induction a as [|y a IH]; intros A; [reflexivity|]. cbn [filter]. destruct (f y =? p) eqn:E.
    + exfalso. apply A. left. lia.
    + cbn [negb]. f_equal. apply IH. intros K. apply A. now right.
  - revert B. clear. induction b as [|y b IH]; intros B; [reflexivity|]. cbn [filter]. destruct (f y =? p) eqn:E.
    + exfalso. apply B. left. lia.
    + cbn [negb]. f_equal. apply IH. intros K. apply B. now right.
Qed.
Lemma free_last mem n r l ev nx : ~ In n (map fst mem) -> raw_free n (mkRst (mem ++ [(n, r)]) l ev nx) = DOk (mkRst mem l ev nx).
Proof.
  intros N. unfold raw_free. rewrite deref_last by exact N. cbn [dbind rs_mem rs_list rs_events rs_next]. do 2 f_equal.
  rewrite (drop_at fst n mem (n, r) []); [apply app_nil_r|reflexivity|exact N|easy].
Qed.
(** ** Opening and closing *)
Lemma open_same cfg st index name os : raw_ok cfg st ->
  match parent_open cfg (map snd (rs_mem st)) index name os with
  | None => raw_open cfg st index name os = DOk None
  | Some (fds, eff, b) => exists st', raw_open cfg st index name os = DOk (Some (st', eff, b)) /\ raw_ok cfg st' /\ map snd (rs_mem st') = fds
  end.
Proof.
  intros [L N F E P]. destruct st as [mem l ev n]. cbn [rs_mem rs_list rs_events rs_next] in *. subst l ev.
  assert (Nn : ~ In n (map fst mem)).
  { intros K. apply in_map_iff in K as (x & Ex & Hx). rewrite Forall_forall in F. apply F in Hx. lia. }
  assert (G : raw_ok cfg (mkRst mem (map fst mem) (if listens cfg then map evt mem else []) (n + 1))).
  { split; cbn [rs_mem rs_list rs_events rs_next]; try assumption; try reflexivity.
    eapply Forall_impl; [|exact F]. cbn. intros x Hx. lia. }
  unfold parent_open, raw_open, raw_malloc. cbn [rs_mem rs_list rs_events rs_next]. rewrite put_last by exact Nn. cbn [dbind].
  destruct (os_sock os) as [fd| |]; [|rewrite free_last by exact Nn; cbn [dbind]; eexists; split; [reflexivity|]; split; [exact G|reflexivity]|reflexivity].
  rewrite put_last by exact Nn. cbn [dbind].
  destruct (fd <? 0); [rewrite free_last by exact Nn; cbn [dbind]; eexists; split; [reflexivity|]; split; [exact G|reflexivity]|].
  set (r := mkRaw index (firstn 15 name) fd (negb (has (pc_opts cfg) OPT_DEBUG))).
  unfold raw_insert. cbn [rs_mem rs_list rs_events rs_next]. rewrite touch_ok by (cbn [rs_mem]; now rewrite map_app). cbn [dbind].
  assert (K : raw_ok cfg (mkRst (mem ++ [(n, r)]) (map fst mem ++ [n]) (if listens cfg then map evt (mem ++ [(n, r)]) else []) (n + 1))).
  { split; cbn [rs_mem rs_list rs_events rs_next]; [now rewrite map_app| | |reflexivity|].
    - rewrite map_app. cbn [map fst]. apply NoDup_Add with (a := n) (l := map fst mem); [|now split].
      rewrite <- (app_nil_r (map fst mem)) at 1. apply Add_app.
    - apply Forall_app. split; [eapply Forall_impl; [|exact F]; cbn; intros x Hx; lia|]. repeat constructor. cbn. lia.
    - intros Hd. apply Forall_app. split; [now apply P|]. repeat constructor. cbn [snd r rf_pcap]. now rewrite Hd. }
  assert (M : map snd (mem ++ [(n, r)]) = map snd mem ++ [r]) by now rewrite map_app.
  unfold listens in *. destruct (has (pc_opts cfg) OPT_RECV), (has (pc_opts cfg) OPT_DEBUG); cbn [negb orb andb] in *;
    try (eexists; split; [reflexivity|]; split; [exact K|exact M]).
  rewrite deref_last by exact Nn. cbn [dbind]. unfold event_add. cbn [rs_events rs_mem rs_list rs_next].
  replace (existsb (fun x => snd x =? n) (map evt mem)) with false.
  2:{ symmetry. apply not_true_is_false. intros X. apply existsb_exists in X as (x & Hx & Ex). apply in_map_iff in Hx as (y & <- & Hy).
      cbn in Ex. apply Nn. replace n with (fst y) by lia. now apply in_map. }
  cbn [dbind]. eexists. split; [reflexivity|]. split; [|exact M]. rewrite map_app in K. exact K.
Qed.
Lemma close_same cfg st a p r b : raw_ok cfg st -> rs_mem st = a ++ (p, r) :: b ->
  exists st', raw_close cfg st p = DOk (st', snd (parent_close cfg [] r)) /\ raw_ok cfg st' /\ rs_mem st' = a ++ b
    /\ rs_list st' = map fst (a ++ b).
Proof.
  intros [L N F E P] Em. destruct st as [mem l ev n]. cbn [rs_mem rs_list rs_events rs_next] in *. subst mem l ev.
  pose proof N as N'. rewrite map_app in N'. cbn [map fst] in N'.
  assert (Na : ~ In p (map fst a)) by (apply NoDup_remove_2 in N'; intros K; apply N'; apply in_or_app; now left).
  assert (Nb : ~ In p (map fst b)) by (apply NoDup_remove_2 in N'; intros K; apply N'; apply in_or_app; now right).
  assert (I : In (p, r) (a ++ (p, r) :: b)) by (apply in_or_app; right; now left).
  assert (EV : (if listens cfg then DOk (mkRst (a ++ (p, r) :: b) (map fst (a ++ (p, r) :: b)) (map evt (a ++ b)) n, parent_multi cfg (rf_index r) 0)
                else DOk (mkRst (a ++ (p, r) :: b) (map fst (a ++ (p, r) :: b)) [] n, []))
    = (if listens cfg then
               let* st := event_del p (mkRst (a ++ (p, r) :: b) (map fst (a ++ (p, r) :: b)) (if listens cfg then map evt (a ++ (p, r) :: b) else []) n) in DOk (st, parent_multi cfg (rf_index r) 0)
             else DOk (mkRst (a ++ (p, r) :: b) (map fst (a ++ (p, r) :: b)) (if listens cfg then map evt (a ++ (p, r) :: b) else []) n, []))).
  { destruct (listens cfg); [|reflexivity]. unfold event_del. cbn [rs_events rs_mem rs_list rs_next].
    replace (existsb (fun x => snd x =? p) (map evt (a ++ (p, r) :: b))) with true.
    2:{ symmetry. apply existsb_exists. exists (evt (p, r)). split; [now apply in_map|]. cbn. apply Z.eqb_refl. }
    cbn [dbind]. do 3 f_equal. rewrite <- (drop_at fst p a (p, r) b eq_refl Na Nb) at 1.
    generalize (a ++ (p, r) :: b) as ml. clear. induction ml as [|x ml IH]; [reflexivity|]. cbn [filter map evt snd]. destruct (fst x =? p); cbn [negb]; [exact IH|].
    cbn [map]. now rewrite IH. }
  unfold raw_close. cbn [rs_mem rs_list rs_events rs_next]. rewrite (deref_at (mkRst (a ++ (p, r) :: b) (map fst (a ++ (p, r) :: b)) (if listens cfg then map evt (a ++ (p, r) :: b) else []) n) p r N I). cbn [dbind].
  fold (listens cfg). rewrite <- EV. clear EV.
  set (ev' := if listens cfg then map evt (a ++ b) else []). set (mu := if listens cfg then parent_multi cfg (rf_index r) 0 else []).
  replace (if listens cfg then _ else _) with (DOk (mkRst (a ++ (p, r) :: b) (map fst (a ++ (p, r) :: b)) ev' n, mu)) by (unfold ev', mu; now destruct (listens cfg)).
  cbn [dbind fst snd]. unfold raw_remove. cbn [rs_mem rs_list rs_events rs_next].
  replace (existsb (Z.eqb p) (map fst (a ++ (p, r) :: b))) with true.
  2:{ symmetry. apply existsb_exists. exists p. split; [now apply (in_map fst) in I|apply Z.eqb_refl]. }
  rewrite touch_ok by (cbn [rs_mem]; easy). cbn [dbind].
  assert (FL : filter (fun x => negb (x =? p)) (map fst (a ++ (p, r) :: b)) = map fst (a ++ b)).
  { rewrite <- (drop_at fst p a (p, r) b eq_refl Na Nb). generalize (a ++ (p, r) :: b) as ml. clear. induction ml as [|x ml IH]; [reflexivity|].
    cbn [filter map]. destruct (fst x =? p); cbn [negb]; [exact IH|]. cbn [map]. now rewrite IH. }
  rewrite FL. rewrite (deref_at (mkRst (a ++ (p, r) :: b) (map fst (a ++ b)) ev' n) p r N I). cbn [dbind]. unfold raw_free.
  rewrite (deref_at (mkRst (a ++ (p, r) :: b) (map fst (a ++ b)) ev' n) p r N I). cbn [dbind rs_mem rs_list rs_events rs_next].
  rewrite (drop_at fst p a (p, r) b eq_refl Na Nb).
  eexists. split; [reflexivity|]. split; [|split; reflexivity].
  split; cbn [rs_mem rs_list rs_events rs_next]; try reflexivity.
  - rewrite map_app. now apply NoDup_remove_1 in N'.
  - apply Forall_app in F as [F1 F2]. inversion F2; subst. now apply Forall_app.
  - intros Hd. apply P in Hd. apply Forall_app in Hd as [F1 F2]. inversion F2; subst. now apply Forall_app.
Qed.
Lemma close_fds cfg a (p : Z) r b : (forall y, In y a -> (rf_index (snd y) =? rf_index r) = false) ->
  parent_close cfg (map snd (a ++ (p, r) :: b)) r = (map snd (a ++ b), snd (parent_close cfg [] r)).
Proof.
  intros H. unfold parent_close. cbn [snd]. f_equal. induction a as [|x a IH]; cbn [app map rfd_remove snd].
  - now rewrite Z.eqb_refl.
  - rewrite H by now left. f_equal. apply IH. intros y Hy. apply H. now right.
Qed.
(** ** Events *)
Definition agrees (cfg : pcfg) (x : dres (rst * list peff * bool)) (r : pres) : Prop :=
  exists st', x = DOk (st', r_eff r, r_alive r) /\ raw_ok cfg st' /\ map snd (rs_mem st') = r_fds r.
Lemma req_same cfg st d os : raw_ok cfg st -> agrees cfg (raw_req cfg st d os) (parent_req cfg (map snd (rs_mem st)) d os).
Proof.
  intros H. unfold agrees, raw_req, parent_req. cbv zeta.
  destruct (negb (req_size_ok _ _)); [now exists st|]. destruct (os_name os) as [name|]; [|now exists st].
  destruct (parent_check cfg _ _) as [[|]|]; [|now exists st|now exists st]. destruct (pr_op _ =? PARENT_OPEN).
  { rewrite (walk_ok cfg st _ H), byindex_find. cbn [dbind]. destruct (find _ (rs_mem st)) as [x|]; cbn [option_map]; [now exists st|].
    pose proof (open_same cfg st (pr_index (req_mem d)) name os H) as O.
    destruct (parent_open cfg _ _ name os) as [[[fds eff] b]|]; [|rewrite O; cbn [dbind]; now exists st].
    destruct O as (st' & -> & O1 & O2). cbn [dbind]. exists st'. now split. }
  destruct (pr_op _ =? PARENT_CLOSE).
  { rewrite (walk_ok cfg st _ H), byindex_find. cbn [dbind]. destruct (find _ (rs_mem st)) as [[p r]|] eqn:Ef; cbn [option_map fst snd]; [|now exists st].
    apply find_split in Ef as (a & b & Em & Ei & Ea). destruct (close_same cfg st a p r b H Em) as (st' & -> & C1 & C2 & _).
    rewrite Em, close_fds. 2:{ intros y Hy. rewrite <- (Ea y Hy). cbn [snd] in Ei. f_equal. lia. }
    cbn [dbind]. exists st'. rewrite C2. now split. }
  destruct (req_answer _ _ _ _ _) as [[n buf] eff]. now exists st.
Qed.
Lemma send_same cfg st d os : raw_ok cfg st -> agrees cfg (raw_send cfg st d os) (parent_send cfg (map snd (rs_mem st)) d os).
Proof.
  intros H. unfold agrees, raw_send, parent_send. cbv zeta.
  destruct (negb (msg_size_ok _ _)); [now exists st|]. destruct (os_name os) as [name|]; [|now exists st].
  destruct (negb (60 <=? _)); [now exists st|]. destruct (negb (_ <? PROTO_MAX)); [now exists st|].
  destruct (proto_check _ _ _) as [[n0|]| | | |]; try (now exists st). destruct (has (pc_opts cfg) OPT_DEBUG); [now exists st|].
  rewrite (walk_ok cfg st _ H). cbn [dbind]. rewrite byindex_find.
  assert (T : forall st1 eff1, raw_ok cfg st1 -> agrees cfg
    (let* found := raw_byindex st1 (pm_index (msg_mem d)) in
     match found with
     | None => DOk (st1, eff1, false)
     | Some p =>
         let* r := deref st1 p in
         if (os_rawlen os =? -1) && os_gone os then
           let* (st3, eff3) := raw_close cfg st1 p in
           DOk (st3, (eff1 ++ [EFrame (rf_index r) (rf_fd r) (firstn (Z.to_nat (pm_len (msg_mem d))) (pm_msg (msg_mem d)))]) ++ eff3, true)
         else DOk (st1, eff1 ++ [EFrame (rf_index r) (rf_fd r) (firstn (Z.to_nat (pm_len (msg_mem d))) (pm_msg (msg_mem d)))], true)
     end)
    (match rfd_byindex (map snd (rs_mem st1)) (pm_index (msg_mem d)) with
     | None => mkRes (map snd (rs_mem st1)) eff1 false
     | Some r =>
         if (os_rawlen os =? -1) && os_gone os then
           let '(fds3, eff3) := parent_close cfg (map snd (rs_mem st1)) r in
           mkRes fds3 ((eff1 ++ [EFrame (rf_index r) (rf_fd r) (firstn (Z.to_nat (pm_len (msg_mem d))) (pm_msg (msg_mem d)))]) ++ eff3) true
         else mkRes (map snd (rs_mem st1)) (eff1 ++ [EFrame (rf_index r) (rf_fd r) (firstn (Z.to_nat (pm_len (msg_mem d))) (pm_msg (msg_mem d)))]) true
     end)).
  { intros st1 eff1 H1. rewrite (walk_ok cfg st1 _ H1), byindex_find. cbn [dbind].
    destruct (find _ (rs_mem st1)) as [[p r]|] eqn:Ef; cbn [option_map fst snd]; [|now exists st1].
    apply find_split in Ef as (a & b & Em & Ei & Ea).
    rewrite (deref_at st1 p r (w_nodup _ _ H1)) by (rewrite Em; apply in_or_app; right; now left). cbn [dbind].
    destruct (_ && _); [|now exists st1]. destruct (close_same cfg st1 a p r b H1 Em) as (st' & -> & C1 & C2 & _).
    rewrite Em, close_fds. 2:{ intros y Hy. rewrite <- (Ea y Hy). cbn [snd] in Ei. f_equal. lia. }
    cbn [dbind]. exists st'. rewrite C2. now split. }
  destruct (find _ (rs_mem st)) as [x|]; cbn [option_map].
  - cbn [dbind]. apply T. exact H.
  - pose proof (open_same cfg st (pm_index (msg_mem d)) name os H) as O.
    destruct (parent_open cfg _ _ name os) as [[[fds eff] b]|]; [|rewrite O; cbn [dbind]; now exists st].
    destruct O as (st' & -> & O1 & <-). cbn [dbind]. destruct b; [now apply T|now exists st'].
Qed.
Lemma child_same cfg st e : raw_ok cfg st ->
  let r := parent_step cfg (map snd (rs_mem st)) e in
  exists st', raw_step cfg st (RChild e) = DOk (st', r_eff r, [], r_alive r) /\ raw_ok cfg st' /\ map snd (rs_mem st') = r_fds r.
Proof.
  intros H. cbv zeta. destruct e as [d os|d os]; cbn [parent_step raw_step].
  - destruct (req_same cfg st d os H) as (st' & -> & A & B). cbn [dbind fst snd]. now exists st'.
  - destruct (send_same cfg st d os H) as (st' & -> & A & B). cbn [dbind fst snd]. now exists st'.
Qed.
Lemma listens_debug cfg : listens cfg = true -> has (pc_opts cfg) OPT_DEBUG = false.
Proof. unfold listens. intros H. apply andb_true_iff in H as [_ H]. now apply negb_true_iff in H. Qed.
Lemma event_at cfg st k x : raw_ok cfg st -> nth_error (rs_events st) k = Some x ->
  exists r, nth_error (rs_mem st) k = Some (snd x, r) /\ deref st (snd x) = DOk r /\ rf_pcap r = true /\ rf_fd r = fst x.
Proof.
  intros H Hk. rewrite (w_events _ _ H) in Hk. destruct (listens cfg) eqn:El; [|now destruct k].
  rewrite nth_error_map in Hk. destruct (nth_error (rs_mem st) k) as [[p r]|] eqn:E; [|discriminate]. injection Hk as <-. cbn [evt fst snd].
  exists r. split; [reflexivity|]. pose proof (nth_error_In _ _ E) as I. split; [now apply deref_at; [apply H|]|]. split; [|reflexivity].
  pose proof (w_pcap _ _ H (listens_debug _ El)) as P. rewrite Forall_forall in P. now apply (P (p, r)).
Qed.
Lemma packets_same cfg st k captured ok : raw_ok cfg st ->
  raw_step cfg st (RPackets k captured ok)
  = match nth_error (rs_events st) k, nth_error (rs_mem st) k with
    | Some _, Some (_, r) => DOk (st, [], parent_recv (rf_index r) captured, ok || match parent_recv (rf_index r) captured with [] => true | _ => false end)
    | _, _ => DOk (st, [], [], true)
    end.
Proof.
  intros H. cbn [raw_step]. destruct (nth_error (rs_events st) k) as [x|] eqn:E; [|reflexivity].
  destruct (event_at cfg st k x H E) as (r & A & B & C & D). rewrite A. unfold raw_recv. rewrite B. cbn [dbind]. rewrite C. reflexivity.
Qed.
Lemma step_ok cfg st e : raw_ok cfg st -> exists st' eff msgs alive, raw_step cfg st e = DOk (st', eff, msgs, alive) /\ raw_ok cfg st'.
Proof.
  intros H. destruct e as [e|k captured ok].
  - destruct (child_same cfg st e H) as (st' & -> & A & _). now do 4 eexists.
  - rewrite packets_same by exact H. destruct (nth_error (rs_events st) k) as [ev|]; [destruct (nth_error (rs_mem st) k) as [[p0 r0]|]|]; now do 4 eexists.
Qed.
Lemma run_ok cfg : forall es st, raw_ok cfg st -> exists st' eff msgs alive, raw_run cfg st es = DOk (st', eff, msgs, alive) /\ raw_ok cfg st'.
Proof.
  induction es as [|e es IH]; intros st H; cbn [raw_run]; [now do 4 eexists|].
  destruct (step_ok cfg st e H) as (st1 & eff1 & msgs1 & alive & -> & H1). cbn [dbind]. destruct alive; [|now do 4 eexists].
  destruct (IH st1 H1) as (st2 & eff2 & msgs2 & alive2 & -> & H2). cbn [dbind]. now do 4 eexists.
Qed.
Lemma lives_ok cfg st : lives cfg st -> raw_ok cfg st.
Proof. intros (es & eff & msgs & H). destruct (run_ok cfg es raw_start (start_ok cfg)) as (st' & e' & m' & a' & E & K). rewrite H in E. now injection E as <- _ _ _. Qed.
Lemma at_fun cfg st p r r' : raw_ok cfg st -> at_ptr st p r -> at_ptr st p r' -> r = r'.
Proof. intros H A B. pose proof (deref_at st p r (w_nodup _ _ H) A) as X. rewrite (deref_at st p r' (w_nodup _ _ H) B) in X. now injection X. Qed.
Lemma sockets_mem cfg st fds : raw_ok cfg st -> (sockets_are st fds <-> fds = map snd (rs_mem st)).
Proof.
  intros H. unfold sockets_are. rewrite (w_list _ _ H). split.
  - assert (G : forall m fds, (forall x, In x m -> In x (rs_mem st)) -> Forall2 (at_ptr st) (map fst m) fds -> fds = map snd m).
    { induction m as [|[p r] m IH]; intros l Hm F; inversion F; subst; [reflexivity|]. cbn [map snd]. f_equal.
      - apply (at_fun cfg st p); [exact H|assumption|]. apply Hm. now left.
      - apply IH; [|assumption]. intros x Hx. apply Hm. now right. }
    now apply G.
  - intros ->. assert (G : forall m, (forall x, In x m -> In x (rs_mem st)) -> Forall2 (at_ptr st) (map fst m) (map snd m)).
    { induction m as [|[p r] m IH]; intros Hm; cbn [map fst snd]; constructor; [apply Hm; now left|]. apply IH. intros x Hx. apply Hm. now right. }
    now apply G.
Qed.

Theorem raw_safe cfg es : exists st eff msgs alive, raw_run cfg raw_start es = DOk (st, eff, msgs, alive).
Proof. destruct (run_ok cfg es raw_start (start_ok cfg)) as (st & eff & msgs & alive & E & _). now exists st, eff, msgs, alive. Qed.
Theorem raw_refines cfg st fds e : lives cfg st -> sockets_are st fds ->
  exists st', raw_step cfg st (RChild e) = DOk (st', r_eff (parent_step cfg fds e), [], r_alive (parent_step cfg fds e))
  /\ sockets_are st' (r_fds (parent_step cfg fds e)).
Proof.
  intros H S. apply lives_ok in H. apply (sockets_mem cfg) in S; [|exact H]. subst fds.
  destruct (child_same cfg st e H) as (st' & E & A & B). exists st'. split; [exact E|]. now apply (sockets_mem cfg st').
Qed.
Theorem raw_owned cfg st : lives cfg st -> NoDup (map fst (rs_mem st)) /\ rs_list st = map fst (rs_mem st) /\ exists fds, sockets_are st fds.
Proof.
  intros H. apply lives_ok in H. split; [apply H|]. split; [apply H|]. exists (map snd (rs_mem st)). now apply (sockets_mem cfg).
Qed.
Lemma has_bit opts k : 0 <= k -> has opts (2 ^ k) = Z.testbit opts k.
Proof.
  intros Hk. unfold has. destruct (Z.testbit opts k) eqn:E.
  - apply negb_true_iff. apply Z.eqb_neq. intros K. assert (X : Z.testbit (Z.land opts (2 ^ k)) k = true).
    { rewrite Z.land_spec, E, Z.pow2_bits_true by exact Hk. reflexivity. }
    rewrite K, Z.bits_0 in X. discriminate.
  - apply negb_false_iff. apply Z.eqb_eq. apply Z.bits_inj_0. intros n. rewrite Z.land_spec. destruct (Z.eq_dec n k) as [->|Hn]; [now rewrite E|].
    rewrite (Z.pow2_bits_false k n) by lia. apply andb_false_r.
Qed.
Lemma reads_listens cfg : reads cfg <-> listens cfg = true.
Proof.
  unfold reads, listens. change OPT_RECV with (2 ^ 2). change OPT_DEBUG with (2 ^ 6). rewrite !has_bit by lia.
  rewrite andb_true_iff, negb_true_iff. tauto.
Qed.
Theorem raw_events cfg st : lives cfg st ->
  NoDup (map snd (rs_events st))
  /\ forall fd p, In (fd, p) (rs_events st) <-> reads cfg /\ exists r, In p (rs_list st) /\ at_ptr st p r /\ rf_fd r = fd.
Proof.
  intros H. apply lives_ok in H. rewrite (w_events _ _ H), (w_list _ _ H). destruct (listens cfg) eqn:El.
  - split; [rewrite map_map; exact (w_nodup _ _ H)|]. intros fd p. rewrite in_map_iff. split.
    + intros ([q r] & E & I). injection E as <- <-. split; [now apply reads_listens|]. exists r. split; [now apply (in_map fst) in I|]. now split.
    + intros (_ & r & _ & A & <-). now exists (p, r).
  - split; [constructor|]. intros fd p. split; [easy|]. intros (R & _). apply reads_listens in R. congruence.
Qed.
Theorem raw_heard cfg st fds i r captured ok : lives cfg st -> sockets_are st fds -> reads cfg -> nth_error fds i = Some r ->
  exists alive, raw_step cfg st (RPackets i captured ok) = DOk (st, [], parent_recv (rf_index r) captured, alive) /\ (ok = true -> alive = true).
Proof.
  intros H S R Hr. apply lives_ok in H. apply (sockets_mem cfg) in S; [|exact H]. subst fds. apply reads_listens in R.
  rewrite packets_same by exact H. rewrite (w_events _ _ H), R, nth_error_map. rewrite nth_error_map in Hr.
  destruct (nth_error (rs_mem st) i) as [[p r']|]; [|discriminate]. injection Hr as ->. cbn [option_map]. eexists. split; [reflexivity|]. now intros ->.
Qed.
Theorem raw_quits cfg st fds : lives cfg st -> sockets_are st fds ->
  exists n, raw_quit cfg st = DOk (mkRst [] [] [] n, flat_map (fun r => snd (parent_close cfg fds r)) fds).
Proof.
  intros H S. apply lives_ok in H. apply (sockets_mem cfg) in S; [|exact H]. unfold raw_quit.
  replace (flat_map (fun r => snd (parent_close cfg fds r)) fds) with (flat_map (fun r => snd (parent_close cfg [] r)) (map snd (rs_mem st))) by now rewrite S.
  clear S fds. rewrite (w_list _ _ H). remember (rs_mem st) as m eqn:Em. symmetry in Em. revert st H Em.
  induction m as [|[p r] m IH]; intros st H Em; cbn [map raw_closeall fst snd flat_map].
  - exists (rs_next st). destruct st as [mem l ev n]. cbn in *. subst mem. destruct H as [L _ _ E _]. cbn in *. subst l ev. now destruct (listens cfg).
  - rewrite (deref_at st p r (w_nodup _ _ H)) by (rewrite Em; now left). cbn [dbind].
    destruct (close_same cfg st [] p r m H Em) as (st' & -> & C1 & C2 & C3). cbn [dbind]. cbn [app] in C2.
    destruct (IH st' C1 C2) as (n & ->). cbn [dbind]. now exists n.
Qed.
Lemma closed_app a b : closed_in (a ++ b) = closed_in a ++ closed_in b.
Proof. apply flat_map_app. Qed.
Lemma closed_multi cfg i op : closed_in (parent_multi cfg i op) = [].
Proof.
  unfold parent_multi. destruct (has _ _); [reflexivity|]. generalize 0 as k. revert op.
  induction (pc_enabled cfg) as [|e en IH]; intros op k; [reflexivity|]. cbn [multi_loop]. destruct (_ && _); [apply IH|].
  cbv zeta. unfold closed_in. cbn [flat_map app]. apply IH.
Qed.
Theorem raw_quits_closed cfg st fds : lives cfg st -> sockets_are st fds ->
  exists n eff, raw_quit cfg st = DOk (mkRst [] [] [] n, eff) /\ closed_in eff = map rf_index fds.
Proof.
  intros H S. destruct (raw_quits cfg st fds H S) as (n & E). exists n. eexists. split; [exact E|]. clear.
  generalize fds at 1. intros l. induction fds as [|r fds IH]; [reflexivity|]. cbn [flat_map map]. rewrite closed_app, IH.
  unfold parent_close. cbn [snd]. destruct (_ && _); rewrite ?closed_app, ?closed_multi; reflexivity.
Qed.
