(** Proofs for C113: the table and the sessions. *)
From Coq Require Import Permutation.
From Verif Require Import Base Vis Tlv Types Checks Msg Cdp Edp Fdp Ndp Lldp Protos Wire Util Child Spec SpecAdv SpecChild
  Lemmas WireProofs ChildProofs Heap SpecHeap HeapProofs HeapProofs2.

Definition shape {A} (l : list (option A)) : list bool := map (fun a : option A => if a then true else false) l.

Lemma peer_free_use : forall strs h l, in_use h (held strs ++ l) -> exists h', h_peer_free strs h = DOk h' /\ in_use h' l.
Proof.
  induction strs as [|[a|] strs IH]; intros h l H; cbn [held app h_peer_free] in *.
  - now exists h.
  - apply free_use in H as (h1 & E & H & _). rewrite E. cbn [dbind]. now apply IH.
  - now apply IH.
Qed.
Lemma entry_free_use e h l : in_use h (entry_uses e ++ l) ->
  exists h1 h', h_peer_free (he_strs e) h = DOk h1 /\ free (he_ptr e) h1 = DOk h' /\ in_use h' l.
Proof.
  intros H. assert (H' : in_use h (held (he_strs e) ++ he_ptr e :: l)).
  { eapply use_perm; [exact H|]. unfold entry_uses. cbn [app]. apply Permutation_middle. }
  apply peer_free_use in H' as (h1 & E1 & H1). apply free_use in H1 as (h2 & E2 & H2 & _). now exists h1, h2.
Qed.

(** ** Expiry *)
Lemma h_expire now : forall q nfs h l, in_use h (flat_map entry_uses q ++ l) ->
  exists q' h', h_expire_loop now q nfs h = DOk (q', snd (expire_loop now (map he_entry q) nfs), h')
    /\ map he_entry q' = fst (expire_loop now (map he_entry q) nfs)
    /\ q' = filter (fun e => keeps now (he_entry e)) q
    /\ in_use h' (flat_map entry_uses q' ++ l).
Proof.
  induction q as [|e q IH]; intros nfs h l H; cbn [h_expire_loop flat_map map expire_loop filter] in *.
  { now exists [], h. }
  rewrite <- app_assoc in H. destruct (keeps now (he_entry e)).
  - destruct (IH nfs h (entry_uses e ++ l)) as (q' & h' & E & Em & Ef & Hu).
    { eapply use_perm; [exact H|]. apply Permutation_app_swap_app. }
    rewrite E. cbn [dbind]. destruct (expire_loop now (map he_entry q) nfs) as [r nfs'] eqn:Er. cbn [fst snd] in *.
    exists (e :: q'), h'. split; [reflexivity|]. split; [cbn; now rewrite Em|]. split; [now rewrite Ef|].
    eapply use_perm; [exact Hu|]. cbn [flat_map]. rewrite <- app_assoc. apply Permutation_app_swap_app.
  - apply entry_free_use in H as (h1 & h2 & E1 & E2 & H). rewrite E1. cbn [dbind]. rewrite E2. cbn [dbind]. now apply IH.
Qed.
Lemma h_all : forall q h l, in_use h (flat_map entry_uses q ++ l) -> exists h', h_child_free q h = DOk h' /\ in_use h' l.
Proof.
  induction q as [|e q IH]; intros h l H; cbn [h_child_free flat_map] in *; [now exists h|].
  rewrite <- app_assoc in H. apply entry_free_use in H as (h1 & h2 & E1 & E2 & H). rewrite E1. cbn [dbind]. rewrite E2. cbn [dbind]. now apply IH.
Qed.

(** ** A message into the table *)
Lemma replace_absent i f (q : list hentry) : ~ In i (map q_id (map he_entry q)) ->
  map (fun e => if q_id (he_entry e) =? i then f e else e) q = q.
Proof.
  induction q as [|e q IH]; cbn [map]; intros H; [reflexivity|]. destruct (q_id (he_entry e) =? i) eqn:E.
  - exfalso. apply H. left. lia.
  - f_equal. apply IH. intros K. apply H. now right.
Qed.
Lemma h_replace i new strs : forall q h l, NoDup (map q_id (map he_entry q)) -> In i (map q_id (map he_entry q)) ->
  in_use h (flat_map entry_uses q ++ held strs ++ l) ->
  exists h', h_free_strs i q h = DOk h'
    /\ in_use h' (flat_map entry_uses (map (fun e => if q_id (he_entry e) =? i then mkHe (he_ptr e) (with_id i new) strs else e) q) ++ l).
Proof.
  induction q as [|e q IH]; intros h l Hn Hi H; [easy|]. cbn [map] in Hn, Hi. inversion Hn as [|? ? Hx Hn']; subst.
  cbn [h_free_strs map flat_map]. destruct (q_id (he_entry e) =? i) eqn:E.
  - apply Z.eqb_eq in E. rewrite replace_absent by now rewrite <- E.
    apply peer_free_use. eapply use_perm; [exact H|]. cbn [flat_map]. unfold entry_uses at 1 3. cbn [he_ptr he_strs app].
    rewrite <- !app_assoc.
    transitivity (he_ptr e :: (held (he_strs e) ++ held strs ++ flat_map entry_uses q ++ l)).
    + constructor. apply Permutation_app_head. apply Permutation_app_swap_app.
    + apply Permutation_middle.
  - destruct Hi as [Hi|Hi]; [lia|]. destruct (IH h (entry_uses e ++ l) Hn' Hi) as (h' & E1 & H').
    { eapply use_perm; [exact H|]. cbn [flat_map]. rewrite <- app_assoc. rewrite Permutation_app_swap_app.
      apply Permutation_app_head. apply Permutation_app_swap_app. }
    exists h'. split; [exact E1|]. eapply use_perm; [exact H'|]. rewrite <- app_assoc. apply Permutation_app_swap_app.
Qed.
Lemma h_after i new : forall q, In i (map q_id (map he_entry q)) ->
  Permutation (flat_map entry_uses (h_insert_after i new q)) (entry_uses new ++ flat_map entry_uses q).
Proof.
  induction q as [|e q IH]; cbn [map]; intros Hi; [easy|]. cbn [h_insert_after]. destruct (q_id (he_entry e) =? i) eqn:E; cbn [flat_map].
  - apply Permutation_app_swap_app.
  - destruct Hi as [Hi|Hi]; [lia|]. rewrite IH by assumption. apply Permutation_app_swap_app.
Qed.
Lemma after_plain i new : forall q, map he_entry (h_insert_after i new q) = insert_after i (he_entry new) (map he_entry q).
Proof.
  induction q as [|e q IH]; cbn [h_insert_after map insert_after]; [reflexivity|]. destruct (_ =? i); cbn [map]; [reflexivity|]. now rewrite IH.
Qed.
Lemma after_forall (P : hentry -> Prop) i new : forall q, P new -> Forall P q -> Forall P (h_insert_after i new q).
Proof.
  intros q Hn. induction 1 as [|e q He Hq IH]; cbn [h_insert_after]; [constructor|]. destruct (_ =? i).
  - constructor; [exact He|]. now constructor.
  - now constructor.
Qed.
Lemma h_put new strs q fresh h l : NoDup (map q_id (map he_entry q)) -> length strs = 8%nat -> shape strs = shape (q_peer new) -> Forall backed q ->
  in_use h (flat_map entry_uses q ++ held strs ++ l) ->
  exists q' f' h', h_queue_put new strs q fresh h = DOk (q', f', h')
    /\ queue_put new (map he_entry q) fresh = (map he_entry q', f')
    /\ Forall backed q' /\ in_use h' (flat_map entry_uses q' ++ l).
Proof.
  intros Hn H8 Hs0 Hb Hu. pose proof (conj H8 Hs0) as Hs. unfold h_queue_put, queue_put.
  destruct (queue_find _ _ _ (map he_entry q) None) as [[i|] pp] eqn:Ef.
  - rewrite slice_0_12 in Ef. apply find_hit in Ef as (e & He & Hi & _).
    assert (Hin : In i (map q_id (map he_entry q))) by (rewrite <- Hi; now apply in_map).
    destruct (h_replace i new strs q h l Hn Hin Hu) as (h' & E & Hu'). rewrite E. cbn [dbind].
    eexists _, fresh, h'. split; [reflexivity|]. split.
    { unfold queue_replace. rewrite !map_map. f_equal. apply map_ext. intros x. now destruct (_ =? i). }
    split; [|exact Hu']. apply Forall_map. eapply Forall_impl; [|exact Hb]. intros x Hx. destruct (_ =? i); [exact Hs|exact Hx].
  - apply find_miss in Ef as [_ Hpp].
    assert (K : forall q', Permutation (flat_map entry_uses q') ((next h :: held strs) ++ flat_map entry_uses q) ->
      in_use (snd (malloc h)) (flat_map entry_uses q' ++ l)).
    { intros q' P. eapply use_perm; [exact (malloc_use _ _ Hu)|]. rewrite P. cbn [app]. constructor.
      rewrite <- app_assoc. apply Permutation_app_swap_app. }
    destruct Hpp as [[-> _]|(a & e & b & Eq & -> & _)]; cbn [malloc].
    + eexists _, (fresh + 1), _. split; [reflexivity|]. split; [now rewrite map_app|]. split.
      * apply Forall_app. split; [exact Hb|]. constructor; [exact Hs|constructor].
      * apply K. rewrite flat_map_app. cbn [flat_map]. rewrite app_nil_r. apply Permutation_app_comm.
    + eexists _, (fresh + 1), _. split; [reflexivity|]. split; [now rewrite after_plain|]. split.
      * apply after_forall; [exact Hs|exact Hb].
      * apply K. rewrite h_after; [reflexivity|]. rewrite Eq, map_app. apply in_app_iff. right. now left.
Qed.

(** ** The invariant *)
Record Inv (c : hchild) : Prop := mkInv {
  i_use : in_use (hc_heap c) (child_uses c);
  i_backed : Forall backed (hc_queue c);
  i_table : table_ok (map he_entry (hc_queue c)) (hc_next c);
  i_sess : NoDup (map (fun s => ss_id (fst s)) (hc_sess c))
}.
Definition good_step (r : dres (hchild * list ceff)) (X : dres (child * list ceff)) : Prop :=
  ran_child r = X /\ match r with DOk (c, _) => Inv c | _ => True end.

Lemma expire_good opts now c : Inv c -> good_step (h_child_expire opts now c) (DOk (child_expire opts now (plain c))).
Proof.
  intros H. unfold h_child_expire, child_expire. destruct (now =? -1); [now split|].
  destruct H as [H1 H2 H3 H4]. destruct (h_expire now (hc_queue c) (hc_nfs c) (hc_heap c) (map snd (hc_sess c)) H1) as (q' & h' & E & Em & Ef & Hu).
  rewrite E. cbn [dbind plain c_queue c_nfs c_sess c_next]. destruct (expire_loop now (map he_entry (hc_queue c)) (hc_nfs c)) as [q nfs] eqn:Ex.
  cbn [fst snd] in *. rewrite Em. destruct (update_loop opts q nfs) as [nfs' eff]. split.
  - cbn [ran_child]. unfold plain. cbn [hc_nfs hc_queue hc_sess hc_next]. now rewrite Em.
  - constructor; cbn [hc_nfs hc_queue hc_sess hc_next hc_heap]; try assumption.
    + rewrite Ef. apply Forall_forall. intros x Hx. apply filter_In in Hx as [Hx _]. rewrite Forall_forall in H2. now apply H2.
    + rewrite Em. pose proof (expire_queue now (map he_entry (hc_queue c)) (hc_nfs c)) as Eq. rewrite Ex in Eq. cbn [fst] in Eq.
      rewrite Eq. now apply filter_ok.
Qed.

Lemma h_shape p : shape (map (option_map (@fst Z (list Z))) p) = shape (map (option_map snd) p).
Proof. unfold shape. rewrite !map_map. apply map_ext. now intros [[a b]|]. Qed.

Lemma queue_good opts c d now now2 : Inv c -> good_step (h_child_queue opts c d now now2) (child_queue opts (plain c) d now now2).
Proof.
  intros H. unfold h_child_queue, child_queue. cbv zeta. cbn [plain c_nfs c_queue c_sess c_next].
  destruct (negb (msg_size_ok _ _)); [now split|]. destruct (now =? -1); [now split|].
  destruct (negb _); [now split|]. destruct (negb _); [now split|].
  destruct (netif_byindex (hc_nfs c) _) as [sub|]; [|now split].
  destruct (netif_byaddr (hc_nfs c) _); [now split|].
  set (m := msg_mem d). set (ctx := mkCtx _ _ _ _ _ _). set (s0 := mkHst _ _ _ _ _).
  destruct H as [H1 H2 H3 H4].
  assert (Ho : ok (lossy ctx 0) (child_uses c) s0).
  { split; [reflexivity|]. exists []. split; [reflexivity|]. split; [cbv; discriminate|]. rewrite app_nil_r. exact H1. }
  destruct (decode_good (pm_proto m) ctx _ _ s0 Ho) as [E Ha].
  change (mkDst no_peers 0 (pm_proto m) []) with (erase s0). rewrite <- E. clear E.
  assert (Hfree : forall s, ok (lossy ctx 0) (child_uses c) s ->
    good_step (let* h := h_peer_free (map (option_map fst) (h_peer s)) (h_heap s) in
               DOk (mkHc (hc_nfs c) (hc_queue c) (hc_sess c) (hc_next c) h, [])) (DOk (plain c, []))).
  { intros s (_ & lk & Hl & _ & Hu). rewrite (Hl eq_refl), app_nil_r in Hu. apply peer_free_use in Hu as (h' & E & Hu). rewrite E. cbn [dbind].
    split; [reflexivity|]. now constructor. }
  destruct (h_decode (pm_proto m) ctx s0) as [[n| | | |] s]; cbn [ran]; unfold after in Ha; cbn [fst snd] in Ha; try (now split).
  2:{ now apply Hfree. }
  destruct (n =? 0); [now apply Hfree|]. unfold erase. cbn [s_ttl s_proto s_peer s_out].
  destruct Ha as (H8 & lk & Hl & _ & Hu). rewrite (Hl eq_refl), app_nil_r in Hu.
  set (new := mkEnt _ _ _ _ _ _ _ _ _ _).
  destruct (h_put new (map (option_map fst) (h_peer s)) (hc_queue c) (hc_next c) (h_heap s) (map snd (hc_sess c))) as (q' & f' & h' & E1 & E2 & Hb & Hu').
  { apply H3. }
  { now rewrite map_length. }
  { apply h_shape. }
  { exact H2. }
  { eapply use_perm; [exact Hu|]. unfold child_uses, held_by. apply Permutation_app_swap_app. }
  rewrite E1, E2. cbn [dbind].
  assert (Hi : forall nfs, Inv (mkHc nfs q' (hc_sess c) f' h')).
  { intros nfs. constructor; try assumption. eapply put_ok; [exact H3|exact E2]. }
  destruct (h_ttl s =? 0).
  { exact (expire_good opts now2 (mkHc (hc_nfs c) q' (hc_sess c) f' h') (Hi _)). }
  destruct (_ || _); [split; [reflexivity|apply Hi]|]. destruct (_ && _); (split; [reflexivity|apply Hi]).
Qed.

(** ** Sessions *)
Lemma lock_plain i d q : map he_entry (h_add_lock i d q) = add_lock i d (map he_entry q).
Proof. unfold h_add_lock, add_lock. rewrite !map_map. apply map_ext. intros e. reflexivity. Qed.
Lemma lock_uses i d q : flat_map entry_uses (h_add_lock i d q) = flat_map entry_uses q.
Proof. induction q as [|e q IH]; [reflexivity|]. cbn [h_add_lock map flat_map]. unfold h_add_lock in IH. now rewrite IH. Qed.
Lemma lock_backed i d q : Forall backed q -> Forall backed (h_add_lock i d q).
Proof.
  intros H. unfold h_add_lock. apply Forall_map. eapply Forall_impl; [|exact H]. intros e He. unfold backed in *.
  cbn [he_strs he_entry add_lock map hd]. now destruct (_ =? i).
Qed.
Lemma drop_gone sid (l : list (session * Z)) : ~ In sid (map (fun s => ss_id (fst s)) l) ->
  filter (fun s => negb (ss_id (fst s) =? sid)) l = l.
Proof.
  induction l as [|x l IH]; cbn [map filter]; intros H; [reflexivity|]. destruct (ss_id (fst x) =? sid) eqn:E.
  - exfalso. apply H. left. lia.
  - cbn [negb]. f_equal. apply IH. intros K. apply H. now right.
Qed.
Lemma sess_split sid (l : list (session * Z)) s a : NoDup (map (fun s => ss_id (fst s)) l) ->
  find (fun s => ss_id (fst s) =? sid) l = Some (s, a) ->
  Permutation (map snd l) (a :: map snd (filter (fun s => negb (ss_id (fst s) =? sid)) l)).
Proof.
  induction l as [|x l IH]; cbn [find map]; intros Hn Hf; [discriminate|]. inversion Hn as [|? ? Hx Hn']; subst.
  cbn [filter]. destruct (ss_id (fst x) =? sid) eqn:E; cbn [negb].
  - injection Hf as ->. cbn [snd]. constructor. apply Z.eqb_eq in E. cbn [fst] in Hx, E. rewrite E in Hx. now rewrite drop_gone.
  - cbn [map]. rewrite (IH Hn' Hf). apply perm_swap.
Qed.
Lemma find_plain sid (l : list (session * Z)) :
  find (fun s => ss_id s =? sid) (map fst l) = option_map fst (find (fun s => ss_id (fst s) =? sid) l).
Proof. induction l as [|x l IH]; [reflexivity|]. cbn [map find]. destruct (_ =? sid); [reflexivity|exact IH]. Qed.
Lemma drop_plain sid (l : list (session * Z)) :
  map fst (filter (fun s => negb (ss_id (fst s) =? sid)) l) = drop_sess sid (map fst l).
Proof.
  unfold drop_sess. induction l as [|x l IH]; [reflexivity|]. cbn [map filter]. destruct (_ =? sid); cbn [negb map]; [exact IH|]. now rewrite IH.
Qed.
Lemma wait_plain sid i (l : list (session * Z)) :
  map fst (map (fun s => if ss_id (fst s) =? sid then (mkSess sid (Some i), snd s) else s) l) = wait_sess sid i (map fst l).
Proof. unfold wait_sess. rewrite !map_map. apply map_ext. intros x. now destruct (_ =? sid). Qed.
Lemma NoDup_filter_sess sid (l : list (session * Z)) : NoDup (map (fun s => ss_id (fst s)) l) ->
  NoDup (map (fun s => ss_id (fst s)) (filter (fun s => negb (ss_id (fst s) =? sid)) l)).
Proof. apply NoDup_map_filter. Qed.
Lemma end_good c sid s a q eff : Inv c -> find (fun s => ss_id (fst s) =? sid) (hc_sess c) = Some (s, a) ->
  flat_map entry_uses q = flat_map entry_uses (hc_queue c) -> Forall backed q -> table_ok (map he_entry q) (hc_next c) ->
  good_step (h_end_sess sid a q c eff) (DOk (mkChild (hc_nfs c) (map he_entry q) (drop_sess sid (map fst (hc_sess c))) (hc_next c), eff)).
Proof.
  intros [H1 H2 H3 H4] Hf Eq Hb Ht. unfold h_end_sess.
  assert (K : in_use (hc_heap c) (a :: flat_map entry_uses q ++ map snd (filter (fun s => negb (ss_id (fst s) =? sid)) (hc_sess c)))).
  { eapply use_perm; [exact H1|]. unfold child_uses. rewrite Eq, (sess_split _ _ _ _ H4 Hf). symmetry. apply Permutation_middle. }
  apply free_use in K as (h' & E & K & _). rewrite E. cbn [dbind]. split.
  - cbn [ran_child]. unfold plain. cbn [hc_nfs hc_queue hc_sess hc_next]. now rewrite drop_plain.
  - constructor; try assumption. now apply NoDup_filter_sess.
Qed.
Lemma write_good c sid timeout ws : Inv c -> good_step (h_cli_write c sid timeout ws) (child_cli_write (plain c) sid timeout ws).
Proof.
  intros Hi. unfold h_cli_write, child_cli_write. cbn [plain c_nfs c_queue c_sess c_next]. rewrite find_plain.
  destruct (find _ (hc_sess c)) as [[s a]|] eqn:Ef; cbn [option_map fst]; [|now split].
  pose proof Hi as [H1 H2 H3 H4].
  destruct timeout; [now apply (end_good c sid s a)|].
  assert (Q : exists q1, flat_map entry_uses q1 = flat_map entry_uses (hc_queue c) /\ Forall backed q1 /\ table_ok (map he_entry q1) (hc_next c)
    /\ match (match ss_msg s with
              | None => DOk (hc_queue c, map he_entry (hc_queue c))
              | Some i => match queue_from i (map he_entry (h_add_lock i (-1) (hc_queue c))) with
                          | None => DUB | Some l => DOk (h_add_lock i (-1) (hc_queue c), l) end end) with
       | DOk (q, l) => q = q1 /\ (match ss_msg s with
              | None => DOk (map he_entry (hc_queue c), map he_entry (hc_queue c))
              | Some i => match queue_from i (add_lock i (-1) (map he_entry (hc_queue c))) with
                          | None => DUB | Some l => DOk (add_lock i (-1) (map he_entry (hc_queue c)), l) end end) = DOk (map he_entry q, l)
       | DUB => (match ss_msg s with
              | None => DOk (map he_entry (hc_queue c), map he_entry (hc_queue c))
              | Some i => match queue_from i (add_lock i (-1) (map he_entry (hc_queue c))) with
                          | None => DUB | Some l => DOk (add_lock i (-1) (map he_entry (hc_queue c)), l) end end) = DUB
       | _ => False
       end).
  { destruct (ss_msg s) as [i|].
    - exists (h_add_lock i (-1) (hc_queue c)). split; [apply lock_uses|]. split; [now apply lock_backed|]. rewrite lock_plain.
      split; [now apply add_lock_ok|]. destruct (queue_from _ _); [|reflexivity]. split; [reflexivity|]. now rewrite lock_plain.
    - exists (hc_queue c). split; [reflexivity|]. split; [exact H2|]. split; [exact H3|]. now split. }
  cbv zeta. destruct Q as (q1 & Q1 & Q2 & Q3 & Q4).
  destruct (match ss_msg s with None => DOk (hc_queue c, _) | Some i => _ end) as [[q l]| | | |]; try contradiction.
  2:{ rewrite Q4. now split. }
  destruct Q4 as [-> ->]. cbn [dbind]. destruct (write_loop sid l ws) as [eff [i|]].
  - split.
    + cbn [ran_child]. unfold plain. cbn [hc_nfs hc_queue hc_sess hc_next]. now rewrite lock_plain, wait_plain.
    + constructor; cbn [hc_nfs hc_queue hc_sess hc_next hc_heap].
      * unfold child_uses. cbn [hc_queue hc_sess]. rewrite lock_uses, Q1, map_map.
        erewrite (map_ext _ snd); [exact H1|]. intros x. now destruct (_ =? sid).
      * now apply lock_backed.
      * rewrite lock_plain. now apply add_lock_ok.
      * rewrite map_map. erewrite map_ext; [exact H4|]. intros x. cbn beta. destruct (_ =? sid) eqn:E; [|reflexivity]. cbn. lia.
  - now apply (end_good c sid s a).
Qed.
Lemma accept_good c sid : Inv c -> existsb (fun s => ss_id (fst s) =? sid) (hc_sess c) = false ->
  good_step (DOk (h_cli_accept c sid, [])) (DOk (child_cli_accept (plain c) sid, [])).
Proof.
  intros [H1 H2 H3 H4] En. unfold h_cli_accept. cbn [malloc]. split.
  - cbn [ran_child]. unfold plain. cbn [hc_nfs hc_queue hc_sess hc_next]. rewrite map_app. reflexivity.
  - constructor; cbn [hc_nfs hc_queue hc_sess hc_next hc_heap]; try assumption.
    + eapply use_perm; [exact (malloc_use _ _ H1)|]. unfold child_uses. cbn [hc_queue hc_sess]. rewrite map_app. cbn [map snd].
      rewrite app_assoc. apply Permutation_cons_append.
    + rewrite map_app. cbn [map fst]. apply NoDup_Add with (a := sid) (l := map (fun s => ss_id (fst s)) (hc_sess c)).
      * rewrite <- (app_nil_r (map _ (hc_sess c))) at 1. apply Add_app.
      * split; [exact H4|]. intros K. apply in_map_iff in K as (x & E & Hx).
        assert (T : existsb (fun s => ss_id (fst s) =? sid) (hc_sess c) = true); [|congruence].
        apply existsb_exists. exists x. split; [exact Hx|lia].
Qed.
Lemma exists_plain sid (l : list (session * Z)) :
  existsb (fun s => ss_id s =? sid) (map fst l) = existsb (fun s => ss_id (fst s) =? sid) l.
Proof. induction l as [|x l IH]; [reflexivity|]. cbn [map existsb]. now rewrite IH. Qed.
Lemma step_good opts c e : Inv c -> good_step (h_step opts c e) (child_step opts (plain c) e).
Proof.
  intros H. destruct e; cbn [h_step child_step].
  - now apply queue_good.
  - now apply expire_good.
  - destruct H. split; [reflexivity|]. now constructor.
  - cbn [plain c_sess]. rewrite exists_plain. destruct (existsb _ _) eqn:E; [now split|now apply accept_good].
  - now apply write_good.
  - now apply write_good.
Qed.
Lemma run_good opts : forall es c, Inv c -> good_step (h_run opts c es) (child_run opts (plain c) es).
Proof.
  induction es as [|e es IH]; intros c H; cbn [h_run child_run]; [now split|].
  destruct (step_good opts c e H) as [E1 I1]. rewrite <- E1. destruct (h_step opts c e) as [[c1 eff1]| | | |]; cbn [dbind ran_child]; try (now split).
  destruct (IH c1 I1) as [E2 I2]. rewrite <- E2. destruct (h_run opts c1 es) as [[c2 eff2]| | | |]; cbn [dbind ran_child]; try (now split).
Qed.
Lemma start_inv : Inv h_start.
Proof.
  constructor.
  - split; [constructor|]. split; constructor.
  - constructor.
  - apply start_ok.
  - constructor.
Qed.

(** ** The statements *)
Lemma decoders p c s base : length (h_peer s) = 8%nat -> in_use (h_heap s) (held_by s ++ base) ->
  ran (h_decode p c s) = proto_decode p c (erase s)
  /\ forall r s', h_decode p c s = (r, s') -> r = DFail \/ (exists n, r = DOk n) ->
     exists lost, in_use (h_heap s') (held_by s' ++ base ++ lost) /\ (d_mode c <> DECODE_PRINT -> lost = [])
       /\ zlen lost <= headed (h_out s') - headed (h_out s).
Proof.
  intros H8 Hu. assert (Ho : ok (lossy c (headed (h_out s))) base s).
  { split; [exact H8|]. exists []. split; [reflexivity|]. split; [|now rewrite app_nil_r]. unfold lossy. cbn [snd]. rewrite zlen_nil. lia. }
  destruct (decode_good p c _ base s Ho) as [E Ha]. split; [exact E|]. intros r s' Er Hr. rewrite Er in Ha.
  unfold after in Ha. cbn [fst snd] in Ha.
  assert (K : ok (lossy c (headed (h_out s))) base s') by (destruct Hr as [->|(n & ->)]; exact Ha).
  destruct K as (_ & lk & Hl & Hd & Hu'). exists lk. split; [exact Hu'|]. unfold lossy in Hl, Hd. cbn [fst snd] in Hl, Hd.
  split; [intros N; apply Hl; lia|lia].
Qed.
Lemma decoders_clean p c s base : d_mode c <> DECODE_PRINT -> length (h_peer s) = 8%nat -> in_use (h_heap s) (held_by s ++ base) ->
  ran (h_decode p c s) = proto_decode p c (erase s)
  /\ forall r s', h_decode p c s = (r, s') -> r = DFail \/ (exists n, r = DOk n) -> in_use (h_heap s') (held_by s' ++ base).
Proof.
  intros N H8 Hu. destruct (decoders p c s base H8 Hu) as [E H]. split; [exact E|]. intros r s' Er Hr.
  destruct (H r s' Er Hr) as (lost & Hl & El & _). rewrite (El N), app_nil_r in Hl. exact Hl.
Qed.
Lemma history opts es : ran_child (h_run opts h_start es) = child_run opts child_start es.
Proof. exact (proj1 (run_good opts es h_start start_inv)). Qed.
Lemma run_inv opts es c eff : h_run opts h_start es = DOk (c, eff) -> Inv c.
Proof. intros E. pose proof (proj2 (run_good opts es h_start start_inv)) as H. now rewrite E in H. Qed.
Lemma run_owned opts es c eff : h_run opts h_start es = DOk (c, eff) ->
  in_use (hc_heap c) (child_uses c) /\ Forall backed (hc_queue c).
Proof. intros E. apply run_inv in E as [H1 H2 _ _]. now split. Qed.
Lemma held_short l : zlen (held l) <= zlen l.
Proof. induction l as [|[a|] l IH]; cbn [held]; unfold zlen in *; cbn [length]; lia. Qed.
Lemma run_bounded opts es c eff : h_run opts h_start es = DOk (c, eff) ->
  zlen (live (hc_heap c)) <= 9 * zlen (hc_queue c) + zlen (hc_sess c).
Proof.
  intros E. apply run_owned in E as [(_ & P & _) Hb]. unfold zlen at 1. rewrite (Permutation_length P). fold (zlen (child_uses c)).
  unfold child_uses. rewrite zlen_app. assert (K : zlen (map snd (hc_sess c)) = zlen (hc_sess c)) by (unfold zlen; now rewrite map_length).
  rewrite K. assert (Q : zlen (flat_map entry_uses (hc_queue c)) <= 9 * zlen (hc_queue c)); [|lia].
  clear - Hb. induction Hb as [|e q (H8 & _) Hq IH]; [unfold zlen; cbn; lia|]. cbn [flat_map]. rewrite zlen_app, zlen_cons. unfold entry_uses at 1. rewrite zlen_cons.
  pose proof (held_short (he_strs e)) as L. unfold zlen in L at 2. rewrite H8 in L. lia.
Qed.
Lemma run_free opts es c eff : h_run opts h_start es = DOk (c, eff) ->
  exists h, h_child_free (hc_queue c) (hc_heap c) = DOk h /\ in_use h (map snd (hc_sess c)).
Proof. intros E. apply run_owned in E as [Hu _]. now apply h_all. Qed.
Lemma description opts n q h l : in_use h l ->
  exists h', h_netif_descr opts n q h = DOk (netif_descr opts n q, h') /\ in_use h' l.
Proof.
  intros Hu. unfold h_netif_descr, netif_descr. cbv zeta. set (d := descr_scan opts (nf_index n) q).
  assert (D : forall o h l, in_use h l -> exists a h', h_dup o h = (a, h') /\ in_use h' (held [a] ++ l)).
  { intros [x|] h0 l0 H; cbn [h_dup malloc]; eexists _, _; (split; [reflexivity|]); [exact (malloc_use _ _ H)|exact H]. }
  destruct (D (ds_peer d) h l Hu) as (a & h1 & E1 & H1). rewrite E1.
  destruct (D (ds_suffix d) h1 _ H1) as (b & h2 & E2 & H2). rewrite E2.
  destruct (peer_free_use [a; b] h2 l) as (h3 & E3 & H3).
  { eapply use_perm; [exact H2|]. destruct a, b; cbn [held app]; try reflexivity. apply perm_swap. }
  rewrite E3. cbn [dbind]. destruct (beq _ _); [now exists h3|]. cbn [malloc].
  pose proof (malloc_use _ _ H3) as H4. apply free_use in H4 as (h5 & E5 & H5 & _). cbn [malloc snd] in E5. rewrite E5. cbn [dbind]. now exists h5.
Qed.
