(** Proofs about the privileged process. *)
From Verif Require Import Base Types Tlv Checks Msg Wire Parent Spec SpecAdv SpecRound SpecNet
  Lemmas DecProofs NetProofs WireProofs.

(** ** Effects of a transmission *)
Lemma multi_about cfg index name sent en : forall p op,
  Forall (about index name sent) (multi_loop cfg index p en op).
Proof.
  induction en as [|e en IH]; intros p op; cbn [multi_loop]; [constructor|].
  destruct (_ && _); [apply IH|]. constructor; [reflexivity|apply IH].
Qed.
Lemma parent_multi_about cfg index name sent op : Forall (about index name sent) (parent_multi cfg index op).
Proof. unfold parent_multi. destruct (has _ _); [constructor|apply multi_about]. Qed.
Lemma open_about cfg fds index name os fds' eff ok sent :
  parent_open cfg fds index name os = Some (fds', eff, ok) -> Forall (about index name sent) eff.
Proof.
  unfold parent_open. destruct (os_sock os); [|intros [= <- <- <-]; constructor|discriminate].
  destruct (_ <? 0); intros [= <- <- <-]; [constructor|]. constructor; [now split|].
  destruct (_ || _); [constructor|apply parent_multi_about].
Qed.
Lemma close_about cfg fds r name sent : Forall (about (rf_index r) name sent) (snd (parent_close cfg fds r)).
Proof.
  unfold parent_close. cbn [snd]. apply Forall_app. split.
  - destruct (_ && _); [apply parent_multi_about|constructor].
  - constructor; [reflexivity|constructor].
Qed.
Lemma byindex_index fds i r : rfd_byindex fds i = Some r -> rf_index r = i /\ In r fds.
Proof. unfold rfd_byindex. intros H. apply find_some in H as [H1 H2]. split; [lia|assumption]. Qed.

Lemma mem_nth d k : (k < 1558)%nat -> nth k (msg_mem d) 0 = nth k d 0.
Proof.
  intros H. unfold msg_mem. destruct (Nat.lt_ge_cases k (length d)) as [L|L].
  - rewrite app_nth1 by (rewrite firstn_length; lia).
    rewrite <- (firstn_skipn 1558 d) at 2. rewrite app_nth1; [reflexivity|rewrite firstn_length; lia].
  - rewrite (nth_overflow d) by assumption. rewrite app_nth2 by (rewrite firstn_length; lia).
    unfold zeros. apply nth_repeat.
Qed.
Lemma mem_in_buffer d m n nm r t : bytes d -> msg_size_ok (Z.min (zlen d) PARENT_MSG_MAX) (msg_mem d) = true ->
  60 <= pm_len (msg_mem d) ->
  n = pm_len (msg_mem d) -> in_buffer (mkCtx (pm_msg (msg_mem d)) n m nm r t) (frame_of d).
Proof.
  intros Hb Hs Hl ->. destruct (pm_msg_frame d Hb Hs) as [E L].
  exists (skipn (Z.to_nat (pm_len (msg_mem d))) (pm_msg (msg_mem d))). cbn [d_buf Msg.d_len].
  fold (frame_of d) in *. split.
  { rewrite <- E. symmetry. apply firstn_skipn. }
  split; [apply zlen_pm_msg|]. split; [assumption|].
  split; [|apply bytes_firstn, bytes_skipn; assumption].
  rewrite <- L. split; [assumption|]. rewrite L. unfold frame_of. rewrite zlen_cut. lia.
Qed.
Lemma send_ok d : bytes d -> msg_size_ok (Z.min (zlen d) PARENT_MSG_MAX) (msg_mem d) = true ->
  60 <= pm_len (msg_mem d) -> pm_proto (msg_mem d) < 6 ->
  (exists o, proto_check (pm_proto (msg_mem d)) (pm_msg (msg_mem d)) (pm_len (msg_mem d)) = DOk (Some o))
  <-> exists payload, proto_frame (nth 20 d 0) (frame_of d) payload.
Proof.
  intros Hb Hs Hl Hp.
  pose proof (mem_in_buffer d 1 _ [] 0 0 Hb Hs Hl eq_refl) as Hin.
  pose proof (pm_proto_range d Hb).
  pose proof (check_frame (pm_proto (msg_mem d)) _ _ ltac:(lia) Hin) as K. cbn [d_buf Msg.d_len] in K.
  rewrite K. unfold pm_proto at 1. rewrite mem_nth by lia. reflexivity.
Qed.

(** Everything parent_send does, in terms of the datagram. *)
Lemma send_effects cfg fds d os name :
  bytes d -> os_name os = Some name ->
  Forall (about (unle (firstn 4 (msg_mem d))) name (sendable d)) (r_eff (parent_send cfg fds d os)).
Proof.
  intros Hb Hn. unfold parent_send. cbv zeta. rewrite Hn.
  destruct (msg_size_ok _ _) eqn:Es; cbn [negb]; [|constructor].
  destruct (60 <=? _) eqn:E60; cbn [negb]; [|constructor].
  destruct (_ <? PROTO_MAX) eqn:Ep; cbn [negb]; [|constructor].
  destruct (proto_check _ _ _) as [[o|]| | | |] eqn:Ec; try constructor.
  assert (Hs : sendable d (firstn (Z.to_nat (pm_len (msg_mem d))) (pm_msg (msg_mem d)))).
  { destruct (pm_msg_frame d Hb Es) as [E L]. rewrite E. fold (frame_of d) in *.
    split; [reflexivity|]. rewrite <- L. split; [unfold frame_of in L; rewrite zlen_cut in L; lia|].
    unfold PROTO_MAX in Ep.
    destruct (proj1 (send_ok d Hb Es ltac:(lia) ltac:(lia)) (ex_intro _ o Ec)) as [pl H].
    exists (nth 20 d 0), pl. split; [reflexivity|]. split; [|assumption].
    pose proof (pm_proto_range d Hb). unfold pm_proto in *. rewrite mem_nth in * by lia. lia. }
  change (unle (firstn 4 (msg_mem d))) with (pm_index (msg_mem d)).
  destruct (has _ _); [now constructor|].
  assert (F : forall fds1 eff1, Forall (about (pm_index (msg_mem d)) name (sendable d)) eff1 ->
    Forall (about (pm_index (msg_mem d)) name (sendable d))
      (r_eff match rfd_byindex fds1 (pm_index (msg_mem d)) with
        | None => mkRes fds1 eff1 false
        | Some r =>
            let eff2 := eff1 ++ [EFrame (rf_index r) (rf_fd r) (firstn (Z.to_nat (pm_len (msg_mem d))) (pm_msg (msg_mem d)))] in
            if (os_rawlen os =? -1) && os_gone os then
              let '(fds3, eff3) := parent_close cfg fds1 r in mkRes fds3 (eff2 ++ eff3) true
            else mkRes fds1 eff2 true
        end)).
  { intros fds1 eff1 H1. destruct (rfd_byindex fds1 _) as [r|] eqn:Er; [|exact H1].
    apply byindex_index in Er as [Ei _]. cbv zeta.
    assert (H2 : Forall (about (pm_index (msg_mem d)) name (sendable d))
      (eff1 ++ [EFrame (rf_index r) (rf_fd r) (firstn (Z.to_nat (pm_len (msg_mem d))) (pm_msg (msg_mem d)))])).
    { apply Forall_app. split; [assumption|]. constructor; [|constructor]. now split. }
    destruct (_ && _); [|exact H2].
    pose proof (close_about cfg fds1 r name (sendable d)) as H3. rewrite Ei in H3.
    destruct (parent_close cfg fds1 r) as [fds3 eff3]. cbn [snd r_eff] in *. apply Forall_app. now split. }
  destruct (rfd_byindex fds (pm_index (msg_mem d))) as [r|] eqn:Er.
  - exact (F fds [] ltac:(constructor)).
  - destruct (parent_open cfg fds _ name os) as [[[fds1 eff1] ok]|] eqn:Eo; [|constructor].
    pose proof (open_about _ _ _ _ _ _ _ _ (sendable d) Eo) as H1.
    destruct ok; [now apply F|exact H1].
Qed.
Lemma send_unknown cfg fds d os : os_name os = None -> r_eff (parent_send cfg fds d os) = [] /\ r_fds (parent_send cfg fds d os) = fds /\ r_alive (parent_send cfg fds d os) = true.
Proof. intros H. unfold parent_send. cbv zeta. rewrite H. now destruct (negb _). Qed.

(** At most one frame per datagram. *)
Lemma frames_app a b : frames (a ++ b) = frames a ++ frames b.
Proof. apply filter_app. Qed.
Lemma multi_frames cfg index en : forall p op, frames (multi_loop cfg index p en op) = [].
Proof.
  induction en as [|e en IH]; intros p op; cbn [multi_loop]; [reflexivity|].
  destruct (_ && _); apply IH.
Qed.
Lemma parent_multi_frames cfg index op : frames (parent_multi cfg index op) = [].
Proof. unfold parent_multi. destruct (has _ _); [reflexivity|apply multi_frames]. Qed.
Lemma open_frames cfg fds index name os fds' eff ok :
  parent_open cfg fds index name os = Some (fds', eff, ok) -> frames eff = [].
Proof.
  unfold parent_open. destruct (os_sock os); [|intros [= <- <- <-]; reflexivity|discriminate].
  destruct (_ <? 0); intros [= <- <- <-]; [reflexivity|]. cbn [frames filter].
  destruct (_ || _); [reflexivity|apply parent_multi_frames].
Qed.
Lemma close_frames cfg fds r : frames (snd (parent_close cfg fds r)) = [].
Proof.
  unfold parent_close. cbn [snd]. rewrite frames_app.
  destruct (_ && _); [now rewrite parent_multi_frames|reflexivity].
Qed.
Lemma send_one cfg fds d os : (length (frames (r_eff (parent_send cfg fds d os))) <= 1)%nat.
Proof.
  unfold parent_send. cbv zeta.
  destruct (negb (msg_size_ok _ _)); [exact (le_S _ _ (le_n 0))|].
  destruct (os_name os) as [name|]; [|exact (le_S _ _ (le_n 0))].
  destruct (negb _); [exact (le_S _ _ (le_n 0))|]. destruct (negb _); [exact (le_S _ _ (le_n 0))|].
  destruct (proto_check _ _ _) as [[o|]| | | |]; try exact (le_S _ _ (le_n 0)).
  destruct (has _ _); [exact (le_S _ _ (le_n 0))|].
  set (opened := match rfd_byindex fds _ with Some _ => _ | None => _ end).
  assert (H : forall fds1 eff1 ok, opened = Some (fds1, eff1, ok) -> frames eff1 = []).
  { intros fds1 eff1 ok. subst opened. destruct (rfd_byindex _ _); [intros [= <- <- <-]; reflexivity|apply open_frames]. }
  destruct opened as [[[fds1 eff1] []]|]; [|cbn [r_eff]; rewrite (H _ _ _ eq_refl); exact (le_S _ _ (le_n 0))|exact (le_S _ _ (le_n 0))].
  specialize (H _ _ _ eq_refl).
  destruct (rfd_byindex fds1 _) as [r|]; [|cbn [r_eff]; rewrite H; exact (le_S _ _ (le_n 0))].
  pose proof (close_frames cfg fds1 r) as C. destruct (parent_close cfg fds1 r) as [fds3 eff3]. cbn [snd] in C.
  destruct (_ && _); cbn [r_eff]; rewrite ?frames_app, ?C, H; exact (le_n 1).
Qed.

(** The frames go to the raw socket of the interface. *)
Lemma send_socket cfg fds d os i fd data :
  In (EFrame i fd data) (r_eff (parent_send cfg fds d os)) ->
  (exists r, In r fds /\ rf_index r = i /\ rf_fd r = fd)
  \/ (rfd_byindex fds i = None /\ os_sock os = SockFd fd).
Proof.
  assert (NF : forall l, frames l = [] -> ~ In (EFrame i fd data) l).
  { intros l Hl Hin. assert (K : In (EFrame i fd data) (frames l)) by (apply filter_In; now split).
    rewrite Hl in K. destruct K. }
  unfold parent_send. cbv zeta.
  destruct (negb (msg_size_ok _ _)); [easy|].
  destruct (os_name os) as [name|]; [|easy].
  destruct (negb _); [easy|]. destruct (negb _); [easy|].
  destruct (proto_check _ _ _) as [[o|]| | | |]; try easy.
  destruct (has _ _).
  { intros [H|[]]. discriminate H. }
  set (x := pm_index _). set (opened := match rfd_byindex fds x with Some _ => _ | None => _ end).
  assert (H : forall fds1 eff1 ok, opened = Some (fds1, eff1, ok) ->
    frames eff1 = [] /\ ((fds1 = fds /\ (ok = true -> rfd_byindex fds x <> None)) \/ (rfd_byindex fds x = None /\ exists fd1 nm pc, os_sock os = SockFd fd1 /\ fds1 = fds ++ [mkRaw x nm fd1 pc]))).
  { intros fds1 eff1 ok. subst opened. destruct (rfd_byindex fds x) eqn:Eb.
    - intros [= <- <- <-]. split; [reflexivity|]. left. now split.
    - intros H. split; [eapply open_frames; eassumption|]. unfold parent_open in H.
      destruct (os_sock os) as [fd1| |]; [|injection H as <- <- <-; now left|discriminate H].
      destruct (fd1 <? 0); injection H as <- <- <-; [now left|].
      right. split; [reflexivity|]. exists fd1. do 2 eexists. split; reflexivity. }
  destruct opened as [[[fds1 eff1] []]|];
    [|destruct (H _ _ _ eq_refl) as [HF _]; intros K; now apply NF in K|easy].
  destruct (H _ _ _ eq_refl) as [HF HD]. clear H.
  destruct (rfd_byindex fds1 x) as [r|] eqn:Er; [|intros K; now apply NF in K].
  assert (G : i = rf_index r -> fd = rf_fd r ->
    (exists r, In r fds /\ rf_index r = i /\ rf_fd r = fd) \/ (rfd_byindex fds i = None /\ os_sock os = SockFd fd)).
  { intros -> ->. pose proof (byindex_index _ _ _ Er) as [Ei Hr].
    destruct HD as [[-> _]|(Hn & fd1 & nm & pc & Eo & ->)]; [left; now exists r|].
    right. rewrite Ei. split; [assumption|]. apply in_app_or in Hr as [Hr|[<-|[]]]; [|assumption].
    unfold rfd_byindex in Hn. apply (find_none _ _ Hn) in Hr. lia. }
  intros K.
  assert (K' : In (EFrame i fd data) (eff1 ++ [EFrame (rf_index r) (rf_fd r) (firstn (Z.to_nat (pm_len (msg_mem d))) (pm_msg (msg_mem d)))])).
  { pose proof (close_frames cfg fds1 r) as C. destruct (parent_close cfg fds1 r) as [fds3 eff3]. cbn [snd] in C.
    destruct (_ && _); [|exact K]. cbn [r_eff] in K. apply in_app_or in K as [K|K]; [exact K|].
    now apply NF in K. }
  apply in_app_or in K' as [K'|[K'|[]]]; [now apply NF in K'|]. injection K' as E1 E2 _. now apply G.
Qed.

(** A frame handed over by an obedient child is sent, and the parent survives. *)
Lemma send_good cfg fds d os index p received f payload name :
  bytes f -> carries d index p received f -> bytes d -> 0 <= p < 6 -> 60 <= zlen f <= 1518 ->
  proto_frame p f payload -> os_name os = Some name -> os_sock os <> SockFatal ->
  r_alive (parent_send cfg fds d os) = true
  /\ (has (pc_opts cfg) OPT_DEBUG = false ->
      (exists r, rfd_byindex fds index = Some r) \/ (exists fd, os_sock os = SockFd fd /\ 0 <= fd) ->
      exists fd, In (EFrame index fd f) (r_eff (parent_send cfg fds d os))).
Proof.
  intros Hf (L & Ei & Ep & Er & El & Em) Hb Hp Hl Hpf Hn Hs.
  unfold parent_send. cbv zeta. rewrite Hn, Ei, Ep, El, Em.
  assert (Es : msg_size_ok (Z.min (zlen d) PARENT_MSG_MAX) (msg_mem d) = true).
  { unfold msg_size_ok, PARENT_MSG_MIN, PARENT_MSG_MAX. rewrite El, L, Z.mod_small by lia. lia. }
  rewrite Es. cbn [negb]. replace (60 <=? zlen f) with true by lia.
  replace (p <? PROTO_MAX) with true by (unfold PROTO_MAX; lia). cbn [negb].
  assert (Hin : in_buffer (mkCtx (f ++ repeat 0 (Z.to_nat (1518 - zlen f))) (zlen f) 1 [] 0 0) f).
  { exists (repeat 0 (Z.to_nat (1518 - zlen f))). cbn [d_buf Msg.d_len]. split; [reflexivity|].
    split; [zl; lia|]. split; [reflexivity|]. split; assumption. }
  destruct (proj2 (check_frame p _ _ Hp Hin) (ex_intro _ _ Hpf)) as [o Eo]. cbn [d_buf Msg.d_len] in Eo.
  rewrite Eo. rewrite firstn_zlen_app.
  destruct (has (pc_opts cfg) OPT_DEBUG); [split; [reflexivity|discriminate]|].
  assert (G : forall fds1 eff1 r, rfd_byindex fds1 index = Some r ->
    r_alive (if (os_rawlen os =? -1) && os_gone os then
       let '(fds3, eff3) := parent_close cfg fds1 r in mkRes fds3 ((eff1 ++ [EFrame (rf_index r) (rf_fd r) f]) ++ eff3) true
       else mkRes fds1 (eff1 ++ [EFrame (rf_index r) (rf_fd r) f]) true) = true
    /\ In (EFrame index (rf_fd r) f) (r_eff (if (os_rawlen os =? -1) && os_gone os then
       let '(fds3, eff3) := parent_close cfg fds1 r in mkRes fds3 ((eff1 ++ [EFrame (rf_index r) (rf_fd r) f]) ++ eff3) true
       else mkRes fds1 (eff1 ++ [EFrame (rf_index r) (rf_fd r) f]) true))).
  { intros fds1 eff1 r Hr. apply byindex_index in Hr as [Hr _].
    destruct (parent_close cfg fds1 r) as [fds3 eff3]. rewrite Hr.
    assert (K : In (EFrame index (rf_fd r) f) (eff1 ++ [EFrame index (rf_fd r) f])).
    { apply in_or_app. right. now left. }
    destruct (_ && _); cbn [r_alive r_eff]; (split; [reflexivity|]); [apply in_or_app; now left|exact K]. }
  destruct (rfd_byindex fds index) as [r|] eqn:Eb.
  - rewrite Eb. destruct (G fds [] r Eb) as [G1 G2]. split; [exact G1|]. intros _ _. exists (rf_fd r). exact G2.
  - unfold parent_open. destruct (os_sock os) as [fd| |] eqn:Ek; [|split; [reflexivity|]|now contradiction Hs].
    + destruct (fd <? 0) eqn:Ef.
      { split; [reflexivity|]. intros _ [[r X]|(fd' & X & Y)]; [discriminate X|]. injection X as <-. lia. }
      set (fds1 := fds ++ _).
      assert (E1 : rfd_byindex fds1 index = Some (mkRaw index (firstn 15 name) fd (negb (has (pc_opts cfg) OPT_DEBUG)))).
      { unfold fds1, rfd_byindex. unfold rfd_byindex in Eb. clear -Eb.
        induction fds as [|r fds IH]; cbn in *; [now rewrite Z.eqb_refl|].
        destruct (rf_index r =? index); [discriminate|now apply IH]. }
      rewrite E1. match goal with |- context [?e ++ [EFrame _ _ _]] => destruct (G fds1 e _ E1) as [G1 G2] end.
      split; [exact G1|]. intros _ _. eexists. exact G2.
    + intros _ [[r X]|(fd' & X & _)]; discriminate X.
Qed.

(** ** Sockets *)
Lemma byindex_none fds i : rfd_byindex fds i = None <-> ~ In i (map rf_index fds).
Proof.
  unfold rfd_byindex. split.
  - intros H K. apply in_map_iff in K as (r & E & Hr). apply (find_none _ _ H) in Hr. lia.
  - intros H. destruct (find _ _) as [r|] eqn:E; [|reflexivity]. apply find_some in E as [E1 E2].
    contradiction H. apply in_map_iff. exists r. split; [lia|assumption].
Qed.
Lemma remove_incl fds i : incl (map rf_index (rfd_remove fds i)) (map rf_index fds).
Proof.
  induction fds as [|r fds IH]; intros x Hx; cbn in *; [easy|].
  destruct (rf_index r =? i); [now right|]. cbn in Hx. destruct Hx as [Hx|Hx]; [now left|right; now apply IH].
Qed.
Lemma remove_one fds i : one_each fds -> one_each (rfd_remove fds i) /\ ~ In i (map rf_index (rfd_remove fds i)).
Proof.
  unfold one_each. induction fds as [|r fds IH]; cbn; intros H; [split; [constructor|easy]|].
  inversion H as [|? ? Hn Hd]; subst. destruct (rf_index r =? i) eqn:E.
  - replace i with (rf_index r) by lia. now split.
  - destruct (IH Hd) as [I1 I2]. cbn. split.
    + constructor; [|assumption]. intros K. now apply remove_incl in K.
    + intros [K|K]; [lia|now apply I2].
Qed.
Lemma open_one cfg fds index name os fds' eff ok :
  one_each fds -> rfd_byindex fds index = None -> parent_open cfg fds index name os = Some (fds', eff, ok) ->
  one_each fds'.
Proof.
  intros H Hn. unfold parent_open. destruct (os_sock os); [|intros [= <- <- <-]; exact H|discriminate].
  destruct (_ <? 0); intros [= <- <- <-]; [exact H|]. unfold one_each. rewrite map_app. cbn.
  apply byindex_none in Hn. clear -H Hn. unfold one_each in H.
  induction (map rf_index fds) as [|x l IH]; cbn; [constructor; [easy|constructor]|].
  inversion H; subst. constructor.
  - intros K. apply in_app_or in K as [K|[K|[]]]; [contradiction|]. apply Hn. now left.
  - apply IH; [assumption|]. intros K. apply Hn. now right.
Qed.
Lemma send_one_each cfg fds d os : one_each fds -> one_each (r_fds (parent_send cfg fds d os)).
Proof.
  intros H. unfold parent_send. cbv zeta.
  destruct (negb (msg_size_ok _ _)); [exact H|].
  destruct (os_name os) as [name|]; [|exact H].
  destruct (negb _); [exact H|]. destruct (negb _); [exact H|].
  destruct (proto_check _ _ _) as [[o|]| | | |]; try exact H.
  destruct (has _ _); [exact H|].
  set (opened := match rfd_byindex fds _ with Some _ => _ | None => _ end).
  assert (K : forall fds1 eff1 ok, opened = Some (fds1, eff1, ok) -> one_each fds1).
  { intros fds1 eff1 ok. subst opened. destruct (rfd_byindex _ _) eqn:E; [intros [= <- <- <-]; exact H|].
    now apply open_one. }
  destruct opened as [[[fds1 eff1] []]|]; [|now apply (K _ _ _ eq_refl)|exact H].
  specialize (K _ _ _ eq_refl). destruct (rfd_byindex fds1 _) as [r|]; [|exact K].
  destruct (_ && _); [|exact K]. unfold parent_close. cbn [r_fds]. now apply remove_one.
Qed.
Lemma req_one_each cfg fds d os : one_each fds -> one_each (r_fds (parent_req cfg fds d os)).
Proof.
  intros H. unfold parent_req. cbv zeta.
  destruct (negb _); [exact H|]. destruct (os_name os) as [name|]; [|exact H].
  destruct (parent_check _ _ _) as [[]|]; try exact H.
  destruct (_ =? PARENT_OPEN).
  { destruct (rfd_byindex fds _) eqn:E; [exact H|].
    destruct (parent_open _ _ _ _ _) as [[[fds1 eff] ok]|] eqn:Eo; [|exact H]. now apply open_one in Eo. }
  destruct (_ =? PARENT_CLOSE).
  { destruct (rfd_byindex fds _) as [r|]; [|exact H]. unfold parent_close. cbn [r_fds]. now apply remove_one. }
  destruct (req_answer _ _ _ _ _) as [[n buf] eff]. exact H.
Qed.
Lemma run_one_each cfg es : forall fds, one_each fds -> one_each (r_fds (parent_run cfg fds es)).
Proof.
  induction es as [|e es IH]; intros fds H; cbn [parent_run]; [exact H|].
  assert (K : one_each (r_fds (parent_step cfg fds e))).
  { destruct e; [now apply req_one_each|now apply send_one_each]. }
  destruct (r_alive _); [|exact K]. cbn [r_fds]. now apply IH.
Qed.
