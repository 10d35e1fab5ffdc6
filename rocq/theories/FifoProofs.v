(** Proofs for C126. *)
From Verif Require Import Base Types Tlv Checks Wire Parent Netif Mreq Util Child Send Spec SpecNet SpecNetif SpecMreq Ipc SpecIpc SpecSend SpecOnce SpecJoint SpecFifo.
From Verif Require Import Lemmas WireProofs NetProofs MreqProofs NetifProofs6 SendProofs1 SendProofs3 SendProofs5 SendProofs6 TimerProofs JointProofs IpcProofs.

Lemma steps_ind room starts cfg (P : list ievent -> ipc -> Prop) :
  (forall es s e s', P es s -> istep room starts cfg s e s' -> P (es ++ [e]) s') ->
  forall s es s', isteps room starts cfg s es s' -> forall es0, P es0 s -> P (es0 ++ es) s'.
Proof.
  intros H s es s' R. induction R as [s|s1 e s2 es s3 A _ IH]; intros es0 H0; [now rewrite app_nil_r|].
  change (e :: es) with ([e] ++ es). rewrite app_assoc. apply IH. now apply (H es0 s1).
Qed.
Ltac proj := cbn [i_child i_parent i_fds i_req i_rep i_out i_in] in *.
Ltac ev := rewrite ?flat_map_app; cbn [flat_map app]; rewrite ?app_nil_r.

(** ** Order *)
Definition ordered (es : list ievent) (s : ipc) : Prop :=
  put es = acted_on es ++ i_out s /\ due es = taken es ++ i_in s ++ to_hand_over s.
Lemma step_ordered room starts cfg es s e s' : ordered es s -> istep room starts cfg s e s' -> ordered (es ++ [e]) s'.
Proof.
  unfold ordered, put, acted_on, due, taken, to_hand_over. intros [A B] H. destruct H; proj; ev;
    rewrite ?app_nil_r in B; (split; [rewrite A|rewrite B]); rewrite <- ?app_assoc; cbn [app]; try reflexivity.
  - subst r. destruct (parent_reply _ _ _); now rewrite ?app_nil_r.
  - subst r. destruct (r_alive _); now rewrite ?app_nil_r.
Qed.
Theorem in_order room starts cfg t es s : isteps room starts cfg (ipc_start t) es s ->
  put es = acted_on es ++ i_out s /\ due es = taken es ++ i_in s ++ to_hand_over s.
Proof.
  intros R. apply (steps_ind room starts cfg ordered (fun es s e s' => step_ordered room starts cfg es s e s') _ _ _ R []). now split.
Qed.

(** ** Requests and answers *)
Definition quiet (p : pproc) : Prop := forall d, p <> PReply d.
Inductive phase (cfg : pcfg) (es : list ievent) : ipc -> Prop :=
| ph_free t p fds o i : quiet p -> length (requests es) = length (answers es) ->
    served es = combine (requests es) (map Some (answers es)) -> phase cfg es (mkIpc (Run t) p fds [] [] o i)
| ph_asked k p fds o i R d : quiet p -> requests es = R ++ [d] -> length R = length (answers es) ->
    served es = combine R (map Some (answers es)) -> phase cfg es (mkIpc (Await k) p fds [d] [] o i)
| ph_answered k p fds rp o i R d a os fds0 : requests es = R ++ [d] -> length R = length (answers es) ->
    served es = combine R (map Some (answers es)) ++ [(d, Some a)] ->
    parent_reply d os (parent_req cfg fds0 d os) = Some a -> In (PReq d os) (parent_saw es) ->
    (p = PReply a /\ rp = []) \/ (quiet p /\ rp = [a]) ->
    phase cfg es (mkIpc (Await k) p fds [] rp o i)
| ph_over k fds o i R d : requests es = R ++ [d] -> length R = length (answers es) ->
    served es = combine R (map Some (answers es)) ++ [(d, None)] -> phase cfg es (mkIpc (Await k) PEnd fds [] [] o i).
Ltac answered_with := match goal with H : parent_reply ?d ?os (parent_req _ ?f ?d ?os) = Some ?a, K : requests _ = ?R ++ [?d] |- _ =>
  apply (ph_answered _ _ _ _ _ _ _ _ R d a os f) end.
Lemma combine_snoc {A B} (a : list A) (b : list B) x y : length a = length b -> combine (a ++ [x]) (b ++ [y]) = combine a b ++ [(x, y)].
Proof. revert b. induction a as [|u a IH]; intros [|v b] H; try discriminate H; [reflexivity|]. cbn. f_equal. apply IH. now injection H. Qed.
Lemma saw_app a b : parent_saw (a ++ b) = parent_saw a ++ parent_saw b. Proof. apply flat_map_app. Qed.
Lemma step_phase room starts cfg es s e s' : phase cfg es s -> istep room starts cfg s e s' -> phase cfg (es ++ [e]) s'.
Proof.
  assert (U : forall (f : ievent -> list (list Z)) es e, flat_map f (es ++ [e]) = flat_map f es ++ f e) by (intros; rewrite flat_map_app; cbn; now rewrite app_nil_r).
  assert (US : forall (f : ievent -> list (list Z * option (list Z))) es e, flat_map f (es ++ [e]) = flat_map f es ++ f e) by (intros; rewrite flat_map_app; cbn; now rewrite app_nil_r).
  intros P H. destruct H.
  - inversion P; subst. apply ph_free; unfold requests, answers, served in *; rewrite ?U, ?US; rewrite ?app_nil_r; assumption.
  - inversion P; subst. apply ph_free; unfold requests, answers, served in *; rewrite ?U, ?US; rewrite ?app_nil_r; assumption.
  - inversion P; subst. cbn [app]. apply (ph_asked _ _ _ _ _ _ _ (requests es)); unfold requests, answers, served in *; rewrite ?U, ?US; rewrite ?app_nil_r; try assumption. reflexivity.
  - inversion P; subst. match goal with H : _ \/ _ |- _ => destruct H as [[-> K]|[Q K]]; [discriminate K|] end. injection K as -> ->.
    apply ph_free; [assumption| |]; unfold requests, answers, served in *; rewrite ?U, ?US; cbn; rewrite ?app_nil_r, ?map_app; cbn [map].
    + match goal with H : _ = R ++ [d0] |- _ => rewrite H end. rewrite !app_length. cbn. lia.
    + match goal with H : _ = R ++ [d0] |- _ => rewrite H end. rewrite combine_snoc by (now rewrite map_length). assumption.
  - inversion P; subst. apply ph_free; unfold requests, answers, served in *; rewrite ?U, ?US; rewrite ?app_nil_r; assumption.
  - subst r. inversion P; subst. destruct (parent_reply d os (parent_req cfg fds d os)) as [a|] eqn:E.
    + apply (ph_answered _ _ _ _ _ _ _ _ R d a os fds); try (unfold requests, answers, served in *; rewrite ?U, ?US; cbn; rewrite ?app_nil_r; congruence).
      * rewrite saw_app. apply in_or_app. right. now left.
      * left. now split.
    + apply (ph_over _ _ _ _ _ _ R d); unfold requests, answers, served in *; rewrite ?U, ?US; cbn; rewrite ?app_nil_r; congruence.
  - inversion P; subst; try (match goal with H : quiet (PReply _) |- _ => now contradiction (H _ eq_refl) end).
    match goal with H : _ \/ _ |- _ => destruct H as [[K ->]|[Q _]]; [|now contradiction (Q _ eq_refl)] end. injection K as <-. cbn [app].
    answered_with; try (unfold requests, answers, served in *; rewrite ?U, ?US; cbn; rewrite ?app_nil_r; assumption); try assumption.
    + rewrite saw_app. apply in_or_app. now left.
    + right. split; [discriminate|reflexivity].
  - subst r. assert (Q : quiet (if r_alive (parent_send cfg fds d os) then PIdle else PEnd)) by (destruct (r_alive _); discriminate).
    inversion P; subst.
    + apply ph_free; [assumption| |]; unfold requests, answers, served in *; rewrite ?U, ?US; rewrite ?app_nil_r; assumption.
    + apply (ph_asked _ _ _ _ _ _ _ R); unfold requests, answers, served in *; rewrite ?U, ?US; rewrite ?app_nil_r; assumption.
    + answered_with; try (unfold requests, answers, served in *; rewrite ?U, ?US; cbn; rewrite ?app_nil_r; assumption); try assumption.
      * rewrite saw_app. apply in_or_app. now left.
      * match goal with H : _ \/ _ |- _ => destruct H as [[K _]|[_ ->]]; [discriminate K|] end. right. now split.
  - assert (Q : quiet (PRecv (parent_recv (rf_index r) captured))) by discriminate. inversion P; subst.
    + apply ph_free; [assumption| |]; unfold requests, answers, served in *; rewrite ?U, ?US; rewrite ?app_nil_r; assumption.
    + apply (ph_asked _ _ _ _ _ _ _ R); unfold requests, answers, served in *; rewrite ?U, ?US; rewrite ?app_nil_r; assumption.
    + answered_with; try (unfold requests, answers, served in *; rewrite ?U, ?US; cbn; rewrite ?app_nil_r; assumption); try assumption.
      * rewrite saw_app. apply in_or_app. now left.
      * match goal with H : _ \/ _ |- _ => destruct H as [[K _]|[_ ->]]; [discriminate K|] end. right. now split.
  - assert (Q : quiet (PRecv ms)) by discriminate. inversion P; subst.
    + apply ph_free; [assumption| |]; unfold requests, answers, served in *; rewrite ?U, ?US; rewrite ?app_nil_r; assumption.
    + apply (ph_asked _ _ _ _ _ _ _ R); unfold requests, answers, served in *; rewrite ?U, ?US; rewrite ?app_nil_r; assumption.
    + answered_with; try (unfold requests, answers, served in *; rewrite ?U, ?US; cbn; rewrite ?app_nil_r; assumption); try assumption.
      * rewrite saw_app. apply in_or_app. now left.
      * match goal with H : _ \/ _ |- _ => destruct H as [[K _]|[_ ->]]; [discriminate K|] end. right. now split.
  - assert (Q : quiet PIdle) by discriminate. inversion P; subst.
    + apply ph_free; [assumption| |]; unfold requests, answers, served in *; rewrite ?U, ?US; rewrite ?app_nil_r; assumption.
    + apply (ph_asked _ _ _ _ _ _ _ R); unfold requests, answers, served in *; rewrite ?U, ?US; rewrite ?app_nil_r; assumption.
    + answered_with; try (unfold requests, answers, served in *; rewrite ?U, ?US; cbn; rewrite ?app_nil_r; assumption); try assumption.
      * rewrite saw_app. apply in_or_app. now left.
      * match goal with H : _ \/ _ |- _ => destruct H as [[K _]|[_ ->]]; [discriminate K|] end. right. now split.
Qed.
Lemma phases room starts cfg t es s : isteps room starts cfg (ipc_start t) es s -> phase cfg es s.
Proof.
  intros R. apply (steps_ind room starts cfg (phase cfg) (fun es s e s' => step_phase room starts cfg es s e s') _ _ _ R []).
  apply ph_free; [discriminate|reflexivity|reflexivity].
Qed.
Lemma combine_more {A B} (a c : list A) (b : list B) : length a = length b -> combine (a ++ c) b = combine a b.
Proof. revert b. induction a as [|u a IH]; intros [|v b] H; try discriminate H; [now destruct c|]. cbn. f_equal. apply IH. now injection H. Qed.
Theorem own_answers room starts cfg t es s : isteps room starts cfg (ipc_start t) es s ->
  (length (answers es) <= length (requests es) <= S (length (answers es)))%nat
  /\ exists rest, (length rest <= 1)%nat /\ served es = combine (requests es) (map Some (answers es)) ++ rest.
Proof.
  intros R. apply phases in R. destruct R as [t0 p fds o i Q L V|k p fds o i R d Q E L V|k p fds rp o i R d a os fds0 E L V _ _ _|k fds o i R d E L V].
  - split; [lia|]. exists []. split; [cbn; lia|now rewrite app_nil_r].
  - split; [rewrite E, app_length; cbn; lia|]. exists []. split; [cbn; lia|]. rewrite E, combine_more by (now rewrite map_length). now rewrite app_nil_r.
  - split; [rewrite E, app_length; cbn; lia|]. exists [(d, Some a)]. split; [cbn; lia|]. rewrite E, combine_more by (now rewrite map_length). assumption.
  - split; [rewrite E, app_length; cbn; lia|]. exists [(d, None)]. split; [cbn; lia|]. rewrite E, combine_more by (now rewrite map_length). assumption.
Qed.

(** ** The privileged process *)
Lemma run_app cfg : forall a b fds, parent_run cfg fds (a ++ b) =
  let r := parent_run cfg fds a in
  if r_alive r then let r' := parent_run cfg (r_fds r) b in mkRes (r_fds r') (r_eff r ++ r_eff r') (r_alive r') else r.
Proof.
  induction a as [|e a IH]; intros b fds; cbn [app parent_run].
  - cbv zeta. cbn [r_alive r_fds r_eff app]. now destruct (parent_run cfg fds b).
  - cbv zeta. destruct (r_alive (parent_step cfg fds e)) eqn:E; [|now rewrite E]. rewrite IH. cbv zeta. cbn [r_alive r_fds r_eff].
    destruct (r_alive (parent_run cfg (r_fds (parent_step cfg fds e)) a)) eqn:D; [|now rewrite D]. cbn [r_alive r_fds r_eff]. now rewrite app_assoc.
Qed.
Lemma run_one cfg fds e : parent_run cfg fds [e] = parent_step cfg fds e.
Proof. cbn [parent_run]. destruct (parent_step cfg fds e) as [f x []]; cbn; [now rewrite app_nil_r|reflexivity]. Qed.
Lemma reply_alive cfg fds d os : parent_reply d os (parent_req cfg fds d os) = None <-> r_alive (parent_req cfg fds d os) = false.
Proof.
  split; [|unfold parent_reply; now intros ->]. unfold parent_reply. destruct (r_alive _) eqn:A; [|easy]. intros H. exfalso. revert A H.
  unfold parent_req. cbv zeta. destruct (negb _); [discriminate|].
  assert (G : forall f x op idx len buf al, match rev (r_eff (mkRes f (x ++ [EReply op idx len buf]) al)) with
     | EReply op index len data :: _ => Some (req_bytes op index (match os_name os with Some n => n | None => cstr (slice (req_mem d) 8 16) end) len data)
     | _ => None end <> None).
  { intros. cbn [r_eff]. rewrite rev_app_distr. cbn. discriminate. }
  destruct (os_name os) as [name|]; [|intros _ K; now apply G in K].
  destruct (parent_check _ _ _) as [[|]|]; try discriminate. destruct (_ =? PARENT_OPEN).
  - destruct (rfd_byindex _ _); [intros _ K; now apply G in K|]. destruct (parent_open _ _ _ _ _) as [[[fds1 eff] ok]|]; [intros _ K; now apply G in K|discriminate].
  - destruct (_ =? PARENT_CLOSE).
    + destruct (rfd_byindex _ _); [|intros _ K; now apply G in K]. destruct (parent_close _ _ _) as [fds1 eff]. intros _ K; now apply G in K.
    + destruct (req_answer _ _ _ _ _) as [[n b] eff]. intros _ K; now apply G in K.
Qed.
Definition mirrors (cfg : pcfg) (es : list ievent) (s : ipc) : Prop :=
  i_fds s = r_fds (parent_run cfg [] (parent_saw es)) /\ (i_parent s = PEnd <-> r_alive (parent_run cfg [] (parent_saw es)) = false).
Lemma step_mirrors room starts cfg es s e s' : mirrors cfg es s -> istep room starts cfg s e s' -> mirrors cfg (es ++ [e]) s'.
Proof.
  intros [A B] H. unfold mirrors. destruct H; proj; rewrite saw_app; cbn [parent_saw flat_map app]; rewrite ?app_nil_r; try (now split).
  - subst r. assert (L : r_alive (parent_run cfg [] (parent_saw es)) = true) by (destruct (r_alive _); [reflexivity|now destruct B as [_ B]; specialize (B eq_refl)]).
    rewrite run_app. cbv zeta. rewrite L, run_one, <- A. cbn [r_fds r_alive parent_step]. split; [reflexivity|].
    rewrite <- reply_alive. destruct (parent_reply _ _ _); split; easy.
  - split; [assumption|]. rewrite <- B. split; discriminate.
  - subst r. assert (L : r_alive (parent_run cfg [] (parent_saw es)) = true) by (destruct (r_alive _); [reflexivity|now destruct B as [_ B]; specialize (B eq_refl)]).
    rewrite run_app. cbv zeta. rewrite L, run_one, <- A. cbn [r_fds r_alive parent_step]. split; [reflexivity|]. destruct (r_alive (parent_send cfg fds d os)); split; easy.
  - split; [assumption|]. rewrite <- B. split; discriminate.
  - split; [assumption|]. rewrite <- B. split; discriminate.
  - split; [assumption|]. rewrite <- B. split; discriminate.
Qed.
Lemma mirrored room starts cfg t es s : isteps room starts cfg (ipc_start t) es s -> mirrors cfg es s.
Proof.
  intros R. apply (steps_ind room starts cfg (mirrors cfg) (fun es s e s' => step_mirrors room starts cfg es s e s') _ _ _ R []).
  split; [reflexivity|]. split; discriminate.
Qed.
Lemma steps_split room starts cfg : forall es1 s es2 s', isteps room starts cfg s (es1 ++ es2) s' ->
  exists m, isteps room starts cfg s es1 m /\ isteps room starts cfg m es2 s'.
Proof.
  induction es1 as [|e es1 IH]; intros s es2 s' H; [exists s; split; [constructor|exact H]|]. cbn [app] in H. inversion H; subst.
  match goal with K : isteps _ _ _ _ (es1 ++ es2) _ |- _ => apply IH in K as (m & K1 & K2) end. exists m. split; [econstructor; eassumption|assumption].
Qed.
Theorem as_alone room starts cfg t es s : isteps room starts cfg (ipc_start t) es s ->
  let r := parent_run cfg [] (parent_saw es) in
  i_fds s = r_fds r /\ (i_parent s = PEnd <-> r_alive r = false)
  /\ forall es1 d os a es2, es = es1 ++ IServe d os a :: es2 ->
       a = parent_reply d os (parent_req cfg (r_fds (parent_run cfg [] (parent_saw es1))) d os).
Proof.
  intros R. destruct (mirrored _ _ _ _ _ _ R) as [A B]. split; [exact A|]. split; [exact B|].
  intros es1 d os a es2 ->. apply steps_split in R as (m & R1 & R2). destruct (mirrored _ _ _ _ _ _ R1) as [C _].
  inversion R2; subst. match goal with K : istep _ _ _ _ _ _ |- _ => inversion K; subst end. proj. now rewrite <- C.
Qed.
