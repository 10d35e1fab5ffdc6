(** Histories of programs. *)
From Verif Require Import Base Types Start SpecStart Lemmas.

Lemma after_from_snoc k w past h c :
  after_from k w past (h ++ [c])
  = (if succeeded c (k (past ++ h ++ [c])) then effect (after_from k w past h) c else after_from k w past h).
Proof.
  revert w past. induction h as [|x h IH]; intros w past; cbn [app after_from]; [reflexivity|].
  rewrite IH. now rewrite <- !app_assoc.
Qed.
Lemma after_snoc k w h c :
  after k w (h ++ [c]) = (if succeeded c (k (h ++ [c])) then effect (after k w h) c else after k w h).
Proof. unfold after. now rewrite after_from_snoc. Qed.

(** A property of every moment of a history: [P past c] when [c] is called. *)
Definition always (P : list call -> call -> Prop) (h : list call) : Prop :=
  forall pre c post, h = pre ++ c :: post -> P pre c.
Lemma always_nil P : always P [].
Proof. intros pre c post E. now destruct pre. Qed.
Lemma app_cons_snoc A (pre post h : list A) c d : pre ++ c :: post = h ++ [d] ->
  (post = [] /\ pre = h /\ c = d) \/ exists q, post = q ++ [d] /\ h = pre ++ c :: q.
Proof.
  intros E. destruct post as [|x post] using rev_ind.
  - apply app_inj_tail in E as [-> ->]. now left.
  - right. rewrite app_comm_cons, app_assoc in E. apply app_inj_tail in E as [<- <-]. now exists post.
Qed.
Lemma always_snoc P h c : always P h -> P h c -> always P (h ++ [c]).
Proof.
  intros H Hc pre d post E. symmetry in E. apply app_cons_snoc in E as [(-> & -> & ->)|(q & -> & ->)]; [assumption|].
  now apply (H pre d q).
Qed.
Lemma always_last P h c : always P (h ++ [c]) -> always P h /\ P h c.
Proof.
  intros H. split; [|now apply (H h c [])]. intros pre d post ->. apply (H pre d (post ++ [c])). now rewrite <- app_assoc.
Qed.
Lemma always_mono (P Q : list call -> call -> Prop) h :
  (forall pre c, P pre c -> Q pre c) -> always P h -> always Q h.
Proof. intros I H pre c post E. eapply I, H, E. Qed.

(** Triples: from histories in [pre] the program ends with [post], or exits with
    [ex]; it never dereferences a null pointer. *)
Definition triple {A} (pre : list call -> Prop) (m : proc A) (post : A -> list call -> Prop) (ex : Z -> list call -> Prop) : Prop :=
  forall h, pre h ->
    match m h with
    | (ERet a, h') => post a h'
    | (EExit s, h') => ex s h'
    | (EUB, _) => False
    end.
Lemma t_ret A (a : A) (post : A -> list call -> Prop) ex : triple (post a) (ret a) post ex.
Proof. intros h H. exact H. Qed.
Lemma t_exit A s (post : A -> list call -> Prop) ex : triple (ex s) (exit s) post ex.
Proof. intros h H. exact H. Qed.
Lemma t_seq A B (m : proc A) (f : A -> proc B) pre mid post ex :
  triple pre m mid ex -> (forall a, triple (mid a) (f a) post ex) -> triple pre (seq m f) post ex.
Proof.
  intros Hm Hf h Hh. unfold seq. specialize (Hm h Hh). destruct (m h) as [[a|s|] h']; [|exact Hm|exact Hm].
  exact (Hf a h' Hm).
Qed.
Lemma t_sys k c (post : answer -> list call -> Prop) ex : triple (fun h => post (k (h ++ [c])) (h ++ [c])) (sys k c) post ex.
Proof. intros h H. exact H. Qed.
Lemma t_pre A (m : proc A) (pre pre' : list call -> Prop) post ex :
  triple pre m post ex -> (forall h, pre' h -> pre h) -> triple pre' m post ex.
Proof. intros H I h Hh. apply H, I, Hh. Qed.
Lemma t_post A (m : proc A) pre (post post' : A -> list call -> Prop) ex :
  triple pre m post ex -> (forall a h, post a h -> post' a h) -> triple pre m post' ex.
Proof. intros H I h Hh. specialize (H h Hh). destruct (m h) as [[a|s|] h']; auto. Qed.
Lemma t_sys' k c (pre : list call -> Prop) (post : answer -> list call -> Prop) ex :
  (forall h, pre h -> post (k (h ++ [c])) (h ++ [c])) -> triple pre (sys k c) post ex.
Proof. intros H h Hh. now apply H. Qed.
Lemma t_exit' A s (pre : list call -> Prop) (post : A -> list call -> Prop) (ex : Z -> list call -> Prop) :
  (forall h, pre h -> ex s h) -> triple pre (exit s) post ex.
Proof. intros H h Hh. now apply H. Qed.
Lemma t_ret' A (a : A) (pre : list call -> Prop) (post : A -> list call -> Prop) ex :
  (forall h, pre h -> post a h) -> triple pre (ret a) post ex.
Proof. intros H h Hh. now apply H. Qed.

(** A call whose failure is fatal, before the fork. *)
Lemma t_need k opts c (pre : list call -> Prop) (post : list call -> Prop) (ex : Z -> list call -> Prop) :
  (forall h, pre h -> a_ret (k (h ++ [c])) <> -1 -> post (h ++ [c])) ->
  (forall h, pre h -> a_ret (k (h ++ [c])) = -1 -> ex 1 (h ++ [c])) ->
  triple pre (need k opts 0 c) (fun _ => post) ex.
Proof.
  intros H1 H2 h Hh. unfold need, seq, sys, fatal. cbn. destruct (a_ret (k (h ++ [c])) =? -1) eqn:E.
  - cbn. apply H2; [assumption|lia].
  - cbn. apply H1; [assumption|lia].
Qed.
