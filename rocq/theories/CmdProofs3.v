(** Proofs of C143. *)
From Verif Require Import Base Types Checks Tlv Msg Protos Util Child Parent Netif Sysinfo Send Opts Getopt Config Spec SpecNet SpecAdv SpecNetif SpecNetif2 SpecSend SpecJoint SpecOpts SpecGetopt SpecCmd SpecFlow.
From Verif Require Import Lemmas TimerProofs OptsProofs GetoptProofs NetifProofs9 SendProofs4 SendProofs6 FlowProofs1 FlowProofs2 JointProofs JointProofs2 CmdProofs.

Lemma has_on n o names s b xs : main_opts n o names = Some s -> In (b, xs) switched_on -> has (u_opts s) b = given xs o.
Proof. intros M. apply (opts_switches n o names s M). Qed.
Lemma cmd_listen n perm words s names o os now st nfs si i ias :
  main_argv n perm words = Some (s, names) -> says perm daemon_letters words o names ->
  running (conf_of s names) st -> os_ok os -> no_ifaddrs os = Some ias -> names_apart ias ->
  refresh (conf_of s names) os st nfs si -> consistent os nfs ->
  (In i (opens (snd (child_send (conf_of s names) os NETIF_INDEX_MAX true now st)))
   <-> given (bs "aryz") o = true /\ exists top sub,
        In top nfs /\ chosen names top /\ allowed o top
        /\ In sub (stands_for os nfs top) /\ allowed o sub /\ nf_index sub = i
        /\ (given (bs "a") o = true -> nf_protos sub = 0)).
Proof.
  intros A Y R O E NA F C. apply daemon_iff in A as (o' & Y' & M). destruct (says_unique _ _ _ _ _ _ _ (or_introl eq_refl) Y Y') as [<- _]. clear Y'.
  destruct (listening _ _ now _ _ _ R O F C) as [L _]. cbv zeta in L. rewrite L. clear L.
  destruct (running_refreshed _ _ R) as (oss & nfs0 & R1 & R2). destruct F as (ret & gone & F & _).
  destruct (refresh_rest _ _ _ _ _ _ _ _ _ _ _ R1 R2 E O NA F) as (_ & _ & MK & _).
  assert (NH : opt (conf_of s names) 3 = false -> none_heard nfs) by (intros A3; exact (fetch_none _ _ _ _ _ _ _ _ (running_none _ _ A3 R) F)).
  rewrite (opt_on n o names s M OPT_AUTO 3 (bs "a")) in NH by (cbn; auto || reflexivity || lia).
  unfold listened. rewrite (opt_on n o names s M OPT_RECV 2 (bs "aryz")) by (cbn; auto || reflexivity || lia).
  destruct (given (bs "aryz") o); [|split; [easy|intros [H _]; discriminate]].
  assert (Sub : forall top sub, In top nfs -> In sub (stands_for os nfs top) -> In sub nfs).
  { intros top sub T H. unfold stands_for in H. destruct (_ <=? _).
    - destruct H as [<-|[]]. exact T.
    - apply in_flat_map in H as (r & _ & H). unfold at_index in H. destruct (find _ nfs) as [m|] eqn:Em; [|easy]. destruct H as [<-|[]]. now apply find_some in Em. }
  assert (Z0 : forall sub, In sub nfs -> nf_protos sub =? 0 = true <-> (given (bs "a") o = true -> nf_protos sub = 0)).
  { intros sub H. rewrite Z.eqb_eq. destruct (given (bs "a") o); [tauto|]. split; [discriminate 2|]. intros _. specialize (NH eq_refl). unfold none_heard in NH.
    rewrite Forall_forall in NH. apply NH. now apply in_map. }
  rewrite in_flat_map. split.
  - intros (top & H1 & H2). split; [reflexivity|]. apply filter_In in H1 as [H1 H3]. apply andb_prop in H3 as [H3 H4].
    apply in_map_iff in H2 as (sub & H5 & H2). apply filter_In in H2 as [H2 H6]. apply andb_prop in H6 as [H6 H7].
    exists top, sub. split; [assumption|]. split; [now apply (selected_chosen n o names s M nfs)|]. split; [now apply (eligible_allowed n o names s M)|].
    split; [assumption|]. split; [now apply (eligible_allowed n o names s M)|]. split; [assumption|]. apply Z0; [now apply (Sub top)|assumption].
  - intros (_ & top & sub & H1 & H2 & H3 & H4 & H5 & H6 & H7). exists top. split.
    + apply filter_In. split; [assumption|]. apply andb_true_intro. split; [now apply (selected_chosen n o names s M nfs)|now apply (eligible_allowed n o names s M)].
    + apply in_map_iff. exists sub. split; [assumption|]. apply filter_In. split; [assumption|]. apply andb_true_intro.
      split; [now apply (eligible_allowed n o names s M)|]. apply Z0; [now apply (Sub top)|assumption].
Qed.

(** ** Groups *)
Lemma multi_in cfg index : forall en p j op g, In (EMulti j op g) (multi_loop cfg index p en 1) <->
  j = index /\ op = 1 /\ exists k, (k < length en)%nat /\ nth k en false || has (pc_opts cfg) OPT_AUTO = true /\ g = proto_dst (p + Z.of_nat k).
Proof.
  induction en as [|e en IH]; intros p j op g; cbn [multi_loop length].
  - split; [easy|]. intros (_ & _ & k & H & _). lia.
  - change (negb (1 =? 0)) with true. cbv iota. rewrite <- Bool.negb_orb. destruct (e || has (pc_opts cfg) OPT_AUTO) eqn:E; cbn [negb].
    + cbn [In]. change PACKET_ADD_MEMBERSHIP with 1. rewrite IH. split.
      * intros [H|(-> & -> & k & K1 & K2 & ->)].
        -- injection H as <- <- <-. split; [reflexivity|]. split; [reflexivity|]. exists 0%nat. split; [lia|]. split; [exact E|]. f_equal. lia.
        -- split; [reflexivity|]. split; [reflexivity|]. exists (S k). split; [lia|]. split; [exact K2|]. f_equal. lia.
      * intros (-> & -> & k & K1 & K2 & ->). destruct k as [|k].
        -- left. f_equal. f_equal. lia.
        -- right. split; [reflexivity|]. split; [reflexivity|]. exists k. split; [lia|]. split; [exact K2|]. f_equal. lia.
    + rewrite IH. split.
      * intros (-> & -> & k & K1 & K2 & ->). split; [reflexivity|]. split; [reflexivity|]. exists (S k). split; [lia|]. split; [exact K2|]. f_equal. lia.
      * intros (-> & -> & k & K1 & K2 & ->). destruct k as [|k]; [cbn [nth] in K2; congruence|].
        split; [reflexivity|]. split; [reflexivity|]. exists k. split; [lia|]. split; [exact K2|]. f_equal. lia.
Qed.
Lemma enabled_length n o names s : main_opts n o names = Some s -> length (u_enabled s) = 6%nat.
Proof.
  unfold main_opts. destruct (opt_loop n setup0 o) as [t|] eqn:E; [|discriminate]. cbn [obind].
  assert (L : forall l a b, length (u_enabled a) = 6%nat -> opt_loop n a l = Some b -> length (u_enabled b) = 6%nat).
  { induction l as [|[x arg] l IH]; intros a b La; cbn [opt_loop]; [now intros [= <-]|].
    destruct (opt_step n a x arg) as [c|] eqn:Ec; [|discriminate]. cbn [obind]. apply IH. clear -La Ec.
    destruct a as [oo u e mi m4 m6 cc l0 en]. cbn [u_enabled] in La. unfold opt_step in Ec.
    repeat match type of Ec with
    | (match ?x with _ => _ end) = _ => destruct x; try discriminate Ec
    end; injection Ec as <-; cbn [set_opts enable u_enabled]; try exact La;
      do 7 (destruct en as [|? en]; try discriminate La); try reflexivity. }
  specialize (L o setup0 t eq_refl E). clear E. destruct (_ && _); [discriminate|]. intros [= <-].
  destruct names; [exact L|]. destruct t. exact L.
Qed.
Lemma cmd_groups n perm words s names o pci team fds index name os fds' eff j op g :
  main_argv n perm words = Some (s, names) -> says perm daemon_letters words o names ->
  parent_open (pconf_of s pci team) fds index name os = Some (fds', eff, true) ->
  (In (EMulti j op g) eff <->
   given (bs "aryz") o = true /\ given (bs "d") o = false /\ j = index /\ op = 1
   /\ exists p, In p [0; 1; 2; 3; 4] /\ g = group_address p /\ (given (letter_of p) o = true \/ given (bs "a") o = true)).
Proof.
  intros A Y H. apply daemon_iff in A as (o' & Y' & M). destruct (says_unique _ _ _ _ _ _ _ (or_introl eq_refl) Y Y') as [<- _]. clear Y'.
  unfold parent_open, pconf_of in H. cbn [pc_opts] in H. destruct (os_sock os) as [fd| |]; try discriminate. destruct (fd <? 0); [discriminate|]. injection H as _ <-.
  rewrite !(has_on n o names s) with (xs := bs "aryz") (b := OPT_RECV) by (assumption || (cbn; auto)).
  rewrite (has_on n o names s OPT_DEBUG (bs "d")) by (assumption || (cbn; auto)).
  cbn [In]. destruct (given (bs "aryz") o); cbn [negb orb]; [|split; [intros [H|[]]; discriminate|intros [H _]; discriminate]].
  destruct (given (bs "d") o) eqn:D; [split; [intros [H|[]]; discriminate|intros (_ & H & _); discriminate]|].
  unfold parent_multi. cbn [pc_opts pc_enabled]. rewrite (has_on n o names s OPT_DEBUG (bs "d")), D by (assumption || (cbn; auto)).
  rewrite multi_in. cbn [pc_opts]. rewrite (has_on n o names s OPT_AUTO (bs "a")) by (assumption || (cbn; auto)). rewrite (enabled_length n o names s M).
  destruct (opts_switches n o names s M) as (_ & _ & _ & P & P5).
  assert (P' : forall p, In p [0; 1; 2; 3; 4] -> nth (Z.to_nat p) (u_enabled s) false = given (letter_of p) o).
  { intros p [<-|[<-|[<-|[<-|[<-|[]]]]]]; cbn [Z.to_nat]; apply P; cbn; auto 10. }
  split.
  - intros [H|(-> & -> & k & K1 & K2 & ->)]; [discriminate|]. do 4 (split; [reflexivity|]). destruct (Nat.eq_dec k 5) as [->|K5].
    + exists 1. split; [cbn; auto|]. split; [reflexivity|]. right. rewrite P5 in K2. exact K2.
    + exists (Z.of_nat k). assert (Kin : In (Z.of_nat k) [0; 1; 2; 3; 4]) by (do 5 (destruct k as [|k]; [cbn; auto 10|]); lia).
      split; [assumption|]. split; [do 5 (destruct k as [|k]; [reflexivity|]); lia|].
      rewrite <- (P' _ Kin), Nat2Z.id. now apply Bool.orb_true_iff.
  - intros (_ & _ & -> & -> & p & Kin & -> & K). right. split; [reflexivity|]. split; [reflexivity|]. exists (Z.to_nat p).
    split; [destruct Kin as [<-|[<-|[<-|[<-|[<-|[]]]]]]; cbn; lia|]. rewrite (P' p Kin). split; [now apply Bool.orb_true_iff|].
    destruct Kin as [<-|[<-|[<-|[<-|[<-|[]]]]]]; reflexivity.
Qed.

(** ** Descriptions *)
Lemma fold_none {A B} (f : A * list B -> Z -> A * list B) (P : B -> Prop) l x :
  (forall x i, Forall P (snd x) -> Forall P (snd (f x i))) -> Forall P (snd x) -> Forall P (snd (fold_left f l x)).
Proof. intros H. revert x. induction l as [|i l IH]; intros x Hx; [exact Hx|]. cbn [fold_left]. apply IH. now apply H. Qed.
Definition silent_on (e : ceff) : Prop := match e with CDescr _ _ => False | _ => True end.
Lemma update_silent opts q l x : has opts OPT_IFDESCR = false -> Forall silent_on (snd x) -> Forall silent_on (snd (fold_left (update_one opts q) l x)).
Proof.
  intros F. apply fold_none. intros [nfs eff] i H. unfold update_one. destruct (netif_byindex nfs i) as [sub|]; [|exact H]. destruct (nf_update sub =? 0); [exact H|].
  cbv zeta. rewrite F. cbn [snd] in *. now rewrite app_nil_r.
Qed.
Lemma expire_silent opts now c : has opts OPT_IFDESCR = false -> Forall silent_on (snd (child_expire opts now c)).
Proof.
  intros F. unfold child_expire. destruct (now =? -1); [constructor|]. destruct (expire_loop now (c_queue c) (c_nfs c)) as [q nfs].
  pose proof (update_silent opts q (map nf_index nfs) (nfs, []) F (Forall_nil _)) as H. unfold update_loop. destruct (fold_left _ _ _) as [nfs' eff]. exact H.
Qed.
Lemma step_silent opts c e c' eff : has opts OPT_IFDESCR = false -> child_step opts c e = DOk (c', eff) -> Forall silent_on eff.
Proof.
  intros F Hs.
  assert (W : forall sid b ws, child_cli_write c sid b ws = DOk (c', eff) -> Forall silent_on eff).
  { intros sid b ws. unfold child_cli_write. destruct (find _ _) as [s|]; [|intros [= _ <-]; constructor].
    destruct b; [intros [= _ <-]; constructor|]. intros Hw. apply dbind_ok in Hw as ((q1 & l) & _ & Hw).
    assert (L : forall q ws', Forall silent_on (fst (write_loop sid q ws'))).
    { intros q. induction q as [|x q IH]; intros ws'; [constructor|]. cbn [write_loop]. specialize (IH (tl ws')).
      destruct ws' as [|[| |] ws']; try constructor; destruct (write_loop sid q _); cbn in *; constructor; easy. }
    specialize (L l ws). destruct (write_loop _ _ _) as [e1 [j|]]; injection Hw as _ <-; exact L. }
  destruct e as [d now now2|now|l|sid|sid ws|sid]; cbn [child_step] in Hs.
  - revert Hs. unfold child_queue. cbv zeta.
    destruct (negb _); [intros [= _ <-]; constructor|]. destruct (now =? -1); [intros [= _ <-]; constructor|].
    destruct (negb _); [discriminate|]. destruct (negb _); [discriminate|].
    destruct (netif_byindex _ _) as [sub|] eqn:Es; [|intros [= _ <-]; constructor].
    destruct (netif_byaddr _ _); [intros [= _ <-]; constructor|].
    destruct (proto_decode _ _ _) as [[n s]| | | |]; try discriminate; [|intros [= _ <-]; constructor].
    destruct (n =? 0); [intros [= _ <-]; constructor|].
    destruct (queue_put _ _ _) as [q fresh]. destruct (s_ttl s =? 0).
    + intros H. injection H as H. pose proof (expire_silent opts now2 (mkChild (c_nfs c) q (c_sess c) fresh) F) as K. rewrite H in K. exact K.
    + rewrite F. intros H. assert (E : eff = []); [|rewrite E; constructor].
      destruct (_ || _); [now injection H as <- <-|]. destruct (_ && _); now injection H as <- <-.
  - injection Hs as Hs. pose proof (expire_silent opts now c F) as K. rewrite Hs in K. exact K.
  - injection Hs as _ <-. constructor.
  - destruct (existsb _ _); injection Hs as _ <-; constructor.
  - now apply W in Hs.
  - now apply W in Hs.
Qed.
Definition silent_s (e : seff) : Prop := match e with SChild c => silent_on c | _ => True end.
Lemma proto_quiet cfg nfs si top sub x p : Forall silent_s (snd x) -> Forall silent_s (snd (send_proto cfg nfs si top sub x p)).
Proof.
  intros H. destruct x as [c eff]. unfold send_proto. cbn [snd] in *. destruct (_ && _); [exact H|]. cbv zeta. destruct (proto_build _ _ _ _ _ _ _ _); [|exact H].
  cbn [snd]. apply Forall_app. split; [exact H|repeat constructor].
Qed.
Lemma sub_quiet cfg os si index top x i : Forall silent_s (snd x) -> Forall silent_s (snd (send_sub cfg os si index top x i)).
Proof.
  intros H. destruct x as [[T c] e]. unfold send_sub. cbn [snd] in *. destruct (_ && _); [exact H|]. destruct (netif_byindex T i) as [s|]; [|exact H]. cbv zeta.
  destruct (send_skip cfg s); [exact H|].
  match goal with |- context [if ?b then [SOpen i] else []] => set (e1 := if b then [SOpen i] else []); assert (K : Forall silent_s e1) by (unfold e1; destruct b; repeat constructor) end.
  assert (L : Forall silent_s (e ++ e1)) by (apply Forall_app; now split).
  destruct (negb _); [exact L|]. destruct (netif_byindex _ i) as [u|]; [|exact L]. destruct (netif_byindex _ top) as [t|]; [|exact L].
  match goal with |- context [fold_left ?f ?l ?x] => pose proof (fold_none f silent_s l x (fun y p => proto_quiet _ _ _ _ _ y p) (Forall_nil _)) as Q; destruct (fold_left f l x) as [c' e2] end.
  cbn [snd] in *. apply Forall_app. split; [exact H|]. apply Forall_app. now split.
Qed.
Lemma loop_quiet cfg os index T si c : Forall silent_s (snd (send_loop cfg os index T si c)).
Proof.
  unfold send_loop. assert (G : forall l x, Forall silent_s (snd x) -> Forall silent_s (snd (fold_left (send_top cfg os si index T) l x))); [|apply G; constructor].
  induction l as [|n l IH]; intros x H; [exact H|]. cbn [fold_left]. apply IH. unfold send_top. destruct (send_skip cfg n); [exact H|].
  apply fold_none; [|exact H]. intros y i. apply sub_quiet.
Qed.
Lemma closes_quiet l : Forall silent_s (map SClose l).
Proof. induction l; now constructor. Qed.
Lemma run_quiet cfg os index timeout now st : has (sc_opts cfg) OPT_IFDESCR = false -> Forall silent_s (snd (child_send cfg os index timeout now st)).
Proof.
  intros F. unfold child_send. cbv zeta.
  match goal with |- context [let '(_, _) := ?a in _] => set (A := a); assert (HA : Forall silent_s (snd A)) end.
  { unfold A. destruct (_ && _); [constructor|]. destruct (netif_fetch _ _ _ _) as [[[ret nfs] si] gone]. destruct (ret =? 0); [apply closes_quiet|].
    destruct (_ && _); [apply closes_quiet|]. pose proof (loop_quiet cfg os index nfs si (st_edp st)) as Q. destruct (send_loop _ _ _ _ _ _) as [[T e] eff].
    cbn [snd] in *. apply Forall_app. split; [apply closes_quiet|exact Q]. }
  destruct A as [st1 e1]. cbn [snd] in HA. destruct (_ && _); [|exact HA].
  pose proof (expire_silent (sc_opts cfg) now (st_child st1) F) as Q. destruct (child_expire _ _ _) as [c' e2]. cbn [snd] in *.
  apply Forall_app. split; [exact HA|]. clear -Q. induction Q; constructor; assumption.
Qed.
Lemma event_quiet cfg st e st' eff : has (sc_opts cfg) OPT_IFDESCR = false -> send_step cfg st e = DOk (st', eff) -> Forall silent_s eff.
Proof.
  intros F H. destruct e as [os now|os hatype flags index now|e].
  - cbn [send_step] in H. injection H as H. pose proof (run_quiet cfg os NETIF_INDEX_MAX true now st F) as Q. rewrite H in Q. exact Q.
  - cbn [send_step] in H. injection H as H. unfold child_link in H. destruct (negb _); [injection H as _ <-; constructor|].
    destruct (negb _); [injection H as _ <-; constructor|]. match type of H with child_send ?a ?b ?c ?d ?e ?f = _ => pose proof (run_quiet a b c d e f F) as Q end. rewrite H in Q. exact Q.
  - assert (G : forall c' x, child_step (sc_opts cfg) (st_child st) e = DOk (c', x) -> eff = map SChild x -> Forall silent_s eff).
    { intros c' x S ->. pose proof (step_silent _ _ _ _ _ F S) as Q. clear -Q. induction Q; constructor; assumption. }
    destruct e; cbn [send_step] in H; try (injection H as _ <-; apply Forall_nil);
      (match type of H with context [child_step ?a ?b ?c] => destruct (child_step a b c) as [[c' x]| | | |] eqn:ES end; try discriminate; cbn in H; injection H as _ <-; exact (G _ _ eq_refl eq_refl)).
Qed.
Lemma cmd_descr n perm words s names o st e st' eff i t :
  main_argv n perm words = Some (s, names) -> says perm daemon_letters words o names ->
  send_step (conf_of s names) st e = DOk (st', eff) -> In (SChild (CDescr i t)) eff -> given (bs "yz") o = true.
Proof.
  intros A Y H K. apply daemon_iff in A as (o' & Y' & M). destruct (says_unique _ _ _ _ _ _ _ (or_introl eq_refl) Y Y') as [<- _]. clear Y'.
  rewrite <- (has_on n o names s OPT_IFDESCR (bs "yz") M) by (cbn; auto 20).
  destruct (has (u_opts s) OPT_IFDESCR) eqn:F; [reflexivity|]. pose proof (event_quiet (conf_of s names) _ _ _ _ F H) as Q.
  rewrite Forall_forall in Q. specialize (Q _ K). destruct Q.
Qed.
