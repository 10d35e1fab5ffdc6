From Verif Require Import Base Types Tlv Protos Wire Util Child Netif Send Timer SpecTimer Lemmas CliProofs2.
From Coq Require Import Lia.

Lemma body_send cfg os index timeout now st :
  child_send_timed cfg os index timeout now st
  = (fst (child_send cfg os index timeout now st), snd (child_send cfg os index timeout now st),
     if timeout then Some 30 else None).
Proof.
  unfold child_send_timed, send_body, child_send. cbv zeta.
  set (fl := negb (index =? NETIF_INDEX_MAX) && _).
  assert (K : forall (st1 : sstate) (eff1 : list seff),
    (if negb timeout then (st1, eff1, None)
     else let '(st2, eff2) := if has (sc_opts cfg) OPT_RECV
            then let '(c', eff) := child_expire (sc_opts cfg) now (st_child st1) in (mkSt c' (st_si st1) (st_edp st1), map SChild eff)
            else (st1, []) in (st2, eff1 ++ eff2, Some SLEEPTIME))
    = let r := if timeout && has (sc_opts cfg) OPT_RECV then
          let '(c', eff2) := child_expire (sc_opts cfg) now (st_child st1) in (mkSt c' (st_si st1) (st_edp st1), eff1 ++ map SChild eff2)
          else (st1, eff1) in (fst r, snd r, if timeout then Some 30 else None)).
  { intros st1 eff1. destruct timeout; cbn [negb andb]; [|reflexivity].
    destruct (has _ _); [|cbn; now rewrite app_nil_r]. destruct (child_expire _ _ _). reflexivity. }
  destruct fl; [exact (K _ _)|]. destruct (netif_fetch _ _ _ _) as [[[count nfs] si] gone].
  destruct (count =? 0); [exact (K _ _)|]. destruct (negb _ && _); [exact (K _ _)|].
  destruct (send_loop _ _ _ _ _ _) as [[nfs' edp] eff]. exact (K _ _).
Qed.

Lemma dok_eq {A B} (a a' : A) (b b' : B) : DOk (a, b) = DOk (a', b') -> a = a' /\ b = b'.
Proof. intros H. now injection H. Qed.

Lemma pair_eq {A B} (a a' : A) (b b' : B) : (a, b) = (a', b') -> a = a' /\ b = b'.
Proof. intros H. now injection H. Qed.

(** ** The events are those of Send.v *)
Lemma step_send cfg t ts e ts' eff : timed_step cfg t ts e = DOk (ts', eff) ->
  send_step cfg (tt_st ts) e = DOk (tt_st ts', eff).
Proof.
  destruct e as [os now|os hatype flags index now|e]; cbn [timed_step send_step].
  - destruct (tt_due ts) as [d|]; [|discriminate]. destruct (t <? d); [discriminate|].
    rewrite body_send. intros H. apply dok_eq in H as [<- <-]. cbn [tt_st]. now rewrite <- surjective_pairing.
  - unfold child_link. destruct (negb _); [intros H; apply dok_eq in H as [<- <-]; reflexivity|]. destruct (negb _); [intros H; apply dok_eq in H as [<- <-]; reflexivity|].
    rewrite body_send. intros H. apply dok_eq in H as [<- <-]. cbn [tt_st]. now rewrite <- surjective_pairing.
  - intros H. apply dbind_ok in H as ([st' eff'] & H1 & H2). apply dok_eq in H2 as [<- <-]. exact H1.
Qed.
Lemma run_send cfg : forall h ts ts' effs, timed_run cfg ts h = DOk (ts', effs) ->
  send_run cfg (tt_st ts) (map snd h) = DOk (tt_st ts', effs).
Proof.
  induction h as [|[t e] h IH]; intros ts ts' effs H; cbn [timed_run map snd send_run] in *; [apply dok_eq in H as [<- <-]; reflexivity|].
  apply dbind_ok in H as ([ts1 eff1] & H1 & H). apply dbind_ok in H as ([ts2 effs2] & H2 & H). apply dok_eq in H as [<- <-].
  rewrite (step_send _ _ _ _ _ _ H1). cbn. now rewrite (IH _ _ _ H2).
Qed.
Lemma boot_send cfg t os now st ts eff : timed_boot cfg t os now st = (ts, eff) ->
  child_send cfg os NETIF_INDEX_MAX true now st = (tt_st ts, eff) /\ tt_due ts = Some (t + 30).
Proof. unfold timed_boot. rewrite body_send. intros H. apply pair_eq in H as [<- <-]. cbn. split; [apply surjective_pairing|reflexivity]. Qed.

(** ** The timer *)
Lemma last_cons {A} (x : A) : forall l a, last (x :: l) a = last l x.
Proof.
  intros l. revert x. induction l as [|y l IH]; intros x a; [reflexivity|].
  change (last (x :: y :: l) a) with (last (y :: l) a). now rewrite !IH.
Qed.
Definition after_event (t : Z) (e : sevent) (d : Z) : Z := match e with EvRun _ _ => t + 30 | _ => d end.
Lemma step_due cfg t ts e ts' eff d : tt_due ts = Some d -> timed_step cfg t ts e = DOk (ts', eff) ->
  tt_due ts' = Some (after_event t e d) /\ match e with EvRun _ _ => d <= t | _ => True end.
Proof.
  intros D. destruct e as [os now|os hatype flags index now|e]; cbn [timed_step after_event].
  - rewrite D. destruct (Z.ltb_spec t d); [discriminate|]. rewrite body_send. intros H'. apply dok_eq in H' as [<- <-]. split; [reflexivity|lia].
  - destruct (negb _); [intros H; apply dok_eq in H as [<- <-]; now split|]. destruct (negb _); [intros H; apply dok_eq in H as [<- <-]; now split|].
    rewrite body_send. intros H. apply dok_eq in H as [<- <-]. now split.
  - intros H. apply dbind_ok in H as ([st' eff'] & H1 & H2). apply dok_eq in H2 as [<- <-]. now split.
Qed.
Lemma run_due cfg : forall h ts ts' effs r, tt_due ts = Some (r + 30) -> timed_run cfg ts h = DOk (ts', effs) ->
  tt_due ts' = Some (last (rounds h) r + 30).
Proof.
  induction h as [|[t e] h IH]; intros ts ts' effs r D H; cbn [timed_run] in H; [apply dok_eq in H as [<- <-]; exact D|].
  apply dbind_ok in H as ([ts1 eff1] & H1 & H). apply dbind_ok in H as ([ts2 effs2] & H2 & H). apply dok_eq in H as [<- <-].
  destruct (step_due _ _ _ _ _ _ _ D H1) as [D1 _].
  destruct e as [os now|os hatype flags index now|e]; cbn [after_event] in D1;
    [|exact (IH _ _ _ r D1 H2)|exact (IH _ _ _ r D1 H2)].
  rewrite (IH _ _ _ t D1 H2). cbn [rounds flat_map fst snd app]. fold (rounds h).
  now rewrite last_cons.
Qed.
Lemma run_spaced cfg : forall h ts ts' effs r, tt_due ts = Some (r + 30) -> timed_run cfg ts h = DOk (ts', effs) ->
  spaced 30 (r :: rounds h).
Proof.
  induction h as [|[t e] h IH]; intros ts ts' effs r D H; [exact I|]. cbn [timed_run] in H.
  apply dbind_ok in H as ([ts1 eff1] & H1 & H). apply dbind_ok in H as ([ts2 effs2] & H2 & H). apply dok_eq in H as [<- <-].
  destruct (step_due _ _ _ _ _ _ _ D H1) as [D1 L].
  destruct e as [os now|os hatype flags index now|e]; cbn [after_event] in D1;
    [|exact (IH _ _ _ r D1 H2)|exact (IH _ _ _ r D1 H2)].
  cbn [rounds flat_map fst snd app]. fold (rounds h). split; [lia|]. exact (IH _ _ _ t D1 H2).
Qed.
Lemma forward_in : forall l t u, forward t l -> In u l -> t <= u.
Proof. induction l as [|x l IH]; intros t u H K; [easy|]. destruct H as [H1 H2]. destruct K as [<-|K]; [assumption|]. specialize (IH _ _ H2 K). lia. Qed.
Lemma run_gaps cfg late : forall h1 t e h2 ts ts' effs r0 r, tt_due ts = Some (r + 30) -> r <= r0 ->
  timed_run cfg ts (h1 ++ (t, e) :: h2) = DOk (ts', effs) ->
  forward r0 (map fst (h1 ++ (t, e) :: h2)) -> prompt cfg late ts (h1 ++ (t, e) :: h2) ->
  let q := last (rounds h1) r in In q (r :: rounds h1) /\ q <= t <= q + 30 + late.
Proof.
  induction h1 as [|[t1 e1] h1 IH]; intros t e h2 ts ts' effs r0 r D Hr H F P q.
  - cbn in F, P. destruct F as [F _]. destruct P as [P _]. specialize (P _ D). subst q. cbn. split; [now left|]. lia.
  - cbn [app timed_run] in H. apply dbind_ok in H as ([ts1 eff1] & H1 & H). apply dbind_ok in H as ([ts2 effs2] & H2 & H). apply dok_eq in H as [<- <-].
    cbn [app map fst forward prompt] in F, P. destruct F as [F1 F2]. destruct P as [_ P2]. specialize (P2 _ _ H1).
    destruct (step_due _ _ _ _ _ _ _ D H1) as [D1 L].
    destruct e1 as [os now|os hatype flags index now|e1]; cbn [after_event] in D1;
      [|exact (IH _ _ _ _ _ _ t1 r D1 ltac:(lia) H2 F2 P2)|exact (IH _ _ _ _ _ _ t1 r D1 ltac:(lia) H2 F2 P2)].
    destruct (IH _ _ _ _ _ _ t1 t1 D1 ltac:(lia) H2 F2 P2) as [I1 I2].
    assert (E : q = last (rounds h1) t1).
    { subst q. cbn [rounds flat_map fst snd app]. fold (rounds h1). apply last_cons. }
    rewrite E. split; [|exact I2]. cbn [rounds flat_map fst snd app]. fold (rounds h1). now right.
Qed.
Lemma step_fires cfg ts d t os now : tt_due ts = Some d -> d <= t ->
  exists ts' eff, timed_step cfg t ts (EvRun os now) = DOk (ts', eff)
  /\ child_send cfg os NETIF_INDEX_MAX true now (tt_st ts) = (tt_st ts', eff) /\ tt_due ts' = Some (t + 30).
Proof.
  intros D L. cbn [timed_step]. rewrite D. replace (t <? d) with false by lia. rewrite body_send.
  do 2 eexists. split; [reflexivity|]. cbn. split; [apply surjective_pairing|reflexivity].
Qed.
Lemma step_early cfg ts d t os now : tt_due ts = Some d -> t < d -> timed_step cfg t ts (EvRun os now) = DFail.
Proof. intros D L. cbn [timed_step]. rewrite D. now replace (t <? d) with true by lia. Qed.
