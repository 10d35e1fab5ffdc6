(** From the timer of one daemon to the table of another. *)
From Verif Require Import Base Types Tlv Checks Msg Cdp Edp Fdp Ndp Lldp Protos Bpf Wire Parent Util Child Netif Sysinfo Send Timer
  Spec SpecAdv SpecRound SpecNet SpecChild SpecNetif SpecNetif2 SpecSend SpecSys SpecE2E SpecHold SpecTimer SpecListed.
From Verif Require Import Lemmas NetProofs ChildProofs ChildProofs2 SendProofs1 SendProofs2 SendProofs3 SendProofs4 SendProofs5 SendProofs6
  SysProofs1 SysProofs2 E2EProofs TimerProofs HoldProofs HoldProofs2.
From Coq Require Import Lia.

(** ** A sent frame is news *)
Lemma sent_news cfg os country location st e st' eff i p f index d c now now2 :
  running_on cfg os country location st -> event_ok e -> send_step cfg st e = DOk (st', eff) -> In (SFrame i p f) eff -> p <> 2 ->
  0 <= index < 4294967296 -> parent_recv index [f] = [d] ->
  netif_byindex (c_nfs c) index <> None -> netif_byaddr (c_nfs c) (firstn 6 (skipn 6 f)) = None ->
  exists en, news c (CRecv d now now2) en /\ who en = (index, p, firstn 12 f) /\ q_received en = now /\ q_ttl en = 180.
Proof.
  intros R O H K N2 Hx Hd Hi Ha.
  destruct (sent_from _ _ _ _ _ _ _ _ (on_running _ _ _ _ _ R) O H K) as (nos & nfs & si & seq & top & s & port & W & S & U & P & CC & Esi & Hs & -> & Hp & Q & Ef & L & Ip & P1 & P2 & P3).
  specialize (CC (on_consistent _ _ _ _ _ R)).
  rewrite Ef in L. destruct (due_meant _ _ _ _ _ _ _ _ W S U P CC Q Hs Hp N2 L) as (B & L60 & Src & pl & attrs & Fr & M & A0 & A1). rewrite <- Ef in *.
  destruct (group_frame p f pl Hp N2 Fr) as [Ga Nf].
  assert (Hp' : 0 <= arrives p < 5) by (unfold arrives; destruct (Z.eqb_spec p 5); lia).
  destruct (forward_cases index f Hx B) as (_ & _ & Fw). destruct (Fw (arrives p) L60 Hp' Ga) as (d' & Fd & Cd).
  rewrite (firstn_all2 (n := 1518%nat) f) in Cd by (unfold zlen in L; lia).
  assert (Ad : SpecChild.advert (arrives p) f p 180 attrs) by exact (meant_advert _ _ pl _ _ _ (frame_arrives p f pl Hp Fr) M).
  assert (d' = d). { unfold parent_recv in Hd. rewrite Fd in Hd. now injection Hd. } subst d'.
  destruct (netif_byindex (c_nfs c) index) as [sub|] eqn:Ei; [|easy].
  eexists. split.
  - exists d, now, now2, index, (arrives p), f, sub, p, 180, attrs. split; [reflexivity|]. split; [assumption|]. split; [lia|]. split; [lia|].
    split; [assumption|]. split; [exact Ad|]. split; [exact Ei|]. split; [exact Ha|]. reflexivity.
  - split; [|now split]. unfold who. cbn [q_index q_proto q_msg]. f_equal.
    rewrite firstn_app. replace (12 - length f)%nat with 0%nat by (unfold zlen in L60; lia). apply app_nil_r.
Qed.

(** ** Rounds *)
Fixpoint tight (g : Z) (l : list Z) : Prop :=
  match l with
  | a :: ((b :: _) as r) => b <= a + g /\ tight g r
  | _ => True
  end.
Lemma run_tight cfg late : forall h ts ts' effs r, tt_due ts = Some (r + 30) -> timed_run cfg ts h = DOk (ts', effs) ->
  prompt cfg late ts h -> tight (30 + late) (r :: rounds h).
Proof.
  induction h as [|[t e] h IH]; intros ts ts' effs r D H P; [exact I|]. cbn [timed_run prompt] in H, P.
  apply dbind_ok in H as ([ts1 eff1] & H1 & H). apply dbind_ok in H as ([ts2 effs2] & H2 & H). apply dok_eq in H as [<- <-].
  destruct P as [P1 P2]. specialize (P1 _ D). specialize (P2 _ _ H1).
  destruct (step_due _ _ _ _ _ _ _ D H1) as [D1 L].
  destruct e as [os now|os hatype flags index now|e]; cbn [after_event] in D1;
    [|exact (IH _ _ _ r D1 H2 P2)|exact (IH _ _ _ r D1 H2 P2)].
  cbn [rounds flat_map fst snd app]. fold (rounds h). split; [lia|]. exact (IH _ _ _ t D1 H2 P2).
Qed.
Lemma rounds_app a b : rounds (a ++ b) = rounds a ++ rounds b.
Proof. apply flat_map_app. Qed.
Lemma forward_split l : forall t a b, l = a ++ b -> forward t l -> forward t a.
Proof.
  induction l as [|x l IH]; intros t a b E H; [destruct a; [exact I|discriminate]|].
  destruct a as [|y a]; [exact I|]. cbn in E. injection E as -> ->. destruct H as [H1 H2]. split; [assumption|]. exact (IH y a b eq_refl H2).
Qed.
Lemma forward_rounds h : forall t, forward t (map fst h) -> forward t (rounds h).
Proof.
  assert (W : forall l t u, t <= u -> forward u l -> forward t l) by (intros [|y l] t u L H; [exact I|]; destruct H; split; [lia|assumption]).
  induction h as [|[x e] h IH]; intros t H; [exact I|]. destruct H as [H1 H2]. apply IH in H2.
  destruct e; cbn [rounds flat_map fst snd app]; fold (rounds h); [now split|exact (W _ _ _ H1 H2)|exact (W _ _ _ H1 H2)].
Qed.
Lemma tight_last g : forall l r x w, 0 <= g -> tight g (r :: l) -> r :: l = x ++ w -> w <> [] -> forall a, In a w ->
  forward r l -> last l r - (zlen w - 1) * g <= a.
Proof.
  induction l as [|y l IH]; intros r x w G T E Nw a Ha F.
  - destruct x as [|z x]; [cbn in E; subst w; destruct Ha as [<-|[]]; rewrite zlen_cons, zlen_nil; cbn; lia|].
    cbn in E. injection E as -> E. destruct x; [cbn in E; now subst w|discriminate].
  - destruct T as [T1 T2]. destruct F as [F1 F2]. rewrite last_cons.
    destruct x as [|z x].
    + cbn in E. subst w. destruct Ha as [<-|Ha].
      * rewrite zlen_cons. specialize (IH y [] (y :: l) G T2 eq_refl ltac:(discriminate) y (or_introl eq_refl) F2). nia.
      * specialize (IH y [] (y :: l) G T2 eq_refl ltac:(discriminate) a Ha F2). rewrite zlen_cons. nia.
    + cbn in E. injection E as -> E. exact (IH y x w G T2 E Nw a Ha F2).
Qed.
Lemma tight_count g : forall l r, 0 <= g -> tight g (r :: l) -> last l r <= r + zlen l * g.
Proof.
  induction l as [|y l IH]; intros r G T; [cbn; rewrite zlen_nil; lia|]. destruct T as [T1 T2]. rewrite last_cons, zlen_cons.
  specialize (IH y G T2). nia.
Qed.
Lemma first_late T : forall (h : list (Z * sevent)), (exists x, In x h /\ T <= fst x) ->
  exists h1 t e h2, h = h1 ++ (t, e) :: h2 /\ T <= t /\ Forall (fun x => fst x < T) h1.
Proof.
  induction h as [|[t e] h IH]; intros (x & Hx & Lx); [easy|].
  destruct (Z_le_gt_dec T t) as [L|L]; [exists [], t, e, h; now repeat split|].
  destruct Hx as [<-|Hx]; [cbn in Lx; lia|]. destruct (IH (ex_intro _ x (conj Hx Lx))) as (h1 & u & e' & h2 & -> & L1 & L2).
  exists ((t, e) :: h1), u, e', h2. split; [reflexivity|]. split; [assumption|]. constructor; [cbn; lia|assumption].
Qed.
Lemma rounds_in r h : In r (rounds h) -> exists x, In x h /\ fst x = r.
Proof.
  intros H. apply in_flat_map in H as ([t e] & H1 & H2). exists (t, e). split; [assumption|].
  destruct e; cbn in H2; [destruct H2 as [<-|[]]; reflexivity|easy|easy].
Qed.
(** Among the runs before time [S], the last [m+1] are recent. *)
Lemma window cfg late h ts ts' effs t0 (m : nat) S : 0 <= late -> tt_due ts = Some (t0 + 30) -> timed_run cfg ts h = DOk (ts', effs) ->
  forward t0 (map fst h) -> prompt cfg late ts h -> (exists x, In x h /\ S <= fst x) -> t0 + Z.of_nat m * (30 + late) < S ->
  exists x w y, t0 :: rounds h = x ++ w ++ y /\ length w = (m + 1)%nat
  /\ forall r, In r w -> r <= S /\ S - (Z.of_nat m + 1) * (30 + late) <= r.
Proof.
  intros Hl D R F P Ex Hm. destruct (first_late S h Ex) as (h1 & t & e & h2 & -> & Ht & Hb).
  destruct (run_gaps cfg late h1 t e h2 ts ts' effs t0 t0 D ltac:(lia) R F P) as [G1 G2].
  pose proof (run_tight _ _ _ _ _ _ _ D R P) as Ti. pose proof (forward_rounds _ _ F) as Fr. rewrite rounds_app in Ti, Fr.
  set (l1 := rounds h1) in *. set (l2 := rounds ((t, e) :: h2)) in *.
  assert (T1 : tight (30 + late) (t0 :: l1)).
  { clear - Ti. revert t0 Ti. induction l1 as [|a l1 IH]; intros t0 Ti; [exact I|]. destruct Ti as [A B]. split; [assumption|]. now apply IH. }
  assert (F1 : forward t0 l1) by exact (forward_split _ _ _ _ eq_refl Fr).
  pose proof (tight_count (30 + late) l1 t0 ltac:(lia) T1) as Cn.
  assert (Len : (m + 1 <= length (t0 :: l1))%nat).
  { cbn [length]. enough (Z.of_nat m <= zlen l1) by (unfold zlen in *; lia). nia. }
  exists (firstn (length (t0 :: l1) - (m + 1)) (t0 :: l1)), (skipn (length (t0 :: l1) - (m + 1)) (t0 :: l1)), l2.
  split; [rewrite rounds_app; fold l1 l2; now rewrite app_assoc, firstn_skipn|].
  assert (Lw : length (skipn (length (t0 :: l1) - (m + 1)) (t0 :: l1)) = (m + 1)%nat) by (rewrite skipn_length; lia).
  split; [exact Lw|]. intros r Hr. split.
  - assert (Hr' : In r (t0 :: l1)).
    { rewrite <- (firstn_skipn (length (t0 :: l1) - (m + 1)) (t0 :: l1)). apply in_or_app. now right. }
    destruct Hr' as [<-|Hr']; [nia|]. apply rounds_in in Hr' as (x & X1 & <-). rewrite Forall_forall in Hb. specialize (Hb x X1). lia.
  - pose proof (tight_last (30 + late) l1 t0 _ _ ltac:(lia) T1 (eq_sym (firstn_skipn (length (t0 :: l1) - (m + 1)) (t0 :: l1)))
      ltac:(intros Z0; rewrite Z0 in Lw; cbn in Lw; lia) r Hr F1) as K.
    unfold zlen in K. rewrite Lw in K. nia.
Qed.

(** ** Two daemons *)
Lemma says_sent cfg sos country location st t os now h ts effs r i p f :
  running_on cfg sos country location st -> os_ok os -> Forall (fun x => event_ok (snd x)) h ->
  timed_run cfg (fst (timed_boot cfg t os now st)) h = DOk (ts, effs) -> says cfg t os now st h r i p f ->
  exists st1 e st2 eff, running_on cfg sos country location st1 /\ event_ok e /\ send_step cfg st1 e = DOk (st2, eff) /\ In (SFrame i p f) eff.
Proof.
  intros R O F H S. destruct (timed_boot cfg t os now st) as [ts0 eff0] eqn:B. destruct (boot_send _ _ _ _ _ _ _ B) as [B1 _].
  assert (St0 : send_step cfg st (EvRun os now) = DOk (tt_st ts0, eff0)) by (cbn; now rewrite B1).
  destruct S as [[_ S]|(h1 & os' & now' & h2 & ts1 & effs1 & ts2 & eff & -> & H1 & H2 & H3)].
  - rewrite B in S. exists st, (EvRun os now), (tt_st ts0), eff0. split; [exact R|]. split; [exact O|]. split; [exact St0|exact S].
  - rewrite B in H1. cbn [fst] in *. apply Forall_app in F as [F1 F2]. apply Forall_inv in F2.
    exists (tt_st ts1), (EvRun os' now'), (tt_st ts2), eff. split; [|split; [exact F2|split; [exact (step_send _ _ _ _ _ _ H2)|exact H3]]].
    assert (R0 : running_on cfg sos country location (tt_st ts0)) by exact (on_event _ _ _ _ _ (EvRun os now) _ _ R O St0).
    clear H H2 H3 B B1 St0 ts2 eff. revert ts0 R0 effs1 H1. induction h1 as [|[u e] h1 IH]; intros ts0 R0 effs1 H1; cbn [timed_run] in H1.
    + now apply dok_eq in H1 as [<- _].
    + apply dbind_ok in H1 as ([ts3 e3] & K1 & K). apply dbind_ok in K as ([ts4 e4] & K2 & K). apply dok_eq in K as [<- _].
      apply (IH (Forall_inv_tail F1) ts3) with (effs1 := e4); [|exact K2].
      exact (on_event _ _ _ _ _ _ _ _ R0 (Forall_inv F1) (step_send _ _ _ _ _ _ K1)).
Qed.
Theorem stays_listed cfg sos country location st t0 os now h ts effs late (m : nat) lag i p hdr opts es c eff index T :
  running_on cfg sos country location st -> os_ok os -> Forall (fun x => event_ok (snd x)) h ->
  timed_run cfg (fst (timed_boot cfg t0 os now st)) h = DOk (ts, effs) ->
  forward t0 (map fst h) -> prompt cfg late (fst (timed_boot cfg t0 os now st)) h -> 0 <= late -> p <> 2 ->
  reached opts es c eff -> Forall ordinary es -> steadily 0 es -> Forall (until T) es -> 0 <= index < 4294967296 ->
  (forall x w y, t0 :: rounds h = x ++ w ++ y -> length w = (m + 1)%nat ->
     exists r f a, In r w /\ says cfg t0 os now st h r i p f /\ firstn 12 f = hdr /\ r <= a <= r + lag /\ (a <= T -> arrives_at opts es index f a)) ->
  holds_for opts es (index, p, hdr) 180 ->
  (Z.of_nat m + 1) * (30 + late) + lag <= 180 ->
  t0 + Z.of_nat m * (30 + late) + lag < T -> (exists x, In x h /\ T - lag <= fst x) ->
  exists x, In x (c_queue c) /\ who x = (index, p, hdr) /\ T <= q_received x + q_ttl x.
Proof.
  intros R O F H Fw P Hl N2 Re Or Sd Un Hx W Hf H180 Hm Ex.
  assert (D : tt_due (fst (timed_boot cfg t0 os now st)) = Some (t0 + 30)).
  { destruct (timed_boot cfg t0 os now st) as [ts0 eff0] eqn:B. exact (proj2 (boot_send _ _ _ _ _ _ _ B)). }
  destruct (window cfg late h _ _ _ t0 m (T - lag) Hl D H Fw P Ex ltac:(lia)) as (x & w & y & E & Lw & Hw).
  destruct (W x w y E Lw) as (r & f & a & Hr & Sy & Eh & Ha & Ar). destruct (Hw r Hr) as [W1 W2].
  destruct (Ar ltac:(lia)) as (es1 & d & a2 & es2 & c1 & eff1 & -> & R1 & Pd & Ki & Ka).
  destruct (says_sent _ _ _ _ _ _ _ _ _ _ _ _ _ _ _ R O F H Sy) as (st1 & e & st2 & eff2 & S1 & S2 & S3 & S4).
  destruct (sent_news _ _ _ _ _ _ _ _ _ _ _ index d c1 a a2 S1 S2 S3 S4 N2 Hx Pd Ki Ka) as (en & Nw & Wn & Rn & Tn).
  rewrite Eh in Wn. rewrite <- Wn.
  apply (recent opts es1 (CRecv d a a2) es2 c1 eff1 en c eff 0 T); try assumption; try lia.
  intros b z b' c2 e2 v -> R2 K Wv. rewrite Tn. apply (Hf (es1 ++ CRecv d a a2 :: b) z b' c2 e2 v); [now rewrite <- app_assoc| |exact K|now rewrite Wv].
  rewrite <- app_assoc in R2. exact R2.
Qed.
