(** How long neighbours are listed: C116, and one daemon listed by another: C117. *)
From Verif Require Import Base Types Tlv Msg Protos Bpf Wire Parent Util Child Netif Sysinfo Send Timer Spec SpecAdv SpecRound SpecNet SpecChild SpecSend SpecSys
  SpecE2E SpecHold SpecTimer SpecListed Cases2 Cases3 Cases4 Cases6 Cases7 PropSys PropE2E PropTimer
  Lemmas DecProofs ChildProofs2 SendProofs6 HoldProofs HoldProofs2 HoldProofs3.

(** C116.  The table after any history holds exactly what is known from the
    advertisements heard, with their contents.  What is known is listed whatever
    the clients do. *)
Theorem C116_listed opts es c eff en :
  reached opts es c eff -> Forall ordinary es -> known opts es en -> exists x, In x (c_queue c) /\ content x = en.
Proof. intros R O K. exact (known_listed opts es en K O c eff R). Qed.
Print Assumptions C116_listed.
(** What is listed is known, where no client has to wait (with waiting clients see
    C28, C33 and C34: an entry can then stay for ever). *)
Theorem C116_nothing_else opts es c eff x :
  reached opts es c eff -> Forall ordinary es -> Forall unblocked es -> In x (c_queue c) -> known opts es (content x).
Proof. intros R O U H. exact (listed_known opts es O U c eff x R H). Qed.
Print Assumptions C116_nothing_else.
(** In particular: after an advertisement the neighbour is listed with it as long
    as nothing newer was heard from it and no clean-up was after the hold time; *)
Theorem C116_kept opts es1 e es2 c1 eff1 en c eff :
  reached opts es1 c1 eff1 -> news c1 e en -> q_ttl en <> 0 -> reached opts (es1 ++ e :: es2) c eff ->
  Forall ordinary (es1 ++ e :: es2) -> unheard opts (es1 ++ [e]) es2 (who en) ->
  (forall t, cleaned opts (es1 ++ [e]) es2 t -> t <= q_received en + q_ttl en) ->
  exists x, In x (c_queue c) /\ content x = en.
Proof. exact (kept opts es1 e es2 c1 eff1 en c eff). Qed.
Print Assumptions C116_kept.
(** and once there was one it is no longer listed, until it is heard again. *)
Theorem C116_dropped opts es1 e es2 c1 eff1 en c eff t :
  reached opts es1 c1 eff1 -> news c1 e en -> reached opts (es1 ++ e :: es2) c eff ->
  Forall ordinary (es1 ++ e :: es2) -> Forall unblocked (es1 ++ e :: es2) -> unheard opts (es1 ++ [e]) es2 (who en) ->
  cleaned opts (es1 ++ [e]) es2 t -> q_received en + q_ttl en < t ->
  forall x, In x (c_queue c) -> who x <> who en.
Proof. exact (dropped opts es1 e es2 c1 eff1 en c eff t). Qed.
Print Assumptions C116_dropped.
(** With a clock that does not go back: a neighbour heard with hold time [ttl] is
    listed for [ttl] seconds, whatever else happens, if it announces no shorter
    hold times meanwhile. *)
Theorem C116_heard_recently opts es1 e es2 c1 eff1 en c eff t0 t :
  reached opts es1 c1 eff1 -> news c1 e en -> q_ttl en <> 0 -> reached opts (es1 ++ e :: es2) c eff ->
  Forall ordinary (es1 ++ e :: es2) -> steadily t0 (es1 ++ e :: es2) -> Forall (until t) (es1 ++ e :: es2) ->
  t <= q_received en + q_ttl en ->
  (forall a y b c2 eff2 x, es2 = a ++ y :: b -> reached opts ((es1 ++ [e]) ++ a) c2 eff2 -> news c2 y x ->
     who x = who en -> q_ttl en <= q_ttl x) ->
  0 < q_ttl en ->
  exists x, In x (c_queue c) /\ who x = who en /\ t <= q_received x + q_ttl x.
Proof. exact (recent opts es1 e es2 c1 eff1 en c eff t0 t). Qed.
Print Assumptions C116_heard_recently.

(** Two switches with 120 and 90 seconds, a client looking, the first heard again,
    a run after the hold time of the second, and the shutdown of a third one. *)
Definition b_es1 : list cevent := [CFetch u_nfs; CRecv (u_in 1 (u_sw 1 120)) 100 100].
Definition b_e : cevent := CRecv (u_in 1 (u_sw 2 90)) 103 103.
Definition b_es2 : list cevent :=
  [CAccept 7; CReady 7 [WOk; WOk; WOk]; CRecv (u_in 1 (u_sw 1 120)) 130 130; CTick 200; CRecv (u_in 3 (u_sw 9 0)) 201 201].
Lemma b_advert f ttl : bytes f -> 60 <= zlen f <= 1518 -> proto_frame 0 f (skipn 14 f) ->
  match proto_decode 0 (t_ctx 0 1 f) (mkDst no_peers 0 0 []) with DOk (_, s) => (s_proto s, s_ttl s) = (0, ttl) | _ => False end ->
  exists attrs, advert 0 f 0 ttl attrs.
Proof.
  intros B L F D. destruct (proto_decode 0 (t_ctx 0 1 f) (mkDst no_peers 0 0 [])) as [[n s]| | | |] eqn:E; try contradiction.
  destruct (u_advert 0 f _ n s B L ltac:(lia) F E) as (attrs & A & _). apply (f_equal fst) in D as D1. apply (f_equal snd) in D as D2.
  cbn in D1, D2. rewrite D1, D2 in A. now exists attrs.
Qed.
(** What a datagram says. *)
Definition b_says (d : list Z) (i : Z) (f : list Z) (ttl : Z) : Prop :=
  bytes f /\ 60 <= zlen f <= 1518 /\ proto_frame 0 f (skipn 14 f) /\ carries d i 0 0 f /\ exists attrs, advert 0 f 0 ttl attrs.
Lemma b_news d i f ttl c now now2 sub : b_says d i f ttl -> netif_byindex (c_nfs c) i = Some sub ->
  netif_byaddr (c_nfs c) (firstn 6 (skipn 6 f)) = None ->
  exists en, news c (CRecv d now now2) en /\ who en = (i, 0, firstn 12 f) /\ q_received en = now /\ q_ttl en = ttl.
Proof.
  intros (B & L & F & C & attrs & A) H1 H2.
  assert (N : news c (CRecv d now now2) (mkEnt 0 i (nf_name sub) 0 now (zlen f) (f ++ repeat 0 (Z.to_nat (1518 - zlen f))) ttl (report attrs) 0)).
  { exists d, now, now2, i, 0, f, sub, 0, ttl, attrs. repeat (split; [first [assumption|reflexivity|lia]|]). reflexivity. }
  eexists. split; [exact N|]. split; [|now split]. exact (news_who _ _ _ _ _ N i 0 f 0 ttl attrs L ltac:(lia) B C A).
Qed.
Lemma b_only d i f ttl c now now2 en : b_says d i f ttl -> news c (CRecv d now now2) en -> who en = (i, 0, firstn 12 f) /\ q_ttl en = ttl.
Proof.
  intros (B & L & F & C & attrs & A) N. split; [exact (news_who _ _ _ _ _ N i 0 f 0 ttl attrs L ltac:(lia) B C A)|].
  destruct N as (d' & n & n2 & i' & p' & f' & s' & pr & ttl' & at' & E & B1 & B2 & B3 & B4 & B5 & _ & _ & ->).
  injection E as <- <- <-. destruct (carries_inj _ _ _ _ _ _ _ _ _ (proj2 L) (proj2 B2) C B4) as (<- & <- & <-).
  destruct (advert_fun _ _ _ _ _ _ _ _ B3 B L A B5) as (_ & <- & _). reflexivity.
Qed.
Lemma b_ordinary d i f ttl now now2 : b_says d i f ttl -> 0 < now -> 0 < now2 -> ordinary (CRecv d now now2).
Proof. intros (B & L & F & C & _) H1 H2. split; [assumption|]. split; [assumption|]. exists i, 0, f, (skipn 14 f). repeat (split; [assumption || lia|]). assumption. Qed.
Ltac b_sw := split; [is_bytes|]; split; [split; vm_compute; discriminate|]; split; [apply t_lldp; vm_compute; reflexivity|];
  split; [repeat split; vm_compute; reflexivity|];
  apply b_advert; [is_bytes|split; vm_compute; discriminate|apply t_lldp; vm_compute; reflexivity|vm_compute; reflexivity].
Ltac b_all t := repeat (apply Forall_cons; [t|]); apply Forall_nil.
Lemma b_sw1 : b_says (u_in 1 (u_sw 1 120)) 1 (u_sw 1 120) 120. Proof. b_sw. Qed.
Lemma b_sw2 : b_says (u_in 1 (u_sw 2 90)) 1 (u_sw 2 90) 90. Proof. b_sw. Qed.
Lemma b_sw9 : b_says (u_in 3 (u_sw 9 0)) 3 (u_sw 9 0) 0. Proof. b_sw. Qed.
Definition b_c1 : child := Eval vm_compute in z_child b_es1.
Definition b_c : child := Eval vm_compute in z_child (b_es1 ++ b_e :: b_es2).
Lemma b_split {A} (x : A) l a e b : x :: l = a ++ e :: b -> (a = [] /\ e = x /\ b = l) \/ exists a', a = x :: a' /\ l = a' ++ e :: b.
Proof. destruct a as [|y a]; cbn; intros H; injection H as -> H; [left; subst; auto|right; eauto]. Qed.
Lemma b_end {A} a (e : A) b : [] = a ++ e :: b -> False. Proof. destruct a; discriminate. Qed.
Lemma b_unheard : unheard 4 (b_es1 ++ [b_e]) b_es2 (1, 0, firstn 12 (u_sw 2 90)).
Proof.
  intros a e b c eff x E _ N. unfold b_es2 in E.
  apply b_split in E as [(_ & -> & _)|(a1 & _ & E)]; [destruct N as (? & ? & ? & ? & ? & ? & ? & ? & ? & ? & K & _); discriminate|].
  apply b_split in E as [(_ & -> & _)|(a2 & _ & E)]; [destruct N as (? & ? & ? & ? & ? & ? & ? & ? & ? & ? & K & _); discriminate|].
  apply b_split in E as [(_ & -> & _)|(a3 & _ & E)]; [apply (b_only _ _ _ _ _ _ _ _ b_sw1) in N as [-> _]; intros K; vm_compute in K; discriminate|].
  apply b_split in E as [(_ & -> & _)|(a4 & _ & E)]; [destruct N as (? & ? & ? & ? & ? & ? & ? & ? & ? & ? & K & _); discriminate|].
  apply b_split in E as [(_ & -> & _)|(a5 & _ & E)]; [apply (b_only _ _ _ _ _ _ _ _ b_sw9) in N as [-> _]; intros K; vm_compute in K; discriminate|].
  now apply b_end in E.
Qed.
(** The second switch is gone after the run at 200 (it was known until 193), the
    first is still known, and the client saw both. *)
Example C116_case :
  (exists eff, reached 4 b_es1 b_c1 eff) /\ (exists eff, reached 4 (b_es1 ++ b_e :: b_es2) b_c eff)
  /\ (exists en, news b_c1 b_e en /\ who en = (1, 0, firstn 12 (u_sw 2 90)) /\ q_received en = 103 /\ q_ttl en = 90)
  /\ Forall ordinary (b_es1 ++ b_e :: b_es2) /\ Forall unblocked (b_es1 ++ b_e :: b_es2)
  /\ unheard 4 (b_es1 ++ [b_e]) b_es2 (1, 0, firstn 12 (u_sw 2 90)) /\ cleaned 4 (b_es1 ++ [b_e]) b_es2 200
  /\ steadily 0 (b_es1 ++ b_e :: b_es2) /\ Forall (until 201) (b_es1 ++ b_e :: b_es2)
  /\ map (fun x => (who x, q_received x + q_ttl x)) (c_queue b_c) = [((1, 0, firstn 12 (u_sw 1 120)), 250)].
Proof.
  split; [apply z_reached; vm_compute; reflexivity|]. split; [apply z_reached; vm_compute; reflexivity|].
  split; [eapply b_news; [exact b_sw2|vm_compute; reflexivity|vm_compute; reflexivity]|].
  split. { unfold b_es1, b_e, b_es2. cbn [app]. b_all ltac:(first [exact I|eapply b_ordinary; [first [exact b_sw1|exact b_sw2|exact b_sw9]|lia|lia]|cbn; lia]). }
  split. { unfold b_es1, b_e, b_es2. cbn [app]. b_all ltac:(first [exact I|intros K; cbn in K; repeat destruct K as [K|K]; (discriminate || contradiction)]). }
  split; [exact b_unheard|]. split.
  { destruct (z_reached ((b_es1 ++ [b_e]) ++ firstn 3 b_es2) (z_child ((b_es1 ++ [b_e]) ++ firstn 3 b_es2)) ltac:(vm_compute; reflexivity)) as [eff R].
    exists (firstn 3 b_es2), (CTick 200), (skipn 4 b_es2), (z_child ((b_es1 ++ [b_e]) ++ firstn 3 b_es2)), eff.
    split; [reflexivity|]. split; [exact R|]. now left. }
  split; [cbn; lia|]. split; [unfold b_es1, b_e, b_es2; cbn [app]; b_all ltac:(cbn; first [exact I|lia])|]. vm_compute. reflexivity.
Qed.

(** C117.  A daemon running anywhere: of any [m + 1] consecutive periodic runs at
    least one reaches another daemon within [lag] seconds, and the runs are at
    most [late] seconds late.  As long as [(m + 1) * (30 + late) + lag] is within
    the hold time of 180 seconds (so, on a good host and link, five of any six
    runs can be lost), the other daemon lists the first one without interruption.
    EDP (2) is left out: C17 shows that it is never received. *)
Theorem C117_stays_listed cfg sos country location st t0 os now h ts effs late (m : nat) lag i p hdr opts es c eff index T :
  running_on cfg sos country location st -> os_ok os -> Forall (fun x => event_ok (snd x)) h ->
  timed_run cfg (fst (timed_boot cfg t0 os now st)) h = DOk (ts, effs) ->
  forward t0 (map fst h) -> prompt cfg late (fst (timed_boot cfg t0 os now st)) h -> 0 <= late -> p <> 2 ->
  reached opts es c eff -> Forall ordinary es -> steadily 0 es -> Forall (until T) es -> 0 <= index < 4294967296 ->
  (forall x w y, t0 :: rounds h = x ++ w ++ y -> length w = (m + 1)%nat ->
     exists r f a, In r w /\ says cfg t0 os now st h r i p f /\ firstn 12 f = hdr /\ r <= a <= r + lag
       /\ (a <= T -> arrives_at opts es index f a)) ->
  holds_for opts es (index, p, hdr) 180 ->
  (Z.of_nat m + 1) * (30 + late) + lag <= 180 ->
  t0 + Z.of_nat m * (30 + late) + lag < T -> (exists x, In x h /\ T - lag <= fst x) ->
  exists x, In x (c_queue c) /\ who x = (index, p, hdr) /\ T <= q_received x + q_ttl x.
Proof. exact (stays_listed cfg sos country location st t0 os now h ts effs late m lag i p hdr opts es c eff index T). Qed.
Print Assumptions C117_stays_listed.

(** Every other run is lost. *)
Definition b_run (t : Z) : Z * sevent := (t, EvRun w_os2 t).
Definition b_hist : list (Z * sevent) := [b_run 1030; b_run 1060; b_run 1090; (1100, EvChild (CTimeout 5))].
Definition b_boot : tstate * list seff := Eval vm_compute in timed_boot w_cfg 1000 w_os2 1000 y_st.
Definition b_es : list cevent :=
  [CFetch u_nfs; CRecv (u_in 1 x_sw2) 990 990; CRecv z_d 1001 1001; CTick 1050; CRecv z_d 1061 1061; CTick 1090].
Definition b_f : list Z := Eval vm_compute in snd y_frame.
Definition b_at (n : nat) : child := z_child (firstn n b_es).
Lemma b_boot_eq : timed_boot w_cfg 1000 w_os2 1000 y_st = b_boot. Proof. vm_compute. reflexivity. Qed.
Lemma b_timed h : match timed_run w_cfg (fst b_boot) h with DOk _ => True | _ => False end ->
  exists ts effs, timed_run w_cfg (fst b_boot) h = DOk (ts, effs).
Proof. destruct (timed_run w_cfg (fst b_boot) h) as [[ts effs]| | | |]; try contradiction. eauto. Qed.
Lemma b_says_run h1 t h2 : 
  match timed_run w_cfg (fst b_boot) h1 with
  | DOk (ts, _) => match timed_step w_cfg t ts (EvRun w_os2 t) with DOk (_, eff) => In (SFrame 1 0 b_f) eff | _ => False end
  | _ => False end ->
  says w_cfg 1000 w_os2 1000 y_st (h1 ++ b_run t :: h2) t 1 0 b_f.
Proof.
  intros H. right. rewrite b_boot_eq. destruct (timed_run w_cfg (fst b_boot) h1) as [[ts effs]| | | |] eqn:E1; try contradiction.
  destruct (timed_step w_cfg t ts (EvRun w_os2 t)) as [[ts' eff]| | | |] eqn:E2; try contradiction.
  exists h1, w_os2, t, h2, ts, effs, ts', eff. now repeat split.
Qed.
Lemma b_arrives n a d e2 : b_es = firstn n b_es ++ CRecv d a a :: e2 -> parent_recv 3 [b_f] = [d] ->
  match child_run 4 child_start (firstn n b_es) with
  | DOk (c, _) => match netif_byindex (c_nfs c) 3 with Some _ => netif_byaddr (c_nfs c) (firstn 6 (skipn 6 b_f)) = None | None => False end
  | _ => False end -> arrives_at 4 b_es 3 b_f a.
Proof.
  intros E P H. destruct (child_run 4 child_start (firstn n b_es)) as [[c eff]| | | |] eqn:R; try contradiction.
  exists (firstn n b_es), d, a, e2, c, eff. split; [exact E|]. split; [exact R|]. split; [exact P|].
  destruct (netif_byindex (c_nfs c) 3); [|contradiction]. split; [discriminate|exact H].
Qed.
Lemma b_box : b_says z_d 3 b_f 180. Proof. b_sw. Qed.
Lemma b_other : b_says (u_in 1 x_sw2) 1 x_sw2 120. Proof. b_sw. Qed.
Lemma b_holds : holds_for 4 b_es (3, 0, firstn 12 b_f) 180.
Proof.
  intros a e b c eff x E _ N W. unfold b_es in E.
  apply b_split in E as [(_ & -> & _)|(a1 & _ & E)]; [destruct N as (? & ? & ? & ? & ? & ? & ? & ? & ? & ? & K & _); discriminate|].
  apply b_split in E as [(_ & -> & _)|(a2 & _ & E)]; [apply (b_only _ _ _ _ _ _ _ _ b_other) in N as [K _]; rewrite W in K; vm_compute in K; discriminate|].
  apply b_split in E as [(_ & -> & _)|(a3 & _ & E)]; [apply (b_only _ _ _ _ _ _ _ _ b_box) in N as [_ ->]; lia|].
  apply b_split in E as [(_ & -> & _)|(a4 & _ & E)]; [destruct N as (? & ? & ? & ? & ? & ? & ? & ? & ? & ? & K & _); discriminate|].
  apply b_split in E as [(_ & -> & _)|(a5 & _ & E)]; [apply (b_only _ _ _ _ _ _ _ _ b_box) in N as [_ ->]; lia|].
  apply b_split in E as [(_ & -> & _)|(a6 & _ & E)]; [destruct N as (? & ? & ? & ? & ? & ? & ? & ? & ? & ? & K & _); discriminate|].
  now apply b_end in E.
Qed.
Lemma b_windows x w y : 1000 :: rounds b_hist = x ++ w ++ y -> length w = 2%nat -> In 1000 w \/ In 1060 w.
Proof.
  cbn. intros E L. destruct w as [|w1 [|w2 [|]]]; try discriminate. cbn [app] in E.
  repeat (apply b_split in E as [(_ & -> & E')|(? & _ & E)];
    [first [now left; left|now right; left|destruct y; injection E' as <- ; right; right; left; reflexivity|injection E' as <- _; right; right; left; reflexivity|discriminate E']|]).
  now apply b_end in E.
Qed.
Lemma b_prompt : forall h ts, (fix go (ts : tstate) (h : list (Z * sevent)) : bool := match h with [] => true | (t, e) :: h' =>
    match tt_due ts with Some d => t <=? d | None => true end
    && match timed_step w_cfg t ts e with DOk (ts', _) => go ts' h' | _ => true end end) ts h = true -> prompt w_cfg 0 ts h.
Proof.
  induction h as [|[t e] h IH]; intros ts H; [exact I|]. cbn [prompt]. apply andb_true_iff in H as [H1 H2]. split.
  - intros d E. rewrite E in H1. lia.
  - intros ts' eff E. rewrite E in H2. now apply IH.
Qed.
Example C117_case :
  running_on w_cfg y_os (bs "NL") (bs "attic") y_st /\ os_ok w_os2 /\ Forall (fun x => event_ok (snd x)) b_hist
  /\ (exists ts effs, timed_run w_cfg (fst (timed_boot w_cfg 1000 w_os2 1000 y_st)) b_hist = DOk (ts, effs))
  /\ forward 1000 (map fst b_hist) /\ prompt w_cfg 0 (fst (timed_boot w_cfg 1000 w_os2 1000 y_st)) b_hist
  /\ (exists eff, reached 4 b_es (b_at 6) eff) /\ Forall ordinary b_es /\ steadily 0 b_es /\ Forall (until 1095) b_es
  /\ (forall x w y, 1000 :: rounds b_hist = x ++ w ++ y -> length w = (1 + 1)%nat ->
       exists r f a, In r w /\ says w_cfg 1000 w_os2 1000 y_st b_hist r 1 0 f /\ firstn 12 f = firstn 12 b_f /\ r <= a <= r + 1
         /\ (a <= 1095 -> arrives_at 4 b_es 3 f a))
  /\ holds_for 4 b_es (3, 0, firstn 12 b_f) 180
  /\ (Z.of_nat 1 + 1) * (30 + 0) + 1 <= 180 /\ 1000 + Z.of_nat 1 * (30 + 0) + 1 < 1095 /\ (exists x, In x b_hist /\ 1095 - 1 <= fst x)
  /\ map (fun x => (who x, q_received x + q_ttl x)) (c_queue (b_at 6)) =
     [((1, 0, firstn 12 x_sw2), 1110); ((3, 0, firstn 12 b_f), 1241)].
Proof.
  split; [exact y_on|]. split; [apply w_os_ok; repeat constructor; lia|].
  split. { unfold b_hist. b_all ltac:(first [exact I|apply w_os_ok; repeat constructor; lia]). }
  rewrite b_boot_eq. split; [apply b_timed; vm_compute; exact I|]. split; [cbn; lia|]. split; [apply b_prompt; vm_compute; reflexivity|].
  split; [apply z_reached; vm_compute; reflexivity|].
  split. { unfold b_es. b_all ltac:(first [exact I|eapply b_ordinary; [first [exact b_other|exact b_box]|lia|lia]|cbn; lia]). }
  split; [cbn; lia|]. split; [unfold b_es; b_all ltac:(cbn; first [exact I|lia])|]. split.
  { intros x w y E L. destruct (b_windows x w y E L) as [H|H].
    - exists 1000, b_f, 1001. split; [exact H|]. split; [left; split; [reflexivity|]; rewrite b_boot_eq; vm_compute; auto 20|].
      split; [reflexivity|]. split; [lia|]. intros _. apply (b_arrives 2 1001 z_d (skipn 3 b_es)); [reflexivity|vm_compute; reflexivity|vm_compute; reflexivity].
    - exists 1060, b_f, 1061. split; [exact H|]. split; [apply (b_says_run [b_run 1030] 1060 (skipn 2 b_hist)); vm_compute; auto 20|].
      split; [reflexivity|]. split; [lia|]. intros _. apply (b_arrives 4 1061 z_d (skipn 5 b_es)); [reflexivity|vm_compute; reflexivity|vm_compute; reflexivity]. }
  split; [exact b_holds|]. split; [lia|]. split; [lia|]. split; [exists (1100, EvChild (CTimeout 5)); split; [cbn; auto 10|cbn; lia]|].
  vm_compute. reflexivity.
Qed.
