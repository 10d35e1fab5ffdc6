(** The last frame of a daemon (C137). *)
From Verif Require Import Base Types Tlv Msg Protos Bpf Wire Parent Util Child Netif Sysinfo Send Timer
  Spec SpecAdv SpecRound SpecNet SpecChild SpecSend SpecSys SpecE2E SpecHold SpecTimer SpecListed.
From Verif Require Import Lemmas HoldProofs HoldProofs2 HoldProofs3.

Lemma never_zero cfg os country location st e st' eff i p f index d c now now2 :
  running_on cfg os country location st -> event_ok e -> send_step cfg st e = DOk (st', eff) -> In (SFrame i p f) eff -> p <> 2 ->
  0 <= index < 4294967296 -> parent_recv index [f] = [d] ->
  netif_byindex (c_nfs c) index <> None -> netif_byaddr (c_nfs c) (firstn 6 (skipn 6 f)) = None ->
  exists en, news c (CRecv d now now2) en /\ who en = (index, p, firstn 12 f) /\ q_ttl en = 180
  /\ forall x, news c (CRecv d now now2) x -> q_ttl x = 180.
Proof.
  intros R O St K N2 Hx Pd Ki Ka. destruct (sent_news _ _ _ _ _ _ _ _ _ _ _ index d c now now2 R O St K N2 Hx Pd Ki Ka) as (en & Nw & W & _ & T).
  exists en. repeat (split; [assumption|]). intros x Nx. now rewrite (news_fun _ _ _ _ Nx Nw).
Qed.
Lemma lingers cfg os country location st e st' eff i p f index d opts es1 c1 eff1 a a2 es2 c eff2 :
  running_on cfg os country location st -> event_ok e -> send_step cfg st e = DOk (st', eff) -> In (SFrame i p f) eff -> p <> 2 ->
  0 <= index < 4294967296 -> parent_recv index [f] = [d] ->
  reached opts es1 c1 eff1 -> netif_byindex (c_nfs c1) index <> None -> netif_byaddr (c_nfs c1) (firstn 6 (skipn 6 f)) = None ->
  reached opts (es1 ++ CRecv d a a2 :: es2) c eff2 -> Forall ordinary (es1 ++ CRecv d a a2 :: es2) ->
  unheard opts (es1 ++ [CRecv d a a2]) es2 (index, p, firstn 12 f) ->
  ((forall t, cleaned opts (es1 ++ [CRecv d a a2]) es2 t -> t <= a + 180) ->
     exists x, In x (c_queue c) /\ who x = (index, p, firstn 12 f) /\ q_received x = a)
  /\ (forall t, Forall unblocked (es1 ++ CRecv d a a2 :: es2) -> cleaned opts (es1 ++ [CRecv d a a2]) es2 t -> a + 180 < t ->
     forall x, In x (c_queue c) -> who x <> (index, p, firstn 12 f)).
Proof.
  intros R O St K N2 Hx Pd R1 Ki Ka R2 Or Un. destruct (sent_news _ _ _ _ _ _ _ _ _ _ _ index d c1 a a2 R O St K N2 Hx Pd Ki Ka) as (en & Nw & W & Rc & T).
  rewrite <- W in *. split.
  - intros Cl. destruct (kept opts es1 _ es2 c1 eff1 en c eff2 R1 Nw ltac:(lia) R2 Or Un) as (x & Ix & E).
    + rewrite Rc, T. exact Cl.
    + exists x. split; [exact Ix|]. split; [now rewrite <- (content_who x), E|]. rewrite <- Rc, <- E. reflexivity.
  - intros t Ub Cl Lt. apply (dropped opts es1 _ es2 c1 eff1 en c eff2 t R1 Nw R2 Or Ub Un Cl). lia.
Qed.
