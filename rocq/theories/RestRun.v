(** Schedules for the cases beside C127. *)
From Verif Require Import Base Types Tlv Checks Wire Parent Netif Mreq Util Child Send Ipc SpecIpc SpecJoint SpecFifo SpecRest FifoRun.

Lemma rest_settled room starts cfg s : at_rest s -> settled room starts cfg s.
Proof.
  destruct s as [c p fds rq rp o i]. unfold at_rest. cbn. intros (-> & -> & -> & -> & -> & ->) e s' H. inversion H; subst; exact Logic.I.
Qed.
(** Nothing to do; helper without a counterpart in the C code. *)
Definition resting (s : ipc) : bool :=
  match i_child s, i_parent s, i_req s, i_rep s, i_out s, i_in s with Run TLoop, PIdle, [], [], [], [] => true | _, _, _, _, _, _ => false end.
Lemma resting_ok s : resting s = true -> at_rest s.
Proof.
  destruct s as [[[]|] [| | |] fds [|] [|] [|] [|]]; cbn; intros H; try discriminate. unfold at_rest. cbn. auto 10.
Qed.
(** Turns that take nothing from outside; helper without a counterpart in the C code. *)
Definition inner (x : turn) : bool := match x with XBegin _ | XCapture _ => false | _ => true end.
Lemma turn_inner room cfg s x e s' : inner x = true -> turn_step room cfg s x = Some (e, s') -> ~ outside e.
Proof.
  destruct s as [c p fds rq rp o i]. destruct x; try discriminate; intros _; cbn [turn_step]; destruct c as [[| |d k|d k]|k]; try discriminate;
    destruct p as [|[|m ms]|d'|]; try discriminate;
    repeat match goal with |- context [match ?l with [] => _ | _ => _ end] => destruct l; try discriminate | |- context [if ?b then _ else _] => destruct b; try discriminate end;
    intros H; injection H as <- <-; intros [].
Qed.
Lemma turns_inner room cfg : forall xs s es s', forallb inner xs = true -> turns room cfg s xs = Some (es, s') -> Forall (fun e => ~ outside e) es.
Proof.
  induction xs as [|x xs IH]; intros s es s' F H; cbn [turns forallb] in *.
  - injection H as <- <-. constructor.
  - apply andb_prop in F as [F1 F2]. destruct (turn_step room cfg s x) as [[e s1]|] eqn:E; [|discriminate]. destruct (turns room cfg s1 xs) as [[es' s2]|] eqn:G; [|discriminate].
    injection H as <- <-. constructor; [exact (turn_inner _ _ _ _ _ _ F1 E)|exact (IH _ _ _ F2 G)].
Qed.
Lemma turns_rest room starts cfg t xs xs' n (P : list ievent -> ipc -> list ievent -> ipc -> bool) :
  match turns room cfg (ipc_start t) xs with
  | Some (es, s) => match turns room cfg s xs' with
                    | Some (es', s') => Nat.leb (pending s) n && resting s' && P es s es' s'
                    | None => false end
  | None => false
  end = true -> Forall (turn_begins starts) (xs ++ xs') -> forallb inner xs' = true ->
  exists es s es' s', isteps room starts cfg (ipc_start t) es s /\ (pending s <= n)%nat /\ isteps room starts cfg s es' s'
    /\ Forall (fun e => ~ outside e) es' /\ settled room starts cfg s' /\ both_live s' /\ P es s es' s' = true.
Proof.
  intros H B F. destruct (turns room cfg (ipc_start t) xs) as [[es s]|] eqn:E1; [|discriminate]. destruct (turns room cfg s xs') as [[es' s']|] eqn:E2; [|discriminate].
  apply andb_prop in H as [H HP]. apply andb_prop in H as [HL HR]. apply Forall_app in B as [B1 B2]. apply resting_ok in HR. exists es, s, es', s'.
  split; [exact (turns_ok _ _ _ _ _ _ _ B1 E1)|]. split; [now apply Nat.leb_le|]. split; [exact (turns_ok _ _ _ _ _ _ _ B2 E2)|].
  split; [exact (turns_inner _ _ _ _ _ _ F E2)|]. split; [now apply rest_settled|]. split; [|exact HP].
  destruct HR as (C1 & C2 & _). split; [rewrite C1|rewrite C2]; discriminate.
Qed.
Lemma turns_wire room starts cfg t xs effs os n (P : list ievent -> ipc -> bool) :
  match turns room cfg (ipc_start t) xs with Some (es, s) => Nat.leb (pending s) n && resting s && P es s | None => false end = true ->
  Forall (turn_begins starts) xs -> Forall (fun x => match x with XServe o | XSend o => o = os | _ => True end) xs ->
  t :: flat_map (fun x => match x with XBegin u | XTake u => [u] | _ => [] end) xs = map tree_of effs ->
  os_reply os = true -> workable os ->
  exists es s, isteps room starts cfg (ipc_start t) es s /\ t :: begun es = map tree_of effs /\ Forall able (parent_saw es)
    /\ (forall d o, In (PSend d o) (parent_saw es) -> workable o) /\ (pending s <= n)%nat /\ settled room starts cfg s /\ P es s = true.
Proof.
  intros H B O E R W. destruct (turns_all room starts cfg t xs effs os (fun es s => Nat.leb (pending s) n && resting s && P es s) H B O E R W) as (es & s & A1 & A2 & A3 & A4 & A5).
  apply andb_prop in A5 as [A5 HP]. apply andb_prop in A5 as [HL HR]. exists es, s. split; [exact A1|]. split; [exact A2|]. split; [exact A3|]. split; [exact A4|].
  split; [now apply Nat.leb_le|]. split; [now apply rest_settled, resting_ok|exact HP].
Qed.
