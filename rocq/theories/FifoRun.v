(** Running the two processes by a schedule: only for the cases beside C125-C127. *)
From Verif Require Import Base Types Tlv Checks Wire Parent Netif Mreq Util Child Send Ipc SpecJoint SpecFifo.

(** Who goes next; helper without a counterpart in the C code. *)
Inductive turn := XBegin (t : ctree) | XTake (t : ctree) | XChild | XServe (os : pos) | XSend (os : pos) | XCapture (captured : list (list Z)) | XParent.
(** The step of Ipc.v taken; helper without a counterpart in the C code. *)
Definition turn_step (room : list (list Z) -> list Z -> bool) (cfg : pcfg) (s : ipc) (x : turn) : option (ievent * ipc) :=
  let '(mkIpc c p fds rq rp o i) := s in
  match x, c, p with
  | XBegin t, Run TLoop, _ => Some (IBegin t, mkIpc (Run t) p fds rq rp o i)
  | XTake t, Run TLoop, _ => match i with d :: i' => Some (ITake d t, mkIpc (Run t) p fds rq rp o i') | [] => None end
  | XChild, Run (TReq d k), _ => if room rq d then Some (IAsk d, mkIpc (Await k) p fds (rq ++ [d]) rp o i) else None
  | XChild, Await k, _ => match rp with d :: rp' => Some (IGot d, mkIpc (Run (k d)) p fds rq rp' o i) | [] => None end
  | XChild, Run (TFrame d k), _ => if room o d then Some (IPut d, mkIpc (Run k) p fds rq rp (o ++ [d]) i) else None
  | XServe os, _, PIdle =>
      match rq with
      | d :: rq' => let r := parent_req cfg fds d os in
          Some (IServe d os (parent_reply d os r),
                mkIpc c (match parent_reply d os r with Some a => PReply a | None => PEnd end) (r_fds r) rq' rp o i)
      | [] => None
      end
  | XSend os, _, PIdle =>
      match o with
      | d :: o' => let r := parent_send cfg fds d os in
          Some (ISend d os, mkIpc c (if r_alive r then PIdle else PEnd) (r_fds r) rq rp o' i)
      | [] => None
      end
  | XCapture captured, _, PIdle =>
      match fds with
      | r :: _ => if has (pc_opts cfg) OPT_RECV then if has (pc_opts cfg) OPT_DEBUG then None else
          Some (ICapture (rf_index r) captured, mkIpc c (PRecv (parent_recv (rf_index r) captured)) fds rq rp o i) else None
      | [] => None
      end
  | XParent, _, PReply d => if room rp d then Some (IAnswer d, mkIpc c PIdle fds rq (rp ++ [d]) o i) else None
  | XParent, _, PRecv (m :: ms) => if room i m then Some (IHand m, mkIpc c (PRecv ms) fds rq rp o (i ++ [m])) else None
  | XParent, _, PRecv [] => Some (IReturn, mkIpc c PIdle fds rq rp o i)
  | _, _, _ => None
  end.
(** All of them; helper without a counterpart in the C code. *)
Fixpoint turns (room : list (list Z) -> list Z -> bool) (cfg : pcfg) (s : ipc) (xs : list turn) : option (list ievent * ipc) :=
  match xs with
  | [] => Some ([], s)
  | x :: xs' =>
      match turn_step room cfg s x with
      | Some (e, s1) => match turns room cfg s1 xs' with Some (es, s2) => Some (e :: es, s2) | None => None end
      | None => None
      end
  end.
(** What the schedule makes the child begin; helper without a counterpart in the C code. *)
Definition turn_begins (starts : ctree -> Prop) (x : turn) : Prop := match x with XBegin t | XTake t => starts t | _ => True end.
Lemma turn_ok room starts cfg s x e s' : turn_begins starts x -> turn_step room cfg s x = Some (e, s') -> istep room starts cfg s e s'.
Proof.
  destruct s as [c p fds rq rp o i]. intros B H. destruct x; cbn [turn_step turn_begins] in *.
  - destruct c as [[]|]; try discriminate. injection H as <- <-. now constructor.
  - destruct c as [[]|]; try discriminate. destruct i; [discriminate|]. injection H as <- <-. now constructor.
  - destruct c as [[| |d k|d k]|k]; try discriminate.
    + destruct (room rq d) eqn:R; [|discriminate]. injection H as <- <-. now constructor.
    + destruct (room o d) eqn:R; [|discriminate]. injection H as <- <-. now constructor.
    + destruct rp; [discriminate|]. injection H as <- <-. constructor.
  - destruct c as [[]|]; destruct p; try discriminate; destruct rq; try discriminate; injection H as <- <-; apply p_request.
  - destruct c as [[]|]; destruct p; try discriminate; destruct o; try discriminate; injection H as <- <-; apply p_send.
  - assert (G : p = PIdle) by (destruct c as [[]|]; destruct p; try discriminate H; reflexivity). subst p.
    assert (K : match fds with
      | r :: _ => if has (pc_opts cfg) OPT_RECV then if has (pc_opts cfg) OPT_DEBUG then None else
          Some (ICapture (rf_index r) captured, mkIpc c (PRecv (parent_recv (rf_index r) captured)) fds rq rp o i) else None
      | [] => None end = Some (e, s')) by (destruct c as [[]|]; exact H). clear H.
    destruct fds as [|r fds]; [discriminate|]. destruct (has _ OPT_RECV) eqn:R; [|discriminate]. destruct (has _ OPT_DEBUG) eqn:D; [discriminate|].
    injection K as <- <-. apply p_packets; [now left|exact R|exact D].
  - assert (K : match p with
      | PReply d => if room rp d then Some (IAnswer d, mkIpc c PIdle fds rq (rp ++ [d]) o i) else None
      | PRecv (m :: ms) => if room i m then Some (IHand m, mkIpc c (PRecv ms) fds rq rp o (i ++ [m])) else None
      | PRecv [] => Some (IReturn, mkIpc c PIdle fds rq rp o i)
      | _ => None end = Some (e, s')) by (destruct c as [[]|]; destruct p as [|[]| |]; exact H). clear H.
    destruct p as [|[|m ms]|d|]; try discriminate.
    + injection K as <- <-. constructor.
    + destruct (room i m) eqn:R; [|discriminate]. injection K as <- <-. now constructor.
    + destruct (room rp d) eqn:R; [|discriminate]. injection K as <- <-. now constructor.
Qed.
Lemma turns_ok room starts cfg : forall xs s es s', Forall (turn_begins starts) xs -> turns room cfg s xs = Some (es, s') -> isteps room starts cfg s es s'.
Proof.
  induction xs as [|x xs IH]; intros s es s' B H; cbn [turns] in H.
  - injection H as <- <-. constructor.
  - destruct (turn_step room cfg s x) as [[e s1]|] eqn:E; [|discriminate]. destruct (turns room cfg s1 xs) as [[es' s2]|] eqn:F; [|discriminate].
    injection H as <- <-. econstructor; [apply (turn_ok room starts cfg s x e s1 (Forall_inv B) E)|]. exact (IH _ _ _ (Forall_inv_tail B) F).
Qed.
Lemma turns_some room starts cfg s xs (P : list ievent -> ipc -> bool) : Forall (turn_begins starts) xs ->
  match turns room cfg s xs with Some (es, s') => P es s' | None => false end = true ->
  exists es s', isteps room starts cfg s es s' /\ P es s' = true.
Proof.
  intros B H. destruct (turns room cfg s xs) as [[es s']|] eqn:E; [|discriminate]. exists es, s'. split; [exact (turns_ok _ _ _ _ _ _ _ B E)|exact H].
Qed.
Lemma turn_traces room cfg s x e s' : turn_step room cfg s x = Some (e, s') ->
  begun [e] = (match x with XBegin t | XTake t => [t] | _ => [] end)
  /\ forall pe, In pe (parent_saw [e]) -> In x (match pe with PReq _ os => [XServe os] | PSend _ os => [XSend os] end).
Proof.
  destruct s as [c p fds rq rp o i]. destruct x; cbn [turn_step]; destruct c as [[| |d k|d k]|k]; try discriminate;
    destruct p as [|[|m ms]|d'|]; try discriminate;
    repeat match goal with |- context [match ?l with [] => _ | _ => _ end] => destruct l; try discriminate | |- context [if ?b then _ else _] => destruct b; try discriminate end;
    intros H; injection H as <- <-; (split; [reflexivity|]); cbn; intros pe K; try easy; destruct K as [<-|[]]; now left.
Qed.
Lemma turns_traces room cfg : forall xs s es s', turns room cfg s xs = Some (es, s') ->
  begun es = flat_map (fun x => match x with XBegin t | XTake t => [t] | _ => [] end) xs
  /\ forall pe, In pe (parent_saw es) -> In (match pe with PReq _ os => XServe os | PSend _ os => XSend os end) xs.
Proof.
  induction xs as [|x xs IH]; intros s es s' H; cbn [turns] in H.
  - injection H as <- <-. split; [reflexivity|intros pe []].
  - destruct (turn_step room cfg s x) as [[e s1]|] eqn:E; [|discriminate]. destruct (turns room cfg s1 xs) as [[es' s2]|] eqn:F; [|discriminate].
    injection H as <- <-. destruct (turn_traces _ _ _ _ _ _ E) as [A B]. destruct (IH _ _ _ F) as [C D].
    change (e :: es') with ([e] ++ es'). unfold begun, parent_saw in *. rewrite !flat_map_app. split; [cbn [flat_map] in *; now rewrite A, C|].
    intros pe K. apply in_app_or in K as [K|K].
    + left. apply B in K. destruct pe; destruct K as [K|[]]; now symmetry.
    + right. now apply D.
Qed.
Lemma turns_all room starts cfg t xs effs os (P : list ievent -> ipc -> bool) :
  match turns room cfg (ipc_start t) xs with Some (es, s) => P es s | None => false end = true ->
  Forall (turn_begins starts) xs -> Forall (fun x => match x with XServe o | XSend o => o = os | _ => True end) xs ->
  t :: flat_map (fun x => match x with XBegin u | XTake u => [u] | _ => [] end) xs = map tree_of effs ->
  os_reply os = true -> workable os ->
  exists es s, isteps room starts cfg (ipc_start t) es s /\ t :: begun es = map tree_of effs /\ Forall able (parent_saw es)
    /\ (forall d o, In (PSend d o) (parent_saw es) -> workable o) /\ P es s = true.
Proof.
  intros H B O E R W. destruct (turns room cfg (ipc_start t) xs) as [[es s]|] eqn:T; [|discriminate]. exists es, s.
  destruct (turns_traces _ _ _ _ _ _ T) as [Eb K]. split; [exact (turns_ok _ _ _ _ _ _ _ B T)|]. split; [now rewrite Eb|].
  rewrite Forall_forall in O. assert (F : os_sock os <> SockFatal) by (destruct W as (_ & fd & -> & _); discriminate).
  split; [apply Forall_forall; intros pe Hp; apply K, O in Hp; destruct pe; subst; now cbn|].
  split; [|exact H]. intros d o Hp. apply K, O in Hp. now subst.
Qed.
