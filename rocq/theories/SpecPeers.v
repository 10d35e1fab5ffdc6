(** What clients have to do with each other: vocabulary of C135. *)
From Verif Require Import Base Types Tlv Wire Util Child Netif Send SpecSend.

(** Events of clients other than [k]. *)
Definition of_another (k : Z) (e : sevent) : bool :=
  match e with
  | EvChild (CAccept j) | EvChild (CReady j _) | EvChild (CTimeout j) => negb (j =? k)
  | _ => false
  end.
Definition without_others (k : Z) (es : list sevent) : list sevent := filter (fun e => negb (of_another k e)) es.
(** Nobody but [k] makes the daemon wait for room in a socket. *)
Definition others_keep_up (k : Z) (es : list sevent) : Prop :=
  forall j ws, In (EvChild (CReady j ws)) es -> j <> k -> ~ In WAgain ws.
Definition others_idle (k : Z) (st : sstate) : Prop :=
  forall s, In s (c_sess (st_child st)) -> ss_id s <> k -> ss_msg s = None.
(** Everything the child does except writing to clients other than [k]. *)
Definition but_for_others (k : Z) (effs : list (list seff)) : list seff :=
  filter (fun e => match e with SChild (CSent j _) => j =? k | _ => true end) (concat effs).
(** The same to client [k]: interfaces, neighbours, its own session. *)
Definition alike_for (k : Z) (st st' : sstate) : Prop :=
  table st = table st' /\ c_queue (st_child st) = c_queue (st_child st') /\ c_next (st_child st) = c_next (st_child st')
  /\ filter (fun s => ss_id s =? k) (c_sess (st_child st)) = filter (fun s => ss_id s =? k) (c_sess (st_child st'))
  /\ st_si st = st_si st' /\ st_edp st = st_edp st'.
(** What is written to client [k]. *)
Definition sent_to (k : Z) (effs : list (list seff)) : list (list Z) :=
  flat_map (fun e => match e with SChild (CSent j x) => if j =? k then [x] else [] | _ => [] end) (concat effs).
