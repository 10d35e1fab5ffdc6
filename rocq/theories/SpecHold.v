(** How long neighbours are listed: vocabulary of C116 and C117. *)
From Verif Require Import Base Types Wire Util Child Spec SpecAdv SpecRound SpecNet SpecChild.

(** In state [c] the event [e] is a valid advertisement received on a known
    interface, from a source that is none of the host's own addresses; [en] is
    what it says: interface, protocol, time, frame, hold time and attributes. *)
Definition news (c : child) (e : cevent) (en : entry) : Prop :=
  exists d now now2 index p f sub proto ttl attrs,
  e = CRecv d now now2
  /\ bytes f /\ 60 <= zlen f <= 1518 /\ 0 <= p < 6 /\ carries d index p 0 f /\ advert p f proto ttl attrs
  /\ netif_byindex (c_nfs c) index = Some sub /\ netif_byaddr (c_nfs c) (firstn 6 (skipn 6 f)) = None
  /\ en = mkEnt 0 index (nf_name sub) proto now (zlen f) (f ++ repeat 0 (Z.to_nat (1518 - zlen f))) ttl
            (report attrs) 0.
(** A table entry without the bookkeeping of the daemon. *)
Definition content (x : entry) : entry :=
  mkEnt 0 (q_index x) (q_name x) (q_proto x) (q_received x) (q_len x) (q_msg x) (q_ttl x) (q_peer x) 0.

(** The times at which an event drops what is too old: the periodic run, and
    somebody's shutdown (an advertisement with TTL zero). *)
Definition cleans (c : child) (e : cevent) (t : Z) : Prop :=
  e = CTick t \/ exists d now en, e = CRecv d now t /\ news c e en /\ q_ttl en = 0.

(** What is known after a history: an advertisement with its hold time, until
    the same neighbour advertises again (or shuts down) or a clean-up happens
    after the hold time is over. *)
Inductive known (opts : Z) : list cevent -> entry -> Prop :=
| known_new es c eff e en :
    reached opts es c eff -> news c e en -> q_ttl en <> 0 -> known opts (es ++ [e]) en
| known_still es c eff e en :
    known opts es en -> reached opts es c eff ->
    (forall x, news c e x -> who x <> who en) ->
    (forall t, cleans c e t -> t <= q_received en + q_ttl en) ->
    known opts (es ++ [e]) en.

(** The clock works and is past the epoch; datagrams are those the parent builds
    from frames that passed its filter (C16, C18, C19). *)
Definition ordinary (e : cevent) : Prop :=
  match e with
  | CRecv d now now2 =>
      0 < now /\ 0 < now2
      /\ exists index p f payload, bytes f /\ 60 <= zlen f <= 1518 /\ 0 <= p < 6
         /\ carries d index p 0 f /\ proto_frame p f payload
  | CTick now => 0 < now
  | _ => True
  end.
(** No client has to wait for its socket. *)
Definition unblocked (e : cevent) : Prop :=
  match e with CReady _ ws => ~ In WAgain ws | _ => True end.

(** The time of an event of the table, and a clock that does not go back. *)
Definition clock (e : cevent) : option (Z * Z) :=
  match e with
  | CRecv _ now now2 => Some (now, now2)
  | CTick now => Some (now, now)
  | _ => None
  end.
Fixpoint steadily (t : Z) (es : list cevent) : Prop :=
  match es with
  | [] => True
  | e :: es' =>
      match clock e with
      | Some (a, b) => t <= a <= b /\ steadily b es'
      | None => steadily t es'
      end
  end.

(** In [es2], following [es1], the neighbour [k] is not heard. *)
Definition unheard (opts : Z) (es1 es2 : list cevent) (k : Z * Z * list Z) : Prop :=
  forall a e b c eff x, es2 = a ++ e :: b -> reached opts (es1 ++ a) c eff -> news c e x -> who x <> k.
(** In [es2], following [es1], there is a clean-up at time [t]. *)
Definition cleaned (opts : Z) (es1 es2 : list cevent) (t : Z) : Prop :=
  exists a e b c eff, es2 = a ++ e :: b /\ reached opts (es1 ++ a) c eff /\ cleans c e t.
(** The times of the events are at most [t]. *)
Definition until (t : Z) (e : cevent) : Prop :=
  match clock e with Some (_, b) => b <= t | None => True end.
