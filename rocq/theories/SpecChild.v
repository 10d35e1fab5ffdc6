(** Specification vocabulary for the neighbour table and the client sessions. *)
From Verif Require Import Base Types Wire Util Child Spec SpecAdv SpecRound SpecNet.

(** ** The neighbour table *)
(** Which neighbour an entry is about: interface, protocol, destination and
    source address (the first 12 bytes of the frame). *)
Definition who (e : entry) : Z * Z * list Z := (q_index e, q_proto e, firstn 12 (q_msg e)).
(** The source address of the frame of an entry. *)
Definition source (e : entry) : list Z := firstn 6 (skipn 6 (q_msg e)).

(** The states and effects of a history of events from the start of the child. *)
Definition reached (opts : Z) (es : list cevent) (c : child) (eff : list ceff) : Prop :=
  child_run opts child_start es = DOk (c, eff).

(** A frame [f] received for protocol [p] is a valid advertisement: the protocol
    it is filed under, its TTL and the attributes it reports. *)
Definition advert (p : Z) (f : list Z) (proto ttl : Z) (attrs : list (slot * list Z)) : Prop :=
  exists payload, proto_frame p f payload
  /\ match p with
     | 0 => exists used, lldp_packet_means payload used ttl attrs /\ proto = 0
     | 2 => edp_packet_means payload attrs /\ ttl = 180 /\ proto = 2
     | 3 => fdp_packet_means payload ttl attrs /\ proto = 3
     | 4 => 11 <= zlen payload /\ ttl = 180 /\ attrs = [] /\ proto = 4
     | _ => exists version, cdp_packet_means payload version ttl attrs
              /\ proto = if version =? 1 then 5 else 1
     end.

(** An entry outlives an expiry run at time [now]. *)
Definition stays (now : Z) (e : entry) : bool :=
  (now <=? q_received e + q_ttl e) || negb (q_lock e =? 0).

(** The interface a neighbour is accounted on: the aggregate an interface is a
    member of, or the interface itself. *)
Definition uplink (nfs : list netif) (n top : netif) : Prop :=
  (nf_parent n = None /\ top = n)
  \/ (exists i, nf_parent n = Some i /\ netif_byindex nfs i = Some top).
(** The interfaces counted for [top]: itself, or its members. *)
Definition counted (nfs : list netif) (top : netif) (ms : list netif) : Prop :=
  (0 <= nf_type top <= 10 /\ ms = [top])
  \/ (10 < nf_type top /\ member_chain nfs (nf_subif top) ms /\ NoDup ms
      /\ forall m, In m ms -> nf_index m <> nf_index top).
(** Two interface tables equal but for enabled protocols and update marks. *)
Definition fixed (n : netif) : netif := set_protos 0 (set_update 0 n).
Definition same_config (nfs nfs' : list netif) : Prop := map fixed nfs = map fixed nfs'.

(** ** Descriptions *)
(** The source addresses heard on an interface, in table order. *)
Definition sources (index : Z) (q : list entry) : list (list Z) :=
  map source (filter (fun e => q_index e =? index) q).
(** [n] different elements. *)
Definition distinct {A} (l : list A) (n : Z) : Prop :=
  exists u, NoDup u /\ (forall x, In x u <-> In x l) /\ zlen u = n.
(** An attribute (slot 0 host name, 1 port name, 2 port description) of the
    first entry of an interface having it. *)
Definition first_attr (slot : nat) (index : Z) (q : list entry) : option (list Z) :=
  hd_error (flat_map (fun e => match nth slot (q_peer e) None with Some s => [s] | None => [] end)
              (filter (fun e => q_index e =? index) q)).
(** A host name cut at the first dot. *)
Definition short_host (h r : list Z) : Prop :=
  ~ In 46 r /\ (h = r \/ exists domain, h = r ++ 46 :: domain).
(** Equal but for the case of letters. *)
Definition same_letter (a b : Z) : Prop :=
  a = b \/ (65 <= a <= 90 /\ b = a + 32) \/ (97 <= a <= 122 /\ b = a - 32).
(** A port name and its short form. *)
Inductive short_port : list Z -> list Z -> Prop :=
| short_fa r : short_port (bs "FastEthernet" ++ r) (bs "Fa" ++ r)
| short_gi r : short_port (bs "GigabitEthernet" ++ r) (bs "Gi" ++ r)
| short_te r : short_port (bs "TenGigabitEthernet" ++ r) (bs "Te" ++ r)
| short_eth a b c d r : Forall2 same_letter ([a; b; c] ++ d) (bs "ethernet") ->
    short_port ([a; b; c] ++ d ++ r) ([a; b; c] ++ r)
| short_other s :
    (forall r, s <> bs "FastEthernet" ++ r) -> (forall r, s <> bs "GigabitEthernet" ++ r) ->
    (forall r, s <> bs "TenGigabitEthernet" ++ r) ->
    (forall w r, Forall2 same_letter w (bs "ethernet") -> s <> w ++ r) ->
    short_port s s.

(** ** Client sessions *)
(** A session waits for its socket in order to write this entry. *)
Definition holds (s : session) (e : entry) : Prop := ss_msg s = Some (q_id e).
Definition held (c : child) (e : entry) : Prop := exists s, In s (c_sess c) /\ holds s e.
(** What a session is sent. *)
Definition sent_to (sid : Z) (eff : list ceff) : list (list Z) :=
  flat_map (fun x => match x with CSent i b => if i =? sid then [b] else [] | _ => [] end) eff.
(** The description of an interface of index [index] for the table [q]. *)
Definition describes (opts index : Z) (q : list entry) (t : list Z) : Prop :=
  let slot := if Z.testbit opts 12 then 2%nat else 1%nat in
  exists n, distinct (sources index q) n
  /\ (n = 0 -> t = [])
  /\ (n = 1 -> match first_attr 0 index q, first_attr slot index q with
               | Some h, Some s => exists h' s', short_host h h' /\ short_port s s'
                                   /\ t = firstn 63 (bs "connected to " ++ h' ++ bs " (" ++ s' ++ bs ")")
               | Some h, None => exists h', short_host h h' /\ t = firstn 63 (bs "connected to " ++ h')
               | None, _ => t = []
               end)
  /\ (1 < n -> t = bs "connected to " ++ decimal n ++ bs " peers").

(** An event that does not overwrite a table entry some session is waiting on.
    A datagram is one the parent builds from a frame that passed its filter
    (C16, C18, C19), below 1518 bytes (C14). *)
Definition considerate (c : child) (e : cevent) : Prop :=
  match e with
  | CRecv d _ _ =>
      exists index p f payload, bytes f /\ 60 <= zlen f < 1518 /\ 0 <= p < 6
      /\ carries d index p 0 f /\ proto_frame p f payload
      /\ forall x, In x (c_queue c) -> held c x -> q_index x = index -> firstn 12 (q_msg x) <> firstn 12 f
  | _ => True
  end.
(** The number of sessions thrown out by a time-out while waiting on an entry. *)
Definition expelled (c : child) (e : cevent) : Z :=
  match e with
  | CTimeout sid =>
      zlen (filter (fun s => (ss_id s =? sid) && match ss_msg s with Some _ => true | None => false end) (c_sess c))
  | _ => 0
  end.
(** States reached by considerate events with at most 255 sessions, counting
    those thrown out ([t] of them). *)
Inductive calm (opts : Z) : child -> Z -> Prop :=
| calm_start : calm opts child_start 0
| calm_step c t e c' eff :
    calm opts c t -> considerate c e -> child_step opts c e = DOk (c', eff) ->
    zlen (c_sess c') + (t + expelled c e) <= 255 -> calm opts c' (t + expelled c e).

(** Events of client sessions, and those that end session [sid] before it has
    seen everything. *)
Definition session_event (e : cevent) : Prop :=
  match e with CAccept _ | CReady _ _ | CTimeout _ => True | _ => False end.
Definition breaks (sid : Z) (e : cevent) : Prop :=
  match e with
  | CReady i ws => i = sid /\ In WErr ws
  | CTimeout i => i = sid
  | _ => False
  end.

(** ** Automatically enabled protocols *)
(** Protocol [p] is heard on one of the interfaces [ms]. *)
Definition heard (ms : list netif) (q : list entry) (p : Z) : Prop :=
  exists m x, In m ms /\ In x q /\ q_index x = nf_index m /\ q_proto x = p.
(** An interface table of physical interfaces and aggregates whose member lists
    and parent references agree, before anything is enabled. *)
Definition wired (nfs : list netif) : Prop :=
  NoDup (map nf_index nfs)
  /\ (forall n, In n nfs -> nf_update n = 0 /\ nf_protos n = 0)
  /\ (forall n, In n nfs -> nf_parent n = None ->
      exists ms, counted nfs n ms /\ forall m, In m ms -> uplink nfs m n)
  /\ (forall n i, In n nfs -> nf_parent n = Some i ->
      exists top ms, netif_byindex nfs i = Some top /\ nf_parent top = None /\ counted nfs top ms /\ In n ms).
(** Every event but a change of the interface table.  Datagrams are those the
    parent builds from frames that passed its filter (C16, C18, C19) on an
    interface that is not an aggregate (the child opens no others, child_send);
    the clock does not fail and is after the epoch. *)
Definition stable_event (nfs : list netif) (e : cevent) : Prop :=
  match e with
  | CRecv d _ now2 =>
      0 < now2 /\ exists index p f payload, bytes f /\ 60 <= zlen f <= 1518 /\ 0 <= p < 6
      /\ carries d index p 0 f /\ proto_frame p f payload
      /\ forall n, In n nfs -> nf_index n = index -> 0 <= nf_type n <= 10
  | CFetch _ => False
  | _ => True
  end.
