(** From the wire to the client: vocabulary of C121. *)
From Verif Require Import Base Types Bpf Wire Parent Util Child Cli Spec SpecAdv SpecRound SpecNet SpecChild SpecHold SpecCli.

(** The datagram [d] is what the privileged process hands over for the frame [f],
    which passed the filter of its socket on the interface [index]. *)
Definition caught (opts index : Z) (f d : list Z) : Prop :=
  bytes f /\ 0 <= index < 4294967296 /\ socket_filter opts f = true /\ parent_recv index [f] = [d].
(** A history of the daemon in which all datagrams come from the wire; the clock
    works, and interfaces have numbers and names. *)
Definition from_wire (opts : Z) (e : cevent) : Prop :=
  match e with
  | CRecv d now now2 => 0 < now < 9223372036854775808 /\ 0 < now2 /\ exists index f, caught opts index f d
  | CTick now => 0 < now
  | CFetch nfs => forall n, In n nfs -> 0 <= nf_index n < 4294967296 /\ cstring 16 (nf_name n)
  | _ => True
  end.
(** All times read from the clock are at most [t]. *)
Definition past (t : Z) (e : cevent) : Prop :=
  match clock e with Some (a, b) => a <= t /\ b <= t | None => True end.
(** [en] is the last word of a neighbour at time [t]: a frame [f] with its group
    address came in at time [now] on an interface the daemon knew (and not from
    the host itself); its first 1518 bytes are a valid advertisement; it holds
    until [t] at least; and nothing was heard of this neighbour afterwards. *)
Definition last_word (opts : Z) (es : list cevent) (t : Z) (en : entry) : Prop :=
  exists es1 d now now2 es2 c1 eff1 index f p proto ttl attrs sub,
  es = es1 ++ CRecv d now now2 :: es2 /\ reached opts es1 c1 eff1
  /\ caught opts index f d /\ 0 <= p < 5 /\ firstn 6 f = group_address p
  /\ netif_byindex (c_nfs c1) index = Some sub /\ netif_byaddr (c_nfs c1) (firstn 6 (skipn 6 f)) = None
  /\ (let cut := firstn 1518 f in
      advert p cut proto ttl attrs
      /\ en = mkEnt 0 index (nf_name sub) proto now (zlen cut) (cut ++ repeat 0 (Z.to_nat (1518 - zlen cut))) ttl (report attrs) 0)
  /\ ttl <> 0 /\ t <= now + ttl
  /\ unheard opts (es1 ++ [CRecv d now now2]) es2 (who en).
