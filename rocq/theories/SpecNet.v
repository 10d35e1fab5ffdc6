(** Specification vocabulary for the path of a frame from the wire to the
    neighbour table, and for the privileged process. *)
From Verif Require Import Base Types Wire Parent Spec SpecAdv SpecRound.

(** The frames the receive filter is meant to pass: LLDP, CDP, FDP and NDP, and
    LLC/SNAP frames with the address and organisation written in the filter for
    EDP (00:0e:2b instead of 00:e0:2b).  Each optionally has one 802.1Q tag. *)
Definition named_frame (f : list Z) : Prop :=
  exists payload,
    lldp_frame f payload \/ cdp_frame f payload \/ fdp_frame f payload \/ ndp_frame f payload
    \/ snap_frame [0; 14; 43; 0; 0; 0] [0; 14; 43] 187 f payload.

(** The group address of each protocol, in table order; CDP version 1 (5) is
    told apart from CDP by the payload only. *)
Definition group_address (p : Z) : list Z :=
  nth (Z.to_nat p)
    [[1; 128; 194; 0; 0; 14]; [1; 0; 12; 204; 204; 204]; [0; 224; 43; 0; 0; 0];
     [1; 224; 82; 204; 204; 204]; [1; 0; 129; 0; 1; 0]] [].

(** A datagram carrying exactly the frame [f] of protocol [p] heard on the
    interface [index]: every field of the structure read from it. *)
Definition carries (dgram : list Z) (index p received : Z) (f : list Z) : Prop :=
  zlen dgram = 40 + zlen f
  /\ pm_index (msg_mem dgram) = index /\ pm_proto (msg_mem dgram) = p
  /\ pm_received (msg_mem dgram) = received /\ pm_len (msg_mem dgram) = zlen f
  /\ pm_msg (msg_mem dgram) = f ++ repeat 0 (Z.to_nat (1518 - zlen f)).

(** The multicast memberships of a socket, an address as often as it was added,
    after the operations among some effects (1 adds, 2 drops). *)
Fixpoint drop_one (a : list Z) (l : list (list Z)) : list (list Z) :=
  match l with
  | [] => []
  | b :: l' => if beq a b then l' else b :: drop_one a l'
  end.
Fixpoint memberships (have : list (list Z)) (eff : list peff) : list (list Z) :=
  match eff with
  | [] => have
  | EMulti _ 1 a :: eff' => memberships (a :: have) eff'
  | EMulti _ 2 a :: eff' => memberships (drop_one a have) eff'
  | _ :: eff' => memberships have eff'
  end.

(** ** The privileged process *)
(** What may happen for the interface [index] named [name]; [sent data] says
    which frames may be transmitted or dumped. *)
Definition about (index : Z) (name : list Z) (sent : list Z -> Prop) (e : peff) : Prop :=
  match e with
  | EOpen i n => i = index /\ n = name
  | EClose i => i = index
  | EMulti i _ _ => i = index
  | EFrame i _ data => i = index /\ sent data
  | EDump i data => i = index /\ sent data
  | EAlias _ _ | EReply _ _ _ _ => False
  end.
(** The frame in a datagram of the child: everything behind the 40-byte header,
    at most 1518 bytes. *)
Definition frame_of (d : list Z) : list Z := firstn 1518 (skipn 40 d).
(** It may be transmitted: a legal size, and header and signature of the
    discovery protocol named at offset 20. *)
Definition sendable (d : list Z) (data : list Z) : Prop :=
  data = frame_of d /\ 60 <= zlen data <= 1518
  /\ exists p payload, nth 20 d 0 = p /\ 0 <= p < 6 /\ proto_frame p data payload.
(** The frame transmissions among some effects. *)
Definition frames (l : list peff) : list peff :=
  filter (fun e => match e with EFrame _ _ _ => true | _ => false end) l.
(** At most one raw socket per interface index. *)
Definition one_each (fds : list rawfd) : Prop := NoDup (map rf_index fds).

(** The requests the parent knows, with the lengths it accepts.  [team] and
    [pci]: built with libteam, libpci. *)
Definition legal_request (team pci : bool) (op len : Z) : Prop :=
  match op with
  | 0 | 1 | 3 | 4 => True            (* open, close, read alias, is a device *)
  | 2 => len <= 64                   (* set description *)
  | 5 => pci = true                  (* device id *)
  | 6 => len = 44                    (* ethtool settings *)
  | 7 => len = 196                   (* ethtool driver *)
  | 8 => team = true                 (* team details *)
  | _ => False
  end.
(** The size of a request datagram (cut at 544 bytes) is right. *)
Definition request_size (d : list Z) : Prop :=
  32 <= zlen d /\ Z.min (zlen d) 544 = 32 + pr_len (req_mem d).
(** What may happen for a request about interface [index] named [name]. *)
Definition req_about (index : Z) (name : list Z) (op : Z) (e : peff) : Prop :=
  match e with
  | EOpen i n => op = 0 /\ i = index /\ n = name
  | EMulti i _ _ => (op = 0 \/ op = 1) /\ i = index
  | EClose i => op = 1 /\ i = index
  | EAlias n data => op = 2 /\ n = name /\ zlen data <= 64
  | EReply o i len data => o = op /\ i = index /\ 0 <= len <= 512 /\ zlen data = len
  | EFrame _ _ _ | EDump _ _ => False
  end.
