(** Specification vocabulary for the client. *)
From Verif Require Import Base Tlv Types Wire Util Child Cli Spec SpecAdv SpecRound SpecNet SpecChild.

(** ** The command line *)
(** The option letter of a protocol: L, C, E, F, N, and C for both versions of
    CDP (1 and 5). *)
Definition letter (p : Z) : Z :=
  match p with 0 => 76 | 1 => 67 | 2 => 69 | 3 => 70 | 4 => 78 | _ => 67 end.
(** Protocol [p] is asked for: by its letter, or by giving no protocol at all. *)
Definition asked (letters : list Z) (p : Z) : bool :=
  existsb (Z.eqb (letter p)) letters
  || negb (existsb (fun q => existsb (Z.eqb (letter q)) letters) [0; 1; 2; 3; 4]).
(** Interface [i] is asked for: by its name, or by giving no name at all. *)
Definition asked_if (names : list (list Z)) (ifindex : list Z -> Z) (i : Z) : bool :=
  match names with [] => true | _ => existsb (fun n => ifindex n =? i) names end.
(** A command line that is not refused: known options, -p (112) at most once,
    known interfaces. *)
Definition usable (letters : list Z) (names : list (list Z)) (ifindex : list Z -> Z) : Prop :=
  (forall x, In x letters -> In x (bs "LCEFNbdfpov"))
  /\ (forall a b, letters <> a ++ 112 :: b \/ ~ In 112 b)
  /\ (forall n, In n names -> ifindex n <> 0).

(** ** What the daemon sends *)
(** A table entry of the daemon: its frame and what the frame says. *)
Definition genuine (e : entry) : Prop :=
  exists f attrs,
  bytes f /\ 60 <= zlen f <= 1518
  /\ q_msg e = f ++ repeat 0 (Z.to_nat (1518 - zlen f)) /\ q_len e = zlen f
  /\ 0 <= q_index e < 4294967296 /\ 0 <= q_proto e < 6 /\ cstring 16 (q_name e)
  /\ 0 <= q_received e < 9223372036854775808
  /\ SpecChild.advert (q_proto e) f (q_proto e) (q_ttl e) attrs /\ q_peer e = report attrs.
(** Datagrams of the parent and the clocks, interface names and numbers the
    daemon can meet. *)
Definition daemon_event (e : cevent) : Prop :=
  match e with
  | CRecv d now _ =>
      0 <= now < 9223372036854775808
      /\ exists index p f payload, bytes f /\ 60 <= zlen f <= 1518 /\ 0 <= p < 6
         /\ carries d index p 0 f /\ proto_frame p f payload
  | CFetch nfs => forall n, In n nfs -> 0 <= nf_index n < 4294967296 /\ cstring 16 (nf_name n)
  | _ => True
  end.

(** The TTL of an entry has not elapsed. *)
Definition fresh (now : Z) (e : entry) : bool := now - q_received e <=? q_ttl e.
(** How an entry is to be shown. *)
Definition display (now : Z) (e : entry) : item :=
  mkItem (q_index e) (q_name e) (q_proto e) (q_ttl e) (q_peer e) (q_ttl e - (now - q_received e)).
(** No wanted entry that is fresh follows a wanted one that is not. *)
Definition undisturbed (wanted good : entry -> bool) (es : list entry) : Prop :=
  forall pre a mid b post, es = pre ++ a :: mid ++ b :: post ->
    wanted a = true -> good a = false -> wanted b = true -> good b = false.

(** ** Shell *)
(** The part of the POSIX shell language made of lines NAME='value': the
    assignments of a text, or [None] when there is anything else in it.  Between
    single quotes every character but the quote stands for itself. *)
Inductive shstate := InName (n : list Z) | AfterEq (n : list Z) | InQuotes (n v : list Z) | AfterQuotes (n v : list Z).
Definition name_char (b : Z) : bool :=
  ((65 <=? b) && (b <=? 90)) || ((97 <=? b) && (b <=? 122)) || ((48 <=? b) && (b <=? 57)) || (b =? 95).
Fixpoint sh_read (st : shstate) (t : list Z) : option (list (list Z * list Z)) :=
  match t, st with
  | [], InName [] => Some []
  | [], _ => None
  | b :: t', InName n =>
      if b =? 61 then
        match n with
        | c :: _ => if (48 <=? c) && (c <=? 57) then None else sh_read (AfterEq n) t'
        | [] => None
        end
      else if name_char b then sh_read (InName (n ++ [b])) t' else None
  | b :: t', AfterEq n => if b =? 39 then sh_read (InQuotes n []) t' else None
  | b :: t', InQuotes n v =>
      if b =? 39 then sh_read (AfterQuotes n v) t' else sh_read (InQuotes n (v ++ [b])) t'
  | b :: t', AfterQuotes n v =>
      if b =? 10 then
        match sh_read (InName []) t' with Some l => Some ((n, v) :: l) | None => None end
      else None
  end.
(** An attribute, empty if there is none; a value with single quotes replaced
    by double quotes. *)
Definition attr_of (m : item) (i : nat) : list Z :=
  match nth i (sh_peer m) None with Some v => v | None => [] end.
Definition requoted (l : list Z) : list Z := map (fun b => if b =? 39 then 34 else b) l.
Definition proto_text (p : Z) : list Z :=
  match p with 0 => bs "LLDP" | 1 => bs "CDP" | 2 => bs "EDP" | 3 => bs "FDP" | 4 => bs "NDP" | 5 => bs "CDP1" | _ => [] end.
(** The documented assignments for the neighbour number [i]. *)
Definition documented (i : Z) (m : item) : list (list Z * list Z) :=
  map (fun '(n, v) => (n ++ bs "_" ++ decimal i, v))
    [(bs "INTERFACE", sh_name m);
     (bs "HOSTNAME", requoted (attr_of m 0)); (bs "PORTNAME", requoted (attr_of m 1));
     (bs "PORTDESCR", requoted (attr_of m 2)); (bs "PROTOCOL", proto_text (sh_proto m));
     (bs "ADDR_INET4", attr_of m 4); (bs "ADDR_INET6", attr_of m 5); (bs "ADDR_802", attr_of m 6);
     (bs "VLAN_ID", attr_of m 7); (bs "CAPABILITIES", attr_of m 3);
     (bs "TTL", decimal (sh_ttl m)); (bs "HOLDTIME", decimal (sh_hold m))].
(** For all neighbours, numbered from [i]. *)
Fixpoint documented_all (i : Z) (ms : list item) : list (list Z * list Z) :=
  match ms with [] => [] | m :: ms' => documented i m ++ documented_all (i + 1) ms' end.

(** ** The table *)
(** A text in a column of width [w]: cut, or filled up with blanks. *)
Definition cell (w : Z) (s c : list Z) : Prop :=
  zlen c = w /\ (w <= zlen s -> exists r, s = c ++ r)
  /\ (zlen s <= w -> exists k, c = s ++ repeat 32 k).
(** A row: the host column is [hw] wide, the port column at the end [pw] wide or
    as wide as its text. *)
Definition row (hw : Z) (pw : option Z) (host name proto hold cap port r : list Z) : Prop :=
  exists c1 c2 c3 c4 c5 c6,
  r = c1 ++ [32] ++ c2 ++ [32] ++ c3 ++ [32] ++ c4 ++ [32] ++ c5 ++ [32] ++ c6 ++ [10]
  /\ cell hw host c1 /\ cell 13 name c2 /\ cell 7 proto c3 /\ cell 12 hold c4 /\ cell 13 cap c5
  /\ match pw with Some w => cell w port c6 | None => c6 = port end.
(** The host name shown in a column of width [hw]: cut at the first dot if it
    is too long. *)
Definition host_text (hw : Z) (m : item) (h : list Z) : Prop :=
  (zlen (attr_of m 0) <= hw -> h = attr_of m 0) /\ (hw < zlen (attr_of m 0) -> short_host (attr_of m 0) h).
(** The port shown: the name, else the description, in short form. *)
Definition port_text (m : item) (r : list Z) : Prop :=
  match nth 1 (sh_peer m) None, nth 2 (sh_peer m) None with
  | Some s, _ => short_port s r
  | None, Some s => short_port s r
  | None, None => r = []
  end.
(** The row of a neighbour. *)
Definition row_of (hw : Z) (pw : option Z) (m : item) (r : list Z) : Prop :=
  exists host port, host_text hw m host /\ port_text m port
  /\ row hw pw host (sh_name m) (proto_text (sh_proto m)) (decimal (sh_hold m)) (attr_of m 3) port r.
(** The number of lines of a text. *)
Definition lines (t : list Z) : Z := zlen (filter (fun b => b =? 10) t).
(** Nothing shown of a neighbour has a line break in it. *)
Definition unbroken (m : item) : Prop :=
  ~ In 10 (sh_name m) /\ forall i v, nth i (sh_peer m) None = Some v -> ~ In 10 v.
(** The text before the table. *)
Definition legend : list Z :=
  bs "Capability Codes:" ++ [10]
  ++ [9] ++ bs "r - Repeater, B - Bridge, H - Host, R - Router, S - Switch," ++ [10]
  ++ [9] ++ bs "W - WLAN Access Point, C - DOCSIS Device, T - Telephone, O - Other" ++ [10; 10].
