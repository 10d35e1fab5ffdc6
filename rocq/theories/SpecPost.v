(** Specification vocabulary for the client's options, captures and posts. *)
From Verif Require Import Base Types Wire Parent Child Cli Post Spec SpecAdv SpecRound SpecNet SpecChild SpecCli.

(** ** The command line *)
(** The letters of a command line. *)
Definition letters (ol : list (Z * list Z)) : list Z := map fst ol.
(** The way of output: the last of -b (98), -d (100), -f (102), -p (112); 0 is
    the table. *)
Definition way (ls : list Z) (m : Z) : Prop :=
  (exists a b, ls = a ++ m :: b /\ In m (bs "bdfp") /\ forall x, In x b -> ~ In x (bs "bdfp"))
  \/ (m = 0 /\ forall x, In x ls -> ~ In x (bs "bdfp")).

(** ** Capture files *)
(** A number of the machine with byte order [big]. *)
Fixpoint number (bytes_high_first : list Z) : Z :=
  match bytes_high_first with [] => 0 | b :: r => b * 256 ^ zlen r + number r end.
Definition ordered (big : bool) (l : list Z) : Z := number (if big then l else rev l).
(** One record: seconds, microseconds, captured length, length, frame. *)
Record captured := mkCap { k_sec : Z; k_usec : Z; k_len : Z; k_frame : list Z }.
(** The records of a capture file; [n] is at least the number of bytes.  A
    record with fewer bytes than announced is not accepted. *)
Fixpoint records (n : nat) (big : bool) (t : list Z) : option (list captured) :=
  match t, n with
  | [], _ => Some []
  | _, O => None
  | _, S n' =>
      let at_ i := ordered big (firstn 4 (skipn i t)) in
      let got := at_ 8%nat in
      if (zlen t <? 16) || (zlen t <? 16 + got) then None
      else match records n' big (skipn (16 + Z.to_nat got) t) with
           | Some r => Some (mkCap (at_ 0%nat) (at_ 4%nat) (at_ 12%nat) (firstn (Z.to_nat got) (skipn 16 t)) :: r)
           | None => None
           end
  end.
(** A capture file of Ethernet frames: the magic number tells the byte order;
    version 2.4, link type 1. *)
Definition capture_read (t : list Z) : option (list captured) :=
  let head big := (ordered big (firstn 2 (skipn 4 t)) =? 2) && (ordered big (firstn 2 (skipn 6 t)) =? 4)
                  && (ordered big (firstn 4 (skipn 20 t)) =? 1) && (24 <=? zlen t) in
  if ordered true (firstn 4 t) =? 2712847316 then
    (if head true then records (length t) true (skipn 24 t) else None)
  else if ordered false (firstn 4 t) =? 2712847316 then
    (if head false then records (length t) false (skipn 24 t) else None)
  else None.
(** The times of successive records; 0 if the clock cannot be read. *)
Definition clocked (clock : nat -> option (Z * Z)) (n : nat) (k : captured) : Prop :=
  (k_sec k, k_usec k) = match clock n with Some t => t | None => (0, 0) end.
(** A capture of the frames [fs], written at the given times. *)
Definition capture_of (clock : nat -> option (Z * Z)) (fs : list (list Z)) (ks : list captured) : Prop :=
  length ks = length fs
  /\ forall i, (i < length fs)%nat ->
     let k := nth i ks (mkCap 0 0 0 []) in
     k_frame k = nth i fs [] /\ k_len k = zlen (nth i fs []) /\ clocked clock i k.
(** A clock that shows times of the next 80 years. *)
Definition clock_ok (clock : nat -> option (Z * Z)) : Prop :=
  forall n s u, clock n = Some (s, u) -> 0 <= s < 4294967296 /\ 0 <= u < 1000000.

(** ** Posts *)
(** application/x-www-form-urlencoded: fields are separated by '&', the name ends
    at the first '='; '+' is a blank, %XY a byte. *)
Definition hexval (b : Z) : option Z :=
  if (48 <=? b) && (b <=? 57) then Some (b - 48)
  else if (65 <=? b) && (b <=? 70) then Some (b - 55)
  else if (97 <=? b) && (b <=? 102) then Some (b - 87) else None.
Fixpoint urldecode (l : list Z) : list Z :=
  match l with
  | [] => []
  | b :: l' =>
      if b =? 43 then 32 :: urldecode l'
      else if b =? 37 then
        match l' with
        | x :: y :: l'' =>
            match hexval x, hexval y with
            | Some i, Some j => 16 * i + j :: urldecode l''
            | _, _ => b :: urldecode l'
            end
        | _ => b :: urldecode l'
        end
      else b :: urldecode l'
  end.
Fixpoint cut_at (sep : Z) (l : list Z) : list Z * option (list Z) :=
  match l with
  | [] => ([], None)
  | b :: l' => if b =? sep then ([], Some l') else let '(x, r) := cut_at sep l' in (b :: x, r)
  end.
Definition form_field (l : list Z) : list Z * list Z :=
  match cut_at 61 l with
  | (n, Some v) => (urldecode n, urldecode v)
  | (n, None) => (urldecode n, [])
  end.
Fixpoint form_read (n : nat) (l : list Z) : list (list Z * list Z) :=
  match n, cut_at 38 l with
  | S n', (f, Some r) => form_field f :: form_read n' r
  | _, (f, _) => [form_field f]
  end.
Definition form (l : list Z) : list (list Z * list Z) := form_read (length l) l.
(** What an encoder of strings for such a form must do. *)
Definition url_encoder (enc : list Z -> list Z) : Prop :=
  forall s, (forall b, In b s -> 0 < b < 256) -> urldecode (enc s) = s /\ ~ In 38 (enc s).
(** The encoder of libevent: unreserved characters stand for themselves. *)
Definition unreserved (b : Z) : bool :=
  ((65 <=? b) && (b <=? 90)) || ((97 <=? b) && (b <=? 122)) || ((48 <=? b) && (b <=? 57))
  || (b =? 45) || (b =? 46) || (b =? 95) || (b =? 126).
Definition hexdigit (n : Z) : Z := if n <? 10 then 48 + n else 55 + n.
Definition percent (s : list Z) : list Z :=
  flat_map (fun b => if unreserved b then [b] else [37; hexdigit (b / 16); hexdigit (b mod 16)]) s.
(** A text that stands for itself in a form. *)
Definition literal (l : list Z) : Prop := ~ In 37 l /\ ~ In 38 l /\ ~ In 43 l.
(** The fields for a neighbour; [trail] follows the last value. *)
Definition form_of (me : list Z) (m : item) (trail : list Z) : list (list Z * list Z) :=
  [(bs "hostname", me); (bs "interface", sh_name m);
   (bs "peer_hostname", attr_of m 0); (bs "peer_portname", attr_of m 1);
   (bs "protocol", proto_text (sh_proto m)); (bs "capabilities", attr_of m 3);
   (bs "ttl", decimal (sh_ttl m)); (bs "holdtime", decimal (sh_hold m) ++ trail)].
(** The host name of the client and the port of the service; the connection can
    be set up. *)
Definition connected (os : http_os) (port : Z) (me : list Z) : Prop :=
  h_port os = Some port /\ h_conn os = true
  /\ exists n, h_name os = Some n
     /\ (h_found os = None \/ h_found os = Some (bs "localhost") -> me = n)
     /\ (forall f, h_found os = Some f -> f <> bs "localhost" -> zlen f < 255 -> me = f).
(** An url without and with a port; path is what follows. *)
Definition url (host path u : list Z) : Prop :=
  ~ In 47 host /\ ~ In 58 host
  /\ (u = bs "http://" ++ host /\ path = [47] \/ exists r, path = 47 :: r /\ u = bs "http://" ++ host ++ path).
Definition port_url (host : list Z) (port : Z) (path u : list Z) : Prop :=
  ~ In 47 host /\ ~ In 58 host /\ exists r, path = 47 :: r /\ u = bs "http://" ++ host ++ [58] ++ decimal port ++ path.
(** Printable ASCII, bell, backspace, tab, newline, carriage return. *)
Definition plain (l : list Z) : Prop := forall b, In b l -> 32 <= b <= 126 \/ In b [7; 8; 9; 10; 13].

(** ** The daemon with -d *)
(** The frames handed to the privileged process, leaving out those for an
    interface that is gone. *)
Inductive handed : list pevent -> list (list Z) -> Prop :=
| handed_nil : handed [] []
| handed_req d os es fs : handed es fs -> handed (PReq d os :: es) fs
| handed_gone d os es fs : os_name os = None -> handed es fs -> handed (PSend d os :: es) fs
| handed_frame d os es fs index p received f payload :
    bytes f -> bytes d -> carries d index p received f -> 0 <= p < 6 -> 60 <= zlen f <= 1518 -> proto_frame p f payload ->
    os_name os <> None -> handed es fs -> handed (PSend d os :: es) (f :: fs).
