(** Basic vocabulary shared by all model files: machine integers as [Z],
    bytes, C strings, outcomes of C code and a few libc text helpers. *)
From Coq Require Export String Ascii.
From Coq Require Export ZArith List Bool Lia.
Export ListNotations.
Open Scope Z_scope.

(** Number of elements of a list as a [Z]; helper, no C counterpart. *)
Definition zlen {A} (l : list A) : Z := Z.of_nat (length l).

(** Outcome of running C code.  [DOk]: ran normally; [DFail]: the function
    returned 0 ("reject"); [DAbort]: an assert() or my_fatal() ended the
    process; [DUB]: memory outside an object was touched; [DLoop]: the fuel
    of the model ran out (proved impossible wherever it matters).
    Models the return conventions of /repo/src/proto/*.c (e.g. cdp.c 350-443,
    "return 0") and assert(3). *)
Inductive dres (A : Type) : Type :=
| DOk (a : A)
| DFail
| DAbort
| DUB
| DLoop.
Arguments DOk {A} a.
Arguments DFail {A}.
Arguments DAbort {A}.
Arguments DUB {A}.
Arguments DLoop {A}.

(** Sequencing of C statements; helper, no C counterpart. *)
Definition dbind {A B} (x : dres A) (f : A -> dres B) : dres B :=
  match x with
  | DOk a => f a
  | DFail => DFail
  | DAbort => DAbort
  | DUB => DUB
  | DLoop => DLoop
  end.
Notation "'let*' x ':=' e 'in' f" := (dbind e (fun x => f))
  (at level 200, x pattern, e at level 100, f at level 200, right associativity).

(** Option bind, for encoders ("return 0" = [None]); helper. *)
Definition obind {A B} (x : option A) (f : A -> option B) : option B :=
  match x with Some a => f a | None => None end.
Notation "'let?' x ':=' e 'in' f" := (obind e (fun x => f))
  (at level 200, x pattern, e at level 100, f at level 200, right associativity).

(** [pos .. pos+n) of a byte list; helper for memcpy. *)
Definition slice {A} (l : list A) (pos n : Z) : list A :=
  firstn (Z.to_nat n) (skipn (Z.to_nat pos) l).

(** memcpy of [n] bytes from offset [pos] of a buffer, bounds checked:
    reading outside the buffer object is [DUB].
    Models memcpy(3) as used in /repo/src/proto/tlv.h 66-96. *)
Definition rdn (buf : list Z) (pos n : Z) : dres (list Z) :=
  if (0 <=? pos) && (0 <=? n) && (pos + n <=? zlen buf)
  then DOk (slice buf pos n) else DUB.

(** Byte list equality, memcmp(3) == 0 on equally long regions. *)
Fixpoint beq (a b : list Z) : bool :=
  match a, b with
  | [], [] => true
  | x :: a', y :: b' => (x =? y) && beq a' b'
  | _, _ => false
  end.

(** The C string stored at the start of a byte buffer: everything before the
    first NUL (strlen(3) semantics). *)
Fixpoint cstr (l : list Z) : list Z :=
  match l with
  | [] => []
  | b :: l' => if b =? 0 then [] else b :: cstr l'
  end.

(** String literals of the C sources as byte lists; helper. *)
Fixpoint bs (s : String.string) : list Z :=
  match s with
  | String.EmptyString => []
  | String.String a s' => Z.of_N (Ascii.N_of_ascii a) :: bs s'
  end.

Arguments bs s%string.

(** Big endian encodings, htons(3)/htonl(3) followed by memcpy
    (/repo/src/proto/tlv.h 45-56); values are truncated to the C type. *)
Definition be16 (v : Z) : list Z := [(v / 256) mod 256; v mod 256].
(** htonl(3), as above: tlv.h 56. *)
Definition be32 (v : Z) : list Z :=
  [(v / 16777216) mod 256; (v / 65536) mod 256; (v / 256) mod 256; v mod 256].

(** Big endian decodings, ntohs(3)/ntohl(3) (/repo/src/proto/tlv.h 75-77). *)
Definition de16 (l : list Z) : Z :=
  match l with [a; b] => a * 256 + b | _ => 0 end.
(** ntohl(3): tlv.h 77. *)
Definition de32 (l : list Z) : Z :=
  match l with [a; b; c; d] => ((a * 256 + b) * 256 + c) * 256 + d | _ => 0 end.

(** Bit test [v & m] used as a truth value; helper. *)
Definition has (v m : Z) : bool := negb (Z.land v m =? 0).

(** Decimal and hexadecimal digits, printf(3) "%u", "%x"; [fuel] bounds the
    number of digits. *)
Fixpoint digits (base : Z) (fuel : nat) (n : Z) (acc : list Z) : list Z :=
  match fuel with
  | O => acc
  | S f =>
      let d := n mod base in
      let c := if d <? 10 then 48 + d else 87 + d in
      if n / base =? 0 then c :: acc else digits base f (n / base) (c :: acc)
  end.
(** printf "%d", "%u": cli.c 257-268, tlv.c and others. *)
Definition dec (n : Z) : list Z := digits 10 20 n [].
(** printf "%x", as used by inet_ntop(3) for IPv6. *)
Definition hex (n : Z) : list Z := digits 16 16 n [].

(** printf(3) "%02x" of one byte. *)
Definition hex2 (n : Z) : list Z :=
  let c d := if d <? 10 then 48 + d else 87 + d in
  [c ((n / 16) mod 16); c (n mod 16)].

(** printf(3) "%d" of a signed number. *)
Definition sdec (n : Z) : list Z := if n <? 0 then 45 :: dec (- n) else dec n.

(** inet_ntop(3) for AF_INET: dotted decimal of four bytes. *)
Definition inet_ntop4 (a : list Z) : list Z :=
  match a with
  | [a; b; c; d] => dec a ++ [46] ++ dec b ++ [46] ++ dec c ++ [46] ++ dec d
  | _ => []
  end.

(** 16-bit words of an IPv6 address; helper for [inet_ntop6]. *)
Fixpoint words16 (l : list Z) : list Z :=
  match l with
  | a :: b :: l' => (a * 256 + b) :: words16 l'
  | _ => []
  end.

(** Length of the run of zero words at the head; helper for [inet_ntop6]. *)
Fixpoint zrun (l : list Z) : Z :=
  match l with
  | w :: l' => if w =? 0 then 1 + zrun l' else 0
  | [] => 0
  end.

(** First longest run of zero words (base, length); helper for [inet_ntop6]. *)
Fixpoint best_run (i : Z) (l : list Z) (best : Z * Z) : Z * Z :=
  match l with
  | [] => best
  | _ :: l' =>
      let r := zrun l in
      best_run (i + 1) l' (if snd best <? r then (i, r) else best)
  end.

(** inet_ntop(3) for AF_INET6 (glibc resolv/inet_ntop.c, inet_ntop6): longest
    run of at least two zero words becomes "::", embedded IPv4 for
    ::a.b.c.d and ::ffff:a.b.c.d. External code, modelled concretely. *)
Fixpoint ntop6_go (base len : Z) (w5 : Z) (last4 : list Z) (i : Z) (l : list Z) : list Z :=
  match l with
  | [] => []
  | w :: l' =>
      if (0 <=? base) && (base <=? i) && (i <? base + len) then
        (if i =? base then [58] else []) ++ ntop6_go base len w5 last4 (i + 1) l'
      else
        (if i =? 0 then [] else [58]) ++
        (if (i =? 6) && (base =? 0) && ((len =? 6) || ((len =? 5) && (w5 =? 65535)))
         then inet_ntop4 last4
         else hex w ++ ntop6_go base len w5 last4 (i + 1) l')
  end.
(** inet_ntop(AF_INET6), libc, called at /repo/src/proto/tlv.c 71, 136. *)
Definition inet_ntop6 (a : list Z) : list Z :=
  let w := words16 a in
  let '(b, l) := best_run 0 w (-1, 0) in
  let '(b, l) := if l <? 2 then (-1, 0) else (b, l) in
  ntop6_go b l (nth 5 w 0) (skipn 12 a) 0 w
    ++ (if (0 <=? b) && (b + l =? 8) then [58] else []).

(** "%02x:%02x:%02x:%02x:%02x:%02x" of a MAC address
    (/repo/src/proto/tlv.c 80-81, 145-146). *)
Definition mac_str (a : list Z) : list Z :=
  match a with
  | [a; b; c; d; e; f] =>
      hex2 a ++ [58] ++ hex2 b ++ [58] ++ hex2 c ++ [58] ++
      hex2 d ++ [58] ++ hex2 e ++ [58] ++ hex2 f
  | _ => []
  end.
