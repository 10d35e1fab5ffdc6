(** Vocabulary for C142: which frames a command line asks for. *)
From Verif Require Import Base Types SpecOpts.

(** With these interfaces named: one of them, VLANs excepted; with none: any that is
    not a member of an aggregate. *)
Definition chosen (names : list (list Z)) (n : netif) : Prop :=
  match names with [] => nf_child n = 0 | _ => In (nf_name n) names /\ nf_type n <> -1 end.
(** The options allow to use the interface: no VLAN, wireless (1) with -w, tap (2) with
    -t, not excluded with -e. *)
Definition allowed (o : list (Z * list Z)) (n : netif) : Prop :=
  0 <= nf_type n
  /\ (nf_type n = 1 -> given (bs "w") o = true) /\ (nf_type n = 2 -> given (bs "t") o = true)
  /\ (forall x, In x (args_of 101 o) -> firstn 15 x <> nf_name n).
(** The letter of a protocol: LLDP, CDP, EDP, FDP, NDP. *)
Definition letter_of (p : Z) : list Z := nth (Z.to_nat p) [bs "L"; bs "C"; bs "E"; bs "F"; bs "N"] [].
(** The protocol is asked for by its letter, or by -a and was heard on the interface
    (or one of its members). *)
Definition asked (o : list (Z * list Z)) (top : netif) (p : Z) : Prop :=
  given (letter_of p) o = true \/ (given (bs "a") o = true /\ Z.testbit (nf_protos top) p = true).
(** The civic location (RFC 4776, TIA-1057) of a country and one text: what the address
    is of (2, the client), its length (one byte, so modulo 256: C50), the country and the
    text as element 22 (ladvd's choice). *)
Definition civic (country text : list Z) : list Z :=
  [2; (5 + zlen text) mod 256; 2] ++ country ++ [22; zlen text] ++ text.
