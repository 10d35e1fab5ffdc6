(** Specification vocabulary: media details of an interface. *)
From Verif Require Import Base Types Netif SpecNetif.

(** The link modes of ethtool that stand behind bit [b] of RFC 3636's
    ifMauAutoNegCapAdvertisedBits (bit 0 is the first bit on the wire). *)
Definition modes_of (b : Z) : list Z :=
  match b with
  | 0 => [12; 15]   (* other: 10000baseT/Full, 2500baseX/Full *)
  | 1 => [0]        (* 10BASE-T half duplex *)
  | 2 => [1]        (* 10BASE-T full duplex *)
  | 4 => [2]        (* 100BASE-TX half duplex *)
  | 5 => [3]        (* 100BASE-TX full duplex *)
  | 8 => [13]       (* pause *)
  | 9 => [14]       (* asymmetric pause *)
  | 14 => [4]       (* 1000BASE-T half duplex *)
  | 15 => [5]       (* 1000BASE-T full duplex *)
  | _ => []
  end.
(** The 16-bit word says exactly what the interface advertises. *)
Definition says_modes (e : ecmd) (word : Z) : Prop :=
  0 <= word < 65536
  /\ forall b, 0 <= b < 16 ->
     (Z.testbit word (15 - b) = true
      <-> an_supported e = true /\ exists m, In m (modes_of b) /\ Z.testbit (ec_advertising e) m = true).

(** Kinds of ports; a transceiver on a media independent interface is twisted pair
    if that is advertised. *)
Inductive plug := TwistedPair | Aui | Fibre | Bnc | DirectAttach | Other.
Definition plug_of (e : ecmd) : plug :=
  match ec_port e with
  | 0 => TwistedPair
  | 1 => Aui
  | 2 => if Z.testbit (ec_advertising e) 7 then TwistedPair else Other
  | 3 => Fibre
  | 4 => Bnc
  | 5 => DirectAttach
  | _ => Other
  end.
(** dot3MauType of RFC 4836 by port, megabits per second and full duplex. *)
Definition mau_table : list (plug * Z * bool * Z) :=
  [(Bnc, 10, false, 4); (Bnc, 10, true, 4);
   (TwistedPair, 10, false, 10); (TwistedPair, 10, true, 11);
   (Fibre, 10, false, 12); (Fibre, 10, true, 13);
   (TwistedPair, 100, false, 15); (TwistedPair, 100, true, 16);
   (Fibre, 100, false, 17); (Fibre, 100, true, 18);
   (Fibre, 1000, false, 21); (Fibre, 1000, true, 22);
   (TwistedPair, 1000, false, 29); (TwistedPair, 1000, true, 30);
   (Fibre, 10000, false, 31); (Fibre, 10000, true, 31);
   (DirectAttach, 10000, false, 41); (DirectAttach, 10000, true, 41);
   (TwistedPair, 10000, false, 54); (TwistedPair, 10000, true, 54)].
(** The number is that of the port, 1 for AUI at any speed, 0 where there is none. *)
Definition says_mau (e : ecmd) (mau : Z) : Prop :=
  match plug_of e with
  | Aui => mau = 1
  | p => In (p, ec_speed e, ec_duplex e =? 1, mau) mau_table
         \/ mau = 0 /\ forall x, ~ In (p, ec_speed e, ec_duplex e =? 1, x) mau_table
  end.
