(** Specification vocabulary for the command line of the daemon. *)
From Verif Require Import Base Types Opts.

(** One of the option letters in [xs] is given. *)
Definition given (xs : list Z) (ol : list (Z * list Z)) : bool := existsb (fun '(x, _) => existsb (Z.eqb x) xs) ol.
(** The switches and the letters that turn them on. *)
Definition switched_on : list (Z * list Z) :=
  [(OPT_AUTO, bs "a"); (OPT_RECV, bs "aryz"); (OPT_ONCE, bs "o"); (OPT_DEBUG, bs "d"); (OPT_MNETIF, bs "m");
   (OPT_MADDR, bs "n"); (OPT_WIRELESS, bs "w"); (OPT_TAP, bs "t"); (OPT_IFDESCR, bs "yz"); (OPT_USEDESCR, bs "y");
   (OPT_CHASSIS_IF, bs "q")].
(** The switches that are on unless turned off, and the letters that do so. *)
Definition switched_off : list (Z * list Z) := [(OPT_DAEMON, bs "df"); (OPT_SEND, bs "s")].
(** The protocols and their letters. *)
Definition protocol_letters : list (nat * Z) := [(0%nat, 76); (1%nat, 67); (2%nat, 69); (3%nat, 70); (4%nat, 78)].
(** An option that is refused. *)
Definition bad_option (n : naming) (x : Z) (arg : list Z) : Prop :=
  ~ In x (bs "adefmnoqrstuvwyzclLCEFN")
  \/ (x = 101 /\ n_index n arg = 0)
  \/ (x = 109 /\ n_index n arg = 0 /\ n_pton4 n arg = None /\ n_pton6 n arg = None)
  \/ (x = 99 /\ zlen arg <> 2)
  \/ (x = 108 /\ arg = []).
(** A capital or small letter; the capital letter for it. *)
Definition is_letter (b : Z) : Prop := 65 <= b <= 90 \/ 97 <= b <= 122.
Definition capital (b c : Z) : Prop := (97 <= b <= 122 /\ c = b - 32) \/ (~ 97 <= b <= 122 /\ c = b).
(** The arguments of the options [x], in order. *)
Definition args_of (x : Z) (ol : list (Z * list Z)) : list (list Z) :=
  map snd (filter (fun '(y, _) => y =? x) ol).
(** The arguments of -m that name an interface, that are an IPv4 address and that
    are an IPv6 address. *)
Definition m_interfaces (n : naming) (ol : list (Z * list Z)) : list (list Z) :=
  filter (fun a => negb (n_index n a =? 0)) (args_of 109 ol).
Definition m_v4 (n : naming) (ol : list (Z * list Z)) : list (list Z) :=
  filter (fun a => (n_index n a =? 0) && match n_pton4 n a with Some _ => true | None => false end) (args_of 109 ol).
Definition m_v6 (n : naming) (ol : list (Z * list Z)) : list (list Z) :=
  filter (fun a => (n_index n a =? 0) && match n_pton4 n a with Some _ => false | None => true end
                   && match n_pton6 n a with Some _ => true | None => false end) (args_of 109 ol).
