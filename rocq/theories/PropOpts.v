(** The command line of the daemon: C51. *)
From Verif Require Import Base Types Opts SpecOpts OptsProofs.

(** eth0 and eth1 exist; 10.0.0.1 and fe80::1 are addresses. *)
Definition o_names : naming := mkNaming
  (fun a => if beq a (bs "eth0") then 2 else if beq a (bs "eth1") then 3 else 0)
  (fun a => if beq a (bs "10.0.0.1") then Some [10; 0; 0; 1] else None)
  (fun a => if beq a (bs "fe80::1") then Some [254; 128; 0; 0; 0; 0; 0; 0; 0; 0; 0; 0; 0; 0; 0; 1] else None).
(** ladvd -f -y -L -C -e eth1 -m eth0 -c nl -l "rack 12" -u nobody eth0 *)
Definition o_line : list (Z * list Z) :=
  [(102, []); (121, []); (76, []); (67, []); (101, bs "eth1"); (109, bs "eth0"); (99, bs "nl"); (108, bs "rack 12"); (117, bs "nobody")].

(** C51: the daemon starts exactly if every option is acceptable and a protocol or
    automatic mode is chosen. *)
Theorem C51_refused n ol operands :
  main_opts n ol operands = None
  <-> (exists x arg, In (x, arg) ol /\ bad_option n x arg) \/ given (bs "aLCEFN") ol = false.
Proof. exact (opts_refused n ol operands). Qed.
Print Assumptions C51_refused.
Example C51_refused_case :
  main_opts o_names [(102, []); (114, [])] [] = None /\ given (bs "aLCEFN") [(102, []); (114, [])] = false
  /\ main_opts o_names [(76, []); (101, bs "eth7")] [] = None
  /\ main_opts o_names [(76, []); (99, bs "nld")] [] = None
  /\ main_opts o_names [(76, []); (109, bs "host")] [] = None
  /\ main_opts o_names [(76, []); (63, [])] [] = None.
Proof. repeat split; vm_compute; reflexivity. Qed.
(** Every switch and every protocol is on exactly if an option documented to turn
    it on is given (or none that turns it off). *)
Theorem C51_switches n ol operands s :
  main_opts n ol operands = Some s ->
  (forall b xs, In (b, xs) switched_on -> has (u_opts s) b = given xs ol)
  /\ (forall b xs, In (b, xs) switched_off -> has (u_opts s) b = negb (given xs ol))
  /\ (has (u_opts s) OPT_ARGV = true <-> operands <> [])
  /\ (forall i x, In (i, x) protocol_letters -> nth i (u_enabled s) false = given [x] ol)
  /\ nth 5 (u_enabled s) false = false.
Proof. exact (opts_switches n ol operands s). Qed.
Print Assumptions C51_switches.
Theorem C51_implied n ol operands s :
  main_opts n ol operands = Some s ->
  (has (u_opts s) OPT_AUTO = true \/ In true (u_enabled s))
  /\ (has (u_opts s) OPT_AUTO = true -> has (u_opts s) OPT_RECV = true)
  /\ (has (u_opts s) OPT_IFDESCR = true -> has (u_opts s) OPT_RECV = true)
  /\ (has (u_opts s) OPT_USEDESCR = true -> has (u_opts s) OPT_IFDESCR = true)
  /\ (has (u_opts s) OPT_DEBUG = true -> has (u_opts s) OPT_DAEMON = false).
Proof. exact (opts_implied n ol operands s). Qed.
Print Assumptions C51_implied.
(** The values: of options given more than once the last counts, except that
    excluded interfaces add up. *)
Theorem C51_values n ol operands s :
  main_opts n ol operands = Some s ->
  u_user s = last (args_of 117 ol) (bs "ladvd")
  /\ u_location s = firstn 255 (last (args_of 108 ol) [])
  /\ u_excl s = map (firstn 15) (args_of 101 ol)
  /\ Forall2 capital (last (args_of 99 ol) []) (u_country s)
  /\ (args_of 99 ol <> [] -> zlen (u_country s) = 2)
  /\ u_mif s = last (map Some (m_interfaces n ol)) None
  /\ u_m4 s = last (map (n_pton4 n) (m_v4 n ol)) None
  /\ u_m6 s = last (map (n_pton6 n) (m_v6 n ol)) None.
Proof. exact (opts_values n ol operands s). Qed.
Print Assumptions C51_values.
Example C51_case :
  main_opts o_names o_line [bs "eth0"]
  = Some (mkSetup 6310 (bs "nobody") [bs "eth1"] (Some (bs "eth0")) None None (bs "NL") (bs "rack 12")
            [true; true; false; false; false; false])
  /\ 6310 = OPT_SEND + OPT_RECV + OPT_ARGV + OPT_MNETIF + OPT_IFDESCR + OPT_USEDESCR.
Proof. split; vm_compute; reflexivity. Qed.
(** C51 is false in one respect: a country code need not be letters. *)
Theorem C51_country_refuted : exists n ol s b,
  main_opts n ol [] = Some s /\ In b (u_country s) /\ ~ is_letter b.
Proof.
  exists o_names, [(76, []); (99, bs "1!")]. eexists. exists 33. split; [vm_compute; reflexivity|].
  split; [right; left; reflexivity|]. unfold is_letter. intros [[H _]|[H _]]; apply H; reflexivity.
Qed.
Print Assumptions C51_country_refuted.
