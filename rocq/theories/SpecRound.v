(** Specification of reception: frames of a protocol, and what a neighbour
    running ladvd looks like to another one. *)
From Verif Require Import Base Types Msg Spec SpecAdv.

(** A frame of protocol [p] (0 LLDP, 1 CDP, 2 EDP, 3 FDP, 4 NDP, 5 CDP version
    1) with its payload: right destination, LLC/SNAP header or ethertype. *)
Definition proto_frame (p : Z) : list Z -> list Z -> Prop :=
  match p with
  | 0 => lldp_frame
  | 2 => edp_frame
  | 3 => fdp_frame
  | 4 => ndp_frame
  | _ => cdp_frame
  end.

(** The first of two optional values. *)
Definition either {A} (a b : option A) : option A := match a with Some _ => a | None => b end.
(** The text of an address that is set. *)
Definition addr4 (n : netif) : option (list Z) :=
  if is_set (nf_ipaddr4 n) then Some (inet_ntop4 (nf_ipaddr4 n)) else None.
Definition addr6 (n : netif) : option (list Z) :=
  if is_set (nf_ipaddr6 n) then Some (inet_ntop6 (nf_ipaddr6 n)) else None.

(** What the receiver of a CDP advertisement shows, in the order host, port,
    port description, capabilities, IPv4, IPv6, MAC, VLAN.  Capabilities: H for
    a plain host, else the letters of bridge, router and switch. *)
Definition cdp_seen (n p : netif) (mgmt : option netif) (si : sysinfo) : list (option (list Z)) :=
  [Some (flat_map show_safe (si_hostname si)); Some (flat_map show_safe (nf_name n)); None;
   Some (if si_cap_active si =? 4 then bs "H" else letters (Z.land (si_cap_active si) 26));
   either (addr4 p) (match mgmt with Some m => addr4 m | None => None end);
   either (addr6 p) (match mgmt with Some m => addr6 m | None => None end);
   None; None].
(** EDP: the host name only. *)
Definition edp_seen (si : sysinfo) : list (option (list Z)) :=
  [Some (flat_map show_strict (si_hostname si)); None; None; None; None; None; None; None].
(** FDP: the letter of one role. *)
Definition fdp_seen (n : netif) (si : sysinfo) : list (option (list Z)) :=
  [Some (flat_map show_strict (si_hostname si)); Some (flat_map show_strict (nf_name n)); None;
   Some (if Z.testbit (si_cap_active si) 3 then bs "R"
         else if Z.testbit (si_cap_active si) 4 then bs "S"
         else if Z.testbit (si_cap_active si) 1 then bs "B" else bs "H");
   None; None; None; None].
(** LLDP: bridge and switch share one letter. *)
Definition lldp_letters (cap : Z) : list Z :=
  (if Z.testbit cap 1 || Z.testbit cap 4 then bs "B" else [])
  ++ (if Z.testbit cap 3 then bs "R" else []) ++ (if Z.testbit cap 5 then bs "W" else []).
Definition lldp_seen (opts : Z) (n p m : netif) (si : sysinfo) : list (option (list Z)) :=
  let descr := port_descr opts n p in
  [Some (flat_map show_safe (si_hostname si)); Some (flat_map show_safe (nf_name n));
   if 0 <? zlen descr then Some (flat_map show_safe descr) else None;
   Some (if si_cap si =? 4 then bs "H" else lldp_letters (si_cap_active si));
   addr4 m; addr6 m; Some (mac_str (nf_hwaddr m)); None].
(** The enabled capabilities are among the available ones. *)
Definition caps_consistent (si : sysinfo) : Prop :=
  forall i, Z.testbit (si_cap_active si) i = true -> Z.testbit (si_cap si) i = true.

(** Two contexts that differ in the buffer only. *)
Definition alike (c c' : dctx) : Prop :=
  d_mode c = d_mode c' /\ d_name c = d_name c' /\ d_received c = d_received c' /\ d_now c = d_now c'.
(** A Port ID of subtype MAC address that is not six bytes long. *)
Definition odd_port_mac (payload : list Z) : Prop :=
  exists chassis mac rest,
    payload = lldp_bytes (1, chassis) ++ lldp_bytes (2, 3 :: mac) ++ rest /\ zlen mac <> 6.
