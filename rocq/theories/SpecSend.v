(** Which frames an advertisement run has to send: vocabulary of C09, C36, C37 and
    C54. *)
From Verif Require Import Base Types Tlv Wire Util Child Netif Sysinfo Send Spec SpecAdv SpecNetif.

(** ** What the operating system may answer *)
(** Interface names are C strings of at most 15 characters, addresses have their
    sizes, other strings are bytes. *)
Definition ifaddr_ok (ia : ifaddr) : Prop :=
  cstring 16 (ia_name ia) /\ ia_name ia <> []
  /\ match ia_addr ia with
     | Some (SALink _ i hw) => 0 <= i < 4294967296 /\ bytes hw /\ zlen hw = 6
     | Some (SAInet a) => bytes a /\ zlen a = 4
     | Some (SAInet6 a) => bytes a /\ zlen a = 16
     | _ => True
     end.
Definition os_ok (os : nos) : Prop :=
  (forall ias, no_ifaddrs os = Some ias -> Forall ifaddr_ok ias)
  /\ (forall i, bytes (no_alias os i)) /\ (forall i, bytes (no_device_id os i)).
(** The strings of uname(2) have at most 64 characters; all but the node name are
    non-empty. *)
Definition sios_ok (os : sios) : Prop :=
  let u := so_uts os in
  Forall (fun s => cstring 65 s /\ s <> []) [ut_sysname u; ut_release u; ut_version u; ut_machine u]
  /\ cstring 65 (ut_nodename u) /\ bytes (so_lsb os)
  /\ (forall h, so_host os = Some h -> bytes h /\ ~ In 0 h)
  /\ (forall path c, so_file os path = Some c -> bytes c).

(** ** The daemon *)
Definition event_ok (e : sevent) : Prop :=
  match e with EvRun os _ | EvLink os _ _ _ _ => os_ok os | EvChild _ => True end.
(** The states of the child from its start, through any events. *)
Inductive running (cfg : scfg) : sstate -> Prop :=
| run_boot os country location :
    sios_ok os -> cstring 3 country -> cstring 256 location ->
    running cfg (mkSt child_start (sysinfo_fetch os country location) 0)
| run_event st e st' eff :
    running cfg st -> event_ok e -> send_step cfg st e = DOk (st', eff) -> running cfg st'.
Definition table (st : sstate) : list netif := c_nfs (st_child st).

(** ** Where advertisements are due *)
Definition opt (cfg : scfg) (bit : Z) : bool := Z.testbit (nc_opts (sc_net cfg)) bit.
(** A wired interface (or wireless or tap where allowed) or an aggregate, not
    excluded by name. *)
Definition eligible (cfg : scfg) (n : netif) : bool :=
  (0 <=? nf_type n)
  && (opt cfg 9 || negb (nf_type n =? 1)) && (opt cfg 10 || negb (nf_type n =? 2))
  && negb (existsb (fun x => name_is x n) (sc_excl cfg)).
(** Named on the command line, or, without names there, not member of an
    aggregate. *)
Definition selected (cfg : scfg) (n : netif) : bool :=
  if opt cfg 5 then negb (nf_argv n =? 0) else nf_child n =? 0.
(** The interfaces a selected one stands for: itself, or the members the kernel
    reports for it. *)
Definition at_index (nfs : list netif) (o : option Z) : option netif :=
  match o with Some i => find (index_is i) nfs | None => None end.
Definition stands_for (os : nos) (nfs : list netif) (top : netif) : list netif :=
  if nf_type top <=? 10 then [top]
  else flat_map (fun r => match at_index nfs (Some (fst r)) with Some m => [m] | None => [] end)
         (reported os nfs top).
Definition enabled (cfg : scfg) (top : netif) (p : Z) : bool :=
  sc_enabled cfg p || Z.testbit (nf_protos top) p.
(** All that is due in a table, in order: selected interface, interface to send
    on, protocol. *)
Definition due (cfg : scfg) (os : nos) (nfs : list netif) : list (netif * netif * Z) :=
  flat_map (fun top =>
    flat_map (fun sub => map (fun p => (top, sub, p)) (filter (enabled cfg top) [0; 1; 2; 3; 4; 5]))
      (filter (eligible cfg) (stands_for os nfs top)))
    (filter (fun n => selected cfg n && eligible cfg n) nfs).

(** ** The frames *)
(** The advertisement of C57 with the probed media state; the source address is
    blank on a link of a failover aggregate that is not the active one. *)
Definition blanked (f : list Z) : list Z := firstn 6 f ++ [0; 0; 0; 0; 0; 0] ++ skipn 12 f.
Definition frame_due (cfg : scfg) (os : nos) (nfs : list netif) (si : sysinfo) (seq : Z)
  (d : netif * netif * Z) : list Z :=
  let '(top, sub, p) := d in
  let f := advert p (nc_opts (sc_net cfg)) seq (netif_media os sub) (at_index nfs (nf_parent sub))
             (at_index nfs (si_mnetif si)) nfs si in
  if (nf_bonding_mode top =? 2) && negb (nf_child sub =? 1) then blanked f else f.
(** The frames in order: those too long for Ethernet are left out, each EDP
    frame takes the next sequence number. *)
Fixpoint frames_due (cfg : scfg) (os : nos) (nfs : list netif) (si : sysinfo) (seq : Z)
  (ds : list (netif * netif * Z)) : list (Z * Z * list Z) :=
  match ds with
  | [] => []
  | d :: ds' =>
      let f := frame_due cfg os nfs si seq d in
      when (zlen f <=? 1518) [(nf_index (snd (fst d)), snd d, f)]
      ++ frames_due cfg os nfs si (if snd d =? 2 then (seq + 1) mod 65536 else seq) ds'
  end.
(** The frames among the effects of a run. *)
Definition frames (eff : list seff) : list (Z * Z * list Z) :=
  flat_map (fun e => match e with SFrame i p f => [(i, p, f)] | _ => [] end) eff.

(** A refresh that lets a run go on: the interface list was available and all
    interfaces named on the command line were there. *)
Definition refresh (cfg : scfg) (os : nos) (st : sstate) (nfs : list netif) (si : sysinfo) : Prop :=
  exists ret gone, netif_fetch (sc_net cfg) os (table st) (st_si st) = (ret, nfs, si, gone) /\ ret <> 0.

(** Interface [i] sends in an event with these effects. *)
Definition sends (i : Z) (eff : list seff) : bool :=
  existsb (fun x => fst (fst x) =? i) (frames eff).
(** Between two periodic runs the interface [i] stays usable; link messages carry
    real interface indices and the kernel is consistent. *)
Definition steady (i : Z) (e : sevent) : Prop :=
  match e with
  | EvRun _ _ => False
  | EvLink os _ _ k _ =>
      os_ok os /\ 0 < k < 2147483648 /\ (no_ifaddrs os = None \/ usable os i)
      /\ forall nfs, table_exact os nfs -> consistent os nfs
  | EvChild _ => True
  end.
