(** What the host says about itself: vocabulary of C70 to C74. *)
From Verif Require Import Base Types Tlv Wire Util Child Netif Sysinfo Send Spec SpecAdv SpecSend.

(** The states of a child started on a host with the options -c and -l, through
    any events. *)
Inductive running_on (cfg : scfg) (os : sios) (country location : list Z) : sstate -> Prop :=
| on_boot :
    sios_ok os -> cstring 3 country -> cstring 256 location ->
    running_on cfg os country location (mkSt child_start (sysinfo_fetch os country location) 0)
| on_event st e st' eff :
    running_on cfg os country location st -> event_ok e -> send_step cfg st e = DOk (st', eff) ->
    running_on cfg os country location st'.

(** The first line of a text, up to [n] bytes of it; a NUL byte ends it too. *)
Definition first_line (n : Z) (text line : list Z) : Prop :=
  exists rest, text = line ++ rest /\ ~ In 10 line /\ ~ In 0 line /\ zlen line <= n
    /\ (zlen line = n \/ rest = [] \/ exists b r, rest = b :: r /\ (b = 10 \/ b = 0)).
Definition file_line (n : Z) (os : sios) (path : list Z) (line : list Z) : Prop :=
  match so_file os path with
  | Some text => first_line n text line
  | None => line = []
  end.

(** ** Names *)
(** The distribution, as printed by lsb_release: its first line, without double
    quotes around it (a lone quote counts as two), provided it succeeded. *)
Inductive distribution (os : sios) : option (list Z) -> Prop :=
| dist_none : so_lsb_ok os = false \/ so_lsb os = [] -> distribution os None
| dist_plain line :
    so_lsb_ok os = true -> so_lsb os <> [] -> first_line 511 (so_lsb os) line ->
    line <> [34] -> (forall t, line <> [34] ++ t ++ [34]) -> distribution os (Some line)
| dist_quoted t :
    so_lsb_ok os = true -> first_line 511 (so_lsb os) ([34] ++ t ++ [34]) -> distribution os (Some t)
| dist_quote :
    so_lsb_ok os = true -> first_line 511 (so_lsb os) [34] -> distribution os (Some []).
(** Words with blanks between them. *)
Fixpoint spaced (l : list (list Z)) : list Z :=
  match l with
  | [] => []
  | [w] => w
  | w :: l' => w ++ [32] ++ spaced l'
  end.
Definition described (os : sios) (si : sysinfo) : Prop :=
  let u := so_uts os in
  exists d, distribution os d
    /\ si_uts_str si
       = firstn 255 (spaced ((match d with Some t => [t] | None => [] end)
                               ++ [ut_sysname u; ut_release u; ut_version u; ut_machine u]))
    /\ si_platform si
       = firstn 255 (spaced (match d with
                             | Some t => [t; ut_sysname u; ut_machine u]
                             | None => [ut_sysname u; ut_release u; ut_machine u]
                             end)).
(** The name the resolver knows the host by, unless that is none or localhost. *)
Definition named (os : sios) (si : sysinfo) : Prop :=
  (exists h, so_host os = Some h /\ h <> bs "localhost" /\ si_hostname si = firstn 255 h)
  \/ ((so_host os = None \/ so_host os = Some (bs "localhost"))
      /\ si_hostname si = firstn 255 (ut_nodename (so_uts os))).

(** ** Inventory *)
Definition inventoried (os : sios) (h : hinv) : Prop :=
  file_line 32 os (bs "/sys/class/dmi/id/product_version") (hi_hw h)
  /\ file_line 32 os (bs "/sys/class/dmi/id/bios_version") (hi_fw h)
  /\ hi_sw h = firstn 32 (ut_release (so_uts os))
  /\ file_line 32 os (bs "/sys/class/dmi/id/product_serial") (hi_serial h)
  /\ file_line 32 os (bs "/sys/class/dmi/id/sys_vendor") (hi_manuf h)
  /\ file_line 32 os (bs "/sys/class/dmi/id/product_name") (hi_model h)
  /\ hi_asset h = [].

(** ** Release numbers *)
Definition digit (c : Z) : Prop := 48 <= c <= 57.
Definition value (ds : list Z) : Z := fold_left (fun v c => 10 * v + (c - 48)) ds 0.
(** The numbers in a text, from left to right: its longest runs of digits. *)
Inductive numbers : list Z -> list Z -> Prop :=
| nums_nil : numbers [] []
| nums_other c r l : ~ digit c -> numbers r l -> numbers (c :: r) l
| nums_run ds r l :
    ds <> [] -> Forall digit ds -> (r = [] \/ exists c r', r = c :: r' /\ ~ digit c) ->
    numbers r l -> numbers (ds ++ r) (value ds :: l).
(** The first three of them, one byte each. *)
Definition version_of (l : list Z) : list Z := map (fun v => v mod 256) (firstn 3 (l ++ [0; 0; 0])).
(** Every minus sign in front of a digit stands behind a digit. *)
Definition no_signs (s : list Z) : Prop :=
  forall a d b, s = a ++ [45; d] ++ b -> digit d -> exists a' c, a = a' ++ [c] /\ digit c.

(** ** Forwarding *)
Definition switch4 : list Z := bs "/proc/sys/net/ipv4/conf/all/forwarding".
Definition switch6 : list Z := bs "/proc/sys/net/ipv6/conf/all/forwarding".
Definition readable (os : sios) (path : list Z) : Prop := exists line, file_line 255 os path line /\ line <> [].
(** A switch the kernel provides contains a number. *)
Definition proper (os : sios) (path : list Z) : Prop :=
  so_file os path = None \/ exists n, 0 <= n < 2147483648 /\ so_file os path = Some (decimal n ++ [10]).
Definition turned_on (os : sios) (path : list Z) : Prop := so_file os path = Some (bs "1" ++ [10]).

(** ** LLDP-MED *)
Definition tia (sub : Z) (body : list Z) : tlv := (127, [0; 18; 187; sub] ++ body).
(** The MED capabilities of the TLVs of a frame are true: bit 0 always, bit 2
    with a location TLV, bit 5 with inventory TLVs. *)
Definition med_true (tlvs : list tlv) : Prop :=
  exists w dev, 0 <= w < 65536 /\ In (tia 1 (U16 w ++ [dev])) tlvs
    /\ (forall body, In (tia 1 body) tlvs -> body = U16 w ++ [dev])
    /\ forall b, 0 <= b ->
       (Z.testbit w b = true <->
        b = 0
        \/ b = 2 /\ (exists body, In (tia 3 body) tlvs)
        \/ b = 5 /\ (exists sub body, 5 <= sub <= 11 /\ In (tia sub body) tlvs)).
