(** Model of the client, /repo/src/cli.c, as far as the options without
    arguments, the loop and the modes that write text are concerned; Post.v has
    the arguments, the capture file of mode -d and the posts of mode -p.  Not
    modelled: connecting to the daemon (149-172). *)
From Verif Require Import Base Tlv Types Msg Protos Wire Util.

(** The modes, cli.c 43-47. *)
Definition MODE_CLI := 0.
Definition MODE_PRINT := 1. (* cli.c 44 *)
Definition MODE_BATCH := 2. (* cli.c 45 *)
Definition MODE_DEBUG := 3. (* cli.c 46 *)
Definition MODE_HTTP := 4. (* cli.c 47 *)

(** The local variables proto (a uint8_t) and mode, and OPT_ONCE, cli.c 67, 75. *)
Record cconf := mkCli { cl_proto : Z; cl_mode : Z; cl_once : bool }.
(** One option letter, cli.c 78-130; [None] is usage(), which exits.  The
    argument of -p is not represented; a second -p is refused (105). *)
Definition cli_opt (c : cconf) (http : bool) (ch : Z) : option (cconf * bool) :=
  let proto b := Some (mkCli (Z.lor (cl_proto c) (Z.shiftl 1 b)) (cl_mode c) (cl_once c), http) in
  let mode m := Some (mkCli (cl_proto c) m (cl_once c), http) in
  if ch =? 76 then proto PROTO_LLDP
  else if ch =? 67 then proto PROTO_CDP
  else if ch =? 69 then proto PROTO_EDP
  else if ch =? 70 then proto PROTO_FDP
  else if ch =? 78 then proto PROTO_NDP
  else if ch =? 98 then mode MODE_BATCH
  else if ch =? 100 then mode MODE_DEBUG
  else if ch =? 102 then mode MODE_PRINT
  else if ch =? 112 then
    (if http then None else Some (mkCli (cl_proto c) MODE_HTTP (cl_once c), true))
  else if ch =? 111 then Some (mkCli (cl_proto c) (cl_mode c) true, http)
  else if ch =? 118 then Some (c, http)
  else None.
(** The getopt loop, cli.c 77-131, over the option letters in order. *)
Fixpoint cli_opts (c : cconf) (http : bool) (letters : list Z) : option cconf :=
  match letters with
  | [] => Some c
  | ch :: letters' => let? (c', http') := cli_opt c http ch in cli_opts c' http' letters'
  end.
(** Options and their default, cli.c 67-138. *)
Definition cli_conf (letters : list Z) : option cconf :=
  let? c := cli_opts (mkCli 0 MODE_CLI false) false letters in
  Some (if cl_proto c =? 0 then mkCli 255 (cl_mode c) (cl_once c) else c).
(** The interfaces named on the command line, cli.c 140-147; [ifindex] is
    if_nametoindex(3), 0 for an unknown name. *)
Fixpoint cli_indexes (ifindex : list Z -> Z) (names : list (list Z)) : option (list Z) :=
  match names with
  | [] => Some []
  | n :: names' =>
      if ifindex n =? 0 then None
      else let? r := cli_indexes ifindex names' in Some (ifindex n :: r)
  end.

(** What the write function of a mode gets (cli.c 213-214): the message fields
    it uses and the hold time. *)
Record item := mkItem {
  sh_index : Z; sh_name : list Z; sh_proto : Z; sh_ttl : Z; sh_peer : peers; sh_hold : Z
}.
(** Output in order (cli.c 186-232): text printed by a decoder or the main loop, and
    calls of
    the write function. *)
Inductive cout := OText (l : list Z) | OShow (m : item).

(** One message of PARENT_MSG_MAX bytes, cli.c 178-223: the attributes left in
    the reused message structure, whether the write function was called, and the
    output.  [idx] are the selected interfaces (none: all).  A failing decoder
    leaves no attributes (204); what it had printed until then is not
    represented.  The TTL left behind is not tracked: every successful decoder
    writes it.  time_t arithmetic that overflows is undefined behaviour. *)
Definition cli_step (c : cconf) (idx : list Z) (now : Z) (p : peers) (m : list Z)
  : dres (peers * bool * list cout) :=
  if 6 <=? pm_proto m then DOk (p, false, [])
  else if (pm_len m <? 60) || (ETHER_MAX_LEN <? pm_len m) then DOk (p, false, [])
  else if negb (zlen idx =? 0) && negb (existsb (fun i => i =? pm_index m) idx) then DOk (p, false, [])
  else if negb (has (cl_proto c) (Z.shiftl 1 (pm_proto m))) then DOk (p, false, [])
  else
    let mode := if cl_mode c =? MODE_PRINT then DECODE_PRINT else DECODE_STR in
    let ctx := mkCtx (pm_msg m) (pm_len m) mode (pm_name m) (pm_received m) now in
    match proto_decode (pm_proto m) ctx (mkDst p 0 (pm_proto m) []) with
    | DFail => DOk (peer_free p, false, [])
    | DAbort => DAbort
    | DUB => DUB
    | DLoop => DLoop
    | DOk (n, s) =>
        let text := map OText (s_out s) in
        if n =? 0 then DOk (peer_free p, false, text)
        else
          let age := now - pm_received m in
          if (age <? -9223372036854775808) || (9223372036854775807 <? age) then DUB
          else if s_ttl s <? age then DOk (s_peer s, false, text)
          else
            DOk (peer_free (s_peer s), true,
                 text ++ OShow (mkItem (pm_index m) (pm_name m) (s_proto s) (s_ttl s) (s_peer s)
                                  ((s_ttl s - age) mod 65536))
                   :: (if (cl_mode c =? MODE_PRINT) && negb (cl_once c) then [OText [10]] else []))
    end.
(** The loop, cli.c 176-224, over the results of the reads: it ends with the
    first read of another length, or after the first message with -o. *)
Fixpoint cli_loop (c : cconf) (idx : list Z) (now : Z) (p : peers) (reads : list (list Z))
  : dres (list cout) :=
  match reads with
  | [] => DOk []
  | m :: reads' =>
      if negb (zlen m =? PARENT_MSG_MAX) then DOk []
      else
        let* (p', did, o) := cli_step c idx now p m in
        if did && cl_once c then DOk o
        else let* o' := cli_loop c idx now p' reads' in DOk (o ++ o')
  end.

(** "STR(x)", cli.c 244. *)
Definition str (o : option (list Z)) : list Z := match o with Some s => s | None => [] end.
(** swapchr with a single and a double quote, cli.c 234-242, 253-255. *)
Definition swap (l : list Z) : list Z := map (fun b => if b =? 39 then 34 else b) l.
(** protos[p].name, main.h 24-36. *)
Definition proto_name (p : Z) : list Z :=
  nth (Z.to_nat p) [bs "LLDP"; bs "CDP"; bs "EDP"; bs "FDP"; bs "NDP"; bs "CDP1"] [].
(** "NAME_%u='%s'\n", cli.c 257-268. *)
Definition batch_line (name : list Z) (count : Z) (v : list Z) : list Z :=
  name ++ [95] ++ dec count ++ [61; 39] ++ v ++ [39; 10].
(** batch_write, cli.c 246-271, for the value [count] of its counter. *)
Definition batch_write (count : Z) (m : item) : list Z :=
  let at_ i := str (pget (sh_peer m) i) in
  batch_line (bs "INTERFACE") count (sh_name m)
  ++ batch_line (bs "HOSTNAME") count (swap (at_ PEER_HOSTNAME))
  ++ batch_line (bs "PORTNAME") count (swap (at_ PEER_PORTNAME))
  ++ batch_line (bs "PORTDESCR") count (swap (at_ PEER_PORTDESCR))
  ++ batch_line (bs "PROTOCOL") count (proto_name (sh_proto m))
  ++ batch_line (bs "ADDR_INET4") count (at_ PEER_ADDR_INET4)
  ++ batch_line (bs "ADDR_INET6") count (at_ PEER_ADDR_INET6)
  ++ batch_line (bs "ADDR_802") count (at_ PEER_ADDR_802)
  ++ batch_line (bs "VLAN_ID") count (at_ PEER_VLAN_ID)
  ++ batch_line (bs "CAPABILITIES") count (at_ PEER_CAP)
  ++ batch_line (bs "TTL") count (dec (sh_ttl m))
  ++ batch_line (bs "HOLDTIME") count (dec (sh_hold m)).

(** Column widths, cli.c 49-52 and 273-290: terminal width (0: unknown), host
    column, port column.  [ws] is ws_col of a successful TIOCGWINSZ. *)
Definition cli_widths (ws : option Z) : Z * Z * Z :=
  match ws with
  | None => (0, 20, 10)
  | Some col =>
      let extra := col - 80 in
      if 0 <? extra then
        (if 20 <? extra then (col, 20 + 10, extra)
         else (col, 20 + extra / 2, 10 + (extra - extra / 2)))
      else (col, 20, 10)
  end.
(** cli.c 273-325, printf "%-*s": padded with blanks on the right. *)
Definition padr (w : Z) (s : list Z) : list Z := s ++ repeat 32 (Z.to_nat (w - zlen s)).
(** cli.c 273-325, printf "%-*.*s": cut and padded. *)
Definition column (w : Z) (s : list Z) : list Z := padr w (firstn (Z.to_nat w) s).
(** cli_header, cli.c 292-297. *)
Definition cli_header (ws : option Z) : list Z :=
  let '(_, hw, _) := cli_widths ws in
  bs "Capability Codes:" ++ [10]
  ++ [9] ++ bs "r - Repeater, B - Bridge, H - Host, R - Router, S - Switch," ++ [10]
  ++ [9] ++ bs "W - WLAN Access Point, C - DOCSIS Device, T - Telephone, O - Other" ++ [10; 10]
  ++ padr hw (bs "Device ID") ++ bs " Local Intf    Proto   Hold-time    Capability    Port ID" ++ [10].
(** cli_write, cli.c 300-325. *)
Definition cli_write (ws : option Z) (m : item) : list Z :=
  let '(tw, hw, pw) := cli_widths ws in
  let host := match pget (sh_peer m) PEER_HOSTNAME with
              | Some h => if hw <? zlen h then upto_dot h else h
              | None => []
              end in
  let port := match pget (sh_peer m) PEER_PORTNAME with
              | Some s => portname_abbr s
              | None => match pget (sh_peer m) PEER_PORTDESCR with
                        | Some s => portname_abbr s
                        | None => []
                        end
              end in
  column hw host ++ [32] ++ column 13 (sh_name m) ++ [32] ++ column 7 (proto_name (sh_proto m)) ++ [32]
  ++ padr 12 (dec (sh_hold m)) ++ [32] ++ column 13 (str (pget (sh_peer m) PEER_CAP)) ++ [32]
  ++ (if 0 <? tw then column pw port else port) ++ [10].

(** The text of the output, cli.c 246-325; [count] is the counter of batch_write, an
    unsigned
    int. *)
Fixpoint cli_render (mode : Z) (ws : option Z) (count : Z) (o : list cout) : list Z :=
  match o with
  | [] => []
  | OText l :: o' => l ++ cli_render mode ws count o'
  | OShow m :: o' =>
      (if mode =? MODE_CLI then cli_write ws m
       else if mode =? MODE_BATCH then batch_write count m else [])
      ++ cli_render mode ws ((count + 1) mod 4294967296) o'
  end.
(** cli_main, cli.c 65-232: the output calls and the text on stdout; [None] is
    usage().  [reads] are the results of the reads from the daemon. *)
Definition cli_main (letters : list Z) (names : list (list Z)) (ifindex : list Z -> Z) (now : Z)
  (ws : option Z) (reads : list (list Z)) : option (dres (list cout * list Z)) :=
  let? c := cli_conf letters in
  let? idx := cli_indexes ifindex names in
  Some (let* o := cli_loop c idx now no_peers reads in
        DOk (o, (if cl_mode c =? MODE_CLI then cli_header ws else [])
                ++ cli_render (cl_mode c) ws 0 o)).
