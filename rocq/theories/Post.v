(** The options of the client with their arguments, its capture mode -d and its
    HTTP mode -p: /repo/src/cli.c 77-131, 327-424 and /repo/src/util.c 463-511.
    The results of getopt(3) are the input (see Getopt).  Of libpcap the format
    of a savefile is modelled, of libevent what the client hands to it: name and
    port of the server, path and body of the posts; the answers are inputs. *)
From Verif Require Import Base Tlv Types Msg Protos Wire Util Parent Cli.

(** A string up to and from its first '/', strchr, cli.c 110. *)
Fixpoint at_slash (l : list Z) : list Z * option (list Z) :=
  match l with
  | [] => ([], None)
  | b :: l' => if b =? 47 then ([], Some l)
               else let '(h, p) := at_slash l' in (b :: h, p)
  end.
(** The argument of -p: http_host and http_path, cli.c 107-119. *)
Definition http_target (arg : list Z) : list Z * list Z :=
  let a := if beq (firstn 7 arg) (bs "http://") then skipn 7 arg else arg in
  match at_slash a with
  | (h, Some p) => (h, p)
  | (h, None) => (h, [47])
  end.
(** The getopt loop with arguments, cli.c 77-131: what the letters set, and the
    target of -p; a second -p is refused (104-105). *)
Fixpoint cli_args (c : cconf) (t : option (list Z * list Z)) (ol : list (Z * list Z))
  : option (cconf * option (list Z * list Z)) :=
  match ol with
  | [] => Some (c, t)
  | (ch, arg) :: ol' =>
      let? (c', _) := cli_opt c (match t with Some _ => true | None => false end) ch in
      cli_args c' (if ch =? 112 then Some (http_target arg) else t) ol'
  end.

(** ** Capture, util.c 463-511 *)
(** A 32 bit and a 16 bit number in the byte order of the machine. *)
Definition put32 (big : bool) (n : Z) : list Z := if big then be32 n else rev (be32 n).
(** The same for 16 bits. *)
Definition put16 (big : bool) (n : Z) : list Z := if big then be16 n else rev (be16 n).
(** The file header written by pcap_dump_fopen for pcap_open_dead(DLT_EN10MB,
    ETHER_MAX_LEN), util.c 478-479: magic number, version 2.4, time zone and
    accuracy 0, longest frame, link type. *)
Definition pcap_header (big : bool) : list Z :=
  put32 big 2712847316 ++ put16 big 2 ++ put16 big 4 ++ put32 big 0 ++ put32 big 0
  ++ put32 big ETHER_MAX_LEN ++ put32 big 1.
(** my_pcap_write, util.c 483-499: gettimeofday, twice the length, the frame.
    [clock] is [None] when gettimeofday fails; pcap_dump stores 32 bits of the
    seconds. *)
Definition pcap_record (big : bool) (clock : option (Z * Z)) (frame : list Z) (len : Z) : list Z :=
  let '(sec, usec) := match clock with Some t => t | None => (0, 0) end in
  put32 big (sec mod 4294967296) ++ put32 big usec ++ put32 big len ++ put32 big len
  ++ firstn (Z.to_nat len) frame.
(** Successive calls of my_pcap_write, util.c 483-499; [clock] gives the times of the
    calls, from [n] on. *)
Fixpoint pcap_records (big : bool) (clock : nat -> option (Z * Z)) (n : nat)
  (frames : list (list Z * Z)) : list Z :=
  match frames with
  | [] => []
  | (f, l) :: frames' => pcap_record big (clock n) f l ++ pcap_records big clock (S n) frames'
  end.

(** What the daemon writes to stdout with -d, given the effects of the parent:
    my_pcap_init (parent.c 102-104), my_pcap_write for every frame to be sent
    (331-334).  stdout is not a terminal. *)
Definition daemon_capture (big : bool) (clock : nat -> option (Z * Z)) (eff : list peff) : list Z :=
  pcap_header big ++ pcap_records big clock 0
    (flat_map (fun e => match e with EDump _ f => [(f, zlen f)] | _ => [] end) eff).

(** The loop of the client, cli.c 176-224, again: the messages for which the
    write function is called (the message is not changed by decoding). *)
Fixpoint cli_written (c : cconf) (idx : list Z) (now : Z) (p : peers) (reads : list (list Z))
  : dres (list (list Z)) :=
  match reads with
  | [] => DOk []
  | m :: reads' =>
      if negb (zlen m =? PARENT_MSG_MAX) then DOk []
      else
        let* (p', did, _) := cli_step c idx now p m in
        if did && cl_once c then DOk [m]
        else let* r := cli_written c idx now p' reads' in DOk ((if did : bool then [m] else []) ++ r)
  end.

(** ** Posts *)
(** What http_connect asks the system, cli.c 340-367: the port of the service
    http, whether the connection object is made, gethostname, gethostbyname. *)
Record http_os := mkHttp {
  h_port : option Z; h_conn : bool; h_name : option (list Z); h_found : option (list Z)
}.
(** http_connect: port and host name of the client; [None] is my_fatal.  The
    name found by gethostbyname is cut to _POSIX_HOST_NAME_MAX - 1 = 254 bytes;
    "localhost" is not used. *)
Definition http_connect (os : http_os) : option (Z * list Z) :=
  let? port := h_port os in
  if negb (h_conn os) then None
  else
    let? name := h_name os in
    Some (port, match h_found os with
                | Some n => if beq n (bs "localhost") then name else firstn 254 n
                | None => name
                end).
(** The body of the post, http_request, cli.c 369-388.  [enc] is
    evhttp_encode_uri of libevent; asprintf succeeds. *)
Definition http_body (enc : list Z -> list Z) (hostname : list Z) (m : item) : list Z :=
  bs "hostname=" ++ hostname
  ++ bs "&interface=" ++ sh_name m
  ++ bs "&peer_hostname=" ++ enc (str (pget (sh_peer m) PEER_HOSTNAME))
  ++ bs "&peer_portname=" ++ enc (str (pget (sh_peer m) PEER_PORTNAME))
  ++ bs "&protocol=" ++ proto_name (sh_proto m)
  ++ bs "&capabilities=" ++ str (pget (sh_peer m) PEER_CAP)
  ++ bs "&ttl=" ++ dec (sh_ttl m)
  ++ bs "&holdtime=" ++ dec (sh_hold m) ++ [13; 10; 13; 10].
(** A request handed to libevent, cli.c 394-406: the server and its port, the
    path, the body (sent as application/x-www-form-urlencoded). *)
Record post := mkPost { po_host : list Z; po_port : Z; po_path : list Z; po_body : list Z }.
(** http_request, cli.c 339-424, for the neighbours shown; evhttp_make_request succeeds. *)
Fixpoint http_posts (enc : list Z -> list Z) (host : list Z) (port : Z) (path hostname : list Z)
  (o : list cout) : list post :=
  match o with
  | [] => []
  | OText _ :: o' => http_posts enc host port path hostname o'
  | OShow m :: o' =>
      mkPost host port path (http_body enc hostname m) :: http_posts enc host port path hostname o'
  end.
(** http_reply for the answers in order, cli.c 412-421, until event_dispatch is
    done: the exit status.  [None] is a request that failed; my_fatal exits with
    status 1. *)
Fixpoint http_replies (status : Z) (answers : list (option Z)) : Z :=
  match answers with
  | [] => status
  | None :: _ => 1
  | Some code :: answers' =>
      if code =? 0 then 1
      else if code <? 400 then http_replies status answers' else http_replies 1 answers'
  end.

(** ** The whole client *)
(** The surroundings of a run, cli.c 65-232: names, clock at start, terminal, whether
    stdout is a
    terminal, byte order, times of the capture records, HTTP. *)
Record client_env := mkCEnv {
  ce_ifindex : list Z -> Z; ce_now : Z; ce_ws : option Z; ce_tty : bool; ce_big : bool;
  ce_clock : nat -> option (Z * Z); ce_http : http_os; ce_enc : list Z -> list Z;
  ce_answers : list (option Z)
}.
(** What a run leaves behind, cli.c 65-232, 339-424: the bytes on stdout, the posts,
    the exit status. *)
Record client_run := mkRun { cr_out : list Z; cr_posts : list post; cr_exit : Z }.
(** cli_main, cli.c 65-232, with the connection to the daemon established; a
    fatal error and usage() give status 1.  A capture is refused on a terminal
    (util.c 472-473). *)
Definition cli_run (ol : list (Z * list Z)) (names : list (list Z)) (env : client_env)
  (reads : list (list Z)) : dres client_run :=
  let failed := DOk (mkRun [] [] 1) in
  match cli_args (mkCli 0 MODE_CLI false) None ol, cli_indexes (ce_ifindex env) names with
  | Some (c0, target), Some idx =>
      let c := if cl_proto c0 =? 0 then mkCli 255 (cl_mode c0) (cl_once c0) else c0 in
      if cl_mode c =? MODE_DEBUG then
        if ce_tty env then failed
        else
          let* ms := cli_written c idx (ce_now env) no_peers reads in
          DOk (mkRun (pcap_header (ce_big env)
                      ++ pcap_records (ce_big env) (ce_clock env) 0
                           (map (fun m => (pm_msg m, pm_len m)) ms)) [] 0)
      else if cl_mode c =? MODE_HTTP then
        match http_connect (ce_http env), target with
        | Some (port, hostname), Some (host, path) =>
            let* o := cli_loop c idx (ce_now env) no_peers reads in
            DOk (mkRun [] (http_posts (ce_enc env) host port path hostname o)
                   (http_replies 0 (ce_answers env)))
        | _, _ => failed
        end
      else
        let* o := cli_loop c idx (ce_now env) no_peers reads in
        DOk (mkRun ((if cl_mode c =? MODE_CLI then cli_header (ce_ws env) else [])
                    ++ cli_render (cl_mode c) (ce_ws env) 0 o) [] 0)
  | _, _ => failed
  end.
