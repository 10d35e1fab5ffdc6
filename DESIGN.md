# Formal model of ladvd: design

Prover: Rocq/Coq 8.16.1. Sources: `/verif/rocq/theories`, logical name `Verif`.
Code under study: `/repo` (sspans/ladvd), Linux build, x86-64 (little endian,
signed `char`, 64-bit `long`/`size_t`), "C" locale.

## 1. Modelling conventions

* Bytes, integers, times and indices are `Z`. Where the C type can wrap, the
  model writes the wrap (`mod 2^8`, `mod 2^16`, ...). C strings are lists of
  non-zero bytes (the terminating NUL is implicit); the size limit of the
  struct field is a hypothesis (`length s < 256`).
* A C function that can fail returns a `dres` (`Base.v`):
  `DOk x` | `DFail` (the decoder refuses the frame) | `DAbort` (an `assert`
  fired) | `DUB` (a read or write outside the object, signed overflow) |
  `DLoop` (the fuel of a loop ran out). So memory safety, "no assertion fires"
  and termination are statements about the result, never assumed. Programs that
  make system calls (`Start.v`) are trees of calls whose continuations take the
  answer of the operating system.
* A received message is modelled by its 1518-byte buffer plus its length;
  decoders work with explicit positions into this buffer. Every byte read is
  checked against the buffer size.
* Encoders carry the bytes written so far and the remaining space, exactly as
  the `PUSH` macros do.
* Pointers between list elements (`struct netif *`) are modelled by the
  interface index, which is unique in the table (itself proved: C47).
* The operating system (clock, `if_indextoname`, `read`/`write` results,
  interface lists, `chown` data...) is a function argument or part of the event,
  universally quantified in the theorems.

## 2. Files

Model (definitions only, each with a citation of file and lines in `/repo`):

| model | code |
|-------|------|
| `Base` | machine integers, C strings, outcomes, `%u` |
| `Vis` | `compat/vis.c` |
| `Tlv` | `proto/tlv.h`, `proto/tlv.c`, `PEER_*` macros of `common.h` |
| `Types` | structures of `common.h`, `netif_iter`, `subif_iter` |
| `Chksum` | `my_chksum` of `util.c` |
| `Checks` | the signature checks of all protocols |
| `Msg` | `struct parent_msg` while it is decoded |
| `Cdp`, `Edp`, `Fdp`, `Ndp`, `Lldp`, `Protos` | `proto/*.c`, the table in `main.h` |
| `Bpf` | a classic BPF machine and the filters of `filter.h` |
| `Wire` | memory layout of `struct parent_msg` and `struct parent_req` |
| `Parent` | `parent.c`: requests, sending, receiving, memberships |
| `Psock` | `parent.c`: `parent_socket`, `parent_device_id` |
| `Mreq` | `my_mreq` of `util.c` and its callers: the requests and what is taken from the answers |
| `Title` | `compat/setproctitle.c` (SPT_REUSEARGV) |
| `Bsd` | `netif_bsd.c` and the AF_LINK branches of `netif.c`, FreeBSD and OpenBSD |
| `Link` | `child_link`, `child_link_cb` (Linux and BSD), `mnl_cb_run` of libmnl |
| `HostBsd` | the BSD branches of `parent.c` (groups, descriptions, requests) and `sysinfo.c` (kenv, sysctl, forwarding) |
| `BsdMem` | the buffers and allocations of `netif_bsd.c` and of `netif_fetch` on BSD |
| `BsdSend` | the BSD branches of `child.c`: runs with the interfaces of `Bsd`, routing messages |
| `Log` | `child.c` 379-383, 406-407, 427-430 (the messages of priority CRIT about neighbours), `util.c` 33-64 (`my_vlog`, `__my_log` to stderr), `main.c` 145; messages of other priorities are left out, `vfprintf` for `%s` only |
| `Queue` | the tail queues of `compat/sys-queue.h` as memory with pointers, the loops that remove while walking, the table of `child_queue`, `child_expire` and `child_free` in it |
| `Heap` | the allocations of all decoders (`proto/*.c` again, with `malloc` and `free`), of the table and the sessions (`child.c`) and of `netif_descr` |
| `NetMem` | `netif.c`, `netif_linux.c` (detection) and the iterators of `util.c` again, with blocks and pointers instead of indices |
| `Timer` | `child.c` (`child_init`, `child_send` with the rescheduling of the transmit event that `Send` leaves out, `child_link`), `common.h` (`SLEEPTIME`) |
| `CliHeap` | cli.c 133-231: the client's loop with its allocations |
| `SessTimer` | child.c 475-531: client sessions with their timers |
| `RawMem` | `parent.c` 192-407, 769-821 and `parent.h` 67-85 again, with the blocks of the raw sockets, the list through pointers and the events registered with libevent; reading a block that is not allocated is `DUB` |
| `Ipc` | both processes at the same time and the sockets between them, which hold only so much: `util.c` 116-133, 284-299, `child.c` 278, 319, `parent.c` 192-354, 769-821; a step relation, a process that waits has no step; the size of the sockets is a parameter |
| `LinkFd` | the sockets the child must not wait for: `child.c` 475-496, 510-526, 536-571, 599-603, `util.c` 135-146; mnl_socket_open, bind and fcntl are inputs |
| `Once` | `-o`: both processes, the message socket and the turns of the event loop |
| `Util` | `netif_protos`, `netif_descr`, `portname_abbr` of `util.c` |
| `Child` | `child.c`: queue, expiry, client sessions |
| `Netif` | `netif.c`, `netif_linux.c` |
| `Sysinfo` | `sysinfo.c`, `read_line` |
| `Send` | `child_send`, link events of `child.c` |
| `Cli`, `Post` | `cli.c`, capture files of `util.c` |
| `Start` | `main.c` after the options, `parent_init`, `parent_signal`, `child_init`, `my_chroot`, `my_drop_privs`, `my_rlimit_child`, `my_fatal` |
| `Opts` | option loop of `main.c` |
| `Getopt` | the command lines of `main.c` and `cli.c` in words, with getopt(3) |
| `ClientMain` | `cli_main` of `cli.c` from the words on |
| `Config` | what the options leave behind for the two processes, `main.c` 84-210, 248, 274 |
| `Compat` | `compat/strlcpy.c`, `compat/strlcat.c` |
| `Imsg` | `compat/imsg.c`, `compat/imsg-buffer.c` |

Specification (uses the data types of the model, none of its functions except
accessors): `Spec`, `SpecAdv`, `SpecOut`, `SpecRound`, `SpecNet`, `SpecChild`,
`SpecNetif`, `SpecNetif2`, `SpecSend`, `SpecSys`, `SpecCli`, `SpecPost`,
`SpecStart`, `SpecOpts`, `SpecCompat`, `SpecImsg`, `SpecPsock`, `SpecMedia`,
`SpecOnce`, `SpecAddr`, `SpecPrint`, `SpecMreq`, `SpecTitle`, `SpecBsd`, `SpecMtu`, `SpecWalk`, `SpecTags`, `SpecLink`, `SpecHostBsd`, `SpecQueue`, `SpecOrder`, `SpecHeap`, `SpecNetMem`, `SpecTimer`, `SpecHold`, `SpecListed`, `SpecJoint`, `SpecCliMem`, `SpecTruth`, `SpecSess`, `SpecScan`, `SpecRaw`, `SpecIpc`, `SpecFifo`, `SpecRest`, `SpecFlow`, `SpecRepeat`, `SpecStd`, `SpecSeq`, `SpecFlood`, `SpecBsdSend`, `SpecPeers`, `SpecLog`, `SpecBsdE2E`, `SpecBsdMem`, `SpecGetopt`, `SpecCmd`, `SpecCmd2`, `SpecCmd3`, `SpecCmdBsd2`, `SpecClient`, `SpecE2E` (names steps of the model).

Proofs: `Lemmas`, `*Proofs*.v`, `Dec*.v`, `EncProps`, `VisProps`, `TlvInj`,
`Modes`, `RoundTrip`. Data for examples: `Cases*.v`, `FifoRun` and `RestRun` (schedules for C126 and C127), `Conformance` (the packet
captures of `/repo/tests`, run through the decoders; tests, not proofs).

Property theorems, each with an example and `Print Assumptions`: `PropAdv`
(C06-C08, C50, C57), `PropText` (C20-C22, C48), `PropRound` (C01-C05), `PropDec`
(C10-C15, C56), `PropNet` (C16-C19, C38-C41, C55), `PropChild` (C24-C35),
`PropNetif` (C47, C49, C58), `PropNetif2` (C66-C69), `PropSend` (C09, C36, C37,
C54), `PropSys` (C70-C74), `PropCli` (C23, C44-C46, C59), `PropPost` (C22,
C75-C80), `PropE2E` (C81, C82), `PropPsock` (C83-C85), `PropMedia` (C86), `PropOnce` (C87-C89), `PropAddr` (C90),
`PropPrint` (C91), `PropMreq` (C92-C94), `PropTitle` (C95), `PropBsd` (C96-C100), `PropMtu` (C101-C102), `PropWalk` (C103), `PropTags` (C104-C106), `PropLink` (C107), `PropHostBsd` (C108-C110), `PropQueue` (C111, C112), `PropHeap` (C113), `PropNetMem` (C114), `PropTimer` (C115), `PropHold` (C116, C117), `PropJoint` (C118, C119), `PropCliMem` (C120), `PropTruth` (C121), `PropSess` (C122), `PropScan` (C123), `PropRaw` (C124), `PropIpc` (C125), `PropFifo` (C126), `PropRest` (C127), `PropLinkFd` (C128), `PropFlow` (C129), `PropRepeat` (C130), `PropStd` (C131), `PropSeq` (C132), `PropFlood` (C133), `PropBsdSend` (C134), `PropPeers` (C135), `PropLog` (C136), `PropGone` (C137), `PropBsdE2E` (C138), `PropBsdStd` (C139), `PropBsdMem` (C140), `PropGetopt` (C141), `PropCmd` (C142), `PropCmd2` (C143), `PropCmdBsd` (C144), `PropCmd3` (C145), `PropCmd4` (C146), `PropCmd5` (C147), `PropCmdBsd2` (C148), `PropClient` (C149), `PropClient2` (C150), `PropClient3` (C151), `PropClient4`, `PropClient5` (C152),
`PropStart` (C42, C43, C60-C65), `PropOpts` (C51), `PropCompat` (C52),
`PropImsg` (C53).

## 3. Per property plan

| id | modelled | method |
|----|----------|--------|
| C01 | `lldp_packet`, `lldp_decode` | encoder output = header ++ concatenation of TLV encodings of a specification TLV list; decoder on a concatenation of TLVs = fold of per-TLV effects (C12); combine |
| C02 | `cdp_packet`, `cdp_decode` | same |
| C03 | `edp_packet`, `edp_decode` | same; VLAN list by induction |
| C04 | `fdp_packet`, `fdp_decode` | same |
| C05 | `ndp_packet`, `ndp_decode` | direct computation with symbolic bytes |
| C06 | all encoders | invariant `written + left = 1518` over PUSH; spec TLV walker |
| C07 | `cdp_packet`, `fdp_packet` | sum of the worst-case lengths, `lia` |
| C08 | `my_chksum` in host (LE) arithmetic | spec in network order mod 65535; induction over 16-bit words; byte-swap lemma |
| C09 | `child_send` frame building, `parent_send` checks | lower bounds on encoder output + signature bytes |
| C10 | `cdp_decode` | spec grammar as an inductive/recursive TLV splitter, equivalence by induction on remaining length |
| C11 | `edp_decode`, `fdp_decode` | same |
| C12 | `lldp_decode` | same |
| C13 | decoders, bounds checked reads | invariant `pos + length = frame length` |
| C14 | `lldp_decode` | refutation at 1518 bytes by computation; proof below 1518 |
| C15 | decoders | two-run (non-interference) theorem over the tail memory |
| C16 | classic BPF virtual machine + both programs as data | symbolic execution, case analysis on each load |
| C17 | same | refutation for every EDP frame |
| C18 | filter + `parent_recv` + `*_check` | filter characterisation implies check success |
| C19 | `parent_recv` | direct |
| C20 | `vis`, `strnvis`, `tlv_str_copy`, `tlv_value_str` | induction on the string |
| C21 | same | explicit inverse, induction |
| C22 | same | refutation + exact set of surviving control characters |
| C23 | `batch_write` | specification of POSIX shell quoting as a lexer; induction |
| C24 | `portname_abbr` | case analysis on the prefix table |
| C25 | `child_queue`/`child_expire`/sessions as transition system | inductive invariant |
| C26 | same + `netif_descr` | contiguity invariant; counting lemma; refutation for the all-zero address |
| C27 | `child_queue` | refinement to a finite map |
| C28 | `child_expire`, `child_free` | filter characterisation |
| C29 | `child_queue` + `child_expire` | from C27, C28 |
| C30 | `child_queue` | direct |
| C31 | `child_queue`, `child_expire`, `netif_protos` | invariant |
| C32 | `netif_descr` | direct + length bounds |
| C33 | transition system with sessions and `lock` counters | refutation by a concrete schedule; proof for schedules without refresh of a held entry |
| C34 | same | refutation (timeout path); proof for the other ways to end |
| C35 | `child_cli_accept`/`child_cli_write` | induction over table and blocking pattern |
| C36 | `child_send` with link events | invariant on the counter |
| C37 | `child_send` | characterisation of the emitted list |
| C38 | `parent_send` on arbitrary messages | case analysis |
| C39 | socket table transition system | inductive invariant |
| C40 | `parent_req`/`parent_check` on arbitrary bytes | case analysis |
| C41 | `parent_multi` | refutation for two enabled protocols; proof for one |
| C42 | `child_init` prefix as syscall trace with oracle | case analysis over the oracle |
| C43 | `my_chroot` | induction over the path |
| C44 | `cli_main` loop | induction over the message sequence |
| C45 | same with the persisted `peer[]` slots | refutation; proof when no expired message precedes |
| C46 | same | refutation |
| C47 | `netif_fetch` with OS list as input | inductive invariant over refreshes |
| C48 | `netif_iter`, `subif_iter` | induction over the table / member chain |
| C49 | `netif_physical` media part + LLDP MAC/PHY TLV | refutation; proof when supported |
| C50 | LLDP-MED location TLV | refutation above 250 bytes; proof up to 250 |
| C51 | `main` option loop over parsed options | induction over the option list |
| C52 | `strlcpy`, `strlcat` on byte buffers | induction |
| C53 | imsg framing | induction over the stream |
| C54 | `child_queue` + `child_send` | refutation for listed aggregate members; proof for top-level interfaces |
| C55 | `parent_req` | refutation; proof while the interface exists |
| C56 | decoders in printing mode | refutation; printing mode accepts no more than listing mode |
| C57 | LLDP inventory and location TLVs | exact shape of the frame |
| C58 | `netif_fetch`, members and VLANs | invariant over the refresh |
| C59 | `cli_write` | columns computed for all widths; refutation for line breaks |
| C60-C62 | `parent_init`, `my_fatal`, `parent_signal` | trees of system calls; refutations by a failing `fork`, a fatal error in the parent, an old pid file |
| C63-C65 | `main`, `parent_init`, `child_init` | same |
| C66-C69 | `netif_fetch` | further projections of the invariant |
| C70-C74 | `sysinfo_fetch` and the running child | facts about the start, preserved by every event |
| C75-C78 | `cli_main` with option arguments, `http_*` | induction over the options; a form decoder as specification |
| C79, C80 | `my_pcap_*`, `cli_main`, `parent_send` | a capture file reader as specification |
| C81, C82 | `child_send`, `parent_recv`, `child_queue`, `cli_main` | composition of round trips, filter, hand-over, table and client |
| C83 | `parent_open`, `parent_close` with the calls of libpcap | invariant over histories; refutations by histories of any length |
| C84, C85 | `parent_socket`, `parent_device_id` | case analysis over all answers |
| C86 | `netif_media`, LLDP encoder | bitwise reasoning; tables of RFC 3636 and 4836 as specification |
| C87 | `child_init`, `parent_init` | triples over trees of system calls |
| C88 | `Once` | invariant over all schedules; refutation by a schedule |
| C89 | `main`, `parent_signal`, `child_init` | the lock is never given up; refutation by a run in the foreground |
| C90 | `tlv_str_addr`, `inet_ntop4`, `inet_ntop6`, `mac_str` | a reader of texts written for the specification is a left inverse |
| C91 | the decoders in print mode, `cli_step`, `cli_render` | relation between frames and texts, shown equal to the printing decoders by induction over the TLVs; ✗ network address as chassis, ✗ EDP, FDP, NDP |
| C92 | `my_mreq` and its callers against `parent_req` | layout round trip, one lemma per request, induction over the interfaces for the reused structure |
| C93 | the same | invariant of the reused structure; every request passes `parent_check` |
| C94 | `q_descr`, `parent_descr`; a write of no bytes to sysfs does nothing (Linux, trusted) | ✗ removal; proof for non-empty texts |
| C95 | `compat_init`, `setproctitle` with `strlcpy`, `strlcat`, `strnvis`; memory from argv[0] on is a byte list, writes outside are UB | ✗ empty argv[0] with nothing behind it; proof for all else, any placement of the strings |
| C96 | `bsd_fetch`; refreshes with any answers of the system | equal to `netif_fetch` on a Linux system made from the BSD one; the theorems of C40-C44 and C66-C68 carry over |
| C97 | as C96 | as C96 |
| C98 | as C96 | ✗ ioctl with the name of the last datalink entry; ✗ sdl_type of a VLAN; proof for the last entry |
| C99 | `device_id` of both systems, field of 64 bytes | ✗ 64 characters or more; proof for shorter ones |
| C100 | `bsd_media`, `proto_build` for LLDP | ✗ octet 254 without "auto"; proof by a table of all media |
| C101 | `netif_media`, `bsd_media`, `proto_build` for LLDP and CDP | ✗ MTU of 65514 and more; proof by the unique reading of TLVs |
| C102 | as C101 | ✗ unknown duplex mode; proof as C101 |
| C103 | the sequence of results of subif_iter reaches NULL | ✗ same slave reported twice; the member chain of C58 is finite |
| C104 | the VLAN name TLVs of a frame sent in a run are those of the VLANs the kernel reports on the interface or its aggregate | ✗ interfaces on the command line, bridged VLANs; C57 content and C58 for all frames of a run (C37) |
| C105 | the link aggregation TLV of a frame sent in a run carries the slave number | ✗ teams; invariant of the slave loop, then as C104 |
| C106 | as C104 for EDP | ✗ names; as C104 |
| C107 | `link_event` reads the queue of datagrams and runs `child_send` for each message; `bsd_link` for the routing socket with any structure layout | ✗ datagrams above the buffer, a header at its end; induction on the queue |
| C108 | the effects of `bsd_run` are replayed on a table of memberships, which counts on OpenBSD and does not on FreeBSD | ✗ FreeBSD, groups of others; invariant over the sockets |
| C109 | the effects of an exchange are replayed on the description the kernel keeps | case analysis of the request |
| C110 | `b_host`: `bsd_sysinfo` followed by any refreshes | ✗ OpenBSD, texts above 32 characters; struct hinv as memory |
| C111 | `tq_run` against the same operations on lists; `mem_run` against `queue_put` and the expiry filter | representation invariant: every back pointer is the slot that points to the element |
| C112 | `reached` and `child_step`; order by `before` | contiguity invariant; insertion and filtering keep the order |
| C113 | `h_run` and `h_decode`, the same code with allocations; `in_use` says which blocks are live | ✗ printing descriptions of several lines; simulation of `child_run` and `proto_decode` with an ownership invariant (permutations of the live blocks) |
| C114 | `m_fetch`, the same code with pointers; `sound` says which blocks are in use and where pointers lead | refinement of `netif_fetch`: reading each pointer as the index of what it points to |
| C115 | `rounds`, `prompt`: the times of periodic runs in a history, served with bounded delay | the due time is the last run plus 30 seconds: invariant over histories |
| C116 | `known`, inductively from the advertisements in the history, without a table | induction over histories; content of the table after each kind of event |
| C117 | `says`, `arrives_at`: which runs of one history reach another | C115 gives a window with `m+1` runs in it, C116 the rest |
| C118 | `on_wire`, `advertised`, `handles`: frames wanted by one process and sent by the other | every frame is genuine (C09), induction over the history of the privileged process |
| C119 | `listened`, from the table and the kernel's answers; `loses`: events that take a socket away | fold over the interfaces as for C37; sockets only go by these events |
| C120 ✗ | `client_uses`: the blocks in use are the own ones and the strings of the message | invariant of the loop over C113's decoders; refuted for -f by twenty messages |
| C121 ✗ | `last_word`: the frame of the wire a neighbour sent last | C49's and C117's chain from filter to client; held-up frames refuted by three frames |
| C122 | `open`, `last_sign`, `served`: sessions and the signs of life of their clients | one pending timer per session, induction on the history |
| C123 ✗ | `calm_run`, `same_neighbours`: histories during which a set of neighbours stays in the table | the entries of the set keep their order, the place of a waiting session does not move; refreshed entries refuted by a run |
| C124 | `lives`, `sockets_are`, `at_ptr`: blocks reached through the list's pointers | invariant that blocks, list and events name the same sockets in the same order; refinement to `Parent.parent_step` |
| C125 ✗ | `deadlock`: both processes exist and no step is possible | refuted for every finite socket size by filling the socket during a request; otherwise an invariant: one datagram is on the request sockets exactly while the child awaits an answer |
| C126 | what was asked, answered, put, acted on, due and taken, read off the list of steps | invariants over the steps: the phase of the request under way, the queues as differences, the child inside the writes of its history, the sockets those of the requests and frames seen so far |
| C127 | `outside`, `settled`, `at_rest` | the steps of their own decrease (messages not read, the child's writes, the parent's chores) lexicographically, a well-founded order since the child's writes are a tree; at the end the invariants of C125 and C126 |
| C128 ✗ | `link_watched`, a wait as its own result | refuted where fcntl fails; otherwise by induction on the queue, with C107 |
| C129 ✗ | `host_parts`, `configured`, `outgoing`: a relation between two histories | refuted for clients with -a; otherwise a simulation between two states that differ in what was heard: netif_fetch and the builders commute with forgetting it |
| C130 | `steady`, `same_frame`, `configured`: a relation between two runs of one history | netif_fetch is idempotent up to what it does not read; simulation with the states of C129 for everything in between; EDP by cases on the two varying fields |
| C131 | `conforming`: the rules of the standards as a record of ten readable clauses over the list of TLVs | the list of TLVs of C57, sorted by type; enabled capabilities are among those there as an invariant of the runs |
| C132 | `growing`, `consecutive`: lists of 16-bit residues of growing or consecutive integers; `edp_number` is bytes 28 and 29 of the frame | induction over what is due; the counter is an integer modulo 65536; an EDP frame is at most 370 bytes and 31 per VLAN |
| C133 | `since t e`: a frame handed on at time t or later; `made_up k`: 2^32 source addresses | every entry is known from a frame (C116), different entries from different frames; the flood by induction on the number of frames |
| C134 | `b_due`: (interface, member, protocol) from the reports of the kernel; `b_frame_due`: the frame of C04-C08 for it; `rt_up`: a routing message that an interface is up | the proofs of C37 and C09 with the BSD refresh (C96, C97) |
| C135 | `without_others k`: the history without the events of other clients; `but_for_others k`: the effects without writes to them | leaving out the other sessions commutes with every step |
| C136 | `said_new`, `said_gone`, `listed`: how often a name is in the log and in the table; `lines`: the lines of a text; `one_name`: every neighbour keeps to one name | the log of an event by cases of child_queue; counting over permutations |
| C137 | vocabulary of C116 and C117 | a sent frame is news with hold time 180 (C117), kept and dropped (C116) |
| C138 | vocabulary of C81, C82 and C134; `b_running_on`: the daemon on one BSD machine | as C81, C82, with the answers of BSD seen as those of a Linux machine (C96) |
| C139 | `conforming` of C131 | as C131, from the frames due on BSD (C134) |
| C140 | `in_use` of C113; `b_filled`: the kernel fills in no more than it was given room for | arrays with checked accesses refine the lists of `Bsd`; the doubling loop by its fuel |
| C141 | `says`: the options and operands that the words of a command line say, as an inductive grammar | the parser accepts exactly the grammar, by induction on the words |
| C142 | `chosen`, `allowed`, `asked`: what the options and names say about an interface and a protocol; `civic`: the location | C37 with the configuration of the options; marks by C47, no protocols without -a by induction over the history |
| C143 | vocabulary of C142 and C119 | C119 as for C142; no effect of any event is a description without its option |
| C144 | vocabulary of C142 and C134 | as C142, by C134; the refresh on BSD is one of Linux (C96), so nothing is enabled by it without -a |
| C145 | `SpecCmd2`: the management address TLVs of an interface | the frame by C57, the refresh by its invariant; without -m no refresh ever sets a management interface |
| C146 | `SpecCmd3`: whose addresses an interface is announced with | C66 at the refresh of the event, carried to the table after it; C145 |
| C147 | vocabulary of C145 and C101 | as C145, with the content of CDP and FDP frames; TLVs can be read in one way only |
| C148 | vocabulary of C143 and C144 | the loops of child_send over the BSD media answers; options from the words |
| C149 | words as C141; `wanted`, `to_show`; rows and shell assignments as C59 and C23 | composition of the theorems on words, selection and text |
| C150 | as C149; forms, captures and texts as C77, C79 and C91 | as C149 |
| C151 | `last_word` as C121, `wanted` as C149, rows as C59 | composition of C121, C141 and C59 |
| C152 | `chosen`, `allowed`, `asked` as C142/C144, `hears`, `told` as C81, `wanted` as C149, rows as C59 | composition of C142/C144, C81/C138 and C149 |

A property that is false of the faithful model is recorded by a theorem named
`..._refuted` with a concrete witness, plus the strongest true variant.

## 4. What is modelled and what is not

Modelled: all functions named in section 2, for the Linux build with sysfs,
ethtool, bonding, bridge, vlan and libevent headers, and `Bsd.v` for FreeBSD
and OpenBSD. Simplifications are stated
in the comment of the definition concerned.

Inputs, universally quantified: every answer of the operating system (clock,
`read`, `write`, `send`, `if_indextoname`, `getifaddrs`, `ioctl`, sysfs files,
`stat`, `fork`, ...), the results of ethtool, libteam, libpcap and
libpci, of `lsb_release` and the resolver, and of libevent's HTTP client.

Not modelled:

* The branches of `netif_bsd.c` for macOS and NetBSD, and the branches for other
  systems in files other than `netif_bsd.c`, `netif.c`, `sysinfo.c`, `child_link` and
  the requests of `parent.c`.
* `compat/sys-queue.h` other than the tail queue macros the code uses; outside `Queue`
  queues are lists (C111 shows that for the table of neighbours and the loops that remove).
* Allocations outside `Heap`, `Queue`, `NetMem`, `CliHeap`, `RawMem` and `BsdMem`.
* Text of log messages other than those of `Log`, and of `usage()`; `vsyslog`.
* Failing memory allocation (`my_malloc` ends the process).
* libevent: any event may happen next; libpcap: the frames it delivers are input,
  of its file format the writer is modelled (`Post.v`).
* The connection of the client to the daemon's socket.
* Signals arriving inside of a system call, and the kernel beyond the documented
  results of system calls.

## 5. Trusted base

The Coq kernel (including `vm_compute`), the correspondence of the model to the
C text as documented at each definition, the specification files read as the
meaning of the English statements in `properties.jsonl`, and the axioms printed
by `Print Assumptions` below each theorem.

No axiom, parameter, admitted proof, functor, module type or plugin is used, no
kernel check is switched off.

## 6. Print Assumptions

For every theorem named in `MANIFEST.json` (each has a `Print Assumptions`
beneath it in its `Prop*.v` file) the output is

    Closed under the global context

that is: no axiom, not even of the standard library.
