{"id": "C01", "title": "LLDP advertisements are understood by ladvd's own LLDP decoder", "statement": "Whenever ladvd builds an LLDP advertisement for an interface, decoding that frame succeeds and yields exactly the host name (escaped for display), the interface name as port, the capability letters of the enabled capabilities, the advertised management addresses and a TTL of 180 seconds.", "quantifier": "all host names, descriptions, interface names, addresses, VLAN sets, capability masks, LLDP-MED inventory strings and options that fit their struct fields, and all contents of the memory behind the frame", "why_tests_cant": "The optional TLVs multiply into far too many combinations of string lengths and flags; a single off-by-one in one TLV length only shows for some of them.", "anchors": ["src/proto/lldp.c: lldp_packet, lldp_decode, lldp_chassis_id, lldp_port_id, lldp_system_name, lldp_system_cap, lldp_mgmt_addr", "src/proto/tlv.h", "src/proto/tlv.c"]}
{"id": "C02", "title": "CDP advertisements are understood by ladvd's own CDP decoder", "statement": "Whenever ladvd builds a CDP (version 1 or 2) advertisement for an interface, decoding that frame succeeds and yields the host name (escaped), interface name, capability letters, the first advertised IPv4 and IPv6 address, a TTL of 180 seconds and the protocol version that was sent.", "quantifier": "all field contents that fit their struct fields, both protocol versions, and all contents of the memory behind the frame", "why_tests_cant": "Address TLVs, duplex, location and string lengths combine into unboundedly many frames.", "anchors": ["src/proto/cdp.c: cdp_packet, cdp_decode, cdp_addr, cdp_system_cap, cdp_header_check", "src/proto/tlv.h"]}
{"id": "C03", "title": "EDP advertisements are understood by ladvd's own EDP decoder", "statement": "Whenever ladvd builds an EDP advertisement for an interface, decoding that frame succeeds and yields exactly the host name (escaped for display) as host name.", "quantifier": "all host names, interface names, MAC addresses, VLAN lists, release numbers and sequence numbers that fit their fields", "why_tests_cant": "The VLAN list is unbounded and the TLV nesting and length arithmetic depend on it.", "anchors": ["src/proto/edp.c: edp_packet, edp_decode", "src/proto/tlv.h"]}
{"id": "C04", "title": "FDP advertisements are understood by ladvd's own FDP decoder", "statement": "Whenever ladvd builds an FDP advertisement, decoding that frame succeeds and yields the host name (escaped), the interface name as port, the capability letter of the role advertised (host, bridge or router) and a TTL of 180 seconds.", "quantifier": "all field contents that fit their struct fields, all capability masks", "why_tests_cant": "String lengths and optional address TLVs combine into unboundedly many frames.", "anchors": ["src/proto/fdp.c: fdp_packet, fdp_decode", "src/proto/tlv.h"]}
{"id": "C05", "title": "NDP advertisements have one fixed well-formed size and carry the right address", "statement": "Every NDP advertisement is exactly 64 bytes, passes the NDP signature check, carries the IPv4 address of the interface's parent (or its own when it has no parent) right behind the SNAP header and is accepted by ladvd's own NDP decoder with a TTL of 180 seconds.", "quantifier": "all interfaces, addresses and MAC addresses", "why_tests_cant": "Only a handful of addresses can be tried.", "anchors": ["src/proto/ndp.c: ndp_packet, ndp_decode, ndp_check"]}
{"id": "C06", "title": "An advertisement is either complete or not produced at all, and never exceeds an Ethernet frame", "statement": "For every protocol the builder either returns 0 (and nothing is sent) or returns a frame of at most 1518 bytes whose payload is tiled exactly by its TLVs: walking the TLV headers from the first TLV ends exactly at the end of the frame, every TLV's length field equals the bytes it holds, and (for 802.3 framed protocols) the Ethernet length field equals the number of bytes following it.", "quantifier": "all inputs, including arbitrarily many VLAN interfaces and strings of every length that fits its struct field", "why_tests_cant": "The overflow boundary is hit only by specific totals of string lengths and VLAN counts.", "anchors": ["src/proto/lldp.c: lldp_packet", "src/proto/cdp.c: cdp_packet", "src/proto/edp.c: edp_packet", "src/proto/fdp.c: fdp_packet", "src/proto/ndp.c: ndp_packet", "src/proto/tlv.h: PUSH, END_LLDP_TLV, END_CDP_TLV, END_EDP_TLV, END_FDP_TLV"]}
{"id": "C07", "title": "CDP and FDP advertisements can always be generated", "statement": "Building a CDP or FDP advertisement never fails for lack of space: whatever the host name, system description, platform, location, interface name and addresses are, the frame fits in 1518 bytes.", "quantifier": "all contents of the sysinfo and interface string fields up to their maximum lengths", "why_tests_cant": "It is a worst-case statement over all string lengths at once.", "anchors": ["src/proto/cdp.c: cdp_packet", "src/proto/fdp.c: fdp_packet", "src/common.h: struct my_sysinfo"]}
{"id": "C08", "title": "Transmitted checksums verify", "statement": "The checksum computed by ladvd equals the Internet checksum (RFC 1071) of the data in network byte order, with an odd last byte padded on the right in the standard variant and on the left in the Cisco variant; a receiver summing a built CDP, EDP or FDP frame including its checksum field gets all-ones.", "quantifier": "all byte strings of every length up to an Ethernet frame, both variants, all built frames", "why_tests_cant": "The carry folding and the odd-byte case depend on the whole data; a mistake shows only when intermediate sums wrap.", "anchors": ["src/util.c: my_chksum", "src/proto/cdp.c: cdp_packet", "src/proto/edp.c: edp_packet", "src/proto/fdp.c: fdp_packet"]}
{"id": "C09", "title": "Sending never kills the privileged process", "statement": "Every frame the unprivileged child hands to the privileged parent for transmission satisfies all of the parent's sanity assertions (protocol number, minimum and maximum size, protocol signature), also when the source address was blanked for a failover backup link, so a send cannot abort the daemon.", "quantifier": "all interfaces, system information, protocols, with the four utsname strings non-empty", "why_tests_cant": "The assertions involve frame sizes which depend on all string lengths.", "anchors": ["src/child.c: child_send", "src/parent.c: parent_send", "src/proto/lldp.c: lldp_check", "src/proto/cdp.c: cdp_check", "src/proto/edp.c: edp_check", "src/proto/fdp.c: fdp_check", "src/proto/ndp.c: ndp_check"]}
{"id": "C10", "title": "The CDP decoder accepts exactly the well-formed frames and reports the first value of each attribute", "statement": "A CDP frame is accepted if and only if its version is 1 or 2 and the bytes after the header are exactly a sequence of TLVs whose lengths cover the rest of the frame, with capability TLVs of 4 bytes, native VLAN TLVs of 2 bytes and address TLVs holding the announced addresses; the reported attributes are those of the first TLV that carries each, escaped and cut to 511 bytes.", "quantifier": "all byte strings of length 60 to 1518 (with or without an 802.1Q tag)", "why_tests_cant": "Acceptance is a property of arbitrary attacker-controlled bytes.", "anchors": ["src/proto/cdp.c: cdp_decode, cdp_header_check, cdp_addr, cdp_system_cap, cdp_vlan", "src/proto/tlv.c: tlv_str_copy, tlv_str_cap, tlv_str_addr"]}
{"id": "C11", "title": "The EDP and FDP decoders accept exactly the well-formed frames", "statement": "An EDP frame is accepted iff its version is 1 and the bytes after the header are exactly a sequence of TLVs tiling the rest of the frame; an FDP frame likewise; the reported host name (and port, capabilities for FDP) is the value of the first TLV of that type, escaped for display.", "quantifier": "all byte strings of length 60 to 1518 (with or without an 802.1Q tag)", "why_tests_cant": "Acceptance is a property of arbitrary attacker-controlled bytes.", "anchors": ["src/proto/edp.c: edp_decode", "src/proto/fdp.c: fdp_decode", "src/proto/tlv.c: tlv_value_str"]}
{"id": "C12", "title": "The LLDP decoder accepts exactly the well-formed frames", "statement": "An LLDP frame is accepted iff its TLV sequence starts with Chassis ID, Port ID and TTL of legal sizes in this order, is terminated by an End TLV inside the frame, contains no reserved TLV types 9..126, at most one System Name, and every System Name, capability, management address and organisational TLV is of legal shape; bytes after the End TLV are ignored.", "quantifier": "all byte strings of length 60 to 1518 (with or without an 802.1Q tag)", "why_tests_cant": "Acceptance is a property of arbitrary attacker-controlled bytes and the mandatory order is a whole-sequence property.", "anchors": ["src/proto/lldp.c: lldp_decode, lldp_chassis_id, lldp_port_id, lldp_system_name, lldp_system_cap, lldp_mgmt_addr, lldp_private, lldp_private_8021"]}
{"id": "C13", "title": "CDP, EDP, FDP and NDP decoding never reads outside the message buffer", "statement": "Decoding any received CDP, EDP, FDP or NDP frame of legal size touches only the 1518-byte message buffer, terminates, and never returns more bytes than the frame holds.", "quantifier": "all frame contents of length 60 to 1518, both tagged and untagged", "why_tests_cant": "Memory safety is about every possible malformed frame.", "anchors": ["src/proto/cdp.c: cdp_decode", "src/proto/edp.c: edp_decode", "src/proto/fdp.c: fdp_decode", "src/proto/ndp.c: ndp_decode", "src/proto/tlv.h: GRAB, SKIP, DECODE_STRING"]}
{"id": "C14", "title": "LLDP decoding never reads outside the message buffer", "statement": "Decoding any received LLDP frame of legal size touches only the 1518-byte message buffer and terminates.", "quantifier": "all frame contents of length 60 to 1518, both tagged and untagged", "why_tests_cant": "Memory safety is about every possible malformed frame; the offending case needs a maximum-size frame without End TLV.", "anchors": ["src/proto/lldp.c: lldp_decode", "src/proto/tlv.h: GRAB_LLDP_TLV"]}
{"id": "C15", "title": "Decoding depends only on the received bytes", "statement": "The outcome of decoding (accepted or not, and every reported attribute) is a function of the received frame bytes alone: what lies in the buffer behind the frame, e.g. left-overs of earlier packets, never matters.", "quantifier": "all frames of length 60 to 1518 and all pairs of contents of the memory behind the frame", "why_tests_cant": "A test cannot range over the left-over memory.", "anchors": ["src/proto/lldp.c: lldp_decode", "src/proto/cdp.c: cdp_decode", "src/proto/edp.c: edp_decode", "src/proto/fdp.c: fdp_decode", "src/proto/ndp.c: ndp_decode", "src/parent.c: parent_recv"]}
{"id": "C16", "title": "The kernel receive filter passes exactly the supported discovery frames", "statement": "The packet filter installed on the raw sockets accepts a frame iff it is long enough and, optionally after one 802.1Q tag, is an LLDP frame to 01:80:c2:00:00:0e or an LLC/SNAP frame to the CDP, FDP or NDP group address with the matching SNAP organisation and protocol id (or to the constants coded for EDP); everything else is rejected, and the reject filter rejects every frame.", "quantifier": "all byte strings", "why_tests_cant": "A packet filter is a program over arbitrary packets; jump offsets can only be validated for sampled packets.", "anchors": ["src/filter.h: proto_filter, reject_filter", "src/parent.c: parent_socket"]}
{"id": "C17", "title": "EDP advertisements pass the kernel receive filter", "statement": "A well-formed EDP advertisement sent to 00:e0:2b:00:00:00 is accepted by the packet filter so that EDP neighbours can be discovered.", "quantifier": "all EDP frames", "why_tests_cant": "The test suite never runs the filter program on EDP traffic.", "anchors": ["src/filter.h: proto_filter", "src/proto/edp.h: EDP_MULTICAST_ADDR"]}
{"id": "C18", "title": "No frame from the network can abort the unprivileged process", "statement": "For every frame on the wire: if the receive filter and the privileged receive path let it through, then the protocol decoder selected for it finds the signature it asserts, so the assertion in the decoder cannot fire and the daemon does not abort.", "quantifier": "all byte strings arriving on the wire", "why_tests_cant": "Needs the agreement of three separately written classifiers (BPF, destination table, check functions) on all frames.", "anchors": ["src/parent.c: parent_recv", "src/filter.h: proto_filter", "src/child.c: child_queue", "src/proto/*.c: *_check, *_decode"]}
{"id": "C19", "title": "The privileged receive path forwards frames unchanged and bounded", "statement": "For every captured frame the parent either drops it (shorter than 60 bytes, or unknown destination, which also ends the current reading loop) or forwards exactly its bytes (the first 1518 of them) with their exact number, the interface the socket belongs to, and the protocol whose group address is the destination.", "quantifier": "all captured frames and all interfaces", "why_tests_cant": "Ranges over all frame contents and lengths.", "anchors": ["src/parent.c: parent_recv", "src/main.h: protos"]}
{"id": "C20", "title": "Escaping received strings never overflows and yields printable output", "statement": "For every string received from the network the escaped form fits the buffer allocated for it, contains no byte above 126, no NUL, no ESC, and of the control characters none (EDP, FDP strings) or at most newline, tab, carriage return, bell and backspace (CDP, LLDP strings).", "quantifier": "all byte strings of all lengths", "why_tests_cant": "Buffer sizing is a worst-case over all inputs.", "anchors": ["src/proto/tlv.c: tlv_str_copy, tlv_value_str", "src/compat/vis.c: vis, strnvis, isvisible"]}
{"id": "C21", "title": "Escaped strings are unambiguous", "statement": "Escaping is reversible: the original received bytes (up to the first NUL and the 511 byte limit) can be recovered from the escaped text, so two neighbours with different names are never displayed with the same name.", "quantifier": "all pairs of byte strings", "why_tests_cant": "Injectivity relates all pairs of inputs.", "anchors": ["src/proto/tlv.c: tlv_str_copy, tlv_value_str", "src/compat/vis.c: vis, strnvis"]}
{"id": "C22", "title": "Displayed neighbour names contain no control characters", "statement": "A host name or port name received over CDP or LLDP is displayed without any raw control character, so that a neighbour cannot forge lines or ring the bell on the administrator's terminal.", "quantifier": "all byte strings received as host name", "why_tests_cant": "Quantifies over all attacker-chosen strings.", "anchors": ["src/proto/tlv.c: tlv_str_copy", "src/compat/vis.c: isvisible"]}
{"id": "C23", "title": "Batch output is safe to evaluate in a shell", "statement": "The output of ladvdc -b for one neighbour, read by a POSIX shell, is exactly the documented list of variable assignments, whose values are the reported attributes with single quotes replaced by double quotes; no attribute value can end the quoting and run a command.", "quantifier": "all attribute values a remote peer can cause", "why_tests_cant": "Injection safety is about all attacker-chosen strings.", "anchors": ["src/cli.c: batch_write, swapchr"]}
{"id": "C24", "title": "Port name abbreviation only shortens the known prefix", "statement": "Abbreviating a port name replaces exactly a leading long interface type name (FastEthernet, GigabitEthernet, TenGigabitEthernet by their first two letters, Ethernet in any letter case by its first three) and leaves everything else of the name untouched; every other name is unchanged, and the result is never longer than the name.", "quantifier": "all port name strings", "why_tests_cant": "Ranges over all strings, including those equal to or shorter than a prefix.", "anchors": ["src/util.c: portname_abbr"]}
{"id": "C25", "title": "At most one table entry per neighbour and protocol", "statement": "After any history of received frames, expiries and client sessions, the neighbour table holds at most one entry for each combination of interface, protocol, source and destination address.", "quantifier": "all histories of events from the initial state", "why_tests_cant": "It is an invariant over unboundedly long histories.", "anchors": ["src/child.c: child_queue, child_expire, child_free"]}
{"id": "C26", "title": "The reported number of peers on an interface is the number of distinct neighbours", "statement": "After any history, the number of peers used for the interface description equals the number of distinct source addresses heard on that interface.", "quantifier": "all histories of events from the initial state", "why_tests_cant": "Depends on the list order maintained over the whole history.", "anchors": ["src/util.c: netif_descr", "src/child.c: child_queue"]}
{"id": "C27", "title": "The neighbour table behaves like a map holding the latest advertisement", "statement": "Receiving a valid frame on a known interface from a foreign source sets the entry for (interface, protocol, source, destination) to this frame, its receive time and its decoded attributes, and leaves every other entry unchanged; looking up any other neighbour gives the same answer as before.", "quantifier": "all tables reachable by any history and all received frames", "why_tests_cant": "A refinement statement over all states and inputs.", "anchors": ["src/child.c: child_queue"]}
{"id": "C28", "title": "Entries expire exactly when their hold time is over", "statement": "A periodic expiry run removes precisely the entries whose receive time plus TTL lies before now and which no client session holds; all other entries stay in place and in order.", "quantifier": "all tables and all clock values", "why_tests_cant": "Ranges over all tables and times, including equality at the boundary.", "anchors": ["src/child.c: child_expire, child_free"]}
{"id": "C29", "title": "A neighbour announcing shutdown disappears at once", "statement": "After a valid advertisement with TTL zero is received, the table no longer holds an entry for that neighbour and protocol unless a client session is just reading it.", "quantifier": "all tables reachable by any history, all frames with TTL 0, all clock values after the epoch", "why_tests_cant": "Ranges over all table states.", "anchors": ["src/child.c: child_queue, child_expire"]}
{"id": "C30", "title": "Frames from unknown interfaces, own frames and malformed frames leave the table unchanged", "statement": "If a received frame belongs to an interface that is not known, carries the MAC address of one of the host's own interfaces as source, or is rejected by its decoder, then the neighbour table, the enabled protocols and the interface descriptions are exactly as before.", "quantifier": "all states and all frames", "why_tests_cant": "Ranges over all states and malformed inputs.", "anchors": ["src/child.c: child_queue", "src/util.h: netif_byindex, netif_byaddr"]}
{"id": "C31", "title": "Automatically enabled protocols track the neighbours actually heard", "statement": "In automatic mode, whenever an expiry run has updated an interface, the set of protocols enabled on it is exactly the set of protocols of the table entries heard on it or its member interfaces; receiving a frame enables its protocol on the (parent) interface.", "quantifier": "all histories of events for a fixed interface configuration", "why_tests_cant": "An invariant over histories.", "anchors": ["src/child.c: child_queue, child_expire", "src/util.c: netif_protos"]}
{"id": "C32", "title": "Interface descriptions reflect the neighbours", "statement": "The description written for an interface is empty when no neighbour is heard, 'connected to HOST (PORT)' or 'connected to HOST' for exactly one named neighbour (HOST cut at the first dot), and 'connected to N peers' for several; it is at most 63 characters and is only written when it changes.", "quantifier": "all neighbour tables and all attribute strings", "why_tests_cant": "String truncation and table shapes are unbounded.", "anchors": ["src/util.c: netif_descr", "src/parent.c: parent_descr"]}
{"id": "C33", "title": "A table entry read by a client session is never freed under it", "statement": "While a client session is waiting to write a table entry, that entry stays in the table until the session has moved on or ended, so the session never touches freed memory.", "quantifier": "all interleavings of received frames, expiry runs and client sessions", "why_tests_cant": "It is a use-after-free race over all schedules of events.", "anchors": ["src/child.c: child_queue, child_expire, child_free, child_cli_accept, child_cli_write"]}
{"id": "C34", "title": "An ended client session releases its entry", "statement": "When a client session ends for whatever reason (finished, connection lost, write timeout), it no longer pins any table entry, so that the entry can expire.", "quantifier": "all interleavings of events and all ways a session can end", "why_tests_cant": "Needs all schedules with stalled clients.", "anchors": ["src/child.c: child_cli_write"]}
{"id": "C35", "title": "A client receives every table entry exactly once and in order", "statement": "A client session during which the table does not change is sent exactly the table's entries, each once, in table order, no matter how often its socket is temporarily full.", "quantifier": "all tables and all patterns of temporarily blocked writes", "why_tests_cant": "Ranges over all patterns of partial progress.", "anchors": ["src/child.c: child_cli_accept, child_cli_write"]}
{"id": "C36", "title": "Link flapping cannot flood the network", "statement": "Between two periodic advertisement runs an interface sends its advertisements at most four times because of link-up events, no matter how often the link flaps.", "quantifier": "all histories of link events, periodic runs and received frames", "why_tests_cant": "A rate bound over unbounded histories.", "anchors": ["src/child.c: child_send, child_link_fd, child_link_kqueue"]}
{"id": "C37", "title": "Advertisements are sent exactly where configured", "statement": "In one advertisement run a frame of a protocol is sent on an interface if and only if the interface (or its parent) is selected and not excluded, is a real wired interface, and the protocol is enabled globally or was enabled automatically on the parent; on a failover backup link the source address is blanked and the rest of the frame is unchanged.", "quantifier": "all interface tables, options and protocol sets", "why_tests_cant": "Combinatorial over interface trees and options.", "anchors": ["src/child.c: child_send", "src/util.c: netif_iter, subif_iter, netif_excluded"]}
{"id": "C38", "title": "The privileged process only transmits well-formed discovery frames", "statement": "Whatever byte string the (possibly compromised) child writes to the send socket, the parent either terminates, drops it, or writes exactly those frame bytes, of length 60 to 1518, carrying a known discovery protocol's destination and signature, to the raw socket of an interface that exists and has the index named in the message.", "quantifier": "all byte strings read from the child and all states of the socket table", "why_tests_cant": "A security boundary must hold for every message a compromised process can send.", "anchors": ["src/parent.c: parent_send, parent_open, parent_socket", "src/proto/*.c: *_check"]}
{"id": "C39", "title": "One raw socket per interface", "statement": "After any history of requests and transmissions the parent holds at most one raw socket per interface index; opening an already open interface changes nothing, and a closed interface has none.", "quantifier": "all histories of open, close, send and device failures", "why_tests_cant": "Invariant over histories.", "anchors": ["src/parent.c: parent_open, parent_close, parent_send", "src/parent.h: rfd_byindex"]}
{"id": "C40", "title": "Malformed requests to the privileged process are never acted upon", "statement": "For every byte string read from the request socket: a wrong size, an unknown operation or an illegal length terminates the parent without any system-changing action, a request for a nonexistent interface is answered with length zero and no action, and every reply is at most as long as the request structure.", "quantifier": "all byte strings read from the child and all operating-system answers", "why_tests_cant": "A security boundary must hold for every message a compromised process can send.", "anchors": ["src/parent.c: parent_req, parent_check, parent_descr"]}
{"id": "C41", "title": "Closing an interface drops all its multicast memberships", "statement": "When the parent stops listening on an interface it drops every multicast membership that opening the interface added.", "quantifier": "all sets of enabled protocols", "why_tests_cant": "Depends on the set of enabled protocols; the tests do not observe kernel memberships.", "anchors": ["src/parent.c: parent_multi, parent_open, parent_close"]}
{"id": "C42", "title": "Untrusted input is only processed after privileges were dropped", "statement": "In daemon mode the child reaches its event loop only if changing root, supplementary groups, group, user and resource limits all succeeded in this order; if any of these calls fails the process exits before sending or receiving anything.", "quantifier": "all combinations of success and failure of the system calls", "why_tests_cant": "Failure of security calls cannot be provoked systematically in unit tests.", "anchors": ["src/child.c: child_init", "src/util.c: my_chroot, my_drop_privs, my_rlimit_child"]}
{"id": "C43", "title": "The chroot directory is trusted along its whole path", "statement": "The process only changes root into a directory if every component of the path, from the root to the directory itself, is a directory owned by root and not writable by group or others.", "quantifier": "all paths and all file system states", "why_tests_cant": "Ranges over all paths and ownership patterns.", "anchors": ["src/util.c: my_chroot"]}
{"id": "C44", "title": "The client shows exactly the selected, unexpired neighbours with the right hold time", "statement": "A neighbour sent by the daemon is displayed if and only if its protocol is selected, its interface is selected, it decodes and its TTL has not elapsed; the hold time displayed is the TTL minus its age.", "quantifier": "all message sequences, protocol and interface selections and clock values", "why_tests_cant": "Ranges over all message sequences and clock values.", "anchors": ["src/cli.c: cli_main"]}
{"id": "C45", "title": "The client never mixes attributes of different neighbours", "statement": "Every neighbour line displayed by the client only contains attributes decoded from that neighbour's own frame, and a neighbour is not hidden because of another neighbour's message.", "quantifier": "all sequences of messages from the daemon", "why_tests_cant": "The defect depends on the history of previously read messages.", "anchors": ["src/cli.c: cli_main", "src/common.h: PEER_STR, peer_free"]}
{"id": "C46", "title": "Selecting CDP in the client shows all CDP neighbours", "statement": "With the option -C the client displays every unexpired CDP neighbour, whether it speaks CDP version 1 or 2.", "quantifier": "all message sequences", "why_tests_cant": "No test covers protocol selection of version 1 neighbours.", "anchors": ["src/cli.c: cli_main", "src/proto/cdp.c: cdp_header_check"]}
{"id": "C47", "title": "The interface table mirrors the operating system", "statement": "After every refresh the interface table contains each usable Ethernet interface reported by the operating system exactly once (unique index) and nothing else, keeps the automatically enabled protocols of interfaces that persist, and the management interface reference never points to a removed interface.", "quantifier": "all sequences of operating system interface lists", "why_tests_cant": "Ranges over histories of hot-plugged interfaces.", "anchors": ["src/netif.c: netif_fetch", "src/util.h: netif_byindex"]}
{"id": "C48", "title": "Iterating interfaces visits each selected interface exactly once", "statement": "Iteration over interfaces yields, in table order, exactly the selected interfaces (all top-level ones, or those named on the command line) that are not member-less aggregates; iteration over members yields the interface itself for a plain interface and each member exactly once for an aggregate, and terminates.", "quantifier": "all interface tables with well-formed member chains", "why_tests_cant": "Ranges over all interface trees.", "anchors": ["src/util.c: netif_iter, subif_iter"]}
{"id": "C49", "title": "Advertised autonegotiation state is the interface's state", "statement": "The LLDP MAC/PHY TLV has its 'supported' bit set iff autonegotiation is supported and its 'enabled' bit set iff it is enabled, and no other bit set.", "quantifier": "all media states the interface probing code can produce", "why_tests_cant": "The offending state needs an interface without autonegotiation support.", "anchors": ["src/proto/lldp.c: lldp_packet", "src/netif.c: netif_media", "src/netif_linux.c: netif_physical"]}
{"id": "C50", "title": "The LLDP-MED location TLV announces its true size", "statement": "The location-information length inside the LLDP-MED civic location TLV equals the number of bytes that follow it.", "quantifier": "all location strings accepted by the configuration", "why_tests_cant": "Only locations longer than 250 characters trigger the overflow.", "anchors": ["src/proto/lldp.c: lldp_packet", "src/main.c: main"]}
{"id": "C51", "title": "Command line options have their documented implications", "statement": "For every argument list, the daemon only starts with at least one protocol enabled or automatic mode; automatic mode implies receiving; saving neighbours as description or alias implies receiving; a country code is exactly two letters; options not allowed in a mode are refused.", "quantifier": "all argument lists", "why_tests_cant": "Argument lists are unbounded.", "anchors": ["src/main.c: main"]}
{"id": "C52", "title": "Bounded string functions never overflow and always terminate the string", "statement": "strlcpy and strlcat write at most the given number of bytes, always NUL-terminate when there is room, return the length the full result would have, and truncate only at the end.", "quantifier": "all strings and buffer sizes", "why_tests_cant": "Worst cases are boundary combinations of three lengths.", "anchors": ["src/compat/strlcpy.c: strlcpy", "src/compat/strlcat.c: strlcat"]}
{"id": "C53", "title": "Message framing is independent of how the stream is chunked", "statement": "Messages composed into an imsg channel are received exactly once, in order and unmodified, however the byte stream is split into reads and writes; a header announcing an illegal size is an error.", "quantifier": "all message sequences and all ways to split the stream", "why_tests_cant": "Chunkings are exponentially many.", "anchors": ["src/compat/imsg.c: imsg_compose, imsg_read, imsg_get", "src/compat/imsg-buffer.c: msgbuf_write, msgbuf_drain"]}
{"id": "C54", "title": "In automatic mode a protocol heard on a selected interface is also sent there", "statement": "If the daemon runs in automatic mode with an explicit interface list and hears a protocol on a listed interface, the next advertisement run sends this protocol on that interface.", "quantifier": "all interface tables, including members of aggregates listed individually", "why_tests_cant": "Needs the combination of aggregates, interface lists and automatic mode.", "anchors": ["src/child.c: child_queue, child_send", "src/util.c: netif_iter"]}
{"id": "C55", "title": "A socket of a vanished interface is released", "statement": "When an interface disappears and the child asks the parent to close it, the parent no longer holds a raw socket for this interface.", "quantifier": "all histories of interface appearance and disappearance", "why_tests_cant": "Needs interfaces vanishing at the right moment.", "anchors": ["src/parent.c: parent_req, parent_close", "src/netif.c: netif_fetch"]}
{"id": "C56", "title": "Printing and listing accept the same neighbours", "statement": "A received frame is accepted by the decoder in detailed print mode if and only if it is accepted in table mode, so a neighbour shown in the list can also be shown in full.", "quantifier": "all frames of length 60 to 1518 of every protocol", "why_tests_cant": "The two modes take different branches in many TLV handlers; agreement has to hold for every combination of TLVs, not only for captured frames.", "anchors": ["src/proto/cdp.c", "src/proto/lldp.c"]}
{"id": "C57", "title": "An advertisement carries exactly the data of the interface and the system", "statement": "Every built frame equals the advertisement specified for the protocol: fixed destination and SNAP header, the interface's own source address, and for each protocol the prescribed list of TLVs with host name, system description, platform, port name, capability word, addresses of the parent or management interface, VLANs attached to the interface or its parent, MTU, duplex, location and inventory; nothing else and nothing missing, unless the whole frame exceeds 1518 bytes, in which case nothing is built.", "quantifier": "all interface tables, options, addresses and strings that fit their struct fields, all six protocol numbers", "why_tests_cant": "The size tests of the suite only look at the length of a few frames; a swapped or stale field for some combination of optional data would go unnoticed.", "anchors": ["src/proto/lldp.c", "src/proto/cdp.c", "src/proto/edp.c", "src/proto/fdp.c", "src/proto/ndp.c"]}
{"id": "C58", "title": "Aggregates and VLANs mirror the kernel", "statement": "After every refresh each bond, team or bridge heads the chain of exactly the members the kernel reports, in that order, each with its active/backup state and a pointer back to the aggregate; interfaces that are members of nothing have no parent; each VLAN interface has the identifier and base interface the kernel reports.", "quantifier": "all histories of refreshes and all consistent kernel reports", "why_tests_cant": "Ranges over arbitrary topologies of interfaces and over histories of stale links left by earlier refreshes.", "anchors": ["src/netif.c: netif_fetch", "src/netif_linux.c: netif_bond", "src/netif_linux.c: netif_bridge", "src/netif_linux.c: netif_team", "src/netif_linux.c: netif_vlan"]}
{"id": "C59", "title": "The default listing is one line per neighbour in aligned columns", "statement": "Without options ladvdc prints the legend, a heading and then exactly one line per displayed neighbour, with host name, local interface, protocol, hold time, capabilities and port in fixed columns, cut or filled up to the terminal's width; no neighbour can cause a line that is not its own.", "quantifier": "all message sequences, attribute values and terminal widths", "why_tests_cant": "Alignment and the absence of injected lines are about all attacker-chosen strings and all widths.", "anchors": ["src/cli.c: cli_header, cli_write", "src/util.c: portname_abbr"]}
{"id": "C60", "title": "Only the daemon's own child is ever signalled", "statement": "Whatever fails during start-up and whichever signal arrives later, every kill the privileged process performs is aimed at the process its own fork created, never at a process group or at every process.", "quantifier": "all options, all combinations of success and failure of the system calls, all signals", "why_tests_cant": "Needs failures of fork and other calls while running as root, with consequences outside the process.", "anchors": ["src/main.c: main", "src/util.c: my_fatal", "src/parent.c: parent_signal"]}
{"id": "C61", "title": "A fatal error shows in the exit status", "statement": "If a call the daemon cannot do without fails (account lookup, daemonising, pid file, sockets, fork, client socket, privilege dropping, capabilities), the process ends at once with exit status 1.", "quantifier": "all options and all combinations of success and failure of the system calls", "why_tests_cant": "Ranges over every call and every failing prefix of the start-up sequence, in two processes.", "anchors": ["src/main.c: main", "src/util.c: my_fatal", "src/parent.c: parent_init", "src/child.c: child_init"]}
{"id": "C62", "title": "One daemon, with its number in the pid file", "statement": "In daemon mode the child process is only created while the lock on the pid file is held, and the file then contains exactly the process number in decimal and a line feed.", "quantifier": "all earlier contents of the file and all answers of the system calls", "why_tests_cant": "Depends on files left behind by arbitrary earlier runs.", "anchors": ["src/main.c: main"]}
{"id": "C63", "title": "The client socket is never open to other users", "statement": "At every moment from its creation on, the client socket grants nothing to other users, and grants access to a group only if that group is root's or the daemon's.", "quantifier": "every moment of every start-up, all answers of the system calls, all initial umasks", "why_tests_cant": "The window between creating the socket and fixing its permissions is a race that tests do not hit.", "anchors": ["src/child.c: child_init"]}
{"id": "C64", "title": "The privileged process keeps only four capabilities", "statement": "Built with a capability library and outside debug mode, the privileged process handles requests only after its capabilities have been limited to signalling processes, network administration, raw sockets and broadcasting.", "quantifier": "all options and all combinations of success and failure of the system calls", "why_tests_cant": "Requires root, a capability library and failing system calls.", "anchors": ["src/parent.c: parent_init"]}
{"id": "C65", "title": "Start-up never uses a missing account", "statement": "For all options and all failures the record of the daemon's account is only used when it was looked up and found.", "quantifier": "all options and all combinations of success and failure of the system calls", "why_tests_cant": "Combinations of debug, once and daemon options with failing lookups are not enumerated by tests.", "anchors": ["src/main.c: main", "src/child.c: child_init", "src/util.c: my_drop_privs"]}
{"id": "C66", "title": "Interfaces are advertised with their first usable addresses", "statement": "After every refresh each interface of the table has the hardware address last reported under its name, the first nonzero IPv4 address and the first nonzero IPv6 address that is not link-local, as the system lists them; with -n all have those of the management interface. The chassis address is that of the first interface.", "quantifier": "all reports of the operating system, all earlier refreshes, all options", "why_tests_cant": "Depends on the order and number of the addresses the kernel reports and on what was in the table before.", "anchors": ["src/netif.c: netif_fetch", "src/netif.c: netif_addrs"]}
{"id": "C67", "title": "Announced capabilities follow the interfaces present", "statement": "After every refresh the bridge and wireless capabilities are announced if and only if such an interface is reported, and are active if and only if one of them is up; host and router are unchanged and nothing else is set. The number of links is that of the regular interfaces.", "quantifier": "all reports of the operating system and all earlier refreshes", "why_tests_cant": "Stale capability bits only show after particular sequences of interface changes.", "anchors": ["src/netif.c: netif_fetch"]}
{"id": "C68", "title": "The interfaces of the command line are exactly the marked ones", "statement": "After every refresh the marked interfaces are exactly those named on the command line that are not VLANs. The value returned is 0 when a name has no such interface and otherwise the number of names; without names it is the number of usable interfaces.", "quantifier": "all reports of the operating system, all lists of names, all earlier refreshes", "why_tests_cant": "Tests use the interfaces of the build machine.", "anchors": ["src/netif.c: netif_fetch", "src/main.c: main"]}
{"id": "C69", "title": "The management interface is the one asked for", "statement": "With -m an interface that has the configured name or address is the management interface, no other interface ever is, and an interface that loses the name or address loses the role.", "quantifier": "all reports of the operating system, all configurations, all earlier refreshes", "why_tests_cant": "Needs secondary addresses and interfaces renamed at run time.", "anchors": ["src/netif.c: netif_fetch", "src/netif.c: netif_addrs", "src/main.c: main"]}
{"id": "C70", "title": "The advertised name and description are those of the host", "statement": "At all times the host is advertised under the name the resolver gives it, or its node name when that is none or localhost. The description consists of the distribution, without surrounding quotes and only if lsb_release succeeded, and the words of uname. Each is cut to 255 bytes.", "quantifier": "all hosts, all output and exit statuses of lsb_release, all later events", "why_tests_cant": "Depends on the host, and tests run on one.", "anchors": ["src/sysinfo.c: sysinfo_fetch"]}
{"id": "C71", "title": "Inventory strings are the first lines of the DMI files", "statement": "At all times the inventory announced consists of the first lines of the DMI files and of the kernel release, each cut to 32 bytes; missing files give no entry.", "quantifier": "all contents of the files, all later events", "why_tests_cant": "Contents of firmware tables differ per machine.", "anchors": ["src/sysinfo.c: sysinfo_fetch", "src/util.c: read_line"]}
{"id": "C72", "title": "The software version is the first three numbers of the release", "statement": "The version announced with EDP consists of the first three numbers in the kernel release, one byte each.", "quantifier": "all kernel releases", "why_tests_cant": "Tests see one kernel release.", "anchors": ["src/sysinfo.c: sysinfo_fetch", "src/proto/edp.c: edp_packet"]}
{"id": "C73", "title": "The router capability follows the forwarding switches", "statement": "At all times the host is announced as a router if and only if a forwarding switch could be read at start, as an active one if and only if the IPv4 or IPv6 switch read 1, and always as an active host.", "quantifier": "all contents of the switches, all later events", "why_tests_cant": "Tests see the switches of one host; refreshes rewrite the capability word.", "anchors": ["src/sysinfo.c: sysinfo_forwarding", "src/netif.c: netif_fetch"]}
{"id": "C74", "title": "LLDP-MED capabilities announce exactly the TLVs sent", "statement": "In every LLDP frame a running daemon sends, the LLDP-MED capability word names location identification if and only if a location TLV is in the frame, inventory if and only if an inventory TLV is, capabilities always, and nothing else.", "quantifier": "all hosts, all histories, all frames sent", "why_tests_cant": "The word is computed at start from different conditions than the TLVs are at build time.", "anchors": ["src/sysinfo.c: sysinfo_fetch", "src/proto/lldp.c: lldp_packet"]}
{"id": "C75", "title": "The client refuses wrong command lines, and the last output option counts", "statement": "A command line of the client with an unknown option, a second -p or an interface that does not exist has no effect but a failing exit status. Of several output options -b, -d, -f and -p the last one decides and the others make no difference; without -d and -p the text belonging to the options is written and the client succeeds.", "quantifier": "all sequences of options, all interface names, all messages from the daemon", "why_tests_cant": "Option sequences are unbounded and modes interact; the parser exits the process, which unit tests avoid.", "anchors": ["src/cli.c: cli_main", "src/cli.c: usage"]}
{"id": "C76", "title": "Posts go to the host, port and path of the url", "statement": "With -p every post goes to the host and path named by the url, and to its port, or that of the service http if it names none.", "quantifier": "all urls, all messages from the daemon", "why_tests_cant": "Urls are unbounded strings; tests use one.", "anchors": ["src/cli.c: cli_main", "src/cli.c: http_connect", "src/cli.c: http_request"]}
{"id": "C77", "title": "The form posted says what is shown", "statement": "With -p there is one post for each neighbour shown, in that order, and a reader of the form gets exactly its host and port name, protocol, capabilities, TTL and hold time, and the name of this host and of the interface.", "quantifier": "all messages from the daemon, all host and interface names", "why_tests_cant": "Every byte a neighbour sends may interfere with the encoding.", "anchors": ["src/cli.c: http_request"]}
{"id": "C78", "title": "The exit status tells whether all posts were accepted", "statement": "With -p the client exits with status 0 if and only if the connection could be set up and every request was answered with a status below 400.", "quantifier": "all sequences of answers, all failures", "why_tests_cant": "Sequences of answers are unbounded; the status is kept in a global across callbacks.", "anchors": ["src/cli.c: http_connect", "src/cli.c: http_reply", "src/cli.c: http_dispatch"]}
{"id": "C79", "title": "The client's capture file holds the frames received", "statement": "With -d the output is a capture file which a reader of either byte order reads as exactly the frames of the selected, unexpired neighbours, complete, in the order of the table, with the times they were received at; a terminal is refused.", "quantifier": "all tables, all options and interface names, all byte orders", "why_tests_cant": "Needs a reader of the format and all sizes of frames.", "anchors": ["src/util.c: my_pcap_init", "src/util.c: my_pcap_write", "src/cli.c: debug_write"]}
{"id": "C80", "title": "Debug mode of the daemon sends nothing and captures everything", "statement": "With -d the privileged process never transmits a frame or changes a multicast membership; its output is a capture file of exactly the frames it would have transmitted, in that order.", "quantifier": "all sequences of requests and frames from the child", "why_tests_cant": "Absence of effects over unbounded histories.", "anchors": ["src/parent.c: parent_send", "src/parent.c: parent_open", "src/parent.c: parent_multi", "src/util.c: my_pcap_write"]}
{"id": "C81", "title": "A daemon's advertisements make another daemon list it", "statement": "Every LLDP, CDP, FDP or NDP frame a daemon sends passes the receive filter of any other daemon that receives, is handed to its unprivileged process, and makes an entry in its neighbour table with the receiving interface, the protocol, the sender's source address, 180 seconds to live and, except for NDP, the sender's host name and interface name as escaped for display. Other neighbours' entries stay.", "quantifier": "all histories of both daemons, all hosts, interfaces and option settings; every interface whose own address is not that of the frame", "why_tests_cant": "Composes sender, wire and receiver over unbounded histories on both sides; tests check frames one by one against fixed buffers.", "anchors": ["src/child.c: child_send", "src/parent.c: parent_recv", "src/child.c: child_queue", "src/proto/lldp.c", "src/proto/cdp.c", "src/proto/fdp.c", "src/proto/ndp.c"]}
{"id": "C82", "title": "The client shows a daemon heard on the wire", "statement": "For 180 seconds after such a frame was heard, ladvdc without arguments shows the sender: receiving interface, protocol, host name, interface name, and the seconds that are left.", "quantifier": "all histories of both daemons, all hosts and interfaces, all times", "why_tests_cant": "Composes two daemons and the client over all times and tables.", "anchors": ["src/child.c: child_send", "src/child.c: child_queue", "src/child.c: child_cli_write", "src/cli.c: cli_main"]}
{"id": "C83", "title": "The privileged process holds exactly the descriptors of its sockets", "statement": "After every history of requests and frames, the capture handles and descriptors the parent obtained and did not give back are those of the raw sockets in its table: one for each interface with a socket, none for any other interface.", "quantifier": "all histories of datagrams from the child, all answers of libpcap and the operating system, all configurations", "why_tests_cant": "A leak shows only after long histories with failing calls; tests do not count descriptors over them.", "anchors": ["src/parent.c: parent_open", "src/parent.c: parent_close", "src/parent.c: parent_socket"]}
{"id": "C84", "title": "A raw socket is used only when completely set up", "statement": "A socket enters the table only after every step of its set-up succeeded: a capture handle for the name of its interface, frames of up to 1518 bytes delivered at once, the receive filter of C16 (a filter that passes nothing if the daemon does not receive), non-blocking reads and incoming frames only. If a step fails, the process ends or the handle is closed and there is no socket.", "quantifier": "all options, interfaces, tables and answers of libpcap", "why_tests_cant": "Each failing call of libpcap is a branch of its own, and the filter is a claim about all frames.", "anchors": ["src/parent.c: parent_socket", "src/parent.c: parent_open", "src/filter.h"]}
{"id": "C85", "title": "Device names come from the device's own files", "statement": "Asked for the name of a device, the parent answers for a USB device \"PRODUCT (MANUFACTURER)\", both the first line of the kernel's file without white space at the end (cut after 31 bytes), for other devices the entry of the PCI table for exactly the vendor and device number the kernel shows, and nothing if there is no device.", "quantifier": "all requests, devices, file contents and table entries", "why_tests_cant": "Ranges over arbitrary texts, numbers and tables.", "anchors": ["src/parent.c: parent_device_id", "src/util.c: read_line"]}
{"id": "C86", "title": "Media details describe the port", "statement": "The LLDP frame of a physical interface whose driver answers carries exactly one MAC/PHY TLV; behind the autonegotiation octet stand a 16-bit word whose bits are exactly the link modes the interface advertises (none without support for autonegotiation), in the bit order of RFC 3636, and the MAU type number of RFC 4836 for its kind of port, speed and duplex, 0 if there is none.", "quantifier": "all drivers' answers (link modes, speeds, port types), interfaces and system data", "why_tests_cant": "Ranges over 2^32 sets of link modes and every speed and port type.", "anchors": ["src/netif_linux.c: netif_physical", "src/proto/lldp.c: lldp_packet", "src/proto/lldp.h"]}
{"id": "C87", "title": "Running once sends once and stays for nothing", "statement": "With -o the child opens neither client socket, link socket nor event loop; it sends exactly once, as its last act, and exits with status 0, or a step of its set-up was refused and it exits with status 1 having sent nothing. The privileged process enters its event loop only directly after waitpid said that the child is running, and otherwise exits with status 1.", "quantifier": "all answers of the operating system, options and users", "why_tests_cant": "A test cannot make each system call fail in each order.", "anchors": ["src/child.c: child_init", "src/parent.c: parent_init"]}
{"id": "C88", "title": "Running once transmits every frame", "statement": "With -o every frame the child hands over is handled by the privileged process before it ends, in order and once.", "quantifier": "all frames, schedules of both processes and answers of the operating system", "why_tests_cant": "Depends on the schedule of two processes and the order of events in a turn of the loop.", "anchors": ["src/child.c: child_init, child_send", "src/parent.c: parent_init, parent_signal, parent_send"]}
{"id": "C89", "title": "Only the own client socket is removed", "statement": "A daemon removes the client socket only if it is its own: it made it, or it holds the lock of the pid file.", "quantifier": "all runs, options, signals and answers of the operating system", "why_tests_cant": "Ranges over every point at which a run can fail or be ended by a signal.", "anchors": ["src/parent.c: parent_signal", "src/child.c: child_init", "src/main.c: main"]}
{"id": "C90", "title": "Addresses can be read back", "statement": "The text reported for an address in a frame denotes exactly this address and fits its buffer: IPv4 as four decimal numbers without leading zeros, IPv6 as in RFC 4291 with the longest, first run of at least two zero groups shortened (RFC 5952) and the dotted form for compatible and mapped addresses, Ethernet as six pairs of hexadecimal digits. Other kinds and lengths yield no text.", "quantifier": "all addresses, frames and positions within them", "why_tests_cant": "There are 2^128 addresses; the zero run may stand anywhere and competes with others.", "anchors": ["src/tlv.c: tlv_str_addr, tlv_value_str", "src/lldp.c: lldp_decode", "src/cdp.c: cdp_decode"]}
{"id": "C91", "title": "The full output shows what the advertisement says", "statement": "With -f the client prints for every wanted, unexpired advertisement its full text and an empty line, in order, and nothing else: for each element of the frame, in the order of the frame, a line with its label and value (identity, port, addresses, capabilities, description, VLAN, duplex, remaining hold time), and only for frames that are well formed.", "quantifier": "all frames, ages, interface names, tables and command lines", "why_tests_cant": "Any number of elements of any kind and order in a frame; the tests look at single captures in the other decoding mode.", "anchors": ["src/proto/cdp.c: cdp_decode", "src/proto/lldp.c: lldp_decode", "src/proto/edp.c: edp_decode", "src/proto/fdp.c: fdp_decode", "src/proto/ndp.c: ndp_decode", "src/cli.c: cli_main"]}
{"id": "C92", "title": "The privileged process does exactly what it is asked and its answer arrives", "statement": "Each request of the unprivileged process is read by the parent with the operation, interface index, length and payload it was made with, and the answer the child continues with is the one the parent gave to this request. So an interface counts as a device, has the driver, link settings, team members, device name and alias that the operating system reports for this very interface, and a new description is written to the alias of that interface; asking has no other effect. In particular a structure that still holds the answer for the previous interface never leaks into the next.", "quantifier": "all requests, interface indices, sequences of interfaces, socket tables and answers of the operating system", "why_tests_cant": "The tests replace the socket pair and look at single requests; leftovers of previous answers depend on the sequence and content of all aliases.", "anchors": ["src/util.c: my_mreq", "src/parent.c: parent_req, parent_descr, parent_ethtool, parent_device, parent_device_id, parent_libteam", "src/netif.c: netif_fetch", "src/netif_linux.c: netif_type, netif_driver, netif_device_id, netif_team, netif_physical", "src/util.c: netif_descr"]}
{"id": "C93", "title": "No request of the unprivileged process ends the privileged one", "statement": "Every request the child makes passes the parent's checks: as long as capture handles can be set up and the answer can be written, both processes go on after it.", "quantifier": "all requests the code can make, including those with leftovers of earlier answers, all states of the parent and the operating system", "why_tests_cant": "The parent asserts on lengths; a request with an unlucky leftover length would end the daemon only on particular machines.", "anchors": ["src/parent.c: parent_req, parent_check", "src/util.c: my_mreq, netif_descr", "src/netif.c: netif_fetch", "src/child.c: child_send"]}
{"id": "C94", "title": "A description becomes the alias of the interface", "statement": "After the daemon set a description for an existing interface, the alias of this interface is that text; it is removed when the description is empty, that is when the last neighbour is gone.", "quantifier": "all interfaces, descriptions and previous aliases", "why_tests_cant": "The tests write to a temporary file instead of sysfs, where an empty write has an effect.", "anchors": ["src/parent.c: parent_descr", "src/util.c: write_line, netif_descr"]}
{"id": "C95", "title": "The process title stays within the arguments and the environment", "statement": "setproctitle puts \"name: text\", made printable and cut to the room there is, in place of the arguments and the environment of the process. Only bytes of these strings are changed, wherever they are; the environment is still found afterwards.", "quantifier": "all arguments, environments and their places in memory, all titles", "why_tests_cant": "The tests do not run the emulation; a write behind the area needs special arguments to be seen.", "anchors": ["src/compat/setproctitle.c: compat_init_setproctitle, setproctitle", "src/compat/vis.c: strnvis"]}
{"id": "C96", "title": "The interface table on FreeBSD and OpenBSD", "statement": "On FreeBSD and OpenBSD a refresh leaves each usable interface exactly once in the table, with kind, description, addresses and the mark of the command line as the operating system reports them, and no other; it keeps the protocols seen on those that persist and closes exactly those that vanished. Capabilities, the number of links, the management interface and the value returned follow from the same list.", "quantifier": "all answers of the operating system and all sequences of refreshes", "why_tests_cant": "There are no tests of the BSD code at all: the suite uses the system it runs on.", "anchors": ["src/netif_bsd.c: netif_type, netif_driver, netif_wireless", "src/netif.c: netif_fetch, netif_addrs"]}
{"id": "C97", "title": "Members of lagg, trunk and bridge interfaces on BSD", "statement": "After a refresh on BSD each aggregate heads the chain of the members the kernel reports, in this order, each with its state and a reference back, and has the mode reported; interfaces that are no members are linked to nothing.", "quantifier": "all lists of members of all aggregates", "why_tests_cant": "As C96; the order of members and nesting need special hosts.", "anchors": ["src/netif_bsd.c: netif_bond, netif_bridge"]}
{"id": "C98", "title": "VLANs on BSD", "statement": "After a refresh on BSD each VLAN interface that is up is in the table with the identifier and the interface the kernel reports for it.", "quantifier": "all VLANs and their order in the list of interfaces", "why_tests_cant": "Needs several VLANs in particular orders on a BSD host.", "anchors": ["src/netif_bsd.c: netif_vlan, netif_type", "src/netif.c: netif_fetch"]}
{"id": "C99", "title": "Device names", "statement": "The description of the device behind a regular interface is found once, when the interface appears, cut to the field (a string of at most 63 characters) and kept afterwards.", "quantifier": "all descriptions, interfaces and earlier tables", "why_tests_cant": "Descriptions have to be as long as the field to show the missing NUL.", "anchors": ["src/netif_bsd.c: netif_device_id", "src/netif_linux.c: netif_device_id"]}
{"id": "C100", "title": "Media details on BSD", "statement": "An Ethernet interface with a link is advertised with exactly the media its driver lists, the type of the active medium and whether autonegotiation is there and chosen; others are advertised without these.", "quantifier": "all lists of media", "why_tests_cant": "The suite cannot choose the media of an interface.", "anchors": ["src/netif_bsd.c: netif_physical", "src/proto/lldp.c: lldp_packet"]}
{"id": "C101", "title": "Maximum frame size and MTU in advertisements", "statement": "Each LLDP frame has exactly one maximum frame size TLV whose value is the MTU the kernel reports plus 22 bytes of headers, each CDP frame exactly one MTU TLV with the MTU the kernel reports; there is none if it is not known.", "quantifier": "all MTUs and interfaces, Linux and BSD", "why_tests_cant": "The tests build frames from fixed structures with the common MTU.", "anchors": ["src/netif.c: netif_media", "src/proto/lldp.c: lldp_packet", "src/proto/cdp.c: cdp_packet"]}
{"id": "C102", "title": "Duplex mode in CDP", "statement": "A CDP frame says half or full duplex as the driver reports for the link; it says nothing if the mode is not known or the interface is not physical.", "quantifier": "all answers of the driver, Linux and BSD", "why_tests_cant": "As C101; a driver that does not know its mode is needed.", "anchors": ["src/netif_linux.c: netif_physical", "src/netif_bsd.c: netif_physical", "src/proto/cdp.c: cdp_packet"]}
{"id": "C103", "title": "Loops over the members of an aggregate end", "statement": "The loops over the members of an aggregate (subif_iter) end, whatever the kernel answered when the table was refreshed, so that advertising never hangs.", "quantifier": "all tables after a refresh, all aggregates, Linux and BSD", "why_tests_cant": "The tests link members by hand; answers of the kernel that change between two queries do not occur.", "anchors": ["src/util.c: subif_iter", "src/netif_linux.c: netif_bond", "src/child.c: child_send"]}
{"id": "C104", "title": "VLANs on an interface are advertised", "statement": "The VLAN name TLVs of an LLDP frame sent on an interface list exactly the VLANs configured on this interface or on the aggregate it is a member of, each with its identifier and name.", "quantifier": "all hosts, configurations, histories and runs", "why_tests_cant": "The tests build frames from fixed tables with at most two VLANs and no command line.", "anchors": ["src/proto/lldp.c: lldp_packet", "src/netif_linux.c: netif_vlan", "src/util.c: netif_iter"]}
{"id": "C105", "title": "LACP members are advertised with their number", "statement": "An LLDP frame has a link aggregation TLV exactly if the interface is a member of an LACP aggregate; it tells the number of the member, and different members of an aggregate have different numbers.", "quantifier": "all hosts, configurations, histories and runs", "why_tests_cant": "The tests set the number by hand.", "anchors": ["src/proto/lldp.c: lldp_packet", "src/netif_linux.c: netif_bond", "src/netif_linux.c: netif_team"]}
{"id": "C106", "title": "VLANs in EDP", "statement": "The VLAN TLVs of an EDP frame list the VLANs of C104, each with its identifier, address and name.", "quantifier": "all hosts, configurations, histories and runs", "why_tests_cant": "The tests compare frames with recorded ones.", "anchors": ["src/proto/edp.c: edp_packet", "src/netif_linux.c: netif_vlan"]}
{"id": "C107", "title": "Link events", "statement": "Every message of the kernel that an Ethernet interface is running makes the child advertise on this interface at once, once for each message and in order; other messages make it do nothing; no message makes it read outside of the buffer.", "quantifier": "all queues of messages and all answers of the system", "why_tests_cant": "The tests do not send link messages; their content and number are not bounded.", "anchors": ["src/child.c: child_link", "src/child.c: child_link_cb"]}
{"id": "C108", "title": "Multicast groups on BSD", "statement": "On FreeBSD and OpenBSD an interface has joined the multicast groups of exactly the protocols in use while the parent has a socket for it and receives, and none of them afterwards; groups that other programs joined stay joined.", "quantifier": "all sequences of requests and frames of the child, all answers of the system, all options, interfaces and addresses", "why_tests_cant": "The tests run on Linux; the claim is about all histories of opening and closing, including failures.", "anchors": ["src/parent.c: parent_multi", "src/parent.c: parent_open", "src/parent.c: parent_close"]}
{"id": "C109", "title": "Descriptions on BSD", "statement": "On FreeBSD and OpenBSD every text the child asks for, including the empty one, becomes the description of the interface unless the system refuses it, and no request the child makes ends the parent.", "quantifier": "all texts, interfaces, requests and answers of the system", "why_tests_cant": "The tests run on Linux; they check one text.", "anchors": ["src/parent.c: parent_descr", "src/parent.c: parent_req", "src/parent.c: parent_check", "src/util.c: my_mreq"]}
{"id": "C110", "title": "The host on BSD", "statement": "On FreeBSD and OpenBSD the name, the description, the inventory (cut to 32 bytes) and the router capability that the child knows are those of the host at all times.", "quantifier": "all answers of uname, the resolver, kenv and sysctl, all sequences of interface refreshes", "why_tests_cant": "The tests run on one Linux host.", "anchors": ["src/sysinfo.c: sysinfo_fetch", "src/sysinfo.c: sysinfo_forwarding", "src/netif.c: netif_fetch"]}
{"id": "C111", "title": "Linked lists", "statement": "Used correctly, the queue macros are lists: whatever is inserted and removed, a walk finds exactly the elements in order and only live elements are touched. The loops that remove while walking visit every element once and leave exactly the others. The table of neighbours in memory is at all times the list that the other properties speak of, without leaks, and it is freed completely at the end.", "quantifier": "all sequences of insertions, removals, allocations and frees, all sequences of messages and expiry runs, all addresses malloc may return", "why_tests_cant": "A wrong pointer or a use after free shows only for some orders of operations and layouts of memory, and often not at all.", "anchors": ["src/compat/sys-queue.h: TAILQ_INSERT_TAIL, TAILQ_INSERT_AFTER, TAILQ_REMOVE, TAILQ_FOREACH", "src/compat/compat.h: TAILQ_FOREACH_SAFE", "src/child.c: child_queue, child_expire, child_free"]}
{"id": "C112", "title": "Order of the neighbours", "statement": "At all times the messages of one neighbour stand together in the table, entries that stay keep their order, and a neighbour not heard before comes behind all others.", "quantifier": "all histories of events from the initial state", "why_tests_cant": "It is an invariant over unboundedly long histories.", "anchors": ["src/child.c: child_queue, child_expire, child_cli_write"]}
{"id": "C113", "title": "Every allocation has one owner", "statement": "The daemon frees no block twice or after losing it. After any history the blocks in use are exactly one per table entry, one per string in an entry, and one per client session; so memory use is bounded by the table size, replaced and expired entries and rejected frames leave nothing behind, and ending the process gives the table back. Decoders leave in use exactly what was in use before and the strings they stored; describing an interface gives back what it takes. Printing a frame in full leaves nothing behind either.", "quantifier": "all frames of all protocols, all decoder states, all histories of events", "why_tests_cant": "A leak of one string per refused or repeated frame is invisible in a test run and exhausts the daemon after weeks; a double free depends on the history.", "anchors": ["src/common.h: PEER_STR, peer_free", "src/proto/*.c: *_decode", "src/proto/cdp.c: cdp_descr_print", "src/proto/lldp.c: lldp_descr_print, lldp_private", "src/child.c: child_queue, child_expire, child_free, child_cli_accept, child_cli_write", "src/util.c: netif_descr"]}
{"id": "C114", "title": "No interface pointer outlives its interface", "statement": "Interfaces refer to each other (parent, next member) and the management interface is kept as a pointer, while refreshes free the interfaces that vanished. In every history of refreshes, whatever the operating system answers, no freed interface is read or written; afterwards there is exactly one block for each interface listed, and each pointer refers to a listed interface. Loops over interfaces and members and the step to the parent touch only blocks in use and find the interface meant, also if an index is used again.", "quantifier": "all histories of refreshes with any answers of the operating system and any changes to the interfaces in between", "why_tests_cant": "A pointer left to a freed interface works as long as the memory is not used again, and needs an interface that vanishes while being a member, parent or the management interface.", "anchors": ["src/netif.c: netif_fetch, netif_addrs", "src/netif_linux.c: netif_team, netif_bond, netif_bridge, netif_vlan, netif_device_id", "src/util.c: netif_iter, subif_iter", "src/util.h: netif_byindex, netif_byname", "src/child.c: child_queue, child_expire", "src/common.h: struct netif"]}
{"id": "C115", "title": "Advertising goes on", "statement": "The daemon's transmit timer is always pending between runs: after start and after every event, whatever the interfaces, link changes, received frames and clients did, the next periodic run is due 30 seconds after the last one and no other event moves it. So runs are at least 30 seconds apart, and if events are served at most some seconds late, no gap between runs is longer than 30 seconds and that delay; what the events do otherwise is what they do without the timer.", "quantifier": "all configurations, all answers of the operating system and all histories of events with their times", "why_tests_cant": "One path out of the transmit function without re-arming the timer (no interfaces for a moment, a failed fetch) silences the daemon for ever; the path must be hit and then waited for.", "anchors": ["src/child.c: child_init, child_send, child_link", "src/common.h: SLEEPTIME"]}
{"id": "C116", "title": "Neighbours are listed for exactly their hold time", "statement": "After any history the neighbour table holds exactly what is known from the advertisements heard, with the content of the latest one of each neighbour: an advertisement is known from its arrival until the same neighbour is heard again or shuts down, or a clean-up (the periodic run, or somebody's shutdown) happens later than its hold time. What is known is listed whatever clients do; nothing else is listed if no client has to wait.", "quantifier": "all histories of frames, periodic runs, refreshes and clients, all times", "why_tests_cant": "It is about the whole history of the table: losing or keeping one entry needs a certain order of frames, shutdowns and runs, minutes apart.", "anchors": ["src/child.c: child_queue, child_expire, child_send", "src/common.h: struct parent_msg"]}
{"id": "C117", "title": "A daemon stays listed by another one in spite of lost frames", "statement": "Two daemons: if of any m+1 consecutive periodic runs of the first at least one frame reaches the second within some lag, and the timer of the first is served at most some seconds late, then the second lists the first all the time, with an unexpired entry, as long as (m+1)*(30+late)+lag is at most the advertised hold time of 180 seconds (any protocol that is received at all, so not EDP).", "quantifier": "all pairs of daemons, configurations, interfaces, histories of both with their times, and patterns of loss", "why_tests_cant": "It combines the timer of one process, its encoder, the decoder of another, and the expiry there, over unbounded time and any pattern of loss.", "anchors": ["src/child.c: child_send, child_queue, child_expire", "src/common.h: SLEEPTIME, LADVD_TTL", "src/proto/*.c: *_packet, *_decode", "src/parent.c: parent_recv"]}
{"id": "C118", "title": "What goes on the wire is what was to be advertised", "statement": "For the two processes together: whatever history the advertising process has, the privileged process, which reads its frames in order from the message socket and serves its requests at any time in between, stays alive; the frames it gives to the kernel are those that were to be advertised, each at most once, in order, byte for byte and on the interface meant; and if the interfaces exist and raw sockets can be opened, none is missing but those it has not read yet.", "quantifier": "all configurations, all histories of the advertising process, all interleavings of its frames and requests at the privileged process, all answers of the operating system", "why_tests_cant": "It relates two processes over unbounded histories and interleavings; a frame on the wrong socket, cut, repeated or dropped while a socket is being opened shows only in certain orders.", "anchors": ["src/child.c: child_send", "src/parent.c: parent_send, parent_req, parent_open, parent_close", "src/util.c: my_mreq"]}
{"id": "C119", "title": "The daemon listens on every interface it handles", "statement": "With receiving enabled, a periodic run that gets the interface list asks for a raw socket on exactly the interfaces it handles (the selected ones or the members the kernel reports for them, without the excluded and special ones) where no protocol was recorded yet, and closes sockets exactly of known interfaces that are gone. A privileged process that can open sockets has one for each such interface after the request, and keeps it in spite of all further frames and requests until it is told to close it or a frame on it fails because the interface is gone.", "quantifier": "all configurations, tables, answers of the operating system, histories of both processes", "why_tests_cant": "An interface on which the daemon silently does not listen shows only as an absent neighbour; it needs the combination of selection, bonds and the order of requests.", "anchors": ["src/child.c: child_send", "src/parent.c: parent_req, parent_open, parent_close, parent_send", "src/netif.c: netif_fetch"]}
{"id": "C120", "title": "The client's memory does not grow with the number of neighbours", "statement": "Whatever the client reads, in every mode, it frees no block twice and none that is not its own. After any number of messages the blocks in use are those it allocated before the loop and the strings of the last message that was not shown, at most eleven in all; a neighbour that was shown leaves nothing behind, and the message structure is freed in the end.", "quantifier": "all options, all named interfaces, all sequences of messages of any content", "why_tests_cant": "A string kept per neighbour or per rejected frame shows only with a client that follows the daemon for long; a double free needs an expired or rejected message between two others.", "anchors": ["src/cli.c: main loop, http_request", "src/common.h: peer_free, PEER_STR", "src/proto/cdp.c: cdp_descr_print"]}
{"id": "C121", "title": "From the wire to the client", "statement": "Take any history of the daemon in which every datagram it received is a frame from the wire that passed the packet filter, and a client that connects afterwards and is served completely, whatever other clients do in between. What the client shows, for whatever protocols and interfaces it was asked, is each neighbour once: the frame it sent last, from its group address, on an interface the daemon knew, with the attributes it carried, if its hold time has not passed; and every such neighbour is shown. Every frame that passed the filter and is long enough is handed over at once and in order.", "quantifier": "all histories, all frames, all client options but -f and -o, all interleavings of sessions", "why_tests_cant": "The claim crosses packet filter, privileged process, queue, session and client and holds for every interleaving of frames, expiry and sessions; tests exercise each part with a few frames.", "anchors": ["src/parent.c: parent_recv, parent_socket", "src/child.c: child_queue, child_expire, child_cli_write", "src/cli.c: main"]}
{"id": "C122", "title": "A client that does not read is dropped after a second", "statement": "Each open client session has exactly one pending timer, due one second after the client connected or last took data; a session that times out is closed, not sooner; and if the event loop serves timers at most some time late, no session is open longer than a second and that delay after the last sign of life of its client. So a client that stops reading cannot keep its entry of the queue locked.", "quantifier": "all histories of interface fetches, frames, runs and client events with arbitrary times", "why_tests_cant": "A missing or doubled timer on one of the paths (accept, partial write, resumed write) shows only with a client that stops reading at that point and a test that waits for it.", "anchors": ["src/child.c: child_cli_accept, child_cli_write"]}
{"id": "C123", "title": "A client sees the neighbours that stay exactly once while the table changes", "statement": "While a client session is being served, frames may arrive, neighbours may appear, be refreshed or expire, interfaces may change and other clients may come and go. Every neighbour that is in the table all that time is sent to the session at most once, in table order, and exactly once if the session ends by itself; and whatever is sent is in the table at that moment.", "quantifier": "all histories, all sets of neighbours, all interleavings of writes, frames, expiry and sessions", "why_tests_cant": "Skipping or repeating an entry depends on an insertion or removal at the place where a blocked session will resume.", "anchors": ["src/child.c: child_cli_write, child_queue, child_expire"]}
{"id": "C124", "title": "Every packet callback of the privileged process works on a live socket", "statement": "Whatever requests, frames and packets come, the privileged process never touches a raw socket it has freed, frees none twice and takes no event away that is not registered. Every block in use is in the list of sockets, once. While it receives, the loop waits for each socket exactly once, with that socket's descriptor, and for nothing else; packets of a socket reach the child under the index of its interface. The effects are those of the plain list of sockets. At the end each socket is closed once and nothing is kept.", "quantifier": "all configurations, all histories of datagrams, packets and answers of the operating system", "why_tests_cant": "A use after free depends on the order in which sockets are opened, fail, vanish and are closed while packets arrive.", "anchors": ["src/parent.c: parent_open, parent_close, parent_send, parent_req, parent_recv", "src/parent.h: rfd_byindex, rfd_closeall"]}
{"id": "C125", "title": "The two processes never wait for each other for good", "statement": "The privileged and the unprivileged process exchange requests, answers, frames to send and frames received over sockets that hold only so much, at the same time and in any order. They never come to a state in which both exist but neither can go on whatever happens.", "quantifier": "all socket sizes, all behaviours of the child, all packets and answers of the operating system, all interleavings", "why_tests_cant": "A deadlock needs a burst of frames to fill a socket in the moment a request is under way.", "anchors": ["src/util.c: my_socketpair, my_mreq", "src/parent.c: parent_req, parent_recv, parent_send", "src/child.c: child_send, child_queue"]}
{"id": "C126", "title": "What crosses between the two processes arrives once, in order and unmixed", "statement": "The privileged and the unprivileged process run at the same time and exchange datagrams over sockets that hold only so much. Each answer the unprivileged process reads is the one given to its own request. Frames to be sent and frames received get to the other side unchanged, once and in order. The privileged process acts as if its requests and frames came one after the other. Hence, if answers can be written and sockets can be had, neither ends, and the frames on the wire are those the unprivileged process meant to advertise, in order.", "quantifier": "all interleavings, all socket sizes, all histories of the child, all answers of the operating system", "why_tests_cant": "A mixed-up answer or a frame lost or doubled depends on the moment the other process runs.", "anchors": ["src/util.c: my_mreq", "src/parent.c: parent_req, parent_recv, parent_send", "src/child.c: child_send, child_queue"]}
{"id": "C127", "title": "When nothing comes from outside any more, everything under way gets through", "statement": "Without events and packets the two processes do not keep each other busy for ever. When neither has anything left to do and the frames received fit into the socket to the unprivileged process, both are in their event loops, nothing is in the sockets between them, every request has got its answer, every frame handed over was acted on and every message due was read; so the wire has got all that was to be advertised.", "quantifier": "all reachable states of both processes, all interleavings from there, all socket sizes, all answers of the operating system", "why_tests_cant": "A lost wake-up or an exchange without end shows only in particular interleavings and after any number of steps.", "anchors": ["src/util.c: my_mreq", "src/parent.c: parent_req, parent_recv, parent_send", "src/child.c: child_send, child_queue"]}
{"id": "C128", "title": "Neither link events nor clients make the child wait", "statement": "The socket for link events is watched exactly when it was opened and bound, and otherwise none is left open. Reading link events ends when the socket is empty, and writing to a client ends when its socket is full: the child never waits in either.", "quantifier": "all answers of the operating system, all queues of messages, all clients", "why_tests_cant": "The calls that set the flags of the sockets hardly ever fail in a test.", "anchors": ["src/child.c: child_link_fd, child_link, child_cli_accept, child_cli_write", "src/util.c: my_nonblock"]}
{"id": "C129", "title": "Neighbours and clients have no influence on what is configured", "statement": "What the daemon sends for the protocols enabled on the command line, and which interfaces it gives up, depends on the machine alone: other frames received, other clients and another clock give the same frames, byte for byte and in the same order. Without -a this holds of everything it sends and of the sockets it opens. With -a the frames received, but not the clients, decide which further protocols are sent.", "quantifier": "all configurations, all pairs of histories of events that agree in what the machine does, of any length", "why_tests_cant": "It compares all pairs of histories; a test compares a few.", "anchors": ["src/child.c: child_send, child_queue, child_expire, child_cli_write", "src/netif.c: netif_fetch", "src/util.c: netif_protos"]}
{"id": "C130", "title": "Advertisements repeat while the machine stays the same", "statement": "As long as the kernel gives the same answers, every later periodic run of the daemon sends, for the protocols enabled on the command line, the frames of the first run again: on the same interfaces, in the same order, byte for byte, except the checksum and the sequence number of EDP. Link messages, frames of neighbours, expiry and clients in between change nothing, and no interface is given up meanwhile. So a neighbour never sees an advertisement flap.", "quantifier": "all configurations, all answers of the kernel, all states the daemon reaches, all histories of any length between the two runs", "why_tests_cant": "The interface table is carried from run to run and rewritten in place; a drift may need a particular host or a particular history. A test repeats a few runs on one host.", "anchors": ["src/child.c: child_send", "src/netif.c: netif_fetch", "src/sysinfo.c", "src/proto/edp.c: edp_packet"]}
{"id": "C131", "title": "LLDP frames follow the standards", "statement": "Every LLDP frame the daemon sends follows the rules of IEEE 802.1AB, its 802.1 and 802.3 extensions and LLDP-MED for the TLVs of a frame: chassis, port and time to live first and the end last; no reserved type and no mandatory TLV twice; port description, system name, system description and capabilities at most once and in their sizes; enabled capabilities among those there, station only alone; every management address well formed and once; organisation specific TLVs with organisation and subtype, each kind once except VLAN names, and these different from each other; the LLDP-MED capabilities before the other LLDP-MED TLVs; inventory texts of 1 to 32 bytes.", "quantifier": "all configurations, machines and histories of the daemon, all frames it sends; VLAN names differ if the names of the interfaces do", "why_tests_cant": "The set of TLVs depends on the interface, its aggregate, VLANs, addresses, driver and inventory; the capability rule depends on the history of refreshes. A test sees some combinations.", "anchors": ["src/proto/lldp.c: lldp_packet", "src/child.c: child_send", "src/netif.c: netif_fetch", "src/sysinfo.c: sysinfo_fetch"]}
{"id": "C132", "title": "Sequence numbers of EDP frames", "statement": "Every EDP frame the daemon sends has a higher sequence number (modulo 65536) than all EDP frames it sent before, on whichever interface; and the numbers follow one another without gaps.", "quantifier": "all configurations, machines and histories of the daemon", "why_tests_cant": "The counter is shared by all interfaces, is advanced by frames that are then not sent, and wraps after 65536 frames; the tests build single frames.", "anchors": ["src/proto/edp.c: edp_packet", "src/child.c: child_send"]}
{"id": "C133", "title": "The table of neighbours cannot be flooded", "statement": "However many frames arrive, the number of neighbours listed is limited: after a clean-up there is at most one for each frame of the longest hold time, and the total does not grow with what a single machine on the network sends.", "quantifier": "all histories of frames, refreshes, clean-ups and clients that need not wait; all numbers of frames up to 2^32", "why_tests_cant": "The number of frames is unbounded; the tests fill the table with a handful.", "anchors": ["src/child.c: child_queue", "src/child.c: child_expire"]}
{"id": "C134", "title": "FreeBSD and OpenBSD advertise where advertisements are due", "statement": "On FreeBSD and OpenBSD a periodic run sends, on every selected and eligible interface (or on the members standing for a lagg, trunk or bridge), exactly one frame for each enabled protocol, built from what the kernel reports at that moment and in order; a run that gets no interface list sends nothing; a routing message that an interface came up is answered with the frames due on that interface; and no frame sent on any event ends the privileged process, which transmits it unchanged when it can open a bpf device.", "quantifier": "both platforms, all configurations, all states reached from a start by any events, all consistent answers of the kernel, all routing messages", "why_tests_cant": "The tests run on one platform, where these branches are not compiled.", "anchors": ["src/child.c: child_send", "src/child.c: child_link", "src/netif_bsd.c: netif_physical", "src/parent.c: parent_send", "src/sysinfo.c: sysinfo_fetch"]}
{"id": "C135", "title": "Clients have no influence on each other", "statement": "Whether and when other clients connect, read and leave makes no difference to a client: it is sent the same bytes, the daemon does the same otherwise, and ends with the same interfaces and neighbours.", "quantifier": "all clients, all pairs of histories of any length that agree in everything but other clients", "why_tests_cant": "The tests serve one client at a time and compare nothing between runs.", "anchors": ["src/child.c: child_cli_accept", "src/child.c: child_cli_write", "src/child.c: child_expire"]}
{"id": "C136", "title": "The log tells of neighbours coming and going", "statement": "Without -v the daemon logs one line when a neighbour appears in its table, one when it disappears and one when its protocol gets enabled on an interface, with the name, the protocol and the interface; so the table can be told from the log, and a neighbour can write no line of its own choice.", "quantifier": "all histories of any length, all neighbours and names, all numbers of -v", "why_tests_cant": "The tests look for single messages in the log of a handful of calls; they never compare the log of a run with the table, and no test has a shutdown without a name or a name with a line feed.", "anchors": ["src/child.c: child_queue", "src/child.c: child_expire", "src/util.c: __my_log", "src/util.c: my_vlog"]}
{"id": "C137", "title": "Neighbours are told when the daemon stops", "statement": "When ladvd is stopped its neighbours learn of it at once (IEEE 802.1AB asks for a shutdown LLDPDU); in any case another ladvd lists it no longer than the hold time of 180 seconds after its last frame.", "quantifier": "all daemons in all states of all histories, all frames, all receiving daemons and histories of any length", "why_tests_cant": "The tests check the bytes of single frames; the time a neighbour stays listed after its last frame takes two daemons and a history.", "anchors": ["src/child.c: child_send", "src/child.c: child_queue", "src/child.c: child_expire", "src/parent.c: parent_signal"]}
{"id": "C138", "title": "A daemon on BSD is listed by every other daemon", "statement": "A frame that a daemon on FreeBSD or OpenBSD sends on an interface passes the filter of any ladvd that receives it, on whatever system, and makes an entry in its table: with the protocol, the host name and the interface name of the sender and 180 seconds to live, without touching the entries about other neighbours; within these 180 seconds the client there shows it with the time that is left.", "quantifier": "all configurations, machines, states and events of the sending daemon on FreeBSD or OpenBSD; all frames it sends except EDP; all receiving daemons in all reachable states", "why_tests_cant": "The tests run on one system and check single functions; this is about two daemons on different systems, with all contents of the kernel's answers.", "anchors": ["src/child.c: child_send", "src/netif.c: netif_media", "src/parent.c: parent_recv", "src/child.c: child_queue", "src/cli.c: cli_main"]}
{"id": "C139", "title": "LLDP frames from BSD follow the standards", "statement": "Every LLDP frame the daemon sends on FreeBSD or OpenBSD follows the rules of IEEE 802.1AB, its 802.1 and 802.3 extensions and LLDP-MED for the TLVs of a frame, those of C131.", "quantifier": "all configurations, machines and histories of the daemon on FreeBSD and OpenBSD, all frames it sends; VLAN names differ if the names of the interfaces do", "why_tests_cant": "The tests compare some frames built from fixed tables; the contents here come from any answers of the kernel after any history.", "anchors": ["src/proto/lldp.c: lldp_packet", "src/child.c: child_send", "src/netif.c: netif_fetch"]}
{"id": "C140", "title": "Detection on BSD stays within its buffers and gives its memory back", "statement": "On FreeBSD and OpenBSD a refresh of the interfaces neither reads nor writes outside its buffers: the name of the driver with its unit number cut off or a dot put before it, the ports of an aggregate, the members of a bridge in a buffer that is doubled until they fit, the media of an interface. Whichever allocation fails, all memory it allocated is free afterwards, none of it twice; with enough memory the result is the one of C96 to C100. This holds if driver names have at most 15 characters; 16 characters, which fit what the kernel is given, are read past the end.", "quantifier": "all tables, configurations and answers of the kernel that keep within the sizes it was given; all patterns of failing allocations for bridges; all states of memory", "why_tests_cant": "The tests run on Linux, where none of this code is compiled, and an overrun by one byte or a leak in an error path changes no result.", "anchors": ["src/netif_bsd.c: netif_type, netif_driver, netif_device_id, netif_bond, netif_bridge, netif_physical", "src/netif.c: netif_fetch"]}
{"id": "C141", "title": "A command line means what its words say", "statement": "The daemon and the client take a command line as their manual pages write it: letters alone or together in one word, an argument in the same word or as the next one (whatever it looks like), '--' before the operands, the operands as interfaces. However the same options and operands are written, and whether the C library looks for options behind operands (GNU) or not (BSD), the daemon and the client do the same; options followed by interfaces mean the same with every C library. A command line that says nothing of the kind, with an unknown letter or without an argument, is refused.", "quantifier": "all command lines, all answers about names of interfaces and addresses, both kinds of C library", "why_tests_cant": "The tests pass few command lines, with one C library; there are infinitely many ways to write the same options.", "anchors": ["src/main.c: main", "src/cli.c: cli_main"]}
{"id": "C142", "title": "The command line decides what is sent where", "statement": "A daemon started with a command line sends, in every periodic run that finds its interfaces, a frame of a protocol on an interface if and only if -s is not given, the interface is or belongs to an interface chosen by the names on the command line (without names: any that is no member of an aggregate), the options allow both (wireless with -w, tap with -t, none excluded with -e), and the protocol is asked for by its letter, or by -a and was heard there; the frame has to fit into 1518 bytes. Every LLDP frame carries a location if and only if -c and -l are given, and it is the country in capitals and the text of the last of them, up to 255 bytes.", "quantifier": "all command lines in all writings, both kinds of C library, all histories of the child, all answers of the kernel about interfaces", "why_tests_cant": "The tests set the options and tables by hand; none starts from a command line and looks at what is sent, and the histories before a run are unbounded.", "anchors": ["src/main.c: main", "src/child.c: child_send", "src/netif.c: netif_fetch", "src/proto/lldp.c: lldp_packet"]}
{"id": "C143", "title": "The command line decides what is listened to, described and named as chassis", "statement": "A daemon started with a command line asks for a socket to listen on an interface in a periodic run if and only if one of -a, -r, -y, -z is given and the interface is or belongs to a chosen one that the options allow (with -a: as long as no protocol was heard there, for it has one since). A socket opened joins exactly the multicast groups of the protocols whose letters are given, of all of them with -a, and none with -d. Without -y and -z no interface is ever described. Every LLDP frame names the address of the sending interface as chassis with -q and that of the host without, and the sending interface as port.", "quantifier": "all command lines in all writings, both kinds of C library, all states and events of the child, all answers of the kernel", "why_tests_cant": "The tests set options by hand and look at single functions; that nothing is described without -y and -z is about all histories.", "anchors": ["src/main.c: main", "src/child.c: child_send", "src/child.c: child_queue", "src/parent.c: parent_open", "src/parent.c: parent_multi", "src/proto/lldp.c: lldp_packet"]}
{"id": "C144", "title": "On FreeBSD and OpenBSD the command line decides what is sent", "statement": "A periodic run of a daemon started on FreeBSD or OpenBSD with a command line sends a frame of a protocol on an interface if and only if -s is not given, the interface is or belongs to one chosen by the names on the command line (by none: not a member of another), the options -e, -w, -t allow both, and the protocol has its letter given or -a is given and it was heard there; and the frame fits 1518 bytes. Every LLDP frame sent on any event carries the location if and only if -c and -l are given, the one of the last of each, and names as chassis the address of the sending interface with -q and that of the host without.", "quantifier": "all command lines in all writings, both systems, all states and events of the child, all answers of the kernel", "why_tests_cant": "The tests run on one system with options set by hand; the equivalence is about all command lines, interface lists and histories.", "anchors": ["src/main.c: main", "src/child.c: child_send", "src/netif_bsd.c: netif_media", "src/netif.c: netif_fetch", "src/proto/lldp.c: lldp_packet"]}
{"id": "C145", "title": "The command line decides which management addresses are announced", "statement": "If the last interface given with -m is in the table, every LLDP frame the daemon sends, on whichever interface and event, has as management addresses the IPv4 and IPv6 addresses (if set) and the MAC address of that interface, with its number, and no others. Without -m it has those of the sending interface, or of the bond or bridge it belongs to, and no others, however long the daemon runs. On Linux, FreeBSD and OpenBSD.", "quantifier": "all command lines in all writings, all states and events of the child, all answers of the kernel", "why_tests_cant": "The choice depends on the whole history of interface refreshes (the management interface is remembered between them); tests look at one refresh with options set by hand.", "anchors": ["src/main.c: main", "src/netif.c: netif_fetch", "src/netif.c: netif_addrs", "src/child.c: child_send", "src/proto/lldp.c: lldp_packet"]}
{"id": "C146", "title": "From the command line and the kernel's address list to the announced addresses", "statement": "Whenever the daemon sends a frame, every interface in its table has the hardware address the kernel lists for it at that event and the first usable IPv4 and IPv6 address listed for it, or, with -n and -m, for the last interface given with -m if it is in the table. So with -m every LLDP frame, on whichever interface, has as management addresses exactly those the kernel lists at that moment for the interface named. On Linux, FreeBSD and OpenBSD.", "quantifier": "all command lines in all writings, all states and events of the child, all answers of the kernel", "why_tests_cant": "Addresses change under a running daemon; the tests have one fixed address list and set options by hand.", "anchors": ["src/main.c: main", "src/netif.c: netif_addrs", "src/netif.c: netif_fetch", "src/child.c: child_send", "src/proto/lldp.c: lldp_packet"]}
{"id": "C147", "title": "The addresses in CDP and FDP frames follow the command line", "statement": "If the last interface given with -m is in the table, every CDP frame the daemon sends has as management addresses (type 22) the IPv4 and IPv6 addresses of that interface and as addresses (type 2) those of the sending interface or of the bond or bridge it belongs to, and every FDP frame has as addresses those of the interface given; an interface without addresses gives no such TLV. Without -m every CDP and FDP frame has the addresses of the sending interface or of the bond or bridge it belongs to, and no management addresses, however long the daemon runs. On Linux, FreeBSD and OpenBSD.", "quantifier": "all command lines in all writings, all states and events of the child, all answers of the kernel", "why_tests_cant": "The management interface is remembered from one refresh to the next; tests look at single packets built with options set by hand.", "anchors": ["src/main.c: main", "src/netif.c: netif_fetch", "src/child.c: child_send", "src/proto/cdp.c: cdp_packet", "src/proto/fdp.c: fdp_packet"]}
{"id": "C148", "title": "Listening and descriptions follow the command line on FreeBSD and OpenBSD", "statement": "A periodic run of a daemon started with given words on FreeBSD or OpenBSD asks for a socket to listen on an interface if and only if one of -a, -r, -y and -z is given, the interface is, or belongs to, an interface chosen by the names on the command line, and the options allow to use both; with -a only where no protocol was heard yet. Without -y and -z no event whatsoever makes the daemon describe an interface.", "quantifier": "all command lines in all writings, all running states and events of the child, all answers of the kernel", "why_tests_cant": "Tests set the options by hand and look at a few interfaces on the build host; they never run both BSD variants nor arbitrary histories.", "anchors": ["src/main.c: main", "src/child.c: child_send", "src/netif_bsd.c: netif_media", "src/netif.c: netif_fetch"]}
{"id": "C149", "title": "The words given to ladvdc decide what it prints", "statement": "However the words given to ladvdc are written: without -b, -d, -f and -p it prints the legend, the heading and one row in aligned columns for each neighbour asked for by protocol letters and interface names, in the order of the daemon's table, with -o for the first only, and exits with status 0; with -b instead, a shell reading the output has exactly the documented variables of these neighbours; words that say nothing usable (an unknown option, a missing argument, -h, -p twice, an interface that does not exist) give no output and status 1. (For neighbours asked for that have not expired; C44 tells what happens to expired ones, C46 that -C leaves out version 1.)", "quantifier": "all command lines in all writings and with all C libraries, all tables of the daemon, all clocks and terminal widths", "why_tests_cant": "Tests call the option parser and the printing functions with a few fixed arguments; the chain from words over the selection to the text is exercised for single neighbours at most.", "anchors": ["src/cli.c: cli_main", "src/cli.c: cli_write", "src/cli.c: batch_write"]}
{"id": "C150", "title": "The words given to ladvdc decide what it posts, captures and prints in full", "statement": "However the words given to ladvdc are written: if -p is the last of -b, -d, -f and -p (and -f is not given), one request is posted for each neighbour asked for, in the order of the table, to the host and path of the url, and read as a form it has the fields of that neighbour (but for line ends after the last value); if -d is the last of them and the output is not a terminal, the output is a capture file with exactly the frames of the neighbours asked for; with -f alone the output is exactly what the LLDP and CDP frames of the neighbours asked for say, each followed by an empty line.", "quantifier": "all command lines in all writings and with all C libraries, all tables of the daemon, all clocks", "why_tests_cant": "Tests call the writers directly with single messages; the whole client is never run.", "anchors": ["src/cli.c: cli_main", "src/cli.c: debug_write", "src/cli.c: http_request"]}
{"id": "C151", "title": "From the wire to the terminal", "statement": "In any history of the daemon in which all datagrams are frames of the wire that passed the filter, a client that connects afterwards and is served completely among other clients prints, for any words without -b, -d, -f, -p and -o, the table with one row for each neighbour asked for: a neighbour has a row if and only if its last valid advertisement still holds, the row shows what that advertisement says and the remaining time, and no neighbour has two rows. (No client had to wait before, none of the entries asked for has expired in the daemon's table, and with -C there is no CDP version 1 in it; C28, C44 and C46 refute it otherwise.)", "quantifier": "all histories of frames, clocks and clients, all command lines in all writings, all terminal widths", "why_tests_cant": "No test runs the privileged process, the daemon and the client together, let alone for all histories.", "anchors": ["src/parent.c: parent_recv", "src/child.c: child_queue", "src/child.c: child_cli_write", "src/cli.c: cli_main", "src/cli.c: cli_write"]}
{"id": "C152", "title": "From the command line of one host to the terminal of another", "statement": "A daemon on Linux, FreeBSD or OpenBSD, started with words that choose an interface and ask for a protocol other than EDP, without -s, in whatever state it got into, sends at a periodic run on that interface (or each of its members) a frame, if one fits 1518 bytes. Any daemon started with -a, -r, -y or -z that is given this frame, on an interface of its own and without itself having the sender's address, accepts it. A client started on that host afterwards with words that ask for this protocol and interface, without -b, -d, -f, -p and -o, prints a table with a row of the sender: its host name and interface name as the receiver decodes them, the receiving interface, the protocol and 180 seconds less the time since. (No entry asked for has expired: C44.)", "quantifier": "all three command lines in all writings, all hosts, all histories of both daemons, all clocks and terminal widths", "why_tests_cant": "No test has two daemons and a client; the chain of option parsing, interface enumeration, encoding, filter, decoding, table and client is tested at most in single parts with fixed inputs.", "anchors": ["src/main.c: main", "src/child.c: child_send", "src/parent.c: parent_recv", "src/child.c: child_queue", "src/cli.c: cli_main", "src/cli.c: cli_write"]}
