{
 "claims": [
  {
   "property": "C01",
   "status": "proved",
   "theorems": [
    "C01_lldp_round_trip"
   ],
   "note": "Needs the enabled capabilities to be among the available ones, which sysinfo guarantees."
  },
  {
   "property": "C02",
   "status": "proved",
   "theorems": [
    "C02_cdp_round_trip"
   ],
   "note": ""
  },
  {
   "property": "C03",
   "status": "proved",
   "theorems": [
    "C03_edp_round_trip"
   ],
   "note": ""
  },
  {
   "property": "C04",
   "status": "proved",
   "theorems": [
    "C04_fdp_round_trip"
   ],
   "note": ""
  },
  {
   "property": "C05",
   "status": "proved",
   "theorems": [
    "C05_ndp_fixed"
   ],
   "note": ""
  },
  {
   "property": "C06",
   "status": "proved",
   "theorems": [
    "C06_complete_or_nothing"
   ],
   "note": "All six protocol numbers, arbitrarily many VLANs; strings bounded by their struct fields."
  },
  {
   "property": "C07",
   "status": "proved",
   "theorems": [
    "C07_cdp_fdp_always"
   ],
   "note": ""
  },
  {
   "property": "C08",
   "status": "proved",
   "theorems": [
    "C08_checksum",
    "C08_frames_verify"
   ],
   "note": ""
  },
  {
   "property": "C09",
   "status": "proved",
   "theorems": [
    "C09_sending_is_safe"
   ],
   "note": "For every state the daemon can reach and every frame it sends; the parent dies only if the operating system fails it."
  },
  {
   "property": "C10",
   "status": "proved",
   "theorems": [
    "C10_cdp_accepts"
   ],
   "note": ""
  },
  {
   "property": "C11",
   "status": "proved",
   "theorems": [
    "C11_edp_accepts",
    "C11_fdp_accepts"
   ],
   "note": ""
  },
  {
   "property": "C12",
   "status": "proved",
   "theorems": [
    "C12_lldp_accepts"
   ],
   "note": ""
  },
  {
   "property": "C13",
   "status": "proved",
   "theorems": [
    "C13_decoders_safe"
   ],
   "note": ""
  },
  {
   "property": "C14",
   "status": "partial",
   "theorems": [
    "C14_lldp_safe_partial",
    "C14_lldp_overread_refuted",
    "C14_lldp_print_null_refuted"
   ],
   "note": "Safe except for the two refuted cases: a frame of exactly 1518 bytes can make the decoder read one byte behind the buffer, and printing a Port ID MAC of the wrong size passes NULL to printf."
  },
  {
   "property": "C15",
   "status": "proved",
   "theorems": [
    "C15_tail_independent"
   ],
   "note": ""
  },
  {
   "property": "C16",
   "status": "proved",
   "theorems": [
    "C16_filter_exact"
   ],
   "note": "The kernel's BPF interpreter is modelled; the frame is the byte string the filter runs on."
  },
  {
   "property": "C17",
   "status": "partial",
   "theorems": [
    "C17_edp_received_refuted",
    "C17_edp_never_received"
   ],
   "note": "False of the code: the filter compares with 00:0e:2b instead of 00:e0:2b, so every EDP frame is rejected (proved for all EDP frames)."
  },
  {
   "property": "C18",
   "status": "proved",
   "theorems": [
    "C18_wire_safe"
   ],
   "note": "Also excludes endless loops, and undefined behaviour below 1518 bytes."
  },
  {
   "property": "C19",
   "status": "proved",
   "theorems": [
    "C19_receive_exact",
    "C19_receive_loop"
   ],
   "note": ""
  },
  {
   "property": "C20",
   "status": "proved",
   "theorems": [
    "C20_escaping"
   ],
   "note": ""
  },
  {
   "property": "C21",
   "status": "proved",
   "theorems": [
    "C21_reversible"
   ],
   "note": ""
  },
  {
   "property": "C22",
   "status": "partial",
   "theorems": [
    "C22_no_control_refuted",
    "C22_text_only_partial",
    "C20_escaping"
   ],
   "note": "False of the code: exactly bell, backspace, tab, newline and carriage return pass unescaped in CDP and LLDP strings (refuted with witnesses); C20_escaping shows that no other control character does, C22_text_only_partial the same of the whole output of the table and of -b."
  },
  {
   "property": "C23",
   "status": "proved",
   "theorems": [
    "C23_batch_safe"
   ],
   "note": "For every message sequence. The interface name is written without replacing quotes; the theorem assumes the daemon's interface names have none."
  },
  {
   "property": "C24",
   "status": "proved",
   "theorems": [
    "C24_abbreviation",
    "C24_never_longer"
   ],
   "note": ""
  },
  {
   "property": "C25",
   "status": "proved",
   "theorems": [
    "C25_one_entry_each"
   ],
   "note": ""
  },
  {
   "property": "C26",
   "status": "partial",
   "theorems": [
    "C26_peers_refuted",
    "C26_peers_partial"
   ],
   "note": "False of the code for a neighbour with the all-zero source address heard first; proved otherwise (modulo 65536, the counter has 16 bits)."
  },
  {
   "property": "C27",
   "status": "proved",
   "theorems": [
    "C27_latest_advertisement"
   ],
   "note": ""
  },
  {
   "property": "C28",
   "status": "partial",
   "theorems": [
    "C28_expiry_counter",
    "C28_expiry_refuted",
    "C28_expiry_partial"
   ],
   "note": "Exact in terms of the lock counter. In terms of client sessions false of the code: a session that times out while waiting leaves its entry locked for ever. Proved for calm histories without such time-outs."
  },
  {
   "property": "C29",
   "status": "proved",
   "theorems": [
    "C29_shutdown"
   ],
   "note": "Even an entry being read disappears, see C33."
  },
  {
   "property": "C30",
   "status": "proved",
   "theorems": [
    "C30_ignored"
   ],
   "note": ""
  },
  {
   "property": "C31",
   "status": "proved",
   "theorems": [
    "C31_expiry_updates",
    "C31_frame_enables",
    "C31_enabled_exactly_heard"
   ],
   "note": "With an explicit interface list a frame enables its protocol only if the interface or its parent is listed."
  },
  {
   "property": "C32",
   "status": "partial",
   "theorems": [
    "C32_written_partial",
    "C32_frame_partial",
    "C32_expiry_partial",
    "C32_rewritten_refuted",
    "C32_cleared_refuted"
   ],
   "note": "Every text written is the specified one (except for an all-zero source heard first, C26). 'Only written when it changes' and 'empty when no neighbour is heard' are false of the code: the remembered description is not updated by a write, only by the next refetch."
  },
  {
   "property": "C33",
   "status": "partial",
   "theorems": [
    "C33_never_freed_refuted",
    "C33_never_freed_partial"
   ],
   "note": "False of the code: a refresh resets the lock counter of an entry a session waits on, it then expires under the session. Proved for histories without such a refresh and with at most 255 sessions."
  },
  {
   "property": "C34",
   "status": "partial",
   "theorems": [
    "C34_released_refuted",
    "C34_wrap_refuted",
    "C34_released_partial"
   ],
   "note": "False of the code: a write time-out frees the session without unlocking its entry. Proved for histories without such time-outs and refreshes."
  },
  {
   "property": "C35",
   "status": "proved",
   "theorems": [
    "C35_all_entries_in_order"
   ],
   "note": ""
  },
  {
   "property": "C36",
   "status": "partial",
   "theorems": [
    "C36_flapping_partial",
    "C36_flapping_refuted"
   ],
   "note": "Proved for interfaces that stay usable between the periodic runs. False of the code otherwise: an interface that goes away and comes back while another one changes starts with a fresh counter."
  },
  {
   "property": "C37",
   "status": "partial",
   "theorems": [
    "C37_frames_partial",
    "C37_sent_iff_partial",
    "C37_link_event_partial",
    "C37_no_interfaces",
    "C37_listed_missing_refuted"
   ],
   "note": "Exact, including the bytes and the order, for every run that gets its interface list from a kernel that reports no member twice; frames longer than 1518 bytes are not sent. False of the code when interfaces are listed and one is missing: the others are silent too."
  },
  {
   "property": "C38",
   "status": "proved",
   "theorems": [
    "C38_only_discovery_frames",
    "C38_genuine_frame_sent"
   ],
   "note": ""
  },
  {
   "property": "C39",
   "status": "proved",
   "theorems": [
    "C39_one_socket_each",
    "C39_open_again",
    "C39_closed"
   ],
   "note": ""
  },
  {
   "property": "C40",
   "status": "proved",
   "theorems": [
    "C40_requests"
   ],
   "note": ""
  },
  {
   "property": "C41",
   "status": "partial",
   "theorems": [
    "C41_memberships_refuted",
    "C41_memberships_partial"
   ],
   "note": "False of the code with two or more protocols: parent_multi reassigns op in its loop, so closing drops the first membership and adds the others again. (The kernel releases them when the descriptor is closed.) Proved for at most one protocol."
  },
  {
   "property": "C42",
   "status": "proved",
   "theorems": [
    "C42_confined"
   ],
   "note": "Calls are modelled with arbitrary answers; their effects on the process are in SpecStart.v. Debug mode keeps privileges by design and is excluded."
  },
  {
   "property": "C43",
   "status": "proved",
   "theorems": [
    "C43_trusted_path",
    "C43_child"
   ],
   "note": "For every path. What stat reports is what is checked; changes of the file system between stat and chroot are outside the model."
  },
  {
   "property": "C44",
   "status": "partial",
   "theorems": [
    "C44_table_genuine",
    "C44_shown_partial",
    "C44_hidden_refuted",
    "C44_print_refuted"
   ],
   "note": "Proved without -f when no selected, unexpired neighbour is sent after a selected, expired one. False of the code otherwise: attributes of an expired neighbour are not cleared, so the next one is hidden; -f prints expired neighbours."
  },
  {
   "property": "C45",
   "status": "partial",
   "theorems": [
    "C45_apart_partial",
    "C45_mixed_refuted",
    "C44_hidden_refuted"
   ],
   "note": "Same condition as C44. False of the code otherwise: a neighbour is displayed with the host name and port of an expired one."
  },
  {
   "property": "C46",
   "status": "partial",
   "theorems": [
    "C46_cdp_partial",
    "C46_version1_refuted"
   ],
   "note": "False of the code: -C selects version 2 only. Proved: with -C exactly the unexpired version 2 neighbours are displayed."
  },
  {
   "property": "C47",
   "status": "proved",
   "theorems": [
    "C47_table_mirrors_os",
    "C47_failed_refresh"
   ],
   "note": "Linux build; kernel answers are an arbitrary oracle, constant during one refresh."
  },
  {
   "property": "C48",
   "status": "proved",
   "theorems": [
    "C48_interfaces",
    "C48_members"
   ],
   "note": ""
  },
  {
   "property": "C49",
   "status": "partial",
   "theorems": [
    "C49_autoneg_refuted",
    "C49_autoneg_partial"
   ],
   "note": "False of the code: without autonegotiation support the 'enabled' field stays -1 and the octet becomes 254. Proved when autonegotiation is supported or the media state unknown."
  },
  {
   "property": "C50",
   "status": "partial",
   "theorems": [
    "C50_location_size_partial",
    "C50_location_size_refuted"
   ],
   "note": "Proved up to 250 bytes; false of the code for 251 to 255 bytes (the 8-bit length wraps)."
  },
  {
   "property": "C51",
   "status": "partial",
   "theorems": [
    "C51_refused",
    "C51_switches",
    "C51_implied",
    "C51_values",
    "C51_country_refuted"
   ],
   "note": "For every sequence of options and operands getopt can return. False of the code in one respect: a country code is two characters, not two letters. From the words of a command line to this sequence: C141."
  },
  {
   "property": "C52",
   "status": "proved",
   "theorems": [
    "C52_strlcpy",
    "C52_strlcat",
    "C52_strlcat_full"
   ],
   "note": "The copies in src/compat, byte by byte. Source and destination are separate objects."
  },
  {
   "property": "C53",
   "status": "partial",
   "theorems": [
    "C53_once_in_order",
    "C53_never_stuck",
    "C53_illegal_size",
    "C53_descriptor",
    "C53_pieces_partial",
    "C53_pieces_refuted"
   ],
   "note": "Proved for every interleaving of composing, partial writes, partial reads and fetching, descriptors included. False for imsg_composev when a piece has 65536 bytes or more: the length is cut to 16 bits and a truncated message is sent."
  },
  {
   "property": "C54",
   "status": "partial",
   "theorems": [
    "C54_heard_is_sent_partial",
    "C54_listed_member_refuted"
   ],
   "note": "Proved for interfaces that are selected themselves or through their aggregate. False of the code for a listed member of an aggregate: the protocol is enabled on the aggregate only."
  },
  {
   "property": "C55",
   "status": "partial",
   "theorems": [
    "C55_released_refuted",
    "C55_released_partial",
    "C55_send_failure_partial"
   ],
   "note": "False of the code: if_indextoname fails before the operation is looked at, so a close request for a vanished interface is answered but not acted upon."
  },
  {
   "property": "C56",
   "status": "partial",
   "theorems": [
    "C56_print_implies_list_partial",
    "C56_modes_differ_refuted"
   ],
   "note": "Everything that can be printed is listed; the converse is false of the code."
  },
  {
   "property": "C57",
   "status": "proved",
   "theorems": [
    "C57_content"
   ],
   "note": ""
  },
  {
   "property": "C58",
   "status": "proved",
   "theorems": [
    "C58_members",
    "C58_vlans"
   ],
   "note": "Given that the kernel reports no interface as a member twice."
  },
  {
   "property": "C59",
   "status": "partial",
   "theorems": [
    "C59_rows_partial",
    "C59_lines_refuted"
   ],
   "note": "Columns proved for all inputs and widths; a row is one line if nothing in it has a line break. False of the code otherwise: LLDP host names keep line breaks."
  },
  {
   "property": "C60",
   "status": "partial",
   "theorems": [
    "C60_own_child_partial",
    "C60_signal_partial",
    "C60_kill_all_refuted"
   ],
   "note": "False of the code: when fork fails, my_fatal calls kill(-1, SIGTERM). Proved whenever fork succeeds."
  },
  {
   "property": "C61",
   "status": "partial",
   "theorems": [
    "C61_status_partial",
    "C61_status_refuted"
   ],
   "note": "False of the code: in the privileged process after the fork a fatal error ends with status 0. Proved up to the fork and in the child."
  },
  {
   "property": "C62",
   "status": "partial",
   "theorems": [
    "C62_pidfile_partial",
    "C62_content_refuted"
   ],
   "note": "False of the code: the file is not truncated. Proved: lock held, number at the start, followed by the old content beyond that length."
  },
  {
   "property": "C63",
   "status": "proved",
   "theorems": [
    "C63_private_socket"
   ],
   "note": ""
  },
  {
   "property": "C64",
   "status": "proved",
   "theorems": [
    "C64_capabilities"
   ],
   "note": ""
  },
  {
   "property": "C65",
   "status": "proved",
   "theorems": [
    "C65_no_null"
   ],
   "note": ""
  },
  {
   "property": "C66",
   "status": "proved",
   "theorems": [
    "C66_addresses"
   ],
   "note": "For reports in which names and indices of interfaces identify each other and names fit in IFNAMSIZ."
  },
  {
   "property": "C67",
   "status": "proved",
   "theorems": [
    "C67_capabilities"
   ],
   "note": ""
  },
  {
   "property": "C68",
   "status": "proved",
   "theorems": [
    "C68_command_line"
   ],
   "note": "For reports in which names and indices of interfaces identify each other and names fit in IFNAMSIZ."
  },
  {
   "property": "C69",
   "status": "partial",
   "theorems": [
    "C69_management_partial",
    "C69_secondary_refuted",
    "C69_renamed_refuted"
   ],
   "note": "False of the code: only the first address of an interface is compared with the configured one, and an interface that loses the configured name or address stays the management interface. Proved is the rest."
  },
  {
   "property": "C70",
   "status": "proved",
   "theorems": [
    "C70_identity"
   ],
   "note": "lsb_release, uname and the resolver are inputs."
  },
  {
   "property": "C71",
   "status": "proved",
   "theorems": [
    "C71_inventory"
   ],
   "note": ""
  },
  {
   "property": "C72",
   "status": "partial",
   "theorems": [
    "C72_version_partial",
    "C72_negative_refuted"
   ],
   "note": "False of the code: in 5.10-custom-3 the third number is read as minus three and announced as 253. Proved for releases in which a minus sign in front of a digit stands behind a digit, and numbers below 2^63."
  },
  {
   "property": "C73",
   "status": "proved",
   "theorems": [
    "C73_router"
   ],
   "note": "The switches are read at start only."
  },
  {
   "property": "C74",
   "status": "proved",
   "theorems": [
    "C74_med_capabilities"
   ],
   "note": "For country codes of no or two characters, the only ones the command line accepts (C51)."
  },
  {
   "property": "C75",
   "status": "proved",
   "theorems": [
    "C75_refused",
    "C75_last_counts",
    "C75_text"
   ],
   "note": "getopt is not modelled: its results are the input."
  },
  {
   "property": "C76",
   "status": "partial",
   "theorems": [
    "C76_url_partial",
    "C76_port_refuted"
   ],
   "note": "False of the code for urls with a port: the port is taken as part of the name and the post goes to the port of the service http. Proved for urls without a port."
  },
  {
   "property": "C77",
   "status": "partial",
   "theorems": [
    "C77_form_partial",
    "C77_holdtime_refuted",
    "C77_interface_refuted"
   ],
   "note": "False of the code: the last value is followed by two line ends, and interface names are not encoded. Proved but for these, for every encoder that a form decoder undoes; libevent's is one (example)."
  },
  {
   "property": "C78",
   "status": "proved",
   "theorems": [
    "C78_exit_status"
   ],
   "note": "The answers of the server are inputs."
  },
  {
   "property": "C79",
   "status": "partial",
   "theorems": [
    "C79_capture_partial",
    "C79_not_on_a_terminal",
    "C79_times_refuted"
   ],
   "note": "False of the code in one respect: the time in a record is that of writing it. The rest proved under the conditions of C44."
  },
  {
   "property": "C80",
   "status": "proved",
   "theorems": [
    "C80_nothing_sent",
    "C80_capture",
    "C80_alive"
   ],
   "note": ""
  },
  {
   "property": "C81",
   "status": "proved",
   "theorems": [
    "C81_neighbour_listed"
   ],
   "note": "EDP is left out, see C17."
  },
  {
   "property": "C82",
   "status": "partial",
   "theorems": [
    "C82_neighbour_shown_partial"
   ],
   "note": "As C44: missing is the case of a table in which an expired entry stands before the new one, where C44 is refuted."
  },
  {
   "property": "C83",
   "status": "partial",
   "theorems": [
    "C83_handles_partial",
    "C83_histories",
    "C83_debug_refuted",
    "C83_unselectable_refuted"
   ],
   "note": "Refuted in debug mode (duplicates of standard input are never closed) and where pcap_get_selectable_fd fails (the handle is lost); proved for all other histories."
  },
  {
   "property": "C84",
   "status": "proved",
   "theorems": [
    "C84_set_up",
    "C84_failure"
   ],
   "note": "Debug mode has no capture handle."
  },
  {
   "property": "C85",
   "status": "partial",
   "theorems": [
    "C85_usb_partial",
    "C85_no_pci_refuted",
    "C85_pci",
    "C85_none"
   ],
   "note": "Refuted for USB devices of machines without a PCI bus, which get no name; proved otherwise."
  },
  {
   "property": "C86",
   "status": "proved",
   "theorems": [
    "C86_media"
   ],
   "note": ""
  },
  {
   "property": "C87",
   "status": "proved",
   "theorems": [
    "C87_once",
    "C87_child_watched"
   ],
   "note": ""
  },
  {
   "property": "C88",
   "status": "partial",
   "theorems": [
    "C88_all_frames_refuted",
    "C88_in_order",
    "C88_all_frames_partial"
   ],
   "note": "Refuted: the event loop reads one datagram in a turn and the death of the child ends the privileged process, so frames still in the socket are lost. Proved: a prefix of the frames is handled in order, all of them if the socket is empty when the child exits."
  },
  {
   "property": "C89",
   "status": "partial",
   "theorems": [
    "C89_own_socket_refuted",
    "C89_own_socket_partial"
   ],
   "note": "Refuted for a daemon in the foreground: with -o it makes no socket but removes that of another daemon. Proved for daemons in the background, which hold the lock."
  },
  {
   "property": "C90",
   "status": "proved",
   "theorems": [
    "C90_text_of_address",
    "C90_lldp_address",
    "C90_cdp_address"
   ],
   "note": "inet_ntop is modelled (glibc), not part of the repository."
  },
  {
   "property": "C91",
   "status": "partial",
   "theorems": [
    "C91_cdp",
    "C91_lldp_partial",
    "C91_chassis_refuted",
    "C91_others_silent",
    "C91_others_refuted",
    "C91_client_partial"
   ],
   "note": "Proved in both directions for CDP, and for LLDP unless the chassis is a network address; for the client if the wanted entries are such. Refuted: an LLDP chassis named by an IP address is not shown, and EDP, FDP and NDP print nothing with -f."
  },
  {
   "property": "C92",
   "status": "proved",
   "theorems": [
    "C92_request",
    "C92_answer",
    "C92_name",
    "C92_alias",
    "C92_device",
    "C92_driver",
    "C92_settings",
    "C92_device_id",
    "C92_team",
    "C92_descr"
   ],
   "note": "Writes to the socket pair are complete. Device names up to 511 bytes, descriptions without NUL up to 63 bytes (the only ones made, C32)."
  },
  {
   "property": "C93",
   "status": "proved",
   "theorems": [
    "C93_goes_on"
   ],
   "note": ""
  },
  {
   "property": "C94",
   "status": "partial",
   "theorems": [
    "C94_removed_refuted",
    "C94_alias_partial"
   ],
   "note": "False of the code on Linux: an empty description is a write of no bytes, which sysfs ignores (a fact about the kernel, stated in SpecMreq). Proved for all other descriptions."
  },
  {
   "property": "C95",
   "status": "partial",
   "theorems": [
    "C95_title",
    "C95_plain",
    "C95_environ",
    "C95_inside",
    "C95_empty_refuted"
   ],
   "note": "False for an empty argv[0] with no further argument and no environment: the length becomes -1 as a size_t and memory behind the area is overwritten. Proved for the layout of the kernel in all other cases and for any placement if argv[0] is not empty or another string follows it. C95_environ if strdup never fails."
  },
  {
   "property": "C96",
   "status": "proved",
   "theorems": [
    "C96_bsd_table",
    "C96_bsd_addresses",
    "C96_bsd_capabilities",
    "C96_bsd_command_line"
   ],
   "note": "Interface names up to 15, driver names up to 15 characters, device descriptions of 1 to 63 (C99 is about longer ones)."
  },
  {
   "property": "C97",
   "status": "proved",
   "theorems": [
    "C97_bsd_members"
   ],
   "note": "No interface is reported as a member twice."
  },
  {
   "property": "C98",
   "status": "partial",
   "theorems": [
    "C98_vlan_refuted",
    "C98_l2vlan_refuted",
    "C98_vlans_partial"
   ],
   "note": "Refuted: the kernel is asked about the last interface of the list instead of the VLAN, so VLANs get the identifier of another; and VLANs whose datalink address has the type of a VLAN are skipped. Proved: what the VLANs of the table get; right if the only one is last in the list."
  },
  {
   "property": "C99",
   "status": "partial",
   "theorems": [
    "C99_device_refuted",
    "C99_device_partial",
    "C99_device_linux"
   ],
   "note": "Refuted on FreeBSD: a description of 64 characters or more leaves the field without NUL. Proved for shorter ones, and in full on Linux."
  },
  {
   "property": "C100",
   "status": "partial",
   "theorems": [
    "C100_autoneg_refuted",
    "C100_media_partial"
   ],
   "note": "Refuted for lists without auto: the octet is 254. Proved otherwise."
  },
  {
   "property": "C101",
   "status": "partial",
   "theorems": [
    "C101_mtu_refuted",
    "C101_mtu_partial",
    "C101_mtu_cdp",
    "C101_bsd_mtu_partial",
    "C101_bsd_mtu_cdp"
   ],
   "note": "Refuted: an MTU of 65514 or more wraps in LLDP (65535 is advertised as 21). Proved for all smaller ones, and for all 16 bit MTUs in CDP."
  },
  {
   "property": "C102",
   "status": "partial",
   "theorems": [
    "C102_duplex_refuted",
    "C102_duplex_partial",
    "C102_bsd_duplex"
   ],
   "note": "Refuted: DUPLEX_UNKNOWN is advertised as half duplex. Proved otherwise."
  },
  {
   "property": "C103",
   "status": "partial",
   "theorems": [
    "C103_loop_ends_refuted",
    "C103_loop_ends_partial",
    "C103_loop_ends_bsd_partial"
   ],
   "note": "Refuted: a bond that answers the same slave for two numbers makes a member its own successor, and the loop never ends. Proved when no interface is reported as a member twice."
  },
  {
   "property": "C104",
   "status": "partial",
   "theorems": [
    "C104_listed_refuted",
    "C104_bridged_refuted",
    "C104_vlan_names_partial"
   ],
   "note": "Refuted: with the interface on the command line, or the VLAN interface in a bridge, no VLAN name is advertised. Proved otherwise."
  },
  {
   "property": "C105",
   "status": "partial",
   "theorems": [
    "C105_lacp_refuted",
    "C105_lacp_partial"
   ],
   "note": "Refuted: all members of an LACP team have number 0. Proved for bonds (numbers modulo 256) and for interfaces outside LACP aggregates."
  },
  {
   "property": "C106",
   "status": "partial",
   "theorems": [
    "C106_edp_vlans_refuted",
    "C106_edp_vlans_partial"
   ],
   "note": "Refuted: the TLV carries the name of the interface instead of the VLAN. Identifiers and addresses are proved."
  },
  {
   "property": "C107",
   "status": "partial",
   "theorems": [
    "C107_link_messages_partial",
    "C107_large_refuted",
    "C107_buffer_partial",
    "C107_buffer_refuted",
    "C107_bsd",
    "C107_bsd_safe"
   ],
   "note": "Refuted: a datagram larger than the buffer is lost; a bare header at the end of a full buffer is read past the buffer. Proved otherwise, and for the routing socket of BSD."
  },
  {
   "property": "C108",
   "status": "partial",
   "theorems": [
    "C108_openbsd",
    "C108_freebsd_partial",
    "C108_freebsd_refuted"
   ],
   "note": "Refuted on FreeBSD: a group another program joined is left when the socket is closed. Proved on OpenBSD, and on FreeBSD where nobody else joined the groups."
  },
  {
   "property": "C109",
   "status": "proved",
   "theorems": [
    "C109_description",
    "C109_goes_on"
   ],
   "note": ""
  },
  {
   "property": "C110",
   "status": "partial",
   "theorems": [
    "C110_identity",
    "C110_inventory_freebsd",
    "C110_inventory_openbsd_partial",
    "C110_inventory_refuted",
    "C110_router"
   ],
   "note": "Refuted on OpenBSD for texts of more than 32 characters; everything else is proved."
  },
  {
   "property": "C111",
   "status": "proved",
   "theorems": [
    "C111_lists",
    "C111_removing",
    "C111_message_queue",
    "C111_free"
   ],
   "note": ""
  },
  {
   "property": "C112",
   "status": "proved",
   "theorems": [
    "C112_together",
    "C112_stable",
    "C112_arrival"
   ],
   "note": ""
  },
  {
   "property": "C113",
   "status": "partial",
   "theorems": [
    "C113_decoders",
    "C113_history",
    "C113_owned",
    "C113_bounded",
    "C113_free",
    "C113_description",
    "C113_print_partial",
    "C113_print_refuted"
   ],
   "note": "Refuted for printing in full (ladvdc -f): descriptions of several lines are lost, because strsep(3) clears the pointer that is freed. It is proved that nothing else is lost there: at most one block for each printed heading of such a description. Everything else is proved."
  },
  {
   "property": "C114",
   "status": "proved",
   "theorems": [
    "C114_refresh",
    "C114_history",
    "C114_goes_on",
    "C114_iteration",
    "C114_members",
    "C114_parent"
   ],
   "note": "The Linux build. netif_fetch with pointers and blocks refines netif_fetch without (Netif.v), to which the other theorems refer."
  },
  {
   "property": "C115",
   "status": "proved",
   "theorems": [
    "C115_pending",
    "C115_fires",
    "C115_spaced",
    "C115_goes_on",
    "C115_events"
   ],
   "note": "The time of events is given with the history; libevent is trusted to run the timer when it is due, lateness is a parameter."
  },
  {
   "property": "C116",
   "status": "proved",
   "theorems": [
    "C116_listed",
    "C116_nothing_else",
    "C116_kept",
    "C116_dropped",
    "C116_heard_recently"
   ],
   "note": "That nothing else is listed holds where no client has to wait, as the statement says; with waiting clients it is false, see C28, C33 and C34."
  },
  {
   "property": "C117",
   "status": "proved",
   "theorems": [
    "C117_stays_listed"
   ],
   "note": "EDP is left out, which is never received: see C17."
  },
  {
   "property": "C118",
   "status": "proved",
   "theorems": [
    "C118_wire"
   ],
   "note": "The message socket is trusted to keep order and content of datagrams; requests are answered before the next one, as my_mreq waits for the answer."
  },
  {
   "property": "C119",
   "status": "proved",
   "theorems": [
    "C119_listening"
   ],
   "note": "For a kernel whose answers are consistent (as C37)."
  },
  {
   "property": "C120",
   "status": "partial",
   "theorems": [
    "C120_same",
    "C120_used_partial",
    "C120_bounded_partial",
    "C120_shown",
    "C120_end_partial",
    "C120_print_refuted"
   ],
   "note": "Proved in full for all modes but -f. With -f it is false (C120_print_refuted): each description of several lines that is printed loses a block (as C113); the _partial theorems bound the loss by the number of such descriptions."
  },
  {
   "property": "C121",
   "status": "partial",
   "theorems": [
    "C121_client_truth_partial",
    "C121_handed_over_partial",
    "C121_handed_over_refuted"
   ],
   "note": "Proved but for what C28, C44 and C46 refute: clients that had to wait before, expired entries before others, CDP version 1 with -C. That all frames are handed over at once is false (C121_handed_over_refuted): a frame to 00:0e:2b:00:00:00, which the filter lets through for C17's typo, makes parent_recv return and holds up the frames behind it."
  },
  {
   "property": "C122",
   "status": "proved",
   "theorems": [
    "C122_timer",
    "C122_dropped",
    "C122_not_sooner",
    "C122_same"
   ],
   "note": ""
  },
  {
   "property": "C123",
   "status": "partial",
   "theorems": [
    "C123_each_once_partial",
    "C123_in_table",
    "C123_each_once_refuted"
   ],
   "note": "Proved for all histories in which no neighbour announces itself anew while a session is waiting to write its entry (and at most 255 sessions). With such a frame it is false (C123_each_once_refuted, the cause is that of C33): the lock is lost and the session resumes in freed memory."
  },
  {
   "property": "C124",
   "status": "proved",
   "theorems": [
    "C124_safe",
    "C124_owned",
    "C124_refines",
    "C124_events",
    "C124_heard",
    "C124_quits"
   ],
   "note": "The memory of rawfds, their list and the events registered with libevent, with blocks and pointers; refinement to the list of Parent.v."
  },
  {
   "property": "C125",
   "status": "partial",
   "theorems": [
    "C125_halt_refuted",
    "C125_halts_partial",
    "C125_few_partial",
    "C125_sender_partial"
   ],
   "note": "Refuted: the sockets block in both directions, so when a request of the child is under way and more frames arrive than the socket to the child holds, parent_recv waits for the child and the child for the answer, for good (for every finite socket size). Proved: this is the only way, exactly; it cannot happen as long as the frames fit, nor without OPT_RECV or in debug mode."
  },
  {
   "property": "C126",
   "status": "proved",
   "theorems": [
    "C126_answers",
    "C126_order",
    "C126_parent",
    "C126_wire"
   ],
   "note": "For every interleaving of the steps of both processes and every size of the sockets. C126_wire: the writes of any history of child_send, performed while the other process runs. Of the requests of netif_fetch only those to close sockets and to set descriptions are among the writes."
  },
  {
   "property": "C127",
   "status": "proved",
   "theorems": [
    "C127_comes_to_rest",
    "C127_settles",
    "C127_delivered",
    "C127_wire"
   ],
   "note": "Frames that do not fit are C125. libevent is taken to dispatch every ready socket (a step that is possible is taken at some time)."
  },
  {
   "property": "C128",
   "status": "partial",
   "theorems": [
    "C128_link_socket",
    "C128_bsd_socket",
    "C128_link_returns_partial",
    "C128_client_returns_partial",
    "C128_flags",
    "C128_link_waits_refuted",
    "C128_client_waits_refuted"
   ],
   "note": "Refuted if fcntl fails: the result of my_nonblock is ignored, so a link event or a slow client makes the whole child wait. Proved otherwise. On BSD child_link reads once for each event."
  },
  {
   "property": "C129",
   "status": "partial",
   "theorems": [
    "C129_configured",
    "C129_outgoing_partial",
    "C129_clients_partial",
    "C129_clients_refuted"
   ],
   "note": "Refuted for clients with -a: a client that stops reading and is dropped leaves an entry locked for ever (C28), and with it the protocol of that entry enabled. The rest is proved: with any options for the protocols of the command line, without -a for everything, and with -a for everything if no client keeps the daemon waiting (C129_clients_partial, in PropPeers)."
  },
  {
   "property": "C130",
   "status": "proved",
   "theorems": [
    "C130_repeat"
   ],
   "note": "Holds of the periodic runs of the child on Linux, for every state the daemon reaches and every history during which the kernel's answers stay the same."
  },
  {
   "property": "C131",
   "status": "proved",
   "theorems": [
    "C131_standard"
   ],
   "note": "For every frame of every event of the running daemon on Linux. Left to other claims: the length in the location TLV (C50), the truth of the autonegotiation and frame size TLVs (C49, C101) and of the VLAN identifiers (C104)."
  },
  {
   "property": "C132",
   "status": "partial",
   "theorems": [
    "C132_numbers",
    "C132_consecutive_partial",
    "C132_consecutive_refuted"
   ],
   "note": "Growing: proved for all histories. Without gaps: proved while the host has at most 37 VLAN interfaces. Refuted in general: the frame of an interface with many VLANs does not fit Ethernet and is not sent, but takes a number, so another interface sends 1, 3, 5, ..."
  },
  {
   "property": "C133",
   "status": "partial",
   "theorems": [
    "C133_bound_partial",
    "C133_flood_refuted"
   ],
   "note": "At most one entry per frame of the last 65535 seconds: proved. A limit independent of the number of frames: refuted, a machine that makes up source addresses gets n entries with n frames, for every n up to 2^32 and within one second; each is an allocation in the daemon."
  },
  {
   "property": "C134",
   "status": "partial",
   "theorems": [
    "C134_frames",
    "C134_no_interfaces",
    "C134_link_event_partial",
    "C134_link_quiet",
    "C134_lagg_member_refuted",
    "C134_sending_is_safe"
   ],
   "note": "Periodic runs, failed runs, safety of the privileged process and messages about Ethernet interfaces: proved. Messages about members of a lagg: refuted, the kernel gives them type 161 while they are members and child_link ignores every type but Ethernet, so the frames due there wait for the next periodic run."
  },
  {
   "property": "C135",
   "status": "partial",
   "theorems": [
    "C135_peers_partial",
    "C135_slow_client_refuted"
   ],
   "note": "Proved for other clients that take at once all they are sent; the client itself may be slow. Refuted for others that do not read: one that is dropped leaves its entry locked (C28), and a later client is shown that neighbour hours after it went away."
  },
  {
   "property": "C136",
   "status": "partial",
   "theorems": [
    "C136_new",
    "C136_gone",
    "C136_enabling",
    "C136_balance_partial",
    "C136_lines_partial",
    "C136_shutdown_refuted",
    "C136_renamed_refuted",
    "C136_forged_refuted",
    "C136_verbose_refuted"
   ],
   "note": "Proved: exactly which events are logged, and that the log accounts for the table as long as every neighbour keeps to one name. Refuted: a standard LLDP shutdown has no name, so the neighbour goes without a line; a renamed neighbour goes under another name; a name with a line feed writes lines of its own; 128 times -v wraps the int8_t loglevel and silences the log."
  },
  {
   "property": "C137",
   "status": "partial",
   "theorems": [
    "C137_never_a_shutdown",
    "C137_lingers",
    "C137_told_at_once_refuted"
   ],
   "note": "Refuted: every frame any daemon ever sends asks to be kept 180 seconds and none is a shutdown, parent_signal and the child end without sending. Proved: after its last frame a daemon stays listed for 180 seconds and is gone with the first clean-up thereafter."
  },
  {
   "property": "C138",
   "status": "partial",
   "theorems": [
    "C138_neighbour_listed",
    "C138_neighbour_shown_partial"
   ],
   "note": "The table is proved without restriction. What the client shows is partial only because of C44: an expired entry before it disturbs the client."
  },
  {
   "property": "C139",
   "status": "proved",
   "theorems": [
    "C139_standard"
   ],
   "note": "For every frame of every event of the running daemon on FreeBSD and OpenBSD; the same rules as C131."
  },
  {
   "property": "C140",
   "status": "partial",
   "theorems": [
    "C140_refresh",
    "C140_media",
    "C140_driver_refuted"
   ],
   "note": "Proved for driver names of up to 15 characters. Refuted for 16: netif_device_id (netif_bsd.c 251-256) moves the unit number over the NUL at the end of its buffer of 17 bytes and reads on."
  },
  {
   "property": "C141",
   "status": "proved",
   "theorems": [
    "C141_daemon",
    "C141_client",
    "C141_same",
    "C141_one",
    "C141_portable"
   ],
   "note": "getopt(3) is modelled after its manual page, with and without the reordering of the GNU C library; what the options set is C51."
  },
  {
   "property": "C142",
   "status": "proved",
   "theorems": [
    "C142_frames",
    "C142_location"
   ],
   "note": "Joins C141 and C51 with C37 and C47. The state of the child is any reached under the configuration that the options leave behind. Runs that do not find all interfaces named send nothing (C37); the length byte of locations over 250 bytes is wrong (C50), which the location theorem states as it is. Linux; frames of runs caused by link events are C37_link_event_partial."
  },
  {
   "property": "C143",
   "status": "proved",
   "theorems": [
    "C143_listen",
    "C143_groups",
    "C143_describes",
    "C143_chassis"
   ],
   "note": "Joins C141 and C51 with C119, parent_open and the frames of the child. Linux. Leaving the groups when a socket is closed is C41."
  },
  {
   "property": "C144",
   "status": "proved",
   "theorems": [
    "C144_frames",
    "C144_location",
    "C144_chassis"
   ],
   "note": "The counterpart of C142 and of the last part of C143 on FreeBSD and OpenBSD; joins C141 and C51 with C96 and C134."
  },
  {
   "property": "C145",
   "status": "proved",
   "theorems": [
    "C145_named",
    "C145_default",
    "C145_named_bsd",
    "C145_default_bsd"
   ],
   "note": "For -m with the name of an interface and for no -m; an address given to -m (obsolete) is treated in C69 and C51. On Linux C145_named supposes that names and numbers of the kernel's report identify each other (event_apart)."
  },
  {
   "property": "C146",
   "status": "proved",
   "theorems": [
    "C146_addresses",
    "C146_wire",
    "C146_addresses_bsd",
    "C146_wire_bsd"
   ],
   "note": "Joins C141 and C51 with C66 and C145. On Linux names and numbers of the kernel's list are supposed to identify each other (names_apart); on BSD this is part of b_ok."
  },
  {
   "property": "C147",
   "status": "proved",
   "theorems": [
    "C147_named",
    "C147_default",
    "C147_named_bsd",
    "C147_default_bsd"
   ],
   "note": "The counterpart of C145 for CDP (both versions) and FDP. C146 says which addresses the interfaces in the table have."
  },
  {
   "property": "C148",
   "status": "proved",
   "theorems": [
    "C148_listen",
    "C148_describes"
   ],
   "note": "The counterpart of C143_listen and C143_describes."
  },
  {
   "property": "C149",
   "status": "proved",
   "theorems": [
    "C149_table",
    "C149_batch",
    "C149_refused"
   ],
   "note": "Composes C141 (words), C44/C46 (selection) and C59/C23 (text). The neighbours asked for have not expired; for others C44 is refuted."
  },
  {
   "property": "C150",
   "status": "proved",
   "theorems": [
    "C150_posts",
    "C150_capture",
    "C150_print"
   ],
   "note": "As C149. The exceptions are those of C44, C46, C76, C77 and C91, refuted there."
  },
  {
   "property": "C151",
   "status": "proved",
   "theorems": [
    "C151_terminal"
   ],
   "note": "Composes C121 (wire to client), C141 (words) and C59 (rows)."
  },
  {
   "property": "C152",
   "status": "proved",
   "theorems": [
    "C152_shown",
    "C152_words",
    "C152_shown_bsd",
    "C152_words_bsd"
   ],
   "note": "Composes C142/C144 (words to frame), C81/C138 (frame to table) and C149 (table to terminal)."
  }
 ]
}