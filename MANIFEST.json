{
 "claims": [
  {
   "property": "C01",
   "status": "proved",
   "theorems": [
    "C01_base64_rfc4648",
    "C01_base64_roundtrip"
   ],
   "note": ""
  },
  {
   "property": "C02",
   "status": "proved",
   "theorems": [
    "C02_base64_reader_exact",
    "C02_base64_unambiguous"
   ],
   "note": ""
  },
  {
   "property": "C03",
   "status": "proved",
   "theorems": [
    "C03_hex_text",
    "C03_hex_roundtrip",
    "C03_hex_reader_exact"
   ],
   "note": ""
  },
  {
   "property": "C04",
   "status": "proved",
   "theorems": [
    "C04_zero_key",
    "C04_char_is_space",
    "C04_char_is_digit",
    "C04_char_is_alpha"
   ],
   "note": ""
  },
  {
   "property": "C05",
   "status": "proved",
   "theorems": [
    "C05_irrelevant_edits"
   ],
   "note": ""
  },
  {
   "property": "C06",
   "status": "proved",
   "theorems": [
    "C06_accepted_iff_valid",
    "C06_rejected_changes_nothing",
    "C06_read_error_refuted"
   ],
   "note": "Acceptance is exact; a rejected or unopenable file leaves the world (any backend) untouched. C06_read_error_refuted: a read error in the middle of the file passes for its end (setconf.c does not ask ferror)."
  },
  {
   "property": "C07",
   "status": "proved",
   "theorems": [
    "C07_device_is_what_lines_say",
    "C07_meaning_unique"
   ],
   "note": ""
  },
  {
   "property": "C08",
   "status": "proved",
   "theorems": [
    "C08_file_peers_have_keys",
    "C08_cmd_peers_have_keys"
   ],
   "note": ""
  },
  {
   "property": "C09",
   "status": "proved",
   "theorems": [
    "C09_setconf_resets",
    "C09_addconf_leaves_alone"
   ],
   "note": ""
  },
  {
   "property": "C10",
   "status": "proved",
   "theorems": [
    "C10_fwmark_exact",
    "C10_fwmark_ilp32_refuted"
   ],
   "note": "exact where unsigned long has more than 32 bits; with 32-bit unsigned long the claim is false (refuted theorem)"
  },
  {
   "property": "C11",
   "status": "proved",
   "theorems": [
    "C11_keepalive_exact"
   ],
   "note": ""
  },
  {
   "property": "C12",
   "status": "proved",
   "theorems": [
    "C12_allowedips_exact",
    "C12_entries_well_formed",
    "C12_empty_list_differs"
   ],
   "note": ""
  },
  {
   "property": "C13",
   "status": "proved",
   "theorems": [
    "C13_host_part_warning_exact",
    "C13_check_exact"
   ],
   "note": ""
  },
  {
   "property": "C14",
   "status": "proved",
   "theorems": [
    "C14_split_exact",
    "C14_malformed_no_lookup"
   ],
   "note": ""
  },
  {
   "property": "C15",
   "status": "proved",
   "theorems": [
    "C15_bounded",
    "C15_outcome",
    "C15_infinite",
    "C15_delays",
    "C15_retries_setting",
    "C15_negative_retries_refuted",
    "C15_retries_range",
    "C15_retries_refused",
    "C15_address"
   ],
   "note": ""
  },
  {
   "property": "C16",
   "status": "proved",
   "theorems": [
    "C16_keyfile_exact"
   ],
   "note": ""
  },
  {
   "property": "C17",
   "status": "proved",
   "theorems": [
    "C17_cmd_exact"
   ],
   "note": ""
  },
  {
   "property": "C18",
   "status": "proved",
   "theorems": [
    "C18_updates_fit_and_progress",
    "C18_requests_addressed"
   ],
   "note": ""
  },
  {
   "property": "C19",
   "status": "proved",
   "theorems": [
    "C19_fragmentation_invisible"
   ],
   "note": ""
  },
  {
   "property": "C20",
   "status": "proved",
   "theorems": [
    "C20_failed_update_is_reported",
    "C20_success_means_all_acknowledged"
   ],
   "note": ""
  },
  {
   "property": "C21",
   "status": "proved",
   "theorems": [
    "C21_attributes_roundtrip",
    "C21_reader_in_bounds",
    "C21_walk_exact",
    "C21_huge_length_loops_refuted",
    "C21_huge_length_escapes_refuted",
    "C21_unterminated_name_refuted"
   ],
   "note": "holds for messages whose length field is below 2^31 and terminated names; both restrictions are shown necessary by refuted theorems"
  },
  {
   "property": "C22",
   "status": "proved",
   "theorems": [
    "C22_dump_reassembled",
    "C22_empty_middle_part_refuted"
   ],
   "note": "every continued part has at least one allowed IP; an empty one in the middle crashes (refuted theorem)"
  },
  {
   "property": "C23",
   "status": "proved",
   "theorems": [
    "C23_no_half_device",
    "C23_success_is_one_dump",
    "C23_interrupted_dump_repeated"
   ],
   "note": ""
  },
  {
   "property": "C24",
   "status": "proved",
   "theorems": [
    "C24_set_request_exact",
    "C24_set_request_applies",
    "C24_success_iff_errno_0",
    "C24_error_reported"
   ],
   "note": "flow labels of IPv6 endpoints are not part of the protocol; the effect theorem assumes them zero"
  },
  {
   "property": "C25",
   "status": "proved",
   "theorems": [
    "C25_reply_exact",
    "C25_all_or_nothing",
    "C25_exact_reply_taken",
    "C25_state_roundtrip",
    "C25_prefix_256_refuted",
    "C25_huge_counter_refuted",
    "C25_unresolvable_is_positive",
    "C25_negative_errno_is_eproto"
   ],
   "note": "exact up to prefix lengths above 255 (seen modulo 256) and counters above 64 bits (cut), both shown by refuted theorems"
  },
  {
   "property": "C26",
   "status": "proved",
   "theorems": [
    "C26_syncconf_gives_the_file",
    "C26_allowed_ips",
    "C26_common_peers_stay",
    "C26_qsort_exists",
    "C26_interfaces_are_consistent"
   ],
   "note": "for interfaces without duplicate peer keys (an invariant, C26_interfaces_are_consistent); a peer with the interface's own public key is ignored by the interface"
  },
  {
   "property": "C27",
   "status": "proved",
   "theorems": [
    "C27_peer_settings",
    "C27_same_interface",
    "C27_stale_settings_refuted"
   ],
   "note": "the stronger claim that syncconf and setconf agree on every setting is false: C27_stale_settings_refuted"
  },
  {
   "property": "C28",
   "status": "proved",
   "theorems": [
    "C28_text_means_device",
    "C28_request_restores",
    "C28_showconf_restores",
    "C28_tables_are_consistent",
    "C28_numeric_world_exists"
   ],
   "note": "Flow labels of IPv6 endpoints are not expressible in a file (stated: drop_flow). The resolver is assumed to resolve the numeric text getnameinfo prints; a concrete resolver meeting this is given. Consistency hypotheses are proved for every interface changed only by requests."
  },
  {
   "property": "C29",
   "status": "proved",
   "theorems": [
    "C29_view",
    "C29_coloured",
    "C29_peer_lines",
    "C29_order_refuted"
   ],
   "note": "Whole human readable output: every peer once, newest handshake first, never last; for non-negative times. C29_order_refuted: with times 2^63 apart (which no kernel reports) the difference overflows and the comparison is cyclic. qsort is any function meeting index_sorts (index_sort is one)."
  },
  {
   "property": "C30",
   "status": "proved",
   "theorems": [
    "C30_keys_hidden",
    "C30_other_parameters",
    "C30_show"
   ],
   "note": "Non-interference for the text, for every parameter but private-key, preshared-keys and dump, and for the whole command over any backend."
  },
  {
   "property": "C31",
   "status": "proved",
   "theorems": [
    "C31_elapsed",
    "C31_every",
    "C31_size",
    "C31_split_unique"
   ],
   "note": "Exact decomposition, plurals, no truncation; sizes to the nearest hundredth (double rounding above 2^53 bounded). The text of 2^20-1 is 1024.00 KiB (C31_boundary)."
  },
  {
   "property": "C32",
   "status": "proved",
   "theorems": [
    "C32_dump",
    "C32_columns",
    "C32_allowed_ips",
    "C32_dump_parameter",
    "C32_other_refused",
    "C32_recoverable",
    "C32_all",
    "C32_positive_result_refuted"
   ],
   "note": "Fields of the dump, columns of the other parameters, recoverability, prefix for all. C32_positive_result_refuted: a positive result without a device makes show use a null pointer (show.c:402,442)."
  },
  {
   "property": "C33",
   "status": "proved",
   "theorems": [
    "C33_stripped",
    "C33_stripped_unique",
    "C33_uncoloured",
    "C33_coloured",
    "C33_color_mode"
   ],
   "note": ""
  },
  {
   "property": "C34",
   "status": "proved",
   "theorems": [
    "C34_genkey",
    "C34_genpsk",
    "C34_no_bits_lost"
   ],
   "note": "Exact for any behaviour of getentropy, getrandom and /dev/urandom; independent of the uninitialised buffer. Writing to stdout is assumed to succeed."
  },
  {
   "property": "C35",
   "status": "proved",
   "theorems": [
    "C35_pubkey",
    "C35_usage"
   ],
   "note": "The public key function itself is C36/C37."
  },
  {
   "property": "C36",
   "status": "proved",
   "theorems": [
    "C36_add",
    "C36_sub",
    "C36_mul",
    "C36_square",
    "C36_squares",
    "C36_scalar",
    "C36_inverse",
    "C36_prime",
    "C36_canonical",
    "C36_ladder"
   ],
   "note": "src/curve25519-hacl64.h (compilers with 128-bit integers). Every operation wraps in the model; on the classes of representations that occur the results are exact; C36_ladder shows the ladder stays in the reduced class; primality of 2^255-19 is proved (Pocklington)."
  },
  {
   "property": "C37",
   "status": "proved",
   "theorems": [
    "C37_x25519",
    "C37_public",
    "C37_key",
    "C37_clamped",
    "C37_base",
    "C37_zero",
    "C37_pubkey"
   ],
   "note": "For all 32-byte scalars and base points the model of curve25519-hacl64.h equals the pseudo code of RFC 7748 section 5 (CurveSpec.v). The fiat32 variant: C61."
  },
  {
   "property": "C38",
   "status": "proved",
   "theorems": [
    "C38_packed_names",
    "C38_listing",
    "C38_errors",
    "C38_show_interfaces"
   ],
   "note": "Link dump in any fragmentation, then the socket directory; realloc may fail at any time."
  },
  {
   "property": "C39",
   "status": "proved",
   "theorems": [
    "C39_dispatch",
    "C39_setconf",
    "C39_set",
    "C39_success_is_honest",
    "C39_configurations_can_be_sent",
    "C39_arguments_can_be_sent",
    "C39_setconf_end_to_end",
    "C39_set_end_to_end",
    "C39_showconf",
    "C39_syncconf_unread",
    "C39_show_all"
   ],
   "note": "Whole command from argument vector and file bytes down to netlink messages and the interface state."
  },
  {
   "property": "C40",
   "status": "proved",
   "theorems": [
    "C40_accepted",
    "C40_handed",
    "C40_hooks",
    "C40_single",
    "C40_addresses",
    "C40_dns",
    "C40_wg_reads_the_rest",
    "C40_interface_name",
    "C40_spaced_header_refuted"
   ],
   "note": "wg-quick/linux.bash parse_options over bash string primitives modelled in Bash.v; pathname expansion is a parameter assumed to leave words without glob characters alone."
  },
  {
   "property": "C41",
   "status": "proved",
   "theorems": [
    "C41_crash",
    "C41_private",
    "C41_success",
    "C41_no_leftover",
    "C41_private_refuted"
   ],
   "note": "Over every behaviour of the programs run, every failure, every signal and every instant during a command; a power failure may lose unsynced data and recent renames. The permission guarantee assumes no foreign temporary file was there; without that it is false (C41_private_refuted)."
  },
  {
   "property": "C42",
   "status": "proved",
   "theorems": [
    "C42_up",
    "C42_reported",
    "C42_interrupted",
    "C42_creation_failure_refuted",
    "C42_cleanup_failure_refuted",
    "C42_failing_question_refuted",
    "C42_signal_status_refuted"
   ],
   "note": "cmd_up for every system (a function from the commands run so far to an answer), every failure point and every moment of a signal. The _refuted theorems show what does not hold: failing to create the interface is reported as success, a failing cleanup leaves it, failing questions go unnoticed, a signal can end in status 0."
  },
  {
   "property": "C43",
   "status": "proved",
   "theorems": [
    "C43_table",
    "C43_kept",
    "C43_chosen",
    "C43_ends"
   ],
   "note": "add_routes of linux.bash against every system whose answers about the fwmark and the routing tables are true (honest); C43_ends: the search only goes on while all tables tried are in use."
  },
  {
   "property": "C44",
   "status": "proved",
   "theorems": [
    "C44_socket_files",
    "C44_dispatch",
    "C44_long_names_share_a_socket_refuted",
    "C44_distinct_sockets",
    "C44_served"
   ],
   "note": "C44_long_names_share_a_socket_refuted: names longer than sun_path share one socket path."
  },
  {
   "property": "C45",
   "status": "proved",
   "theorems": [
    "C45_short_names",
    "C45_long_names_refuted"
   ],
   "note": "Holds for names of up to 15 characters; refuted for longer ones, which are silently cut."
  },
  {
   "property": "C46",
   "status": "proved",
   "theorems": [
    "C46_routes"
   ],
   "note": "wg show allowed-ips is the model of show.c; sort is specified (a permutation with the longest prefixes first), not modelled."
  },
  {
   "property": "C47",
   "status": "proved",
   "theorems": [
    "C47_mtu",
    "C47_scoped_refuted"
   ],
   "note": "C47_scoped_refuted: endpoints with a scope (link-local addresses) are not asked about."
  },
  {
   "property": "C48",
   "status": "proved",
   "theorems": [
    "C48_removed",
    "C48_installed"
   ],
   "note": "nft and iptables-restore are specified in QuickFirewallSpec.v; that iptables-save prints an installed rule with its comment is taken from iptables."
  },
  {
   "property": "C49",
   "status": "proved",
   "theorems": [
    "C49_not_wireguard",
    "C49_order",
    "C49_rules",
    "C49_rules_case",
    "C49_prefix_refuted",
    "C49_other_interface_refuted"
   ],
   "note": "The rule database of ip is specified (knows_rules). C49_rules needs that no other table in use has a name beginning with the number of this one: otherwise down fails (C49_prefix_refuted). C49_other_interface_refuted: the rules hiding default routes are shared, so taking one interface down disturbs another."
  },
  {
   "property": "C50",
   "status": "proved",
   "theorems": [
    "C50_reload",
    "C50_saved_file",
    "C50_restores",
    "C50_ampersand_refuted",
    "C50_name_refuted",
    "C50_search_refuted",
    "C50_empty_refuted"
   ],
   "note": "For interface names without a plus sign, hooks without & and backslash (bash 5.2+), and interfaces on which something is set. Outside these the code loses data: an ampersand in a hook, a plus sign in the name, search domains, and everything if nothing is set on the interface (the four _refuted theorems)."
  },
  {
   "property": "C51",
   "status": "proved",
   "theorems": [
    "C51_to_base64",
    "C51_from_base64",
    "C51_to_hex",
    "C51_from_hex",
    "C51_is_zero",
    "C51_case",
    "C51_table_leaks"
   ],
   "note": "encoding.c as data of a small C semantics with a leakage trace (Leak.v); the trace is fixed before the key is chosen. An observer of branches, indices and string lengths is assumed; left shifts of negative numbers are as gcc and clang define them. C51_table_leaks: the notion rejects a table-based encoder."
  },
  {
   "property": "C52",
   "status": "proved",
   "theorems": [
    "C52_records",
    "C52_dns_undone",
    "C52_firewall_undone",
    "C52_dns_failure_refuted"
   ],
   "note": "Same record name: assuming the order file does not change meanwhile (steady). C52_dns_failure_refuted: if resolvconf -d fails, the cleanup stops there and the firewall rules stay."
  },
  {
   "property": "C53",
   "status": "proved",
   "theorems": [
    "C53_curve25519",
    "C53_in_place"
   ],
   "note": "curve25519-hacl64.h as data of the C semantics of Leak.v, statement by statement; the trace is fixed before the secret, the base point and the contents of the local arrays are chosen. The loops are handled by invariants, the straight-line code by an interval interpreter proved sound. The value is proved by running the straight-line code on formulas that are compared with Curve.v, and C37."
  },
  {
   "property": "C54",
   "status": "proved",
   "theorems": [
    "C54_nothing_leaks",
    "C54_one_request",
    "C54_errno_is_the_cause",
    "C54_family_found",
    "C54_refusal_reported",
    "C54_returns",
    "C54_number_is_the_kernels",
    "C54_ack_without_answer_refuted",
    "C54_new_attribute_first_refuted"
   ],
   "note": "The buffer is at most 8192 bytes, as mnl_ideal_socket_buffer_size gives it. Two things the code does not do: it takes an acknowledgement without an answer for success (family number 0), and an unknown attribute in front of the number makes it fail."
  },
  {
   "property": "C55",
   "status": "proved",
   "theorems": [
    "C55_get_nothing_leaks",
    "C55_get_is_its_attempts",
    "C55_get_end_to_end",
    "C55_set_not_opened",
    "C55_set_nothing_leaks",
    "C55_set_end_to_end"
   ],
   "note": "End-to-end theorems: the buffer has 272 to 8192 bytes; the kernel answers as its specification says (NlGetSpec, KernelSpec). C55_get_is_its_attempts carries over all of C22 and C23."
  },
  {
   "property": "C56",
   "status": "proved",
   "theorems": [
    "C56_one_meaning",
    "C56_set",
    "C56_set_applies",
    "C56_get",
    "C56_get_exact",
    "C56_get_all_or_error",
    "C56_ipv6_endpoints_are_read_refuted",
    "C56_empty_answer_refuted",
    "C56_group_listing",
    "C56_group_listing_refuted"
   ],
   "note": "amd64 layout (LP64, little endian) of if_wg.h. The statement about reading carries the exceptions the code has: IPv6 endpoints are dropped, a kernel stating size 0 is not survived; both are _refuted theorems. The listing is wrong (out of bounds) only if the group is empty at the first and not empty at the second ioctl."
  },
  {
   "property": "C57",
   "status": "proved",
   "theorems": [
    "C57_one_meaning",
    "C57_set",
    "C57_set_applies",
    "C57_mark_refuted",
    "C57_no_device_refuted",
    "C57_get",
    "C57_get_one_meaning",
    "C57_get_all_or_error",
    "C57_handle_closed_refuted",
    "C57_empty_answer_refuted"
   ],
   "note": "x64 layout (LLP64, little endian) of wireguard.h. _refuted: a mark is dropped silently; the handle is leaked when the driver refuses to answer; errno may be 0 when there is no device."
  },
  {
   "property": "C58",
   "status": "proved",
   "theorems": [
    "C58_table",
    "C58_bucket",
    "C58_kernel_listing",
    "C58_kernel_listing_error",
    "C58_cache",
    "C58_open",
    "C58_null_id_refuted",
    "C58_errno_refuted",
    "C58_long_name_refuted",
    "C58_listing_memory_refuted",
    "C58_pipe",
    "C58_pipe_closed_refuted",
    "C58_pipe_name_refuted",
    "C58_has_interface",
    "C58_has_interface_refuted",
    "C58_pipe_listing"
   ],
   "note": "The conversion to UTF-8 and the calls of Windows are parameters. Names of up to 126 UTF-16 units (longer: C58_long_name_refuted) and 209 bytes for pipes (longer: C58_pipe_name_refuted)."
  },
  {
   "property": "C59",
   "status": "proved",
   "theorems": [
    "C59_getline",
    "C59_lines",
    "C59_memory_refuted",
    "C59_own_buffer_refuted",
    "C59_strsep",
    "C59_fields"
   ],
   "note": "C59_lines and C59_fields show that these implementations do what the models of the readers (Uapi.getlines, Cstr.split_all) assume of the C library."
  },
  {
   "property": "C60",
   "status": "proved",
   "theorems": [
    "C60_one_meaning",
    "C60_set",
    "C60_set_applies",
    "C60_set_errno_refuted",
    "C60_get",
    "C60_get_any",
    "C60_errors_are_negative_refuted",
    "C60_short_address_refuted"
   ],
   "note": "libnv's lists are modelled as association lists with its sticky error and typed lookups; packing and unpacking are taken as inverse on the lists the kernel gives. The error returned by a refused change is -1, not the errno, a too large prefix length gives a positive number, and the size of an address is not checked: three _refuted theorems."
  },
  {
   "property": "C61",
   "status": "proved",
   "theorems": [
    "C61_add",
    "C61_sub",
    "C61_mul",
    "C61_square",
    "C61_squares",
    "C61_times_121666",
    "C61_inverse",
    "C61_swap",
    "C61_read",
    "C61_canonical",
    "C61_ladder",
    "C61_x25519",
    "C61_same",
    "C61_public"
   ],
   "note": "The ladder of RFC 7748 section 5 (CurveSpec.v) is the specification, as for C37. Clearing of buffers is not modelled."
  },
  {
   "property": "C62",
   "status": "proved",
   "theorems": [
    "C62_help",
    "C62_usage",
    "C62_sudo",
    "C62_one_reading",
    "C62_no_file",
    "C62_up_runs",
    "C62_down_runs",
    "C62_save_runs",
    "C62_strip",
    "C62_up",
    "C62_name_or_path",
    "C62_warning",
    "C62_warning_refuted",
    "C62_current_directory_refuted",
    "C62_unreadable_refuted"
   ],
   "note": "The file system and the programs run are parameters. Messages are modelled by kind. Findings: C62_warning_refuted, C62_current_directory_refuted, C62_unreadable_refuted."
  },
  {
   "property": "C63",
   "status": "proved",
   "theorems": [
    "C63_kept",
    "C63_removed",
    "C63_stable",
    "C63_endpoints",
    "C63_family_refuted",
    "C63_foreign_refuted",
    "C63_signal_refuted",
    "C63_retry_refuted"
   ],
   "note": "Proved for every system. The kernel's routing table is part of the specification: adding fails where there is a route or the family is wrong. In C63_kept and C63_removed only wg-quick changes host routes, and there are none to the endpoints before (C63_foreign_refuted shows that this is needed). DNS and MTU in the macOS monitor are not modelled."
  },
  {
   "property": "C64",
   "status": "proved",
   "theorems": [
    "C64_up",
    "C64_up_interrupted",
    "C64_down",
    "C64_down_interrupted",
    "C64_save",
    "C64_save_interrupted",
    "C64_help",
    "C64_usage",
    "C64_sudo",
    "C64_no_file",
    "C64_verbs",
    "C64_strip",
    "C64_up_whole",
    "C64_name_taken_refuted",
    "C64_default_mtu_refuted",
    "C64_pattern_refuted",
    "C64_cleanup_refuted",
    "C64_postdown_refuted",
    "C64_dns_signal_refuted",
    "C64_save_refuted",
    "C64_silent_netstat_refuted"
   ],
   "note": "Partial correctness: waiting for the interface to vanish has no bound in the code (the theorems are about runs that end). One signal at a time in the _interrupted theorems. Saving: the text is characterised for ampersand-free settings (bash 5.2+). The process started as monitor_daemon is C63."
  },
  {
   "property": "C65",
   "status": "proved",
   "theorems": [
    "C65_curve25519",
    "C65_in_place"
   ],
   "note": "curve25519-fiat32.h as data of the C semantics of Leak.v, statement by statement; the trace is fixed before the secret, the point and the contents of the local arrays are chosen. What is not cleared: tmp0, tmp1, tmp0l, tmp1l, t0 to t3, l and h hold intermediate values when the call returns."
  },
  {
   "property": "C66",
   "status": "proved",
   "theorems": [
    "C66_up",
    "C66_save",
    "C66_down",
    "C66_help",
    "C66_usage",
    "C66_doas",
    "C66_no_file",
    "C66_verbs",
    "C66_strip",
    "C66_up_whole",
    "C66_servers",
    "C66_hook_name_refuted",
    "C66_dns_refuted",
    "C66_stale_copy_refuted",
    "C66_no_address_refuted",
    "C66_signal_refuted",
    "C66_save_refuted"
   ],
   "note": "Partial correctness: creating the interface is retried without bound in the code (the theorems are about runs that end). Saving: the text is characterised for ampersand-free settings (bash 5.2+). The process started as monitor_daemon is C63. REAL_INTERFACE, FIRSTADDR4/6 and AUTO_ROUTE4/6, which the script does not initialise, are taken to be unset in the environment."
  },
  {
   "property": "C67",
   "status": "proved",
   "theorems": [
    "C67_restored",
    "C67_configured",
    "C67_untouched",
    "C67_case",
    "C67_lost_refuted",
    "C67_alarm_refuted"
   ],
   "note": "What networksetup does is specified in DarDnsSpec.v (effect): a change that fails may leave anything in the list it was to change. Service names with characters special to bash's unset are not modelled. The theorems are about runs without the ALRM trap striking inside set_dns; C67_alarm_refuted shows what happens with it."
  },
  {
   "property": "C68",
   "status": "proved",
   "theorems": [
    "C68_up",
    "C68_save",
    "C68_down",
    "C68_help",
    "C68_usage",
    "C68_sudo",
    "C68_no_file",
    "C68_verbs",
    "C68_strip",
    "C68_up_whole",
    "C68_up_case",
    "C68_failing_case",
    "C68_down_case",
    "C68_main_case",
    "C68_orphan_refuted",
    "C68_dns_refuted",
    "C68_hook_name_refuted",
    "C68_save_refuted"
   ],
   "note": "Saving: the text is characterised for ampersand-free settings (bash 5.2+). The process started as monitor_daemon is C63 and C67. REAL_INTERFACE and AUTO_ROUTE4/6, which the script does not initialise, are taken to be unset in the environment. What DNS setting does is C67; here it is that each listed service gets the configuration's settings and no other is changed."
  },
  {
   "property": "C69",
   "status": "proved",
   "theorems": [
    "C69_included",
    "C69_excluded",
    "C69_neither",
    "C69_other_lines",
    "C69_other_lines_case",
    "C69_both",
    "C69_excluded_case",
    "C69_included_case",
    "C69_past_end_refuted",
    "C69_behind_refuted",
    "C69_empty_refuted",
    "C69_last_user_refuted",
    "C69_same_name_refuted"
   ],
   "note": "Holds where a NUL follows the list's own NUL, which nothing ensures: the scan passes the end of the list (C69_past_end_refuted)."
  },
  {
   "property": "C70",
   "status": "proved",
   "theorems": [
    "C70_settings",
    "C70_no_section",
    "C70_name",
    "C70_file",
    "C70_search",
    "C70_case",
    "C70_name_refuted",
    "C70_blank_refuted",
    "C70_comment_refuted",
    "C70_long_line_refuted"
   ],
   "note": "Files without NUL bytes. Longer names, comments and over-long lines are findings."
  },
  {
   "property": "C71",
   "status": "proved",
   "theorems": [
    "C71_entries",
    "C71_command",
    "C71_addresses",
    "C71_dns_case",
    "C71_addr_case",
    "C71_injection_refuted",
    "C71_bare_refuted",
    "C71_mask_refuted"
   ],
   "note": "Search domains with shell metacharacters are a finding: where Binder is not available they are run as commands. Binder's own calls are not modelled."
  },
  {
   "property": "C72",
   "status": "proved",
   "theorems": [
    "C72_rules",
    "C72_network",
    "C72_block",
    "C72_routes",
    "C72_mtu_given",
    "C72_default_mtu",
    "C72_port",
    "C72_rules_case",
    "C72_network_case",
    "C72_block_case",
    "C72_routes_case",
    "C72_mtu_case",
    "C72_port_case",
    "C72_endpoint_mtu_refuted",
    "C72_dot_refuted",
    "C72_prefix_refuted"
   ],
   "note": "Findings: '.' and '+' in the name are operators in the pattern, so other interfaces' rules may be deleted; the pattern for networks is open at its end; the endpoints' routes are never looked at because the pattern is anchored against the whole line. determine_listen_port's setting up and taking down of the interface is not modelled."
  },
  {
   "property": "C73",
   "status": "proved",
   "theorems": [
    "C73_up",
    "C73_failed",
    "C73_down",
    "C73_firewall",
    "C73_own_rules",
    "C73_up_case",
    "C73_failed_case",
    "C73_down_case",
    "C73_phone_case",
    "C73_down_stops_refuted"
   ],
   "note": "DNS through Binder, auto_su, failing popen and getline and being killed by a signal are not modelled; names with '.' and '+' are excluded (C72). Finding: cmd_down stops at the first failing command and leaves the rest."
  },
  {
   "property": "C74",
   "status": "proved",
   "theorems": [
    "C74_libraries",
    "C74_libraries_case",
    "C74_restricted",
    "C74_start",
    "C74_start_case"
   ],
   "note": "The delay-load helper of the run time system is part of the specification (its documented behaviour). WSAStartup's result is ignored by the code and not modelled."
  },
  {
   "property": "C75",
   "status": "proved",
   "theorems": [
    "C75_private",
    "C75_private_case",
    "C75_up",
    "C75_up_case",
    "C75_main",
    "C75_main_case"
   ],
   "note": "C75_private has the hypothesis that the rest of the system replies by the commands and not by what wg was given (the listen port and allowed IPs that wg shows later are such replies, so two configurations with other peers are compared up to these). Lines of up to 65536 bytes in C75_up, as in C70."
  }
 ]
}