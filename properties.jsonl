{"id": "C01", "title": "Base64 key text round-trips and is RFC 4648", "statement": "For every 32-byte key, printing it as base64 yields exactly the 44-character RFC 4648 padded encoding, and reading that text back yields the same key.", "quantifier": "all 2^256 keys", "why_tests_cant": "2^256 keys; the encoder is branch-free arithmetic, so a wrong constant shows only on particular bytes", "anchors": ["src/encoding.c:key_to_base64", "src/encoding.c:key_from_base64", "src/encoding.c:encode_base64", "src/encoding.c:decode_base64"]}
{"id": "C02", "title": "Base64 key reader accepts exactly the canonical encodings", "statement": "A string is accepted as a base64 key iff it is the canonical 44-character encoding of some 32-byte key (correct alphabet, one '=' at the end, zero padding bits); hence every accepted text denotes one key and every key has one accepted text. Rejected otherwise, for any length and any bytes including high-bit ones.", "quantifier": "all byte strings", "why_tests_cant": "unbounded strings; the constant-time arithmetic decoder has no branches to cover", "anchors": ["src/encoding.c:key_from_base64", "src/encoding.c:decode_base64"]}
{"id": "C03", "title": "Hex key text round-trips and accepts exactly 64 hex digits", "statement": "Printing a key as hex gives its 64 lowercase digits; reading accepts exactly the strings of 64 hexadecimal digits in either case and returns the key they spell.", "quantifier": "all 32-byte keys and all byte strings", "why_tests_cant": "unbounded; wrap-around unsigned arithmetic on each byte", "anchors": ["src/encoding.c:key_to_hex", "src/encoding.c:key_from_hex"]}
{"id": "C04", "title": "Zero-key test and character classes are exact", "statement": "The all-zero key test is true exactly for the all-zero key, and the locale-independent space, digit and letter tests hold exactly for the ASCII characters \\t\\n\\v\\f\\r and space, 0-9, and A-Z a-z, for every value of a signed or unsigned char and EOF.", "quantifier": "all keys; all character values -128..255", "why_tests_cant": "the tests are bit tricks relying on wrap-around; a slip affects isolated values", "anchors": ["src/encoding.c:key_is_zero", "src/ctype.h:char_is_space", "src/ctype.h:char_is_digit", "src/ctype.h:char_is_alpha"]}
{"id": "C05", "title": "Comments, blanks and keyword case are irrelevant in a configuration file", "statement": "Inserting or deleting white space anywhere in a line, appending a '#' comment, changing the letter case of a section header or key name, or inserting empty/comment lines does not change the outcome of reading a configuration.", "quantifier": "all configuration files and all such edits", "why_tests_cant": "unbounded set of files and edits", "anchors": ["src/config.c:config_read_line", "src/config.c:get_value", "src/config.c:process_line"]}
{"id": "C06", "title": "A configuration is accepted only if every line is recognised in its section", "statement": "A file is accepted iff each non-blank line is a section header or a known key of the current section with a valid value and every peer got a public key; otherwise the command fails and no request at all is sent to the interface.", "quantifier": "all configuration files, all three commands (setconf, addconf, syncconf)", "why_tests_cant": "unbounded files; all-or-nothing has to hold at any failing line", "anchors": ["src/config.c:process_line", "src/config.c:config_read_finish", "src/setconf.c:setconf_main"]}
{"id": "C07", "title": "The device read from a file is what its lines say", "statement": "For an accepted file, each scalar setting equals the value on its last line in the section that sets it, AllowedIPs of a peer are the concatenation of its lists in order, and peers appear in file order, one for each [Peer] header.", "quantifier": "all accepted configuration files", "why_tests_cant": "unbounded files with any interleaving of sections", "anchors": ["src/config.c:process_line", "src/config.c:config_read_line", "src/config.c:parse_allowedips"]}
{"id": "C08", "title": "Every peer sent to the interface names a public key", "statement": "Whichever way a configuration is produced (file or command line), every peer in the update has its public key set by the user.", "quantifier": "all files and all argument vectors", "why_tests_cant": "unbounded inputs", "anchors": ["src/config.c:config_read_finish", "src/config.c:config_read_cmd"]}
{"id": "C09", "title": "setconf resets what the file does not mention, addconf leaves it alone", "statement": "With setconf (and syncconf) the update always carries private key, fwmark and listen port, zero when the file is silent, and asks to replace all peers; with addconf a device field is carried iff the file mentions it and existing peers are not asked to be replaced.", "quantifier": "all accepted configuration files", "why_tests_cant": "unbounded files", "anchors": ["src/config.c:config_read_init", "src/setconf.c:setconf_main"]}
{"id": "C10", "title": "FwMark values are exact", "statement": "A FwMark is accepted iff it is 'off' (any case), a decimal number, or 0x followed by hex digits, whose value is at most 0xffffffff, and the value stored is that number (64-bit unsigned long).", "quantifier": "all byte strings", "why_tests_cant": "unbounded strings, overflow saturation inside strtoul", "anchors": ["src/config.c:parse_fwmark"]}
{"id": "C11", "title": "PersistentKeepalive values are exact", "statement": "A PersistentKeepalive is accepted iff it is 'off' or a decimal number at most 65535; the value stored is that number.", "quantifier": "all byte strings", "why_tests_cant": "unbounded strings", "anchors": ["src/config.c:parse_persistent_keepalive"]}
{"id": "C12", "title": "AllowedIPs lists are parsed entry by entry without loss", "statement": "A list is accepted iff it is empty or every comma separated entry is an IPv4 or IPv6 address optionally followed by '/' and a decimal prefix length at most 32 resp. 128; the result is exactly the entries in order, with full length as default; on a bad entry the whole value is rejected.", "quantifier": "all byte strings", "why_tests_cant": "unbounded lists", "anchors": ["src/config.c:parse_allowedips", "src/config.c:parse_ip"]}
{"id": "C13", "title": "The host-part warning is exact", "statement": "The 'nonzero host part' warning is issued for an allowed IP exactly when some address bit past the prefix length is set, for IPv4 and IPv6 and every prefix length, and then the mask text it prints exists.", "quantifier": "all addresses and prefix lengths", "why_tests_cant": "2^128 addresses times 129 lengths; shift-by-32 corner cases", "anchors": ["src/config.c:validate_netmask", "src/config.c:parse_allowedips"]}
{"id": "C14", "title": "Endpoints are split at the right place", "statement": "host:port is split at the last ':' and [host]:port at the first ']', the port is never empty, and a malformed endpoint is rejected without consulting the resolver; splitting never reads past the end of the string.", "quantifier": "all byte strings", "why_tests_cant": "unbounded strings, pointer arithmetic on the copy", "anchors": ["src/config.c:parse_endpoint"]}
{"id": "C15", "title": "Name resolution retries are bounded and stop at permanent errors", "statement": "With WG_ENDPOINT_RESOLUTION_RETRIES=n at most n+1 look-ups are made, a permanent failure stops at once, the first success is used, delays grow by 6/5 from 1 s up to 20 s and never overflow; with 'infinity' it continues until success or a permanent failure.", "quantifier": "all resolver behaviours (infinite sequences of outcomes) and all retry counts", "why_tests_cant": "infinite schedules of outcomes", "anchors": ["src/config.c:parse_dns_retries", "src/config.c:parse_endpoint"]}
{"id": "C16", "title": "Key files are read exactly", "statement": "A key file is accepted iff it is an empty seekable file (denoting the zero key) or a valid base64 key followed only by white space; nothing else, and the buffer is never overrun.", "quantifier": "all file contents", "why_tests_cant": "unbounded contents", "anchors": ["src/config.c:parse_keyfile"]}
{"id": "C17", "title": "wg set arguments are applied exactly or rejected", "statement": "'wg set' accepts an argument vector iff it is a sequence of device options followed by peer groups with valid values; options after 'peer K' apply to that peer only, repeated ones override (allowed-ips accumulate); parsing terminates and never reads past the last argument; if it fails nothing is sent.", "quantifier": "all argument vectors", "why_tests_cant": "unbounded argument vectors", "anchors": ["src/config.c:config_read_cmd", "src/set.c:set_main"]}
{"id": "C18", "title": "Netlink updates fit their buffer and always make progress", "statement": "For every device update, each netlink request built is at most the buffer size, never overruns it, the number of requests is finite, and each one carries at least one new peer or allowed IP after the first.", "quantifier": "all device updates with any number of peers and allowed IPs, all page sizes", "why_tests_cant": "unbounded lists; fragmentation offsets at every possible boundary", "anchors": ["src/ipc-linux.h:kernel_set_device", "src/netlink.h:mnl_attr_put_check"]}
{"id": "C19", "title": "Fragmentation of a netlink update is invisible", "statement": "Applying the sequence of netlink requests produced for an update to an interface has the same final effect as applying the update as a single request: replace-all flags are sent once, no peer or allowed IP is lost, duplicated or re-ordered, secrets and endpoints are sent once per peer.", "quantifier": "all device updates, all initial interface states", "why_tests_cant": "unbounded lists and all fragmentation points", "anchors": ["src/ipc-linux.h:kernel_set_device"]}
{"id": "C20", "title": "A failed netlink update is reported and leaves a prefix", "statement": "If the kernel rejects a request, no later request is sent, the command reports failure, and the interface is in the state after the preceding requests; success is reported only if all requests were acknowledged.", "quantifier": "all device updates and all kernel failure points", "why_tests_cant": "every failure point of an unbounded sequence", "anchors": ["src/ipc-linux.h:kernel_set_device", "src/netlink.h:mnlg_socket_recv_run", "src/netlink.h:mnl_cb_run"]}
{"id": "C21", "title": "Netlink attributes round-trip and are parsed inside the message", "statement": "Attributes written by the tool (nested, padded to 4 bytes) are parsed back to the same tree by the kernel's rules, and parsing any received byte string terminates and never reads outside the received message.", "quantifier": "all byte strings of any length; all attribute trees", "why_tests_cant": "arbitrary kernel messages; length-field arithmetic", "anchors": ["src/netlink.h:mnl_attr_put", "src/netlink.h:mnl_attr_parse", "src/netlink.h:mnl_attr_ok", "src/netlink.h:mnl_nlmsg_ok", "src/netlink.h:mnl_cb_run"]}
{"id": "C22", "title": "A dump split over many netlink messages is reassembled", "statement": "However the kernel splits a dump over messages (a peer's allowed IPs may continue in following messages), the device returned has each peer once, in order, with all of its allowed IPs in order and all its attributes.", "quantifier": "all devices and all ways of splitting the dump", "why_tests_cant": "every split of unbounded lists", "anchors": ["src/ipc-linux.h:parse_device", "src/ipc-linux.h:parse_peers", "src/ipc-linux.h:coalesce_peers", "src/ipc-linux.h:kernel_get_device"]}
{"id": "C23", "title": "Reading an interface retries on interruption and never returns half a device", "statement": "If a dump is interrupted it is restarted from scratch; the device returned by a successful read comes from a single uninterrupted dump, and on failure no device is returned and everything allocated is released.", "quantifier": "all sequences of interrupted/failed/successful dumps", "why_tests_cant": "unbounded histories", "anchors": ["src/ipc-linux.h:kernel_get_device"]}
{"id": "C24", "title": "The userspace set request says exactly the update", "statement": "The text sent to a userspace implementation, read by the cross-platform protocol, describes exactly the update: same device fields, same peers in order, same flags, allowed IPs and endpoints, ended by an empty line, whatever the values.", "quantifier": "all device updates", "why_tests_cant": "unbounded updates; textual encoding of addresses and keys", "anchors": ["src/ipc-uapi.h:userspace_set_device"]}
{"id": "C25", "title": "The userspace get reply is parsed exactly", "statement": "For every device state, parsing the reply a conforming userspace implementation sends yields that device; a reply with a malformed line, number or key of a known name, a missing terminator or an errno other than 0 yields an error and no device (lines with unknown names are ignored).", "quantifier": "all device states; all reply byte streams", "why_tests_cant": "unbounded replies", "anchors": ["src/ipc-uapi.h:userspace_get_device"]}
{"id": "C26", "title": "syncconf ends with the peers of the file and does not disturb common ones", "statement": "After syncconf the peers of the interface are exactly those of the file, each with the file's allowed IPs, and a peer that is both on the interface and in the file is never removed on the way, so its session survives.", "quantifier": "all configuration files and all interface states", "why_tests_cant": "sorting and matching of two unbounded lists", "anchors": ["src/setconf.c:sync_conf", "src/setconf.c:pubkey_cmp", "src/setconf.c:setconf_main"]}
{"id": "C27", "title": "syncconf gives the same interface as setconf", "statement": "After syncconf the interface is what setconf of the same file would give, except that a peer that was already on the interface keeps those of its preshared key, keepalive and endpoint that the file does not mention.", "quantifier": "all configuration files and all interface states", "why_tests_cant": "history dependent: only stale state left from before shows it", "anchors": ["src/setconf.c:sync_conf", "src/config.c:process_line"]}
{"id": "C28", "title": "showconf output restores the interface", "statement": "Feeding the output of 'wg showconf' to 'wg setconf' on any interface reproduces the interface's private key, port, fwmark and all peers with preshared key, allowed IPs in order, endpoint and keepalive.", "quantifier": "all device states", "why_tests_cant": "unbounded states, composition of a printer and a parser", "anchors": ["src/showconf.c:showconf_main", "src/config.c:config_read_line"]}
{"id": "C29", "title": "show sorts peers and loses none", "statement": "'wg show' lists every peer exactly once, most recent handshake first and peers that never completed a handshake last.", "quantifier": "all peer lists with non-negative handshake times", "why_tests_cant": "all orders of an unbounded list; comparator must be a total preorder for qsort", "anchors": ["src/show.c:peer_cmp", "src/show.c:sort_peers"]}
{"id": "C30", "title": "Secrets are not shown unless asked for", "statement": "The human readable output of 'wg show' never contains a private or preshared key unless WG_HIDE_KEYS is 'never'; two devices differing only in secrets give the same output.", "quantifier": "all device states and environments", "why_tests_cant": "non-interference: relates all pairs of runs", "anchors": ["src/show.c:masked_key", "src/show.c:pretty_print"]}
{"id": "C31", "title": "Time and size pretty-printing is exact and fits its buffer", "statement": "The elapsed/interval text decomposes the number of seconds exactly into years, days, hours, minutes and seconds, with correct plurals and no zero units, and always fits its buffer; transfer sizes pick the right unit for every 64-bit count.", "quantifier": "all 64-bit times and counts", "why_tests_cant": "2^64 values", "anchors": ["src/show.c:pretty_time", "src/show.c:bytes"]}
{"id": "C32", "title": "Dump output is parseable", "statement": "Each line of 'wg show dump' has the documented number of tab separated fields and the device can be recovered from them, with (none) and off distinguished from values; with 'all' every line is prefixed with the interface name.", "quantifier": "all device states", "why_tests_cant": "unbounded states", "anchors": ["src/show.c:dump_print", "src/show.c:ugly_print"]}
{"id": "C33", "title": "Colour stripping removes exactly the colour codes", "statement": "When colours are off the printed text is the intended text with exactly the ANSI colour sequences removed, for any interleaving of text and escapes.", "quantifier": "all strings", "why_tests_cant": "unbounded strings", "anchors": ["src/terminal.c:filter_ansi"]}
{"id": "C34", "title": "Generated keys are clamped and never built from missing randomness", "statement": "genkey prints a key whose bits are clamped as Curve25519 demands and otherwise equal to the random bytes; genpsk prints the random bytes; if the source of randomness fails or returns short at any point no key is printed.", "quantifier": "all random byte strings and all sequences of read results", "why_tests_cant": "all interleavings of short reads and failures", "anchors": ["src/genkey.c:get_random_bytes", "src/genkey.c:genkey_main", "src/curve25519.h:curve25519_clamp_secret"]}
{"id": "C35", "title": "pubkey accepts one key and prints its public key", "statement": "'wg pubkey' succeeds iff standard input is one base64 key optionally followed by white space, and prints base64 of the Curve25519 public key of exactly that key.", "quantifier": "all inputs", "why_tests_cant": "unbounded inputs", "anchors": ["src/pubkey.c:pubkey_main"]}
{"id": "C36", "title": "Curve25519 field arithmetic is exact and does not overflow", "statement": "On every reachable limb representation, addition, subtraction, multiplication, squaring, scalar multiplication, inversion and final reduction never overflow their machine words and compute the field operations modulo 2^255-19; the serialised result is the canonical 32-byte representative.", "quantifier": "all field elements in all reachable unreduced representations", "why_tests_cant": "2^320 limb states; carry bugs occur with probability far below test reach", "anchors": ["src/curve25519-hacl64.h"]}
{"id": "C37", "title": "Public keys are RFC 7748 X25519", "statement": "The public key computed for a private key is the X25519 function of RFC 7748 applied to the clamped key and base point 9, for every 32-byte key (and every base point).", "quantifier": "all 2^256 scalars and points", "why_tests_cant": "2^256 inputs", "anchors": ["src/curve25519-hacl64.h:curve25519_generic", "src/curve25519.h", "src/curve25519.c"]}
{"id": "C38", "title": "Interface name lists survive their packing", "statement": "Listing interfaces returns exactly the names reported by kernel and userspace, in order, each NUL terminated, and growing the packed buffer never overruns or loses names, for any number and length of names.", "quantifier": "all sequences of names", "why_tests_cant": "unbounded sequences of appends at every buffer boundary", "anchors": ["src/ipc.c:string_list_add", "src/ipc.c:ipc_list_devices", "src/show.c:show_main"]}
{"id": "C39", "title": "Commands are dispatched and their exit status is honest", "statement": "wg runs exactly the named subcommand (show by default, help on request), an unknown one fails, and an exit status of 0 from set, setconf, addconf or syncconf means that the interface accepted the whole update.", "quantifier": "all argument vectors and all backend outcomes", "why_tests_cant": "all combinations of failures", "anchors": ["src/wg.c:main", "src/set.c:set_main", "src/setconf.c:setconf_main", "src/ipc.c:ipc_set_device"]}
{"id": "C40", "title": "wg-quick hands to wg exactly the lines that are not its own", "statement": "For every file, the configuration wg-quick gives to wg is the file with exactly the Address, MTU, DNS, Table, PreUp, PreDown, PostUp, PostDown and SaveConfig lines of [Interface] sections removed and everything else in order and verbatim up to white space at the ends of lines; values found in those lines are collected in order, DNS entries being split into addresses and search domains.", "quantifier": "all configuration files", "why_tests_cant": "unbounded files", "anchors": ["src/wg-quick/linux.bash:parse_options"]}
{"id": "C41", "title": "Saving a configuration is crash safe", "statement": "When wg-quick saves the running configuration, at every crash point the configuration file has either its complete old or its complete new contents, and the secrets it holds are never readable by others.", "quantifier": "all contents and all crash points", "why_tests_cant": "every crash point between system calls", "anchors": ["src/wg-quick/linux.bash:save_config"]}
{"id": "C42", "title": "A failed wg-quick up tears the interface down", "statement": "If any step of bringing the interface up fails after it was created, the interface is deleted again and the failure is reported; hooks run in the documented order with %i replaced by the interface name everywhere.", "quantifier": "all failure points and all hook lists", "why_tests_cant": "every failure point", "anchors": ["src/wg-quick/linux.bash:cmd_up", "src/wg-quick/linux.bash:del_if", "src/wg-quick/linux.bash:execute_hooks"]}
{"id": "C43", "title": "wg-quick picks an unused routing table", "statement": "With an automatic table the default route goes to the first table number from 51820 upwards that has no routes, whichever tables are in use, and an fwmark already configured is kept.", "quantifier": "all sets of tables in use", "why_tests_cant": "unbounded search", "anchors": ["src/wg-quick/linux.bash:add_default", "src/wg-quick/linux.bash:get_fwmark"]}
{"id": "C44", "title": "Interface names cannot escape the socket directory", "statement": "For every interface name and every answer of the system, the paths looked at, connected to or removed for a userspace implementation lie directly in the runtime directory and belong to that interface; nothing is removed but a socket that has just refused a connection; no descriptor is leaked; an interface is served by userspace exactly when its socket is there and does not refuse.", "quantifier": "all names, all sequences of answers of the operating system", "why_tests_cant": "every name and every interleaving of answers matters", "anchors": ["src/ipc-uapi-unix.h:userspace_interface_file", "src/ipc-uapi-unix.h:userspace_has_wireguard_interface", "src/ipc.c:ipc_get_device"]}
{"id": "C45", "title": "A change is addressed to the interface that was named", "statement": "set, setconf, addconf and syncconf change the interface whose name was given and no other, or fail.", "quantifier": "all interface names", "why_tests_cant": "must hold for every name; names of 16 characters and more are silently cut to 15, so another interface can be changed (proved as a refutation)", "anchors": ["src/set.c:set_main", "src/setconf.c:setconf_main"]}
{"id": "C46", "title": "wg-quick adds a route for every allowed IP", "statement": "Bringing an interface up asks for the allowed IPs of its peers and adds one route for each of them, the most specific first: none if Table is 'off', all to the named table if Table names one, and otherwise default routes by policy routing and the others to the main table unless the interface has a matching route already.", "quantifier": "all devices, all behaviours of the programs run", "why_tests_cant": "unbounded lists of routes, composition of a printer, a pattern and sort", "anchors": ["src/wg-quick/linux.bash:cmd_up", "src/wg-quick/linux.bash:add_route", "src/show.c:ugly_print"]}
{"id": "C47", "title": "wg-quick sets the configured MTU, or 80 below the path to the endpoints", "statement": "The MTU given to the interface is the configured one verbatim; else it is 80 less than the largest MTU of the routes to the peers' endpoints (or of the device of such a route), else 80 less than that of the default route, else 1420.", "quantifier": "all endpoints, all answers of ip", "why_tests_cant": "unbounded lists of endpoints and arbitrary program output", "anchors": ["src/wg-quick/linux.bash:set_mtu_up", "src/show.c:ugly_print"]}
{"id": "C48", "title": "Firewall cleanup removes exactly this interface's rules", "statement": "Taking an interface down deletes exactly the nftables tables named after it and exactly the iptables rules carrying its comment, each in its own table, and the rules installed when the interface was brought up are among those.", "quantifier": "all firewall states", "why_tests_cant": "unbounded rule sets, all interface names", "anchors": ["src/wg-quick/linux.bash:remove_firewall", "src/wg-quick/linux.bash:add_default"]}
{"id": "C49", "title": "wg-quick down undoes what up did, in order", "statement": "Taking down an interface that wg does not list changes nothing and fails. Otherwise the commands run are, in this order, the PreDown hooks, saving if asked for, the removal of routing rules, the removal of the interface, of its DNS servers and firewall rules, and the PostDown hooks; the first failure stops it (save one of the DNS or firewall cleanup). With a default route, exactly the routing rules leading to the interface's table and those hiding the default routes of the main table are removed, the search for them ends, and none of these removals fails.", "quantifier": "all configurations, all behaviours of the programs run, all rule databases", "why_tests_cant": "every failure point and an unbounded loop against an external state", "anchors": ["src/wg-quick/linux.bash:cmd_down", "src/wg-quick/linux.bash:del_if"]}
{"id": "C50", "title": "A saved configuration restores the interface", "statement": "When wg-quick saves (wg-quick save, or wg-quick down with SaveConfig), the file it writes, read by wg-quick again, yields exactly the addresses the interface had, the name servers the resolver had for it, its MTU if one was configured, the unchanged table, hooks and SaveConfig setting, and hands wg a configuration that sets up the keys, ports, marks and peers the interface had.", "quantifier": "all interfaces, addresses, resolver states, configurations and interface states", "why_tests_cant": "unbounded text produced by other programs is cut up, reassembled and parsed again", "anchors": ["src/wg-quick/linux.bash:save_config", "src/wg-quick/linux.bash:parse_options", "src/showconf.c:showconf_main"]}
{"id": "C51", "title": "Converting keys does not leak them", "statement": "Writing a key as base64 or hex, reading it back and testing it for zero take the same branches and touch the same array elements in the same order whatever the key is (when reading: whatever the text is, given its length and, for base64, whether it is padded), never run into undefined behaviour, and compute exactly the results stated in C01 to C04.", "quantifier": "all keys, all texts, both signednesses of char", "why_tests_cant": "two runs on different secrets have to be compared, for all pairs of secrets", "anchors": ["src/encoding.c:key_to_base64", "src/encoding.c:key_from_base64", "src/encoding.c:key_to_hex", "src/encoding.c:key_from_hex", "src/encoding.c:key_is_zero"]}
{"id": "C52", "title": "DNS records and what a failed wg-quick up takes back", "statement": "Every resolvconf command of 'wg-quick up' is preceded by a look at /etc/resolvconf/interface-order and adds or deletes the record named prefix+interface, where the prefix is the first line of that file of the form NAME* followed by a dot (nothing if there is no such line), with exactly the configured servers and search domains. If 'up' fails or is interrupted after registering a record, that same record is deleted before it ends (unless the cleanup is interrupted too); if it fails after loading firewall rules, it goes through the nft tables and iptables rules and removes what is the interface's (unless the cleanup is interrupted or one of its own commands fails).", "quantifier": "all configurations, all answers of the system to every command, all failures and signals at any command", "why_tests_cant": "the failure may come at any command, and the cleanup depends on what was noted before it", "anchors": ["src/wg-quick/linux.bash:set_dns", "src/wg-quick/linux.bash:unset_dns", "src/wg-quick/linux.bash:resolvconf_iface_prefix", "src/wg-quick/linux.bash:remove_firewall", "src/wg-quick/linux.bash:del_if", "src/wg-quick/linux.bash:cmd_up"]}
{"id": "C53", "title": "Public key derivation is X25519 and does not leak the private key", "statement": "The X25519 scalar multiplication behind 'wg pubkey' and the public keys shown by wg (the 64-bit implementation) takes the same branches and touches the same array elements in the same order whatever the private key, the base point and the previous contents of its stack are; every call ends, without undefined behaviour, also when the result overwrites the private key; on return the output holds X25519 of the two as RFC 7748 defines it, and its copies of the clamped private key, of the resulting point and of the base point are zeros.", "quantifier": "all private keys, base points and contents of uninitialised memory", "why_tests_cant": "two runs on different secrets have to be compared, for all pairs of secrets; a test cannot see a branch that rarely differs", "anchors": ["src/curve25519-hacl64.h:curve25519_generic", "src/curve25519-hacl64.h:ladder_cmult", "src/curve25519-hacl64.h:point_swap_conditional", "src/curve25519.h:curve25519_clamp_secret", "src/pubkey.c:pubkey_main"]}
{"id": "C54", "title": "Opening the netlink socket", "statement": "Opening the generic netlink socket for the WireGuard family asks the kernel exactly one question, the lookup of the family's name, and uses the number the kernel gives, whatever other attributes come with it and however the answer is cut into datagrams. Whatever fails (memory, socket, bind, sending, the kernel's verdict), the caller gets no socket and the errno of the first failure (a missing family as 'protocol not supported'), and everything acquired so far has been released exactly once and not used afterwards.", "quantifier": "all system call results, all kernel answers, all ways of cutting them into datagrams", "why_tests_cant": "every failure point and every answer of the kernel has to be considered", "anchors": ["src/netlink.h:mnlg_socket_open", "src/netlink.h:mnlg_socket_close", "src/netlink.h:mnl_socket_open", "src/netlink.h:mnl_socket_bind", "src/netlink.h:mnl_socket_close", "src/netlink.h:get_family_id_cb", "src/netlink.h:get_family_id_attr_cb"]}
{"id": "C55", "title": "Reading and updating an interface, from the first system call on", "statement": "From an arbitrary state of the system: reading an interface looks up the family, asks for that interface at the number found, and returns what the kernel describes; updating applies exactly the requested update, by 'set device' messages addressed to that number; if the socket cannot be opened, nothing is sent and the interface stays as it was. However the call ends and however often a read is repeated, all sockets and buffers are released once and no device is left allocated except the one handed out.", "quantifier": "all system call results at every repetition, all interfaces and updates, all dumps and their fragmentations", "why_tests_cant": "composition of unboundedly many repetitions, messages and failures", "anchors": ["src/ipc-linux.h:kernel_get_device", "src/ipc-linux.h:kernel_set_device", "src/netlink.h:mnlg_socket_open", "src/netlink.h:mnlg_socket_close"]}
{"id": "C56", "title": "The OpenBSD kernel", "statement": "On OpenBSD, an update is one ioctl whose block of memory, read by the documented layout, asks for exactly the update described by the device and nothing else; no byte outside the block is touched; the result is 0 exactly if the kernel has carried it out. Reading asks until the stated size fits, however the interface changes meanwhile, and returns exactly the interface the last answer describes (except IPv6 endpoints, which the code drops), or a negative errno and no device. The interfaces listed are the members of the group 'wg' (also FreeBSD).", "quantifier": "all devices that fit into memory, all kernel answers and their changes between calls, all failures of allocations", "why_tests_cant": "layout of structures of unbounded size, and interleavings with changes of the interface", "anchors": ["src/ipc-openbsd.h:kernel_set_device", "src/ipc-openbsd.h:kernel_get_device", "src/ipc-openbsd.h:kernel_get_wireguard_interfaces", "src/ipc-freebsd.h:kernel_get_wireguard_interfaces", "src/uapi/openbsd/net/if_wg.h"]}
{"id": "C57", "title": "The Windows driver", "statement": "On Windows, an update of a device without a mark is one ioctl whose block of memory, read by the layout of the driver's header, asks for exactly the update the device describes and nothing else; no byte outside the block is touched; the result is 0 exactly if the driver has carried it out; blocks of 2^32 bytes or more are refused with EOVERFLOW and nothing is sent; the handle is closed. Reading asks until the stated size fits, however the interface changes meanwhile, and returns exactly the interface the last answer describes, or a negative errno and no device.", "quantifier": "all devices, all driver answers and their changes between calls, all failures of allocations", "why_tests_cant": "layout of structures of unbounded size, overflow of sizes, and interleavings with changes of the interface", "anchors": ["src/ipc-windows.h:kernel_set_device", "src/ipc-windows.h:kernel_get_device", "src/uapi/windows/wireguard.h"]}
{"id": "C58", "title": "Finding interfaces on Windows", "statement": "Listing gives exactly the names of the running devices of the driver, in order (and, for the userspace implementation, of the pipes with the known prefix); opening an interface opens the network interface of the first device with exactly that name, or, after a listing, of a device that had exactly that name in it, and otherwise fails with ENOENT or EACCES; a pipe is used only if it has exactly the name of the interface and is owned by the system, and is closed otherwise; the table behind the caches is a finite map whatever the keys hash to.", "quantifier": "all sets of devices, names, pipes and owners; all histories of the table; all failing calls and allocations", "why_tests_cant": "histories of unbounded length and hash collisions; a security check that must hold for every owner", "anchors": ["src/ipc-windows.h:kernel_get_wireguard_interfaces", "src/ipc-windows.h:kernel_interface_handle", "src/ipc-uapi-windows.h", "src/wincompat/include/hashtable.h"]}
{"id": "C59", "title": "getline and strsep on Windows", "statement": "The project's own getline for Windows returns exactly the lines of the stream, one by one, each terminated, and never writes outside its buffer, whatever their lengths; a final line without a newline is returned too; a read error gives -1. Its strsep splits a string in place into exactly the fields between separators and changes nothing else.", "quantifier": "all streams, line lengths, buffers left by earlier calls, allocation results; all strings and separators", "why_tests_cant": "boundaries between the growing buffer and lines of every length", "anchors": ["src/wincompat/libc.c:strsep", "src/wincompat/libc.c:getdelim", "src/wincompat/libc.c:getline"]}
{"id": "C60", "title": "On FreeBSD, updates say what was asked and interfaces are read exactly", "statement": "An update is handed to the FreeBSD kernel as exactly one name/value list that asks for exactly the change, or, if any allocation fails, not at all and with an error; with an obedient kernel 0 is returned iff the change was made, completely. Reading returns exactly the interface the kernel describes, an error if it has outgrown the room meanwhile or memory runs out, and for any list with whole addresses either a device within the bounds of its types or an error and no device, without reading outside of the list.", "quantifier": "all devices, all patterns of allocation failures, all kernel answers and changes between the two calls", "why_tests_cant": "every allocation may fail independently; all name/value lists", "anchors": ["src/ipc-freebsd.h:kernel_set_device", "src/ipc-freebsd.h:kernel_get_device"]}
{"id": "C61", "title": "The 32-bit X25519 implementation computes the same keys", "statement": "On machines without 128-bit integers, where curve25519-fiat32.h is compiled instead of curve25519-hacl64.h, curve25519() is X25519 of RFC 7748 for every 32-byte scalar and base point; it therefore returns the same bytes as the 64-bit implementation, and 'wg pubkey' the same public key. Its field operations on ten 26/25-bit limbs never lose a carry for any operands the ladder can produce: sums and differences are limb-wise exact, products, squares, multiplication by 121666 and inversion denote the right field element and leave limbs in the class the next operation needs, the conditional swap is a swap, and serialisation gives the smallest representative.", "quantifier": "all 32-byte secrets and base points, all limb vectors in the stated bounds, any number of ladder rounds and of repeated squarings", "why_tests_cant": "Carry bugs in such code hit with probability around 2^-60 and below; test vectors do not reach them.", "anchors": ["src/curve25519-fiat32.h: fe_frombytes_impl, fe_freeze, fe_tobytes, fe_add_impl, fe_sub_impl, fe_mul_impl, fe_sqr_impl, fe_loose_invert, fe_cswap, fe_mul_121666_impl, curve25519_generic", "src/curve25519.c: curve25519_generate_public"]}
{"id": "C62", "title": "wg-quick does what its command line asks, on the file and interface it names", "statement": "wg-quick accepts exactly 'up', 'down', 'save' or 'strip' with one argument; anything else prints the usage, fails and runs nothing, and help succeeds. For users other than root it starts over under sudo with exactly the same arguments. An interface name stands for /etc/wireguard/NAME.conf, anything else for itself; the interface is the one the argument names, the configuration is read from (and saved to) the file at the end of symbolic links. Without an existing, properly named, openable and acceptable file the script exits with status 1 before running anything. A successful uninterrupted 'up' has applied what the lines of that file say, in the documented order, to a newly created interface. 'strip' only writes the lines that are not wg-quick's own, from which wg reads the same configuration. The warning about access is given exactly if file and directory share a permission for others.", "quantifier": "all argument lists, user ids, file systems (existence, link targets, modes, contents), file contents without NUL, and answers of the programs run", "why_tests_cant": "Any argument string and any state of the file system; the composition of reading and running.", "anchors": ["src/wg-quick/linux.bash: parse_options, auto_su, cmd_strip, main dispatch (lines 363-389)"]}
{"id": "C63", "title": "On the BSDs and macOS the host routes to the endpoints follow the gateway and are taken away again", "statement": "When the default route goes through the tunnel, wg-quick on FreeBSD, OpenBSD and macOS keeps a host route to every endpoint whose family is routed that way, by the gateway netstat reports for the default route, or into a black hole if there is none. After the first call and any number of route events the host routes in the kernel are exactly those of before and these, for the endpoints and gateways reported last; endpoints that are no longer reported lose their route. A round that is told nothing new runs no route command, so the monitor does not answer its own events. When the interface is gone or the monitor ends, the host routes are those of before, except those netstat says go by the interface. The endpoints seen are those of the peers, where they have no scope. Not true, and refuted: only addresses of the right family are handed to route; host routes of the user's own to an endpoint survive; a signal in the middle of a round leaves nothing behind; a route that could not be added is tried again.", "quantifier": "all outputs of netstat and wg (any text), all answers, all sequences of route events, all initial routing tables, all interface names", "why_tests_cant": "Any sequence of events and any text the commands print; the property is about the history of the routing table over all rounds.", "anchors": ["src/wg-quick/freebsd.bash: collect_gateways, collect_endpoints, set_endpoint_direct_route, monitor_daemon, del_routes", "src/wg-quick/openbsd.bash: the same functions", "src/wg-quick/darwin.bash: the same functions"]}
{"id": "C64", "title": "On FreeBSD wg-quick up, down and save do the documented steps in order and take them back on failure", "statement": "'wg-quick up' on FreeBSD refuses if the interface is there. Otherwise it creates it (by the kernel, else by the userspace implementation) and runs, in this order: PreUp hooks with %i replaced, wg setconf with the configuration, one alias per address, the MTU (the configured one, else 80 less than the largest MTU of the interfaces by which the endpoints are reached), ifconfig up, resolvconf with the DNS servers and search domains, the routes for the allowed IPs (none if Table is off, into the named table, two half routes for a default route, otherwise only those not through the interface already), the host routes to the endpoints when a default route goes through the tunnel, the route monitor and the PostUp hooks. Status 0 means that all that happened and succeeded. If a step fails or a signal arrives, at any point, the DNS servers are unregistered if and only if they had been registered, the interface is removed, the host routes are deleted and the temporary directory is removed, and the status is that of the failure. 'down' runs the PreDown hooks, saves if asked, removes the interface, unregisters DNS, runs the PostDown hooks; 'save' writes the addresses netstat shows, the DNS servers resolvconf knows and the settings of the old file in front of what wg showconf says, by way of a temporary file which a failure removes. The command line takes exactly these verbs with one argument; an interface name stands for /etc/wireguard or else /usr/local/etc/wireguard; strip prints the file without the lines wg does not know. Not true, and refuted: an interface whose name is taken makes up fail; the MTU of the default route is used; a name is compared literally; a failing step of the clean-up does not stop the rest of it; PostDown hooks run although resolvconf fails; a signal during resolvconf -a leaves no DNS server registered; save keeps prefix lengths and search domains; down works if netstat is silent.", "quantifier": "all option sets, all answers of the programs run, all points of failure and signals, all histories before, all interface names, arguments and files", "why_tests_cant": "The order and the taking back must hold at every failure point and for every text the programs print.", "anchors": ["src/wg-quick/freebsd.bash: make_temp, clean_temp, parse_options, auto_su, add_if, del_if, del_routes, up_if, add_addr, set_mtu, set_dns, unset_dns, add_route, set_config, save_config, execute_hooks, cmd_usage, cmd_up, cmd_down, cmd_save, cmd_strip"]}
{"id": "C65", "title": "The 32-bit scalar multiplication, as it is written, computes X25519 and its time and memory accesses do not depend on the private key", "statement": "The curve25519 compiled where there is no 128-bit integer makes, for every private key, point and previous contents of its memory, the same branches and the same array accesses in the same order; every call ends without undefined behaviour (no out-of-range index, shift or signed overflow), leaves X25519 of RFC 7748 in the output, also when the output is the array of the secret, and overwrites its copy of the secret and the eight field elements of the ladder by zeros.", "quantifier": "all private keys, points, output buffers and contents of the local arrays; char signed or not", "why_tests_cant": "Two runs being indistinguishable ranges over pairs of 2^256 secrets; definedness over all intermediate values.", "anchors": ["src/curve25519-fiat32.h: curve25519_generic, fe_frombytes_impl, fe_tobytes, fe_freeze, fe_add_impl, fe_sub_impl, fe_mul_impl, fe_sqr_impl, fe_mul121666, fe_loose_invert, fe_cswap, cmovznz32, addcarryx_u25, subborrow_u25", "src/curve25519.h: curve25519_clamp_secret", "src/pubkey.c: pubkey_main"]}
{"id": "C66", "title": "On OpenBSD wg-quick up, down and save do the documented steps in order and take them back on failure or signals", "statement": "'wg-quick up' on OpenBSD refuses if ifconfig lists a WireGuard interface described as \"wg-quick: NAME\". Otherwise it creates one under the first wgN that is not in use (again if another process takes that number first) and runs, in this order: PreUp hooks, wg setconf with the configuration, one alias per address, the MTU, ifconfig up, DNS (a copy of /etc/resolv.conf, the search domains, the name servers; only if unwind or resolvd is running), the routes for the allowed IPs (none if Table is off, into the named table, two half routes for a default route, otherwise only those not through the interface already), each by the interface's first address of the family, the host routes to the endpoints when a default route goes through the tunnel, the route monitor and the PostUp hooks. Status 0 means that all that happened and succeeded. If a step fails, a route has no address to go by, or a signal arrives, at any point and also while taking back, what had been done is taken back up to the next failure or signal: /etc/resolv.conf if there is a copy, the interface, the routes. 'down' runs the PreDown hooks, saves if asked, puts /etc/resolv.conf back, destroys the interface and runs the PostDown hooks; 'save' writes the addresses netstat shows and the settings of the old file in front of what wg showconf says, by way of a temporary file, which is removed if a failure or a signal stops it while the file is being replaced. The command line takes exactly these verbs with one argument; other users than root go through doas; strip prints the lines wg is to read.", "quantifier": "all option sets, all answers of the programs run (any status, any text, a signal during any of them, any number of signals), all histories before, all interface names, arguments and files", "why_tests_cant": "The order and the taking back must hold at every failure point, with signals at every command, and for every text the programs print.", "anchors": ["src/wg-quick/openbsd.bash: parse_options, auto_su, get_real_interface, add_if, del_routes, del_if, up_if, add_addr, set_mtu, set_dns, unset_dns, add_route, set_config, save_config, execute_hooks, cmd_usage, cmd_up, cmd_down, cmd_save, cmd_strip"]}
{"id": "C67", "title": "On macOS wg-quick gives every network service back the DNS settings it had", "statement": "On macOS wg-quick sets the DNS servers and search domains of every network service, again and again while the tunnel is up, and puts them back at the end. However often it has set them, whatever services have come meanwhile, wherever it was stopped by a failing command or a signal, and however often putting back failed or was interrupted: once putting back succeeds, every service that, after it was first listed, was in every list has exactly the servers and search domains it had at first. When setting has succeeded, every listed service (disabled ones too) has the configuration's servers and search domains and no other service is changed. Whatever the programs answer, no service is changed that was not listed before.", "quantifier": "all numbers and histories of set_dns runs and of failed or interrupted attempts to put back, all lists of services, all settings, all answers and failures of networksetup, all orders in which bash may go through an associative array", "why_tests_cant": "The property is about whole lifetimes: any number of rounds, services that come and go, failures and signals at any command.", "anchors": ["src/wg-quick/darwin.bash: collect_new_service_dns, set_dns, del_dns, SERVICE_DNS, SERVICE_DNS_SEARCH"]}
{"id": "C68", "title": "On macOS wg-quick up, down and save do the documented steps in order and take them back on failure or signals", "statement": "'wg-quick up' on macOS refuses if the interface is up, that is, if /var/run/wireguard/NAME.name names an interface whose socket was made within two seconds of that file. Otherwise it starts the userspace implementation, looks the interface up the same way, and runs, in this order: PreUp hooks, wg setconf with the configuration, one alias per address, the MTU (80 less than that of the default route's device, else 1420), ifconfig up, the routes for the allowed IPs (none if Table is off, two half routes for a default route, otherwise only those not through the interface already), the host routes to the endpoints when a default route goes through the tunnel, DNS for every network service, the route monitor and the PostUp hooks. Status 0 means that all that happened and succeeded. If a step fails, a routing table other than main or a nameless network service is met, or a signal arrives, at any point and also while taking back, the socket (whose removal ends the implementation), the name file and the routes are removed, up to the next failure or signal; as long as the interface's name is not known only the name file is. 'down' runs the PreDown hooks, saves if asked, removes socket and name file and runs the PostDown hooks; 'save' writes the addresses ifconfig shows and the settings of the old file in front of what wg showconf says, by way of a temporary file, which is removed if a failure or a signal stops it while the file is being replaced. The command line takes exactly these verbs with one argument; other users than root go through sudo; strip prints the lines wg is to read.", "quantifier": "all option sets, all answers of the programs run (any status, any text, a signal during any of them, any number of signals), all histories before, all interface names, arguments and files, all orders in which bash may go through an associative array", "why_tests_cant": "The order and the taking back must hold at every failure point, with signals at every command, and for every text the programs print.", "anchors": ["src/wg-quick/darwin.bash: parse_options, detect_launchd, auto_su, get_real_interface, add_if, del_routes, del_if, up_if, add_addr, set_mtu, add_route, set_config, save_config, execute_hooks, cmd_usage, cmd_up, cmd_down, cmd_save, cmd_strip"]}
{"id": "C69", "title": "On Android, IncludedApplications and ExcludedApplications decide exactly whose traffic uses the tunnel", "statement": "For every comma-separated list of application names and every list of installed applications, wg-quick adds to the tunnel's network exactly the user ids of the installed applications listed (IncludedApplications), or exactly the user ids from 0 to 99999 that belong to none of the applications listed (ExcludedApplications; if no listed application has the user id 99998 or more), or all from 0 to 99999 (neither), in commands of at most 18 ranges each; both settings together are refused. It reads and writes only its own objects.", "quantifier": "all lists of names, all files of installed applications (with distinct names), all network ids, both widths of unsigned long; for the failures, all memory behind the list", "why_tests_cant": "The ranges between excluded ids, the grouping of commands and the bounds of the arrays must be right for every list and every set of installed applications.", "anchors": ["src/wg-quick/android.c: set_users, get_uid_list, compare_uid, concat_and_free"]}
{"id": "C70", "title": "On Android, configuration files are split exactly into wg-quick's settings and wg(8)'s configuration", "statement": "For every configuration file without a line over 65536 bytes, the addresses, DNS entries and application lists used are exactly the values given for those keys (any case, any white space) in [Interface] sections, in order and comma-separated, the MTU is the last one given, and wg(8) gets exactly the other lines, unchanged and in order. The interface's name always consists of 1 to 15 permitted characters; a file DIR/NAME.conf with such a NAME is interface NAME, and a bare NAME means the first of the two search directories that has NAME.conf.", "quantifier": "all file contents, file systems, arguments", "why_tests_cant": "Every text is a possible configuration file.", "anchors": ["src/wg-quick/android.c: parse_options, concat_and_free"]}
{"id": "C71", "title": "On Android, addresses and DNS entries reach the commands whole, in order, and as nothing but arguments", "statement": "For every DNS setting of up to 65536 bytes the servers and search domains used are its entries (separated by commas and white space, those with a quote or backslash left out), each in the right list and in order; the six buffers and arrays never overflow; without a server nothing is set. The command for ndc, as the shell splits it, has each server as one argument, whatever it consists of (the search domains only if the shell leaves their characters alone). Each address becomes exactly the documented commands with exactly these words.", "quantifier": "all texts of the two settings, all interface names, network ids, prefix lengths", "why_tests_cant": "A configuration file is untrusted text that becomes commands run by root; the buffers' sizes are computed from its length.", "anchors": ["src/wg-quick/android.c: set_dnses, set_addr, add_addr"]}
{"id": "C72", "title": "On Android, what is taken down belongs to the interface, and what is set up follows from the peers and the default route", "statement": "For an interface name without '.' and '+', of all the rules iptables-save prints exactly those with this interface's wg-quick comment are deleted, whole, each once; the network destroyed is that of the first rule whose network name begins with the interface's, with its number, or none if there is none. IPv6 is blocked exactly if some peer has an endpoint and none has an IPv6 endpoint. Every allowed IP of every peer becomes one route of the network, in order, and nothing else does. The MTU set is the configured one, or 80 less than that of the default route (or its device); the port is that which wg prints, 0 for none.", "quantifier": "all interface names, all outputs of iptables-save, ip rule, ip route, ip link and wg of the documented shape, of any number of lines", "why_tests_cant": "The matching is done by regular expressions into which the interface's name is put, over outputs of any length that also describe other interfaces.", "anchors": ["src/wg-quick/android.c: del_if, should_block_ipv6, determine_listen_port, get_route_mtu, set_mtu, add_route, set_routes"]}
{"id": "C73", "title": "On Android, bringing an interface up is all or nothing, and taking it down removes what belongs to it and nothing else", "statement": "For every reply of every program: up succeeds only if the interface did not exist and each of its commands succeeded; then exactly the documented commands were run, in order, with a fresh even network number from 4096 to 65534, and the configuration was given to wg alone. If it does not succeed, nothing was done (the interface existed) or what was done is followed by a complete teardown, whichever of its commands fail. Down does nothing unless wg lists an interface of exactly this name; it succeeds only if every command of the teardown did. After a teardown the firewall's rules are those that were not added for the interface, unchanged and in their order; the rules up inserts are such as are deleted.", "quantifier": "all outputs and exit statuses of all programs (which may depend on everything done before), all settings, all firewalls of any number of rules", "why_tests_cant": "The failure can be at any of the commands, whose number depends on the configuration, and in the cleanup as well; other interfaces' rules are in the same lists.", "anchors": ["src/wg-quick/android.c: cmd, cndc, add_if, del_if, determine_listen_port, up_if, set_config, broadcast_change, cmd_up_cleanup, cmd_up, cmd_down"]}
{"id": "C74", "title": "On Windows only the system's own libraries are loaded, and escape sequences are written only where they are understood", "statement": "Whatever libraries lie in other directories, the first call of a function of a delay-loaded library calls the one of the system directory's library, and the program ends if there is none; the program does not go on if the search for libraries cannot be restricted. If the console cannot be switched to interpreting escape sequences and the user has not set WG_COLOR_MODE, none are written; a mode the user has set is respected; otherwise the console's mode only gains that flag. Windows 7 is recognised exactly by a version up to 6.1.", "quantifier": "all contents of all directories, all libraries and functions, all versions, console modes and values of WG_COLOR_MODE", "why_tests_cant": "The attack is a file in a directory the tests do not have; the console's replies depend on the machine.", "anchors": ["src/wincompat/loader.c: delayed_load_library_hook", "src/wincompat/init.c: init", "src/terminal.c: color_mode"]}
{"id": "C75", "title": "On Android the command line leads to exactly the commands of the file, and no secret of it is on a command line", "statement": "wg-quick up NAME as root, if it succeeds, starts by adding the interface NAME and by giving wg, on its input and not on its command line, exactly what the first configuration file found has for wg; then only commands without input follow, exactly those that the file's addresses, DNS servers, MTU and applications call for (C69 to C73); all of them succeeded. Two configurations that differ only in what is for wg (keys, peers) lead to the same commands, whether it succeeds or fails, as long as the system replies alike. Another user than root runs nothing: the program becomes su with the same arguments. help, --help and -h alone print how it is used with status 0, everything else that is not up or down with one argument ends with status 1.", "quantifier": "all configuration files, names, argument lists, users and replies of the system", "why_tests_cant": "A secret that reaches a command line shows in the list of processes of a run with the right values only; the replies and files are unbounded.", "anchors": ["src/wg-quick/android.c: main", "src/wg-quick/android.c: auto_su", "src/wg-quick/android.c: cmd_up", "src/wg-quick/android.c: set_config"]}
