# wireguard-tools in Rocq: design

Sources: `/repo/src` at the pinned commit, read as text. Everything lives in `rocq/theories` (logical name `Verif`). Coq 8.16.1, standard library
only: no mathcomp, std++ or other library is imported by any file.

## Approach

* Bytes are `Z` in 0..255, C strings are `list Z` without NUL, buffers are `list Z`. C integer arithmetic is written out with explicit
  wrap-around (`mod 2^n`) wherever a value can leave its range. Where an operation would be undefined behaviour the model has a distinct outcome
  and a theorem shows it unreachable, or a `_refuted` theorem exhibits it.
* Control flow follows the source function by function; each definition cites the file and lines it models. Loops are structural recursion on the data
  they consume, or have fuel together with a theorem that the fuel suffices.
* External parties are parameters (arbitrary unless a theorem says otherwise): the resolver (a stream of getaddrinfo outcomes), random sources
  (streams of read results), the kernel's netlink answers (bytes), the userspace daemon's answers (bytes), and for wg-quick every program run: a
  *system* is any function from the history of commands run so far, with their answers, to the next answer (exit status, output, signal or none).
* What those parties *mean* is specified in separate `*Spec.v` files: RFC 4648 tables, RFC 7748 pseudo code, the netlink wire format, an abstract
  kernel applying messages, the cross-platform text protocol, a disk with crash points, nft and iptables-restore, the rule database of ip.
* Three layers per area: `X.v` (model), `XSpec.v` (independent vocabulary for the statements), `XProofs*.v` (lemmas), and `Prop*.v` with the theorems
  named after the property (`C07_...`) followed by concrete cases meeting their hypotheses (`..._case`).
* `_refuted` theorems record claims a user may expect and the code does not keep, with a concrete execution. They are listed below.

## The properties

| id | property | model files | specification | method | theorems in |
|----|----------|-------------|---------------|--------|-------------|
| C01 | Base64 key text round-trips and is RFC 4648 | Encoding | EncodingSpec (RFC 4648 table) | sweep of 64 digits and all bytes by computation, induction over groups | PropEncoding |
| C02 | Base64 key reader accepts exactly the canonical encodings | Encoding | EncodingSpec | reader = inverse of the writer on exactly the canonical texts | PropEncoding |
| C03 | Hex key text round-trips and accepts exactly 64 hex digits | Encoding | EncodingSpec | case analysis on digits, induction | PropEncoding |
| C04 | Zero-key test and character classes are exact | Encoding, Ctype | - | fold of or; sweep over -128..255 | PropEncoding |
| C05 | Comments, blanks and keyword case are irrelevant in a configuration file | Config | ConfigSpec (edit_bytes) | every edit step preserves the reading of every suffix | PropConfig |
| C06 | A configuration is accepted only if every line is recognised in its section | Config, Wg | ConfigSpec (reads: grammar of a file), NumSpec | the reader accepts iff the relational grammar does; induction over lines | PropConfig, PropCommands |
| C07 | The device read from a file is what its lines say | Config | ConfigSpec (groups) | invariant over lines | PropConfig |
| C08 | Every peer sent to the interface names a public key | Config | ConfigSpec | invariant over lines | PropConfig |
| C09 | setconf resets what the file does not mention, addconf leaves it alone | Config | ConfigSpec | from the grammar | PropConfig |
| C10 | FwMark values are exact | Config, Cstr | NumSpec | strtoul with saturation, induction over digits | PropConfig |
| C11 | PersistentKeepalive values are exact | Config, Cstr | NumSpec | as C10 | PropConfig |
| C12 | AllowedIPs lists are parsed entry by entry without loss | Config, Inet | ConfigSpec, NumSpec | strsep, inet_pton/ntop inversion | PropConfig |
| C13 | The host-part warning is exact | Config | - | Z.testbit | PropConfig |
| C14 | Endpoints are split at the right place | Endpoint | NumSpec, statement | pointer positions on lists | PropConfig |
| C15 | Name resolution retries are bounded and stop at permanent errors | Endpoint | statement | resolver answers as an arbitrary stream; induction on attempts | PropConfig |
| C16 | Key files are read exactly | Config | statement | arbitrary file contents, byte by byte | PropConfig |
| C17 | wg set arguments are applied exactly or rejected | Config | ConfigSpec (command words) | induction over argv | PropConfig |
| C18 | Netlink updates fit their buffer and always make progress | Nl, NlSet | NlSpec | byte exact sizes, the goto structure as a state machine, measure on what remains | PropNetlink |
| C19 | Fragmentation of a netlink update is invisible | Nl, NlSet | KernelSpec (abstract kernel) | simulation: fragments applied in turn = the whole applied once | PropNetlink |
| C20 | A failed netlink update is reported and leaves a prefix | NlSet, NlRun | KernelSpec | induction over messages sent | PropNetlink |
| C21 | Netlink attributes round-trip and are parsed inside the message | Nl | NlSpec | TLV round trip by induction; bounds by fuel induction | PropNetlinkGet |
| C22 | A dump split over many netlink messages is reassembled | NlGet | NlGetSpec | induction on parts and on peers split across them | PropNetlinkGet |
| C23 | Reading an interface retries on interruption and never returns half a device | NlGet, NlRun | NlGetSpec | case analysis of every failure point | PropNetlinkGet |
| C24 | The userspace set request says exactly the update | Uapi | UapiSpec (the documented text protocol) | printed text parsed by the specification | PropUapi |
| C25 | The userspace get reply is parsed exactly | Uapi | UapiSpec | line grammar; induction over lines | PropUapi |
| C26 | syncconf ends with the peers of the file and does not disturb common ones | Setconf | SyncSpec, KernelSpec | merge of two sorted lists; effect on the abstract kernel | PropSync |
| C27 | syncconf gives the same interface as setconf | Setconf | SyncSpec | as C26, counterexample for the stronger claim | PropSync |
| C28 | showconf output restores the interface | Showconf, Config | ShowconfSpec | printer/parser inversion through Config | PropShowconf |
| C29 | show sorts peers and loses none | Show | ShowSpec | any qsort meeting its contract | PropShow |
| C30 | Secrets are not shown unless asked for | Show | ShowSpec | non-interference: equal texts for devices equal outside the keys | PropShow |
| C31 | Time and size pretty-printing is exact and fits its buffer | Show | ShowSpec | arithmetic | PropShow |
| C32 | Dump output is parseable | Show | ShowSpec | text equality, injectivity of the format | PropDump |
| C33 | Colour stripping removes exactly the colour codes | Terminal | TerminalSpec | induction over the text | PropTerminal |
| C34 | Generated keys are clamped and never built from missing randomness | Keys | statement | arbitrary sequences of read results | PropKeys |
| C35 | pubkey accepts one key and prints its public key | Keys | statement | as C34 | PropKeys |
| C36 | Curve25519 field arithmetic is exact and does not overflow | Curve | CurveSpec | interval invariants; identities modulo 2^255-19 (Prime25519: primality by a Pocklington certificate) | PropCurve |
| C37 | Public keys are RFC 7748 X25519 | Curve | CurveSpec (pseudo code of RFC 7748) | ladder invariant over 255 bits | PropCurve |
| C38 | Interface name lists survive their packing | Ipc | IpcSpec | invariant over appends with realloc failing anywhere | PropIpc |
| C39 | Commands are dispatched and their exit status is honest | Wg, Config, Show, Setconf, NlSet | composition of the above | case analysis on argv, composition | PropCommands |
| C40 | wg-quick hands to wg exactly the lines that are not its own | Bash, Quick | QuickSpec | induction over lines of the file | PropQuick |
| C41 | Saving a configuration is crash safe | QuickRun, QuickSave | QuickSaveSpec (disk with crash points) | invariant along every history of commands | PropQuickSave |
| C42 | A failed wg-quick up tears the interface down | QuickRun | QuickRunSpec | programs over histories of commands and answers; invariant over every failure and signal | PropQuickUp |
| C43 | wg-quick picks an unused routing table | QuickRun | QuickRouteSpec | search for a free table against honest answers | PropQuickRoutes |
| C44 | Interface names cannot escape the socket directory | Ipc | IpcSpec | directory entries, stat and connect answers arbitrary | PropIpc |
| C45 | A change is addressed to the interface that was named | Wg, NlSet | statement | names up to 15 characters | PropCommands |
| C46 | wg-quick adds a route for every allowed IP | QuickRun, Show | QuickRouteSpec | sort specified as a permutation ordered by prefix length | PropQuickRoutes |
| C47 | wg-quick sets the configured MTU, or 80 below the path to the endpoints | QuickRun | QuickMtuSpec | induction over the endpoints listed | PropQuickMtu |
| C48 | Firewall cleanup removes exactly this interface's rules | QuickRun | QuickFirewallSpec (nft, iptables-save/restore) | induction over dumps | PropQuickFirewall |
| C49 | wg-quick down undoes what up did, in order | QuickRun, QuickSave | QuickDownSpec | invariants of histories; rule database as a list | PropQuickDown, PropQuickDownCases, PropQuickRules |
| C50 | A saved configuration restores the interface | QuickSave, Quick, Showconf, Config | QuickReloadSpec | composition: save, parse again | PropQuickReload, PropQuickRestore |
| C51 | Converting keys does not leak them | Leak, LeakEncoding | trace equality in the statement | symbolic execution of the embedded C code; trace fixed before the secret | PropLeak, PropLeak2 |
| C52 | DNS records and what a failed wg-quick up takes back | QuickRun | QuickUndoSpec | invariants of histories (what is noted, what the cleanup does) | PropQuickUndo |
| C53 | Public key derivation is X25519 and does not leak the private key | Leak, LeakCurve | one trace for all inputs in the statement; CurveSpec for the value | interval interpretation of the straight-line code, invariants for the loops; the value: symbolic runs of the operations on five limbs (LeakNice, LeakCurveOps), then loops by induction (LeakCurveValue, 2, 3) down to Curve.v and C37 | PropLeakCurve |
| C54 | Opening the netlink socket | NlOpen, Nl | NlOpenSpec (who holds what; the lookup and its answers) | case analysis over failures; the message loop of C21 to C23 generalised to any callback | PropOpen |
| C55 | Reading and updating an interface, from the first system call on | NlCold, NlOpen, NlSet, NlGet | NlOpenSpec, NlGetSpec, KernelSpec | composition of C54 with C18, C19, C22, C23; induction over repetitions | PropCold |
| C56 | The OpenBSD kernel | Obsd, Fields, BsdGroup | ObsdSpec, BsdGroupSpec, KernelSpec | structures as concatenations of fields; loop invariants over blocks; uniqueness of parsing; induction over the conversation | PropObsd |
| C57 | The Windows driver | Win, Fields | WinSpec, KernelSpec | structures as concatenations of fields; loop invariants over blocks; uniqueness of parsing; induction over the conversation | PropWin |
| C58 | Finding interfaces on Windows | WinFind | WinFindSpec | refinement of the hash table to a map over all histories; induction over the devices | PropWinFind |
| C59 | getline and strsep on Windows | WinLibc | Uapi.getlines, Cstr.split_all | loop invariant over the buffer; induction over the stream | PropWinLibc |
| C60 | On FreeBSD, updates say what was asked and interfaces are read exactly | Fbsd, BsdGroup | FbsdSpec, KernelSpec | invariant of a list under construction (complete, or ENOMEM and some allocation failed); functional reading of well-named lists; induction over peers and allowed IPs | PropFbsd |
| C61 | The 32-bit X25519 implementation computes the same keys | Fiat.v (generated from the C text, every u32/u64 operation wraps) | RFC 7748 (CurveSpec.v); limbs32, element32, within, carried in PropFiat.v | interval bounds through every 64-bit column, then congruence modulo p; induction over the rounds against the same mathematical ladder as C37 | PropFiat.v |
| C62 | wg-quick does what its command line asks, on the file and interface it names | QuickMain.v | QuickMainSpec.v (stands_for, names, taken); QuickSpec, QuickRunSpec | case analysis composed with C40 and C42 | PropQuickMain.v |
| C63 | On the BSDs and macOS the host routes to the endpoints follow the gateway and are taken away again | Sh.v, BsdRoutes.v | BsdRoutesSpec.v (kernel, columns, reports_gateway, reports_endpoints, routed_to, goes_by) | invariant on variables and table, induction on the events; text lemmas for read | PropBsdRoutes.v |
| C64 | On FreeBSD wg-quick up, down and save do the documented steps in order and take them back on failure | FreeQuick.v (all functions of freebsd.bash not in C63), on Sh.v | FreeSpec.v (commands, in_order, undone, tidied, measured, saving_steps, down_in_order) | a relation goes between a script fragment and what it may do (a history with a first failing event), closed under sequencing, loops and traps; inversion at the top | PropFree.v, PropFreeMain.v, PropFreeCases.v |
| C65 | The 32-bit scalar multiplication, as it is written, computes X25519 and its time and memory accesses do not depend on the private key | Leak, LeakFiat | one trace for all inputs in the statement; wiped; CurveSpec for the value | interval interpretation of the straight-line code, invariants for the ladder and the squarings; the value: symbolic runs of the operations on ten limbs (LeakFiatOps), then loops by induction (LeakFiatValue, 2) down to Fiat.v and C61 | PropLeakFiat |
| C66 | On OpenBSD wg-quick up, down and save do the documented steps in order and take them back on failure or signals | OpenQuick.v (all functions of openbsd.bash not in C63; those shared with FreeBSD from FreeQuick.v), on Sh.v | OpenSpec.v (commands, real_name, first_free, creation, in_order, undone, trap, swept, saving_steps, down_in_order) | ShGoes.v: a relation between a script fragment and what it may do (complete, given up, stopped by a failure, stopped by a signal; every prefix extends to a complete run), closed under sequencing, loops and traps; inversion at the top | PropOpenQuick.v, PropOpenMain.v, PropOpenCases.v |
| C67 | On macOS wg-quick gives every network service back the DNS settings it had | DarDns.v (darwin.bash 218-241, 294-321, 329), on Sh.v | DarDnsSpec.v (settings of services and the effect of networksetup on them) | Hoare rules for script fragments with an invariant over every possible state of the settings: an array element is absent and the service untouched, or it records what the service had | PropDarDns.v |
| C68 | On macOS wg-quick up, down and save do the documented steps in order and take them back on failure or signals | DarQuick.v (all functions of darwin.bash not in C63 and C67; those shared with FreeBSD from FreeQuick.v), on Sh.v | DarSpec.v (commands, lookup, creation, in_order, undone, trap, swept, saving_steps, down_in_order, found) | the relations of ShGoes.v (complete, given up, stopped by a failure, stopped by a signal), closed under sequencing, loops and traps; inversion at the top; the macOS fragments shared with FreeBSD are carried over with their own set of excusable failures | PropDarQuick.v, PropDarMain.v, PropDarCases.v |
| C69 | On Android, IncludedApplications and ExcludedApplications decide exactly whose traffic uses the tunnel | AndUsers.v (memory as bytes up to the end of the object, with reads and writes outside as outcomes of their own) | AndSpec.v (package lines, names_uid, users_line, adds_users) | induction over the list's tokens, the packages and the sorted ids; an invariant of the grouping of commands | PropAndUsers.v |
| C70 | On Android, configuration files are split exactly into wg-quick's settings and wg(8)'s configuration | AndOptions.v (parse_options, on getlines of Uapi.v) | AndSpec.v (value_of, marked, settings_of, for_wg, commas) | each line is classified once (a line gives at most one key), then a fold over the lines | PropAndOptions.v |
| C71 | On Android, addresses and DNS entries reach the commands whole, in order, and as nothing but arguments | AndDns.v (set_dnses with its buffers and their truncations, set_addr, add_addr) | AndSpec.v (entries, is_server, words: a word splitter for the shell that accepts only literal text) | a weight of the entries bounds all buffers; induction over the entries for the words | PropAndDns.v |
| C72 | On Android, what is taken down belongs to the interface, and what is set up follows from the peers and the default route | AndIf.v (the patterns as functions, the loops over the lines) | AndSpec.v (added_for, goes_for, network_rule, peer_line) | after_prefix as a prefix relation; induction over text and lines | PropAndIf.v |
| C73 | On Android, bringing an interface up is all or nothing, and taking it down removes what belongs to it and nothing else | AndQuick.v (the commands and the replies of the system, cmd_up with its cleanup, cmd_down) | AndUpSpec.v (all_succeeded, torn_down, brought_up, effect, others) | a logic for acts (what was done, that it succeeded, or that its last command did not); inversion of the run; induction over the rules | PropAndUp.v |
| C74 | On Windows only the system's own libraries are loaded, and escape sequences are written only where they are understood | WinInit.v (the hook, init) | the statement, with the delay-load helper (first_call, PropWinInit.v) | case analysis; bits of the console mode | PropWinInit.v |
| C75 | On Android the command line leads to exactly the commands of the file, and no secret of it is on a command line | AndMain.v (main, auto_su), with AndOptions.v and AndQuick.v | AndSpec.v, AndUpSpec.v and the statements | a relation of two runs through all steps; composition of C70 and C73 | PropAndMain.v |

No property of the list is left partial. Restrictions that are real (the code does not do more) are in the statements and in MANIFEST.json notes.

## Trusted base

* Coq's kernel. The files are re-checked by `coqchk` in the gate.
* **Axioms.** `Print Assumptions` says "Closed under the global context" for each of the 441 theorems named in MANIFEST.json (all 75 properties): no axiom
  at all, neither own ones nor those of the standard library. (`coqchk` run over everything loaded additionally lists `Coq.ssr.ssrunder.Under_rel.*`;
  these are the standard library's own abstract module fields in a file `Require`d by the standard library's ssreflect support, on which no theorem depends.)
* No functors, module types, plugins, disabled checks, `Admitted` or `Program` obligations. Section variables are all discharged; no `Variable` or `Hypothesis` stands outside a section.
* The reading of the sources: that each definition does what the cited lines do, on the platforms assumed (8-bit bytes, two's complement, 64-bit `unsigned long`
  unless a theorem says 32, little-endian netlink as on the usual Linux machines, `char` of either signedness where it matters).
* The `*Spec.v` files where they describe other programs (kernel, nft, iptables, ip, sort, resolvconf, bash's own semantics).

## What is modelled

| source | modelled |
|--------|----------|
| `src/encoding.c`, `src/ctype.h` | all, twice: as functions (Encoding) and as C programs with a leakage trace (LeakEncoding) |
| `src/config.c` | all of it: file and command-line readers, keyfiles, endpoints with retries, allowed IPs, warnings |
| `src/setconf.c`, `src/set.c`, `src/showconf.c`, `src/show.c`, `src/genkey.c`, `src/pubkey.c`, `src/wg.c` | all but `#include`s and usage texts printed on stderr |
| `src/terminal.c` | filtering of escape sequences, the decision to colour |
| `src/ipc.c`, `src/ipc-uapi.h`, `src/ipc-uapi-unix.h` | all: listing, socket files, get and set over the text protocol |
| `src/ipc-linux.h`, `src/netlink.h` | all: attribute writer and parser, message loop, fragmentation, reassembly, link dump, opening and closing of the socket, family lookup. Not: `mnl_ideal_socket_buffer_size` (its result is a parameter) |
| `src/ipc-openbsd.h` | all, with the layout of `src/uapi/openbsd/net/if_wg.h` on amd64 |
| `src/ipc-freebsd.h` | all; libnv as described in FbsdSpec and Fbsd |
| `src/ipc-windows.h`, `src/ipc-uapi-windows.h` | all, with the layout of `src/uapi/windows/wireguard.h` on x64; the Windows calls are parameters |
| `src/wincompat/libc.c`, `src/wincompat/include/hashtable.h`, `src/wincompat/loader.c` | all |
| `src/wincompat/init.c` | init (without Winsock) |
| `src/curve25519.c`, `src/curve25519-hacl64.h` | all, twice: as functions (Curve; without the clearing of buffers) and as C programs with a leakage trace (LeakCurve); the programs are proved to compute the functions (LeakCurveValue3) |
| `src/curve25519-fiat32.h` | all, twice: as functions (Fiat), and statement by statement with the clearing of buffers (LeakFiat) |
| `src/wg-quick/linux.bash` | parse_options, add_if, del_if, add_addr, set_mtu_up, set_dns/unset_dns, routes, firewall, save_config, hooks, cmd_up, cmd_down, cmd_save, cmd_strip, auto_su, the dispatch at the end (all but usage texts) |
| `src/wg-quick/freebsd.bash`, `src/wg-quick/openbsd.bash` | all but usage texts |
| `src/wg-quick/darwin.bash` | all but usage texts and the answer of detect_launchd (it only decides whether the script waits for the monitor) |
| `src/wg-quick/android.c` | set_users, get_uid_list, parse_options, set_dnses (without the Binder calls), set_addr, add_addr, cmd, cndc, add_if, del_if, should_block_ipv6, determine_listen_port, up_if, get_route_mtu, set_mtu, set_routes, add_route, set_config, broadcast_change, cmd_up, cmd_up_cleanup, cmd_down, auto_su, main |

Not modelled: the rest of `wg-quick/android.c` (Binder, usage),
bash completion, fuzzers, `systemd` units, the `contrib` directory.

Simplifications: dynamic memory is not modelled except where a property is about it (C38: realloc; C55, C56); allocations succeed elsewhere. Linked lists are Coq lists. Writing to
stdout succeeds. Locale is C. These are repeated in the comments of the definitions concerned.

## Findings (claims the code does not keep)

* C06_read_error_refuted: a read error in the middle of a configuration file is taken for its end; the truncated configuration is applied.
* C10_fwmark_ilp32_refuted: with a 32-bit unsigned long, too large fwmarks are accepted.
* C15_negative_retries_refuted: a negative WG_ENDPOINT_RESOLUTION_RETRIES is a huge number of retries.
* C21_huge_length_loops_refuted, C21_huge_length_escapes_refuted, C21_unterminated_name_refuted: message lengths of 2^31 and more and unterminated names defeat the bounds checks.
* C22_empty_middle_part_refuted: a continued peer without allowed IPs makes coalesce_peers dereference a null pointer.
* C25_prefix_256_refuted, C25_huge_counter_refuted: prefix lengths above 255 are taken modulo 256, counters above 64 bits saturate.
* C27_stale_settings_refuted: syncconf leaves settings the file no longer mentions (listen port, fwmark and so on are not reset).
* C29_order_refuted: handshake times 2^63 apart are sorted wrongly (the comparison subtracts).
* C32_positive_result_refuted: a positive result of a backend without a device is dereferenced.
* C62_warning_refuted: a configuration file with mode 0644 in a directory with mode 0711 can be read by everybody, but is not warned about (the modes are and-ed bit by bit).
* C62_current_directory_refuted: `wg-quick up wg0.conf` does not use the file of that name in the current directory.
* C62_unreadable_refuted: if reading the configuration file fails (or it is a directory), the interface is set up without configuration and success is reported.
* C63_family_refuted: with only IPv4 routed automatically, an IPv6 endpoint is handed to `route add -inet` with the IPv4 gateway (BSDs, macOS).
* C63_foreign_refuted: the user's own host route to an endpoint is replaced at the first round and gone at the end.
* C63_signal_refuted: a signal between reading the endpoints and deleting the old routes leaves a stale host route.
* C63_retry_refuted: a host route that could not be added counts as added and is never tried again.
* C64_name_taken_refuted: on FreeBSD, `ifconfig wg create` saying "File exists" counts as having created the interface; the other interface of that name is configured.
* C64_default_mtu_refuted: only the first line of `route -n get default` is read, so the MTU of the default route's interface is never used.
* C64_pattern_refuted: the interface name is part of a regular expression (wg.0 matches wgx0): a needed route is not added.
* C64_cleanup_refuted: if destroying the interface fails while taking back, the host routes and the temporary directory stay.
* C64_postdown_refuted: PostDown hooks do not run if resolvconf fails.
* C64_dns_signal_refuted: a signal during resolvconf -a leaves the DNS servers registered.
* C64_save_refuted: save drops the prefix lengths of the addresses and the search domains.
* C64_silent_netstat_refuted: down with SaveConfig fails, the interface staying, if netstat prints nothing for one family.
* C64_sudo: the temporary directory made before sudo is started is never removed.
* C67_lost_refuted: on macOS, if `networksetup -listallnetworkservices` fails once while the tunnel is up, the script forgets the user's DNS settings, then takes the tunnel's for them: taking the tunnel down leaves its DNS servers in place.
* C67_alarm_refuted: the alarm of the route monitor runs set_dns inside set_dns; if it comes while a new service is asked for its servers, the tunnel's search domains are recorded (and later restored) as the user's.
* C68_orphan_refuted: on macOS, if the implementation's socket is made two seconds or more after the name file (or cannot be looked up), `up` fails and the implementation is left running.
* C68_dns_refuted: on macOS, the trap of `up` does not put DNS back: stopped between setting DNS and starting the monitor, the interface is gone and services keep its DNS servers.
* C68_hook_name_refuted, C68_save_refuted: as on OpenBSD, %i in hooks becomes the kernel's name; save drops prefix lengths and search domains.
* C69_past_end_refuted, C69_behind_refuted: on Android the scan of IncludedApplications/ExcludedApplications does not stop at the end of the string: with one installed application it reads behind the object; what it finds there counts as listed, and can overflow the array of user ids.
* C69_empty_refuted: an empty `ExcludedApplications =` is accepted, and the commas are counted from behind its NUL.
* C69_last_user_refuted, C69_same_name_refuted: excluding user 99998 excludes 99999, too; repeated names in packages.list overflow the array.
* C70_name_refuted, C70_blank_refuted: Android takes the last 15 permitted characters before `.conf` for the interface name instead of refusing longer or other file names.
* C70_comment_refuted: Android does not strip comments: `[Interface] # x` hides the section, `Address = A # x` becomes the address `A#x`.
* C70_long_line_refuted: a line of more than 65536 bytes silently ends the reading; settings not seen yet are null pointers that are read later.
* C71_injection_refuted, C71_bare_refuted: on Android without Binder, DNS search entries end up outside of quotes (they are quoted twice): `DNS = 1.1.1.1,;reboot;` runs reboot as root.
* C71_mask_refuted: on Android an address `A/256` is configured as `A/0`.
* C72_dot_refuted, C72_prefix_refuted: on Android the interface's name is put into regular expressions: taking down `wg.0` deletes the firewall rules of `wg10`, and taking down `wg0` may destroy the network of `wg01`.
* C72_endpoint_mtu_refuted: on Android the MTU of the routes to the endpoints, which set_mtu means to consider, never is: the anchored pattern is matched against the whole line with its key and newline.
* C73_down_stops_refuted: on Android `down` ends at the first failing command: if `ip link del` fails, the firewall rules and the network stay.
* C66_hook_name_refuted: on OpenBSD, %i in hooks becomes the kernel's name of the interface (wg1), not INTERFACE as wg-quick(8) says.
* C66_dns_refuted: without unwind or resolvd the DNS settings are left out and success is reported.
* C66_stale_copy_refuted: a copy of /etc/resolv.conf left by an earlier run replaces the current one when the interface cannot be created.
* C66_no_address_refuted: allowed IPs of a family of which the interface has no address make `up` fail, after other routes have been added.
* C66_signal_refuted: after a signal the traps run twice; the second run ends with the failure of destroying the interface, so the status is 1.
* C66_save_refuted: save drops the prefix lengths of the addresses and the search domains.
* C40_spaced_header_refuted, C41_private_refuted, C42_creation_failure_refuted, C42_cleanup_failure_refuted, C42_failing_question_refuted, C42_signal_status_refuted,
  C47_scoped_refuted, C49_prefix_refuted, C49_other_interface_refuted, C50_ampersand_refuted, C50_name_refuted, C50_search_refuted, C50_empty_refuted, C52_dns_failure_refuted:
  wg-quick; each is explained at its theorem.
* C54_ack_without_answer_refuted: an acknowledgement without an answer makes opening succeed with family number 0. C54_new_attribute_first_refuted: an unknown attribute in front of the number makes it fail.
* C56_ipv6_endpoints_are_read_refuted: on OpenBSD IPv6 endpoints are never shown (a length is compared with the size of `struct sockaddr`). C56_empty_answer_refuted: a kernel stating size 0 makes a
  null pointer be read. C56_group_listing_refuted (OpenBSD, FreeBSD): if the first interface of the group appears between the two ioctls, memory outside of the block is read.
* C60_set_errno_refuted: on FreeBSD a refused change is reported as -1, whatever the reason. C60_errors_are_negative_refuted: a prefix length above 32 or 128 makes reading return +EINVAL, which show
  takes for success, without a device (see C32_positive_result_refuted). C60_short_address_refuted: an address shorter than 4 or 16 bytes is read past its end.
* C57_mark_refuted: on Windows a firewall mark is dropped silently. C57_handle_closed_refuted: the handle stays open when the driver refuses to answer. C57_no_device_refuted: when the list of
  devices cannot be had, errno is left alone; if it is 0, reading and changing an interface return 0 without having done anything. C57_empty_answer_refuted: a null pointer may be read.
* C58_null_id_refuted: after a listing that could not store a device's ID, opening its name opens the first network interface of any device. C58_long_name_refuted: a name of 127 units is read past
  its buffer (the terminator is L'0', a digit). C58_listing_memory_refuted: running out of memory while listing is not an error. C58_has_interface_refuted: -EIO is returned as `true`.
  C58_pipe_closed_refuted: a pipe stays open when _fdopen fails. C58_pipe_name_refuted: long names are cut. C58_errno_refuted: errno may be 0.
* C59_memory_refuted: running out of memory in getline looks like the end of the file. C59_own_buffer_refuted: a one-byte buffer of the caller's is overrun (no caller passes one).
* C44_long_names_share_a_socket_refuted, C45_long_names_refuted: long interface names are silently cut.

## Tests against wrong programs

`seeded/LOG.jsonl` lists every edit of the model tried, the claim it breaks and the theorems that failed. Where an edit first survived, `first_attempt` says so and
`theorems_tightened` names the theorem added or strengthened.
