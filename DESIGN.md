# Formal model of babeld in Rocq (Coq 8.16.1)

The source in /repo is read as text. The model is a set of total Gallina
functions, one per C function, each with a comment naming the file and lines it
follows and any simplification. Nothing is compiled or executed from /repo.

## Conventions

* C integers are `Z`, with explicit wrapping functions (`u8`, `u16`, `u32`,
  `s16`, ...) wherever the C type wraps. Signed overflow, reads outside a buffer,
  failed assertions, use of a freed object are *outcomes* of the model
  (a constructor of a result type, or a sticky fault in the state), never assumed away.
* Byte arrays are `list Z`; pointers into a packet are offsets, and reading is a
  partial operation with an out-of-bounds outcome.
* Pointers to heap objects are modelled by keys (a source by its key, a neighbour
  by an identifier). The uniqueness that this needs is itself a theorem.
* Randomness, the clock and the kernel's answers are inputs (oracle lists or
  arguments) over which theorems quantify universally. The keyed hash is an argument.
* Memory exhaustion (malloc/realloc returning NULL) is not modelled unless a
  definition says otherwise. Logging and debug output are not modelled.

## Layout

* `theories/Base*.v` helpers; `theories/M_*.v` model; `theories/S_*.v` small
  independent specifications; `theories/L_*.v` lemmas and proofs;
  `theories/P_*.v` the property theorems, each followed by
  `Print Assumptions` and by an `Example` showing a non-trivial instance;
  `theories/X_*.v` concrete executions used by the Examples.

## Plan per property

| id | what is modelled | how it is proved |
|----|------------------|------------------|
| C01 | util.h seqno functions | arithmetic case analysis on Z mod 65536 |
| C02 | util.c timeval functions | arithmetic |
| C03 | roughly, set_timeout, schedule_flush*, send_ack timers | arithmetic over all random values |
| C04 | in_prefix, normalize_prefix | bitwise spec with Z.testbit, finite facts about masks lifted to all bytes |
| C05 | martian_prefix; effects via C26/C41 models | equivalence with declarative list of prefixes |
| C06 | parse_eui64, format_eui64, fromhex, parse_thousands | induction on strings, round trips |
| C07 | whole TLV parser with partial reads | invariant of the TLV loops: offsets stay in the body |
| C08 | same parser | relation between packets with and without the unknown elements |
| C09 | really_buffer_update + parser | simulation invariant between encoder and decoder compression state, induction on the sequence |
| C10 | other encoders | direct computation on symbolic fields |
| C11 | buffer functions | invariant `len <= size - reserve` by induction on operations |
| C12 | hmac.c with the hash as a parameter | direct, induction on the trailer |
| C13, C14, C16 | preparse_packet, challenge functions | invariants over event sequences |
| C15 | send_pc | invariant over sends |
| C17, C18, C20, C55 | source.c | refinement to a finite map; invariants |
| C19, C21-C28, C30-C33, C57 | route.c on a world state (sources, routes, neighbours, xroutes, kernel trace, output trace) | state invariant preserved by every operation; step properties |
| C29 | route_smoothed_metric | loop invariants |
| C34-C37 | neighbour.c | invariants over hello sequences, arithmetic |
| C38-C40 | message.c handle_request, resend.c | step properties, invariants |
| C41, C42 | xroute.c | refinement of the merge loop to set operations |
| C43, C44 | configuration.c filters | equivalence with declarative first-match semantics |
| C45, C46, C54 | flushupdates, buffer_update | properties of the output trace |
| C47, C48 | configuration.c lexer and line parsers | structural induction on input |
| C49 | local_read | stream segmentation invariance |
| C50 | startup/shutdown part of main | crash-point case analysis |
| C51 | timeout computation of the main loop | arithmetic |
| C52 | network of nodes using the same source/route rules | global invariant over interleavings |
| C53 | hmac.c key refcounts | invariant |
| C56 | gettime fallback | invariant |
| C58 | resize_receive_buffer | invariant |
| C59, C60, C63 | update_route, neighbour costs, update sending on the world state | step properties over all reachable states |
| C61 | parse_packet | every action handed on by the parser is well formed |
| C62 | send_ihu, buffer_hello, buffer_ihu, flushbuf + parser | simulation of encoder and decoder over all histories of a buffer |
| C64, C65 | configuration lines, control sockets | step properties, termination measure |
| C66 | parse_packet feeding the world (M_Packet) | refinement: every datagram is a list of allowed events |
| C70, C71 | interfaces that come up, go down, change; announced intervals | one round of check_interfaces as a sequence of allowed events, induction on the interfaces; arithmetic of intervals and hold times |
| C72 | updates and metric changes in every reachable state | case analysis of consider_route, route_changed, update_known and update_route with the selected route and its metric carried through |
| C73 | the text printed on control sockets, in every reachable state and for every sequence of partial writes | writer against an independent reader (split at separators, digits); functional reading; prefix invariant of the writes |
| C74 | filter lines and files, in any order and spacing, and the decisions taken from them | text described by a relation (clauses, words, blanks), forward reading lemma by induction on the clauses; meaning of the clause list proved equal to the compiled rule by an invariant over prefixes of the list |
| C75, C76 | configuration files of all documented kinds of lines: interface, default, key, option, rule | text described by a relation as for C74; one forward reading lemma per kind of line; invariant of the configuration over the lines read so far, induction on the file; the end of the file in place of the last newline by a simulation of the reader |
| C77 | the table of interfaces and their configuration records under lines, start, command line and removals | records on a heap with explicit allocation and freeing; invariant relating heap, list, default and interfaces to the history of lines; induction on the history; agreement with the tables of M_Config.v before the start |
| C78 | compute_hmac with the hash functions as parameters and contexts that collect their input; keys of the table | equality with RFC 2104 and the pseudo-header of RFC 8967; invariant of the key table under lines, files and interface events |
| C79 | sysctl files, the table of saved values and interface_updown, over starts, interface events, exits and changes by other programs | invariant relating files, saved values and what the files would be without babeld; induction over events |
| C80 | choice of the router-id from configuration, hardware and random bytes; process id files of any number of daemons | equivalence with a declarative choice (induction on the interface numbers, sweep over bytes); invariant of files and daemons over event sequences |
| C81 | command line: option letters, their arguments, operands, files | layout of the arguments described by a relation; getopt equal to it in both directions (induction); each option a step of the invariant of C75/C76; values by induction on the options |
| C82 | notifications sent to monitoring clients by every event | the client as a fold over notifications; its picture compared with the tables: an invariant carried through every function of route.c and xroute.c that notifies, induction over events |
| C83 | a link under losses: Hellos and IHUs sent by one node, heard or lost, periodic checks at the other | the window of the receiver compared with the list of what was heard: an invariant over interleavings of Hellos, losses, IHUs and checks; the sender's output by induction over its events; starvation by induction over rounds |
| C84 | executions of the daemon with the time of the next check of neighbours, random delays, and a bound on the lateness of the main loop; no Hello from one neighbour | invariant: the window of the neighbour is its window at the last Hello, aged by checks only, and the next check is at most 1.875 intervals after the last one; the shift of a window aged by checks is bounded from below by the time (from C12's silent runs) |
| C85 | the same executions, with the routes through that neighbour and the table of the kernel | invariant: whenever few enough Hellos are left in the windows for the cost to be infinite, every route through the neighbour has an infinite metric; carried through every function that changes a route, a window or a cost; after the bound of C84 the windows are that empty |
| C86 | the same executions, without IHUs instead of Hellos from one neighbour | invariant: the last IHU is remembered until a check gives it up, no check later than the bound leaves it, the next check is at most 5.625 intervals after the IHU and 1.875 after the last check; the routes as in C85, with the cost of transmission for the windows |
| C87 | the notifications about neighbours along the events of M_Daemon | the client as a fold over notifications, as in C82; invariant: one entry per neighbour with its attributes; a line is up to date as long as clock, neighbour and interface parameters stay, which a check of other neighbours does not change |
| C88 | the lines about interfaces sent by check_interfaces | the lines as a function of the state and the kernel's answers beside M_Ifup; all lines of one check are about its interface, and the last one shows the state at its end; by steps (number, up or down, addresses), then induction over the interfaces |
| C68, C69 | netlink messages, byte by byte | both directions against an independent reader and writer of rtnetlink; induction on attributes, messages and datagrams |
| C67 | updates waiting on an interface, their timer and array | invariant over executions with a clock that does not go back |

Where the faithful model violates the English property the theorem is a
`_refuted` one with a concrete witness, and the strongest true variant is proved
beside it. These are listed under "Findings".

## The files of the model

| file | C code |
|------|--------|
| M_Util | util.c, util.h: sequence numbers, timevals, roughly, prefixes, martians, eui64/hex/thousands parsers |
| M_Slot | the open-coded binary search of source.c, route.c |
| M_Source | source.c: find_source, retain/release, update_source, expire_sources |
| M_Filter | configuration.c: filter matching and the four filter chains |
| M_Types, M_State | the structures; the world (all tables, clock, oracles, kernel trace, messages handed to buffers) |
| M_Neigh | neighbour.c: update_neighbour, rx/tx costs, RTT, reachability |
| M_Table | route.c: the table of route chains, insert_route, flush, find_route, stream order |
| M_Route | route.c: install/uninstall/switch/change, smoothing, feasibility, update_route, route_lost, expire_routes, consider_route; the route half of message.c:send_update, send_triggered_update, handle_request; resend.c |
| M_Xroute | xroute.c: add/flush/merge, kernel notifications, check_xroutes |
| M_Msg | message.c: buffer_update, flushupdates, update/request/IHU sending at the level of TLVs; resend.c |
| M_Daemon | the events of the main loop and the function `run1`; `boot`, `reach` |
| M_Wire | message.c:44-1105 parse_packet and the TLV/sub-TLV parsers, with reads that can fail |
| M_Auth | hmac.c (hash as a parameter), preparse_packet, PC and challenge handling |
| M_Buf | message.c:1107-1545 and the encoders: the bytes of the packets that are sent |
| M_Packet | one received datagram applied to the whole state: babeld.c:656-677, preparse, parse, handlers |
| M_Net | several routers exchanging updates over lossy, delaying, reordering links |
| M_Main | babeld.c: timer computation of the main loop, state file, gettime fallback, receive buffer |
| M_Config | configuration.c: lexer, all line parsers, options, filters, keys, interfaces, read-only and run-time lines |
| M_Local | local.c:local_read and the control-socket part of the main loop |
| M_Dump | local.c: local_header and the lines of local_notify_*, write_timeout, local_notify_all_1; util.c:format_address, format_prefix (inet_ntop and interface names are arguments) |
| M_Monitor | the calls of local_notify_route and local_notify_xroute in route.c and xroute.c, for each event of M_Daemon; the dump at `monitor` |
| M_Watch | the calls of local_notify_neighbour in neighbour.c, route.c and message.c, for each event of M_Daemon; the lines about neighbours at `monitor` |
| M_Wifs | the calls of local_notify_interface in interface.c during check_interfaces, in order: check_interface_ipv4, check_link_local_addresses, interface_updown. Not the lines at `monitor` and of add_interface and flush_interface; `C88_between` proves that no other event changes what a line says of an interface |
| M_Link | send_multicast_hello, send_ihu, send_marginal_ihu, send_hello and the timer of the Hellos, for one interface that is up (what is in the packet is M_Buf); a Hello and an IHU received, for one neighbour |
| M_Check | schedule_neighbours_check and its three callers: when the next check of neighbours is due, beside the events of M_Daemon. Not modelled: that SIGUSR2 (babeld.c:700) makes it due now |
| M_Nlink | kernel_netlink.c: the bytes of route requests, reading of route, address and link messages, dumps and answers |
| M_Ifup | interface.c: interface_updown, check_interface_ipv4, check_link_local_addresses, check_interfaces; finalise_config for interfaces |
| M_Keys | hmac.c/configuration.c: the key table and its reference counts |
| M_Ifreg | interface.c:66-132, configuration.c:917-968 and 1543-1558: the list of interfaces and the heap of their configuration records |
| M_Mac | hmac.c compute_hmac on the keys of M_Config; SHA-256 and BLAKE2s as parameters |
| M_Sysctl | kernel_netlink.c: kernel_setup, kernel_setup_interface, old_if; the calls in interface.c and babeld.c |
| M_Start | babeld.c: router-id, process id file; kernel_netlink.c: if_eui64 |
| M_Args | babeld.c: main up to the start of the daemon (getopt of the C library included); util.c: parse_nat; kernel.c: add_import_table |

### How the pieces fit

`M_Daemon.run1` interprets one event (timer, message after parsing, kernel
notification, interface change, ...) on the world; `reach c w` says that `w` is
obtained from a start by any finite sequence of allowed events, with any clock
and any kernel answers. `M_Packet` shows that a received datagram is such a
sequence (C66), so that every theorem on `reach` covers arbitrary datagrams.
World proofs go through a micro-step relation (`L_Step.mstep`) and one state
invariant `W`. `M_Buf` and `M_Wire` are connected by C09, C10, C12, C62
(what one router encodes the other decodes). `M_Net` runs copies of the world
against each other.

## What is not modelled

* The system calls of kernel_netlink.c, kernel.c and net.c, and all of kernel_socket.c (BSD): for the
  world model the kernel is a list of answers (success, EEXIST, ESRCH, other) to route changes, a list of
  routes for dumps, and datagrams that arrive. The netlink messages themselves are modelled (M_Nlink);
  the kernel that writes and reads them is a specification (S_Nlink). Malformed messages of the kernel, and the extended error
  texts in its answers, are not considered.
* The system calls of interface.c: their answers are arguments of M_Ifup.check_interfaces (`kans`). In the
  world model an interface changes by the events EvInterface and EvNewInterface; an interface that is up has
  valid parameters (`iface_in`), and C70 shows that check_interfaces keeps to that.
* rfc6234/ and BLAKE2/ (the hashes) are function parameters; the theorems hold for every function (C78: with digests of 32 and 16 bytes).
* Logging, debug output (SIGUSR1 included), the notifications of monitoring clients about interfaces
  (those about routes and redistributed routes are in M_Monitor, those about neighbours in M_Watch, those about interfaces in M_Wifs, their text in M_Dump), the usage text, daemonisation, signals other than as
  the end of the loop.
* Allocation failure, except where a definition mentions it (receive buffer).
* Concurrency: babeld is single threaded, and so is the model.
* Floating point does not occur in the C code.

## Trusted base

* Coq's kernel (8.16.1), including its `vm_compute` reduction, which is used in Examples and in
  the finite sweeps over bytes.
* The correspondence of the definitions to the C text, by the lines that each
  definition cites.
* No axioms. `Print Assumptions` answers "Closed under the global context" for
  every theorem listed below. (`coqchk` also lists `Coq.ssr.ssrunder` axioms that
  come with a library file that Coq loads; no theorem depends on them.)
* No functors, module types, plugins, or disabled checks.

### Theorems and their assumptions

All of them: closed under the global context.

* C01: `C01_seqno_compare_circle`, `C01_newer_after_increment`, `C01_antisymmetric`, `C01_opposite_points`, `C01_transitive_within_half`, `C01_translation_invariant`, `C01_minus_plus_inverse`
* C02: `C02_compare`, `C02_add_msec`, `C02_minus`, `C02_minus_msec`, `C02_min`, `C02_min_sec`
* C03: `C03_timer_window`, `C03_ack_deadline`, `C03_jitter_bounds`, `C03_jitter_sign_and_small`, `C03_jitter_no_overflow`
* C04: `C04_in_prefix_bitwise`, `C04_normalize_bitwise`, `C04_normalize_idempotent`, `C04_normalize_keeps_containment`, `C04_normal_forms_equal_iff_same_bits`
* C05: `C05_martian_exactly_reserved`, `C05_no_martian_learned`, `C05_no_martian_redistributed`
* C06: `C06_eui64_roundtrip`, `C06_mac48_expansion`, `C06_hex_exact`, `C06_thousands_roundtrip`, `C06_thousands_exact_refuted`
* C07: `C07_auth_total`, `C07_parse_total`, `C07_framing`
* C08: `C08_mandatory`, `C08_optional`, `C08_unknown_tlv`
* C09: `C09_updates`
* C10: `C10_messages`
* C11: `C11_bounds`, `C11_padded`, `C11_unicast_probe_refuted`, `C11_no_address_refuted`
* C12: `C12_signed_verifies`, `C12_only_matching`, `C12_trailer`, `C12_pad1_refuted`, `C12_sent_verifies`
* C13: `C13_no_replay`, `C13_once`, `C13_replay_refuted`
* C14: `C14_challenges`, `C14_adopts`
* C15: `C15_distinct`
* C16: `C16_no_mac`, `C16_refused`, `C16_accepted`, `C16_datagram`
* C17: `C17_table_is_finite_map`, `C17_find_or_create`
* C18: `C18_distance_is_best_announced`, `C18_infeasible_stays_infeasible`
* C19: `C19_feasible_iff`, `C19_selected_only_if_feasible`, `C19_candidate_feasible`
* C20: `C20_references_live`, `C20_expire_only_unused`
* C21: `C21_table_wellformed`
* C22: `C22_kernel_mirrors_selection`, `C22_install_table_refuted`, `C22_next_hop_family_refuted`
* C23: `C23_best_route_minimal`
* C24: `C24_replaced_only_by_better`, `C24_every_replacement_fine`
* C25: `C25_flush`, `C25_retracted`, `C25_metric`, `C25_withdrawn`, `C25_redistributed_refuted`
* C26: `C26_ignored_updates`
* C27: `C27_selected_unfeasible_refuted`, `C27_unselects`
* C28: `C28_next_hop_of_creation`, `C28_most_recent_refuted`
* C29: `C29_smoothing`, `C29_progress`, `C29_every_half_life`, `C29_half_life_2_refuted`
* C30: `C30_kernel_priority`, `C30_reflect_refuted`
* C31: `C31_neighbour_removed`, `C31_interface_down`, `C31_no_dangling_interface_refuted`
* C32: `C32_shutdown_table_empty`, `C32_shutdown_kernel_empty`, `C32_retraction_buffered`, `C32_neighbours_retract`, `C32_unicast_refuted`
* C33: `C33_expired`, `C33_kept`
* C34: `C34_marked_only_if_heard`, `C34_hello_effect`, `C34_first_hello`, `C34_consecutive_fill`, `C34_history_wellformed`
* C35: `C35_rxcost_range`, `C35_rxcost_infinite_when_silent`, `C35_rxcost_wired`, `C35_rxcost_at_least_nominal`, `C35_rxcost_at_least_nominal_slow`, `C35_rxcost_at_least_nominal_refuted`, `C35_cost_formula`, `C35_cost_bounds`
* C36: `C36_rtt_is_an_average`, `C36_rtt_is_an_average_refuted`, `C36_rtt_penalty`, `C36_penalty_monotone`, `C36_penalty_capped`, `C36_sample_iff_consistent`, `C36_unsampled_refuted`
* C37: `C37_silent_neighbour_flushed`, `C37_live_neighbour_kept`, `C37_txcost_expires`, `C37_txcost_kept`
* C38: `C38_own_seqno`, `C38_answered`, `C38_dropped`, `C38_forwarded`
* C39: `C39_suppressed_only`, `C39_refuted`, `C39_router_refuted`
* C40: `C40_one_entry`, `C40_backed_off`, `C40_pass`, `C40_at_most_3`, `C40_messages`, `C40_wake_up`, `C40_stale_request_refuted`, `C40_early_clock_refuted`
* C41: `C41_dump`, `C41_strict`, `C41_notify`
* C42: `C42_own`, `C42_refuted`
* C43: `C43_input_first_match`, `C43_output_first_match`, `C43_redistribute_first_match`, `C43_install_first_match`, `C43_first_match_unique`, `C43_default_install`, `C43_default_redistribute`
* C44: `C44_input_never_improves`, `C44_output_never_improves`, `C44_announced`
* C45: `C45_split_horizon`
* C46: `C46_flush`, `C46_nothing_pending`, `C46_says`, `C46_once_refuted`
* C47: `C47_line`, `C47_file`, `C47_tokens`, `C47_read_only`, `C47_commands`
* C48: `C48_accepted`, `C48_rejected`, `C48_refuted`
* C49: `C49_lines`, `C49_splits`, `C49_bounded`, `C49_overlong`, `C49_replies`, `C49_switches`, `C49_reply_refuted`, `C49_twice_refuted`
* C50: `C50_restart_newer`, `C50_consumed_once`, `C50_garbage`, `C50_unremovable_refuted`
* C51: `C51_wakes_in_time`, `C51_no_spinning`, `C51_spinning_refuted`
* C52: `C52_feasible_no_loop`, `C52_no_loop`, `C52_refuted`
* C53: `C53_count`, `C53_kept`, `C53_assertions`, `C53_refuted`, `C53_abort_refuted`
* C54: `C54_total_order`, `C54_adjacent`
* C55: `C55_discard_only_old_unused`, `C55_kept_entries`
* C56: `C56_seconds_never_decrease`, `C56_advances`, `C56_microseconds_refuted`
* C57: `C57_wildcard_retraction`
* C58: `C58_grows_and_fits`, `C58_not_truncated`, `C58_send_buffer`, `C58_sent_fits`, `C58_no_memory_refuted`
* C59: `C59_update_recorded`
* C60: `C60_ihu_cost_applied`, `C60_first_rtt_refuted`, `C60_hello_cost_applied`, `C60_rtt_cost_applied`, `C60_hello_refuted`
* C61: `C61_actions_ok`, `C61_mapped_refuted`
* C62: `C62_same_packet`, `C62_same_packet_refuted`
* C63: `C63_distance_covers`
* C64: `C64_rejected`, `C64_refuted`, `C64_leak_refuted`
* C65: `C65_serve_ends`, `C65_refuted`
* C66: `C66_datagrams`
* C67: `C67_timer`, `C67_room`, `C67_flushed_in_time`
* C68: `C68_request`, `C68_table_refuted`
* C69: `C69_notifications`, `C69_dump`, `C69_verdict`, `C69_own_routes`, `C69_default_refuted`
* C70: `C70_config`, `C70_config_used`, `C70_valid`, `C70_check`, `C70_option_s_refuted`, `C70_auto_wired_refuted`, `C70_unicast_off_refuted`
* C71: `C71_timer`, `C71_survives`, `C71_long_interval_refuted`
* C72: `C72_update`, `C72_metric`, `C72_at_rest_refuted`
* C73: `C73_dump`, `C73_prefix`, `C73_unambiguous`, `C73_notify`, `C73_header`
* C74: `C74_line`, `C74_mixed`, `C74_file`, `C74_repeated_refuted`, `C74_length_refuted`
* C75: `C75_interfaces`, `C75_auto_refuted`, `C75_runtime_refuted`
* C76: `C76_file`, `C76_last_newline`, `C76_zero_refuted`, `C76_first_rule_refuted`
* C77: `C77_interfaces`, `C77_parameters`, `C77_run_time`, `C77_memory`, `C77_same_tables`, `C77_ignored_refuted`, `C77_again_refuted`, `C77_leak_refuted`
* C78: `C78_mac`, `C78_file`, `C78_never_fails`, `C78_same`, `C78_interop`, `C78_only`, `C78_no_value_refuted`
* C79: `C79_restored`, `C79_running`, `C79_safe`, `C79_only`, `C79_skip`, `C79_failed_start_refuted`, `C79_recreated_refuted`, `C79_first_failure_refuted`, `C79_many_refuted`
* C80: `C80_choice`, `C80_stable`, `C80_distinct`, `C80_file`, `C80_reserved_refuted`, `C80_pid_file`, `C80_removed_refuted`
* C81: `C81_command_line`, `C81_same`, `C81_accepted`, `C81_equivalent_refuted`, `C81_group_refuted`, `C81_number_refuted`
* C82: `C82_monitor`, `C82_any_kernel`, `C82_installed_refuted`, `C82_id_refuted`
* C83: `C83_link_kept`, `C83_every_third`, `C83_on_time`, `C83_starved_refuted`, `C83_long_refuted`, `C83_two_lost_refuted`, `C83_announced`, `C83_ihu_wrap_refuted`
* C84: `C84_forgotten`, `C84_link_lost`
* C85: `C85_given_up`, `C85_kernel`, `C85_refused_refuted`
* C86: `C86_given_up`, `C86_kernel`
* C87: `C87_neighbours`, `C87_after_check`, `C87_after_hello`, `C87_rtt_refuted`, `C87_time_refuted`
* C88: `C88_interfaces`, `C88_kernel`, `C88_between`, `C88_life`

## Findings

Places where the code does not do what one would expect, found while trying to
prove the full property. Each `_refuted` theorem gives a reachable witness; the
statement in properties.jsonl then says what does hold.

| property | finding |
|----------|---------|
| C01 | sequence numbers at distance 0x8000: each compares older than the other (`C01_opposite_points`) |
| C06 | parse_thousands wraps silently for large numbers |
| C11 | unicast Hellos are not padded to the probed MTU; with a key and no link-local address the packet overruns its buffer |
| C12 | a Pad1 in the trailer hides the MAC that follows |
| C13 | a replay is accepted after a reordered challenge reply resets the index |
| C22 | an install filter that depends on the interface leaves the kernel route in the wrong table after a switch; an IPv6 destination with an IPv4 next hop loses the kernel route |
| C25 | a selected route is lost without an announcement when the destination is also redistributed and duplicates are allowed |
| C27 | an unfeasible update with the same router-id leaves the route selected |
| C28 | the next hop of a route is never updated |
| C29 | a half-life of 2 seconds overflows the smoothing table |
| C30 | reflect-kernel-metric saturates |
| C31 | flush_interface leaves neighbours referring to the freed interface |
| C32 | at shutdown on an IF_UNICAST interface the wildcard retraction stays in the neighbour buffer and is never sent |
| C35 | the link-quality product wraps |
| C36 | smoothing of round-trip times wraps above 16.7 s |
| C39 | a pending request for an older number, or for another router-id, suppresses a newer one |
| C40 | re-recording a stale request loses the wake-up; with a clock below 65 s the count is 255 |
| C42 | flush_xroute uses the prefix length and source prefix of entry 0 |
| C46 | a destination that is pending several times and of which nothing is known any more is retracted several times |
| C48 | parse_anonymous_ifconf frees the same structure twice |
| C49 | replies may be stale, and one line may be processed twice |
| C50 | a state file that cannot be unlinked, or a failed start, loses the saved number |
| C51 | the loop spins during the microsecond in which a check timer expires |
| C52 | a routing loop with finite metrics, through a selected route that has been retracted with another router-id |
| C53 | key counts never match the users; redefining a key 65536 times aborts |
| C56 | the fallback clock may go back by less than a second |
| C58 | when realloc fails the receive buffer stays small and packets are truncated |
| C61 | an IPv6-encoded Update with a v4-mapped prefix passes the parser |
| C62 | send_ihu reserves 30 bytes where 40 are needed; a Hello and its IHU may be split, and no round-trip time results |
| C64 | option lines with trailing junk take effect although they are answered `bad`; rejected interface lines leak key references |
| C68 | table numbers above 255 (accepted by `export-table` and by filters) are truncated to eight bits |
| C69 | unreachable IPv4 default routes in the kernel are redistributed, IPv6 ones are ignored |
| C70 | `-s` is ignored (nothing reads the variable it sets); an interface that `auto` finds not to be wireless has no split horizon; `unicast`, `faraway` and `probe-mtu` cannot be switched off, even by going down and up |
| C71 | update intervals above 655.35 s, which are the default from `hello-interval 164` on, wrap around when announced: routes are dropped 15 s after each update |
| C72 | a route that was received while not feasible becomes usable when the feasibility distance is more than 200 s old, but nothing selects it until its destination is looked at again |
| C65 | a client that does not read its replies makes the main loop spin |
| C74 | selectors of one kind (`ip`, `src-ip`, `neigh`, `id`, `proto`/`local`, `if`) do not accumulate when repeated: the last one silently replaces the others (`C74_repeated_refuted`) |
| C74 | lengths given to `eq`, `le`, `ge` are not checked: they are stored modulo 256, `ge 300` acts as `ge 44` (`C74_length_refuted`) |
| C75 | `auto` (or `default`) on a later line does not undo what an earlier line or a `default` line sets, because merging takes 0 for unset (`C75_auto_refuted`) |
| C75 | an interface added over the control socket gets none of the parameters of the `default` lines: they are merged only once, when the configuration is finalised (`C75_runtime_refuted`) |
| C76 | `kernel-check-interval 0` and `shutdown-delay-ms 0`, which the manual allows, and `first-rule-priority`, which it documents, are refused (`C76_zero_refuted`, `C76_first_rule_refuted`) |
| C77 | finalise_config empties the list of configurations: a run-time line for an interface of the configuration is ignored with a warning but remembered, and counts when the interface is flushed and added again (`C77_ignored_refuted`, `C77_again_refuted`); flushing such an interface prints "attempting to free nonexistent ifconf" and leaks its record (`C77_leak_refuted`) |
| C78 | a line for an hmac-sha256 key without a value is accepted; packets are then signed with the empty secret (`C78_no_value_refuted`) |
| C79 | a start that fails at a sysctl does not undo the earlier ones; the exit stops at the first file it cannot write; an interface recreated between checks gets the old value; with over 1024 interfaces old_if[-1] is read (`C79_..._refuted`) |
| C80 | the random router-id may be all zeroes, and `router-id` accepts all zeroes and all ones, both reserved by RFC 8966; a daemon removes its process id file at the end without looking whether it is still its own |
| C81 | `-k`, `-A`, `-t`, `-T` accept 0 and 65535, `-p`, `-g`, `-G` accept 65535, the lines of the same meaning do not; `-m` checks that the group is multicast, `protocol-group` does not; `-M` is limited to 3600, `smoothing-half-life` is not; an eleventh `-T` is refused, an eleventh `import-table` line is ignored; the empty argument of a numeric option is taken for 0; the usage text lists `-z`, which is refused; files are read after all options, so that a file overrides the command line |
| C82 | when the kernel refuses to remove a route, uninstall_route marks it as not installed but does not notify (route.c:521-527); when it refuses a change of metric in update_route, the new router-id is not notified (route.c:586-604, 919): `C82_installed_refuted`, `C82_id_refuted` |
| C83 | the count of Hellos that decides about IHUs (message.c:1431) includes the unscheduled ones that accompany IHUs with timestamps (2034-2037): two requests for everything between any two scheduled Hellos (993) keep it away from multiples of 3, and the other neighbours get no IHU: `C83_starved_refuted` |
| C83 | a hello interval of 150 s, accepted by the parser, makes the cost infinite between two Hellos, as Hellos older than 180 s do not count (neighbour.c:289-292) whatever interval they announce: `C83_long_refuted` |
| C83 | the interval announced in IHUs is stored in 16 bits: for hello intervals over 218.45 s, which the parser accepts, it wraps, to 0 for 218.452 s (message.c:2008): `C83_ihu_wrap_refuted` |
| C85 | when the kernel refuses a change of metric, change_route_metric returns before storing the new metric (route.c:586-604): the route through a silent neighbour stays selected, with a finite metric, and is not looked at again until something else changes: `C85_refused_refuted` |
| C60, C87 | message.c:1101-1102 calls update_neighbour_metric before it sets rtt_time. When the RTT was not valid before, neighbour_rttcost is still 0 then: the first sample changes the cost of the link, but neither the metrics of the routes through it nor what clients are told, until the next sample, check or IHU that reports a change: `C60_first_rtt_refuted`, `C87_rtt_refuted` |
| C36 | find_neighbour sets rtt_time to zero (neighbour.c:110) and valid_rtt compares it with the monotonic clock: during the first 180 s after the boot of the machine a neighbour that was never measured has a valid RTT of 0, with which the first sample is averaged instead of being doubled: `C36_unsampled_refuted` |
| C87 | the cost of a link that measures quality grows with the time since the last Hello (neighbour.c:302-304) without a notification until the next check: `C87_time_refuted` |
| C60 | a Hello after which the last six have all arrived is not reported as a change (neighbour.c:192-193), although on a link that measures quality the window still lowers the cost: routes keep the cost of the fifth Hello until something else is reported: `C60_hello_refuted` |

Seen while reading, not stated as theorems:

* local_read on EINTR/EAGAIN continues without advancing the index; destroying a socket skips the one moved in its place.
* `key id k type hmac-sha256` without a value is an all-zero key; NUL in a word truncates it; `ge`/`le`/`eq` are
  truncated to eight bits and +96 wraps for IPv4; getint truncates a long.
* interface names of IF_NAMESIZE bytes or more are left unterminated; flush_ifconf and free_filter leak.
* packets shorter than four bytes are inspected beyond their end (the receive buffer holds stale bytes).
* a packet with a valid MAC that fails the counter check still creates a neighbour.
* update_interface_metric and expire_routes skip a route that a switch moves to the head of its chain.
* the smoothed-metric comparison in update_route_metric is dead code, as is the request for an old route in expire_routes.
* kernel_route_notify ignores the deletion of a route that the filter denies; modify_xroute does not update the interface.
* send_update with no prefix satisfies pending requests with the sequence number of the source, not of the route.
* the interval of IHU messages, three times the hello interval, wraps in the same way from 218.4 s on; the one of Hellos is clamped.
* a configuration given at run time is not merged with `default`, and is ignored for interfaces that exist since the start.
* going down does not forget the IPv4 address, so coming up again with the same address sends no full update.
* kernel_setup_interface reads old_if[-1] when its table cannot grow; rp_filter that could not be read is not restored.
* uninstall_route forgets the route even if the kernel refused to delete it.
