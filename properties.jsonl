{"id": "C01", "title": "Sequence numbers are compared on a circle", "statement": "Comparing two 16-bit sequence numbers says 'same' exactly when they are equal, says 'newer' exactly when the first is 1 to 32768 steps ahead of the second (mod 65536) and 'older' exactly when it is 1 to 32767 steps behind; so a number increased by 1..32767 is always newer, also across the wrap from 65535 to 0, the comparison is translation invariant, antisymmetric except for numbers exactly 32768 apart, and transitive along any chain that spans less than half of the circle. Addition and signed subtraction of sequence numbers are inverse to each other.", "quantifier": "every pair and triple of 16-bit sequence numbers and every increment", "why_tests_cant": "2^32 pairs and 2^48 triples; tests sample a few around the wrap.", "anchors": ["util.h:seqno_compare", "util.h:seqno_minus", "util.h:seqno_plus"]}
{"id": "C02", "title": "Clock arithmetic agrees with real time", "statement": "For normalised timestamps: adding milliseconds and comparing agrees with integer microseconds and keeps the result normalised; the millisecond difference is within one millisecond of the true difference, 0 when that is negative and to its documented ceiling when huge; taking the earlier of two deadlines treats 'zero seconds' as 'no deadline' and otherwise returns a lower bound of both that is one of them.", "quantifier": "every pair of timestamps with 0 <= usec < 10^6 and every non-negative delay", "why_tests_cant": "Unbounded timestamps; carries and clamps occur only in corners.", "anchors": ["util.c:timeval_minus", "util.c:timeval_minus_msec", "util.c:timeval_add_msec", "util.c:timeval_compare", "util.c:timeval_min", "util.c:timeval_min_sec"]}
{"id": "C03", "title": "Jittered delays stay within bounds and acknowledgements meet their deadline", "statement": "A delay randomised by the daemon is within [3/4, 5/4) of the nominal delay whatever the random generator returns (and has the sign of the nominal delay), a hello/update timer set from an interval expires inside that window, and an acknowledgement asked for within N centiseconds is scheduled for transmission no later than N centiseconds after the request arrives, for every pending timer state and every random choice.", "quantifier": "every nominal value that fits, every random value, every state of the output buffer's timer, every requested interval", "why_tests_cant": "The random generator's output and the state of the timers cannot be enumerated.", "anchors": ["util.c:roughly", "interface.c:set_timeout", "message.c:send_ack", "message.c:schedule_flush_ms", "message.c:schedule_flush"]}
{"id": "C04", "title": "Prefix containment and normalisation are bitwise exact", "statement": "An address is reported inside a prefix of length n iff their first n bits agree, and normalising to n bits keeps the first n bits and clears the others, for any n in 0..128; normalising is idempotent and does not change containment.", "quantifier": "every 16-byte address, every prefix, every length 0..128", "why_tests_cant": "2^256 address pairs.", "anchors": ["util.c:in_prefix", "util.c:normalize_prefix"]}
{"id": "C05", "title": "Martian prefixes are exactly the reserved ones, and never enter the tables", "statement": "The martian test is true exactly for: prefixes inside ff00::/8, fe80::/10, ::/128, ::1/128, 127.0.0.0/8, 0.0.0.0/8, 224.0.0.0/4, 255.255.255.255/32; an update, request or kernel route for a martian prefix never creates a learned route or a redistributed route.", "quantifier": "every prefix and length; every state and update/kernel route", "why_tests_cant": "Prefix space is 2^128; the effect clause ranges over all reachable states.", "anchors": ["util.c:martian_prefix", "route.c:update_route", "xroute.c:add_xroute", "message.c:parse_packet"]}
{"id": "C06", "title": "Textual identifiers and decimals parse to what was printed", "statement": "Parsing a printed EUI-64 router-id or hex key gives the original bytes, a MAC-48 is expanded by inserting FF:FE in the middle, no malformed hex string is accepted; a decimal with up to three fractional digits parses to its exact value in thousandths.", "quantifier": "every 8-byte id, every byte string, every string", "why_tests_cant": "Input strings are unbounded.", "anchors": ["util.c:parse_eui64", "util.c:format_eui64", "util.c:fromhex", "util.c:h2i", "util.c:parse_thousands", "util.c:parse_nat"]}
{"id": "C07", "title": "The packet parser never reads outside the datagram and always terminates", "statement": "Whatever bytes arrive in a datagram of at least 4 bytes, parsing and authentication pre-parsing terminate and never read a byte outside the datagram; a malformed TLV is skipped as a whole, without changing how the following TLVs are framed.", "quantifier": "every byte string of any length", "why_tests_cant": "The input space is all datagrams; fuzzing samples it.", "anchors": ["message.c:parse_packet", "message.c:preparse_packet", "message.c:network_prefix", "message.c:parse_update_subtlv", "message.c:parse_hello_subtlv", "message.c:parse_ihu_subtlv", "message.c:parse_request_subtlv", "message.c:parse_seqno_request_subtlv", "message.c:parse_other_subtlv", "hmac.c:check_hmac"]}
{"id": "C08", "title": "Unknown extensions are handled per their mandatory bit", "statement": "An Acknowledgment request, Hello, IHU, Update, route request or seqno request carrying an unknown sub-TLV with the mandatory bit set is not acted upon, and leaves the parser state as it was, except that an Update (like a Router-Id or Next Hop TLV, RFC 8966 section 4.4) leaves the state which it would have left without sub-TLVs; a TLV carrying unknown non-mandatory sub-TLVs or padding is interpreted as if they were absent; and unknown TLV types and padding have no effect on the interpretation of the rest of the packet.", "quantifier": "every packet, every position and content of unknown TLVs and sub-TLVs", "why_tests_cant": "Unbounded placements of unknown TLVs in unbounded packets.", "anchors": ["message.c:parse_packet", "message.c:parse_update_subtlv", "message.c:parse_request_subtlv", "message.c:parse_other_subtlv"]}
{"id": "C09", "title": "Updates survive the wire: compression state of sender and receiver agree", "statement": "Any sequence of route announcements handed to the encoder, with flushes wherever they happen, is decoded by a peer to exactly the same sequence of (router-id, prefix, source prefix, sequence number, metric, interval, next hop), in spite of stateful prefix, router-id and next-hop compression within each packet.", "quantifier": "every sequence of updates (any length), every buffer size and flush point", "why_tests_cant": "The compression state depends on the whole history since the last flush.", "anchors": ["message.c:really_buffer_update", "message.c:start_message", "message.c:flushbuf", "message.c:parse_packet", "message.c:network_prefix"]}
{"id": "C10", "title": "Every other message type decodes to what was encoded", "statement": "Hello, IHU, route request (wildcard or specific, with or without source prefix), seqno request, acknowledgement, challenge request/reply, and wildcard retraction written by the encoder are read back by the decoder with exactly the same field values and in the same order, whatever else is in the buffer and wherever it is flushed. Hellos are numbered consecutively; each Hello which is forced is sent, and one which is not may be left out only if the packet being built has a Hello already.", "quantifier": "every field value in range, every prefix (IPv4, IPv6, source-specific)", "why_tests_cant": "Large product of field values and address families.", "anchors": ["message.c:buffer_hello", "message.c:buffer_ihu", "message.c:send_request", "message.c:send_multihop_request", "message.c:send_ack", "message.c:buffer_wildcard_retraction", "message.c:send_challenge_request", "message.c:send_challenge_reply", "message.c:parse_packet"]}
{"id": "C11", "title": "Outgoing packets never overflow the buffer or the MTU", "statement": "For any sequence of messages appended to an output buffer, with or without authentication (in which case the interface keeps a link-local address), the buffer is never written outside its bounds and every datagram handed to the network, including authentication trailer and MTU-probe padding, is at most 4 + buffer size bytes; with MTU probing, a datagram from the interface's own multicast buffer carrying a Hello is padded exactly to the buffer size. (A unicast Hello is not padded: C11_unicast_probe_refuted. If the last link-local address of an interface with a key goes away while it is up, the buffer overflows: C11_no_address_refuted.)", "quantifier": "every sequence of message appends and flushes, every buffer size >= 512 - 52", "why_tests_cant": "Overflow needs a specific fill level, which depends on the history.", "anchors": ["message.c:start_message", "message.c:ensure_space", "message.c:flushbuf", "message.c:send_pc", "hmac.c:add_hmac", "interface.c:interface_updown"]}
{"id": "C12", "title": "Packets signed with a key verify with that key and only with a matching MAC", "statement": "A datagram to which the sender added its MAC verifies at a receiver configured with the same key, for the same source and destination addresses, whatever follows the MAC, and every datagram sent on an interface with a key is such a datagram; verification succeeds only if some MAC TLV in the trailer equals the keyed hash over (source, destination, header, body); when the trailer is a sequence of TLVs other than Pad1, it is reported as unsigned if it has no MAC TLV, and refused if it has only MACs which do not match. (A Pad1 in the trailer is taken for a TLV with a length, so a MAC behind it is not seen: theorem C12_pad1_refuted.)", "quantifier": "every packet body, every key, every trailer", "why_tests_cant": "All byte strings.", "anchors": ["hmac.c:add_hmac", "hmac.c:check_hmac", "hmac.c:compute_hmac"]}
{"id": "C13", "title": "No replay of authenticated packets", "statement": "On an interface with a key, of two packets of the same neighbour and destination class (unicast or multicast) accepted one after the other, the second has the same index as the first and a strictly larger packet counter, unless a challenge was completed after the first was accepted; in particular the same packet is never accepted twice without a challenge completed in between. (The challenge may be completed by another packet, whose counter is lower than that of the replayed one: theorem C13_replay_refuted.)", "quantifier": "every sequence of received packets, clock readings and nonces", "why_tests_cant": "An adversary chooses the history.", "anchors": ["message.c:preparse_packet", "message.c:parse_packet", "neighbour.h:struct neighbour"]}
{"id": "C14", "title": "A challenge reply counts once, for the latest nonce, within 30 seconds", "statement": "A challenge reply makes the daemon adopt a neighbour's index/counter only if its nonce equals the nonce of the last challenge request sent to that neighbour, that request was sent at most 30 seconds ago, and no reply to it was honoured before; challenge requests to one neighbour are at least 300 ms apart.", "quantifier": "every history of challenges, replies and clock readings", "why_tests_cant": "Depends on arbitrary histories and time.", "anchors": ["message.c:preparse_packet", "message.c:send_challenge_request"]}
{"id": "C15", "title": "A sender never uses an (index, counter) pair twice", "statement": "In any run of an interface with a key, the packets sent carry distinct (index, packet counter) pairs, even when the 32-bit counter wraps, as long as freshly drawn indices are distinct.", "quantifier": "every number of packets sent, including more than 2^32", "why_tests_cant": "Needs 2^32 packets to reach the wrap.", "anchors": ["message.c:send_pc", "message.c:flushbuf"]}
{"id": "C16", "title": "Unauthenticated packets have no effect", "statement": "On an interface with a key and without accept-bad-signatures, a packet which has no valid MAC changes nothing, and a packet whose counter check fails changes nothing in the route, source and request tables and neither the counters nor the index recorded for the neighbour, whatever its contents; it may create the entry of the neighbour and concern the pending challenge.", "quantifier": "every packet, every state", "why_tests_cant": "All byte strings and states.", "anchors": ["message.c:parse_packet", "message.c:preparse_packet"]}
{"id": "C17", "title": "The source table is a finite map keyed by (router-id, prefix, source prefix)", "statement": "After any sequence of lookups, insertions, updates and expirations, the table is strictly sorted with no duplicate key, lookup finds an entry iff it was inserted and not expired since, and never disturbs other entries.", "quantifier": "every sequence of operations", "why_tests_cant": "Binary search over an unbounded table.", "anchors": ["source.c:source_compare", "source.c:find_source_slot", "source.c:find_source", "source.c:expire_sources"]}
{"id": "C18", "title": "The feasibility distance only improves, and dominates everything we announced", "statement": "For as long as a source entry lives and is not left unused for more than 200 s, its (seqno, metric) pair only ever gets strictly better (newer seqno, or same seqno and smaller metric), so a strictly worse pair never becomes acceptable; and after a finite route is announced to neighbours the entry is at least as good as what was announced.", "quantifier": "every history of updates sent, within the seqno half-window", "why_tests_cant": "History property over unbounded runs.", "anchors": ["source.c:update_source", "message.c:flushupdates", "route.c:update_feasible"]}
{"id": "C19", "title": "A route is newly selected only if feasible", "statement": "An update is accepted as feasible iff it is a retraction, or no source entry is alive for its (router-id, prefix), or its seqno is newer, or its seqno is equal and its metric strictly smaller than the entry's; a route that is not selected becomes selected only if it is feasible at that moment.", "quantifier": "every state, every update", "why_tests_cant": "Requires every reachable source/route table.", "anchors": ["route.c:update_feasible", "route.c:route_feasible", "route.c:consider_route", "route.c:find_best_route", "route.c:update_route"]}
{"id": "C20", "title": "A source entry in use is never freed", "statement": "In every reachable state, the reference count of each source equals the number of learned routes that refer to it, every route refers to a live source entry, and expiring sources removes only entries without routes and older than the garbage-collection time.", "quantifier": "every sequence of updates, flushes, expirations", "why_tests_cant": "Use-after-free depends on the interleaving of operations.", "anchors": ["source.c:retain_source", "source.c:release_source", "source.c:expire_sources", "route.c:update_route", "route.c:flush_route"]}
{"id": "C21", "title": "The route table is well formed: one selected route per destination", "statement": "In every reachable state, the learned routes are grouped by (prefix, source prefix) in strictly sorted groups, each group is non-empty, has at most one route per neighbour, at most one selected route, and the selected one is first; looking up the selected route of a prefix returns it iff there is one.", "quantifier": "every sequence of route operations, kernel answers and random choices", "why_tests_cant": "Unbounded histories.", "anchors": ["route.c:route_compare", "route.c:find_route_slot", "route.c:insert_route", "route.c:flush_route", "route.c:move_installed_route", "route.c:find_installed_route"]}
{"id": "C22", "title": "The kernel table mirrors the selected routes", "statement": "As long as the kernel carries out the requests it is given, every announced next hop belongs to the address family of the announced destination, and the install rules treat all routes to a destination alike (they do not depend on the router-id or the interface), the set of routes that the daemon has put in the kernel equals, at every moment between operations, the set of its selected routes with their next hop, interface, priority and table; nothing is added twice or removed when absent. (Without the condition on the install rules, or with an IPv4 next hop for an IPv6 destination, this is false: see the refuted theorems.)", "quantifier": "every sequence of operations in which kernel requests succeed", "why_tests_cant": "Unbounded histories; a leaked kernel route shows only after specific histories.", "anchors": ["route.c:install_route", "route.c:uninstall_route", "route.c:switch_routes", "route.c:change_route_metric", "route.c:change_route", "route.c:flush_route"]}
{"id": "C23", "title": "Best-route search returns an eligible route of minimal metric", "statement": "The search for the best route to a destination returns a route iff an eligible one exists (not expired, feasible when that is required, not through the excluded neighbour); the returned route has the least smoothed metric among the eligible ones, and the search changes nothing but smoothed metrics.", "quantifier": "every table, every state", "why_tests_cant": "All tables.", "anchors": ["route.c:find_best_route", "route.c:route_acceptable", "route.c:route_feasible", "route.c:route_expired"]}
{"id": "C24", "title": "A selected route is only replaced by a better one", "statement": "Considering a route for selection when another route is selected replaces it only if the newcomer's metric is finite and either the selected route is infinite, or the newcomer's metric is not larger and its smoothed metric strictly smaller; a route with infinite metric never replaces a selected route.", "quantifier": "every state and candidate", "why_tests_cant": "All table states.", "anchors": ["route.c:consider_route", "route.c:route_changed"]}
{"id": "C25", "title": "Losing a route either switches to a feasible alternative or is announced", "statement": "Let a destination not be redistributed. (1) When its selected finite route is flushed, each interface that is up is told about the destination, or is about to be; when another feasible unexpired route exists, a route is selected afterwards, unless the kernel refused a change or an install rule denies an alternative; when none exists, nothing is selected, and if the metric was at most 32767 a request for the next sequence number is sent. (2) When the selected route becomes infinite (its neighbour is lost or withdraws it, the cost of its link becomes infinite), then, unless the kernel refused a change, each interface is told or about to be, and the route selected afterwards is finite, or is the same one while every finite feasible unexpired alternative counts as infinite after smoothing. (For a destination that is also redistributed this is false: the loss can be silent: see the refuted theorem.)", "quantifier": "every state, every way of losing a route", "why_tests_cant": "All table states.", "anchors": ["route.c:route_lost", "route.c:flush_route", "route.c:retract_route", "route.c:route_changed", "route.c:send_triggered_update", "route.c:send_unfeasible_request"]}
{"id": "C26", "title": "Own, denied and malformed updates change nothing", "statement": "An update carrying our own router-id, or for a martian or denied prefix, or with mismatched address families leaves the route table, source table and kernel untouched.", "quantifier": "every state, every update", "why_tests_cant": "All states.", "anchors": ["route.c:update_route", "configuration.c:input_filter"]}
{"id": "C27", "title": "Selected routes are feasible", "statement": "A route is feasible at the moment it is selected (C05). An unfeasible update that changes the router-id of the selected route unselects it at once, so that no route of that neighbour for that destination is selected afterwards. (That a selected route stays feasible is false: an unfeasible update with the same router-id is applied to the selected route, which stays selected: see the refuted theorem.)", "quantifier": "every history", "why_tests_cant": "Histories.", "anchors": ["route.c:update_route"]}
{"id": "C28", "title": "A selected route points to the next hop most recently announced", "statement": "The next hop of a route is the one carried by the update that created it: an accepted update for a destination and neighbour without a route uses its next hop, and a later update never changes it. (That the most recently announced next hop is used is false: see the refuted theorem.)", "quantifier": "every history of updates", "why_tests_cant": "Histories.", "anchors": ["route.c:update_route"]}
{"id": "C29", "title": "Metric smoothing moves monotonically towards the metric and never overflows", "statement": "The smoothed metric always lies between its previous value and the current metric, equals the metric when smoothing is off or the metric is infinite, and after a half-life at least three eighths of the difference is gone (up to rounding); computing it changes nothing else of the route, its internal consistency assertion never fails, and no arithmetic overflow occurs. This holds for every configured half-life except 2 seconds, and for 2 seconds when metric and previous value differ by at most 63286; a half-life of 2 seconds with a larger difference does overflow (refuted by a separate theorem).", "quantifier": "every metric, previous value, elapsed time, half-life and random choice", "why_tests_cant": "Random values and elapsed times cannot be enumerated.", "anchors": ["route.c:route_smoothed_metric", "route.c:change_smoothing_half_life"]}
{"id": "C30", "title": "Metrics saturate at infinity", "statement": "A route's metric is the sum of the announced metric, the link cost and the filter cost, saturated at 65535; it never wraps to a small number; as long as the kernel metric is not reflected, the kernel entry of a selected route has the configured priority and the next hop when the metric is finite and is an unreachable route exactly when it is infinite. (With reflect-kernel-metric a finite route may be installed as unreachable: see the refuted theorem.)", "quantifier": "all field values", "why_tests_cant": "Wrap-around needs extreme values.", "anchors": ["route.h:route_metric", "route.c:metric_to_kernel", "route.c:update_route"]}
{"id": "C31", "title": "Removing a neighbour or interface removes everything that depends on it", "statement": "After a neighbour is flushed no learned route goes through it; after an interface goes down no learned route goes through it; all other routes are kept; in every reachable state, as long as interfaces are removed only when no neighbour or pending request refers to them, no live object refers to a freed one.", "quantifier": "every state", "why_tests_cant": "Dangling references depend on history.", "anchors": ["route.c:flush_neighbour_routes", "route.c:flush_interface_routes", "neighbour.c:flush_neighbour", "interface.c:flush_interface"]}
{"id": "C32", "title": "Shutdown leaves no route behind", "statement": "Flushing all routes empties the learned-route table and issues a removal for every route that was selected. On an interface not configured for unicast, whatever was sent before, one of the datagrams of the shutdown is such that a neighbour without a key on that interface which receives it, and anything else of what was sent before it or after it, has from then on only retracted routes of ours, unless its kernel refuses a change.", "quantifier": "every state", "why_tests_cant": "All states.", "anchors": ["route.c:flush_all_routes", "babeld.c:main", "message.c:buffer_wildcard_retraction", "route.c:retract_neighbour_routes"]}
{"id": "C33", "title": "Stale routes disappear", "statement": "A periodic expiration pass over the route table always ends. After it, no route remains that has not been refreshed for longer than its hold time, and no route appears that was not there before; no route that was refreshed within 7/8 of its hold time (by a clock that has not gone back) was removed.", "quantifier": "every state and clock value", "why_tests_cant": "All states.", "anchors": ["route.c:expire_routes", "route.c:route_old", "route.c:route_expired"]}
{"id": "C34", "title": "Hello history reflects the hellos received", "statement": "After any sequence of hellos and timer checks, the 16-bit history has bit k set only if a hello was received for that slot, in-order hellos with consecutive sequence numbers fill the history with ones, a gap of n < 16 missed hellos leaves exactly n zero bits, and a large jump resets the history.", "quantifier": "every sequence of hello seqnos/intervals and clock readings", "why_tests_cant": "Histories.", "anchors": ["neighbour.c:update_neighbour", "neighbour.c:check_neighbours"]}
{"id": "C35", "title": "Link costs are bounded and infinite exactly when the link is dead", "statement": "The receive cost of a neighbour is infinite when the interface is down, hellos stopped or too few were heard, otherwise the configured cost without link quality estimation, and with it at least the configured cost while Hellos are fresh (less than 40 s old, or less than 180 s old with the last one received and a configured cost of at most 6710); the total cost is infinite if either direction is, otherwise at least the nominal cost; costs never exceed 65535 and never overflow.", "quantifier": "every neighbour state and clock value", "why_tests_cant": "Arithmetic corner cases over the full state space.", "anchors": ["neighbour.c:neighbour_rxcost", "neighbour.c:neighbour_txcost", "neighbour.c:neighbour_cost", "neighbour.c:two_three"]}
{"id": "C36", "title": "RTT estimation is an average and its penalty is monotone and capped", "statement": "For RTTs up to 16.7 s the smoothed RTT lies between its previous value and the new sample; the RTT penalty is 0 up to rtt-min, max-rtt-penalty from rtt-max on, monotone in between; samples inconsistent with the clocks are discarded.", "quantifier": "every sample and configuration", "why_tests_cant": "Unbounded values; overflow.", "anchors": ["neighbour.c:neighbour_rttcost", "message.c:parse_packet", "neighbour.c:valid_rtt"]}
{"id": "C37", "title": "Silent neighbours are forgotten, live ones kept", "statement": "A neighbour whose hellos stopped for long enough is flushed by the periodic check; its transmit cost becomes infinite once its IHU hold time passed; a neighbour with a recent hello is never flushed.", "quantifier": "every neighbour state and clock value", "why_tests_cant": "Time and history.", "anchors": ["neighbour.c:check_neighbours", "neighbour.c:reset_txcost"]}
{"id": "C38", "title": "Seqno requests are answered, forwarded with a smaller hop count, or dropped", "statement": "On a seqno request: our own seqno is increased, by one, exactly when the request is for our own router-id and for a destination that we redistribute, still has hops to go, and names a number newer than ours but not by 101 to 32767. If we redistribute the destination, or the selected route is from another router or has that number or a newer one, an update for the destination is scheduled on the requester's interface within 200 ms and the request goes no further. Otherwise it is dropped without effect if the hop count is exhausted, the number is more than 100 ahead of the selected route's, or a similar request is pending; else it is forwarded to one next hop of a usable route that is not the requester, with the hop count decreased by one, and remembered, or, when no route through another neighbour is usable or some are retracted, given up.", "quantifier": "every request and every state", "why_tests_cant": "All states and requests.", "anchors": ["message.c:handle_request", "message.c:update_myseqno", "message.c:send_unicast_multihop_request"]}
{"id": "C39", "title": "Duplicate requests are suppressed, newer ones are not", "statement": "A request that cannot be answered and for which a next hop exists is not forwarded only if a request for the same destination (not a newer one for the same router-id) is already pending on the same interface or on all, unexpired, and to be repeated or less than a hello interval (at most 1 s) old. (That the pending request is at least as new and for the same router-id is not guaranteed: a pending request for an older number or for another router-id suppresses it.)", "quantifier": "every pending set and request", "why_tests_cant": "All states.", "anchors": ["resend.c:request_redundant", "message.c:handle_request"]}
{"id": "C40", "title": "Pending retransmissions are unique, bounded and backed off", "statement": "At most one pending entry exists per (kind, prefix, source prefix); a request or update is retransmitted at most 3 times after it was recorded (the clock having passed 66 s), with delays doubling up to a ceiling of 65535 ms; one pass retransmits exactly the entries whose time has come, requests going out with 127 hops; and, as long as no older request is recorded over a newer one for the same router-id, the next wake-up is set and never later than the earliest entry that still has retransmissions left.", "quantifier": "every sequence of record/satisfy/expire/retransmit operations and clock readings", "why_tests_cant": "Histories.", "anchors": ["resend.c:record_resend", "resend.c:satisfy_request", "resend.c:expire_resend", "resend.c:recompute_resend_time", "resend.c:do_resend"]}
{"id": "C41", "title": "Redistributed routes follow the kernel", "statement": "After a dump of the kernel's addresses and routes, in whatever order and with whatever repetitions, the redistributed table holds exactly the destinations of those which the redistribution rules accept and which are not martian (an address counts as a host route), each once, sorted, with the metric and protocol of one of them; a single notification changes the table for the named prefix only, and is ignored when the rules do not accept the route.", "quantifier": "every previous table and every kernel dump", "why_tests_cant": "Unbounded tables.", "anchors": ["xroute.c:check_xroutes", "xroute.c:kernel_route_notify", "xroute.c:add_xroute", "xroute.c:find_xroute", "xroute.c:xroute_compare"]}
{"id": "C42", "title": "Withdrawing a redistributed route concerns that route only", "statement": "When a redistributed route disappears, and its prefix length and source prefix are those of the first entry of the table, then the alternatives considered and the withdrawal announced are for exactly its own prefix and source prefix: an update for it waits on every interface that is up, no other destination starts to wait, the other destinations' routes and selections are as before, and an alternative is selected if there is one (all of them finite) unless the kernel or the install rules refuse. (Without the condition on the first entry this is false: a wrong prefix is looked up and announced; see the refuted theorem.)", "quantifier": "every table and index", "why_tests_cant": "Depends on the position in the table.", "anchors": ["xroute.c:flush_xroute"]}
{"id": "C43", "title": "Filters: first matching rule wins, conditions are a conjunction", "statement": "The result of a filter chain is the action of the first rule all of whose conditions hold, and the documented default if there is none; a prefix condition holds iff the route's prefix is inside the rule's prefix with length within [ge, le].", "quantifier": "every rule list and every route", "why_tests_cant": "All rule lists and routes.", "anchors": ["configuration.c:filter_match", "configuration.c:do_filter", "configuration.c:input_filter", "configuration.c:output_filter", "configuration.c:redistribute_filter", "configuration.c:install_filter", "configuration.c:finalise_config"]}
{"id": "C44", "title": "Filters never make a route better", "statement": "Input and output filters can only raise a metric or deny the route: an update is sent with the metric of the route plus the non-negative amount of the first matching rule, capped at infinity, and not at all if that is infinite; a learned route has its announced metric plus link cost plus the amount of the filter, and a denied update is ignored (C26, C59).", "quantifier": "every rule list and route", "why_tests_cant": "All rule lists.", "anchors": ["configuration.c:input_filter", "configuration.c:output_filter", "route.c:update_route", "message.c:really_send_update"]}
{"id": "C45", "title": "Split horizon", "statement": "On an interface with split horizon, a destination whose selected route goes through that interface is never announced there from that route: an update for it is sent only if we redistribute the destination ourselves, and then with our own router-id and sequence number.", "quantifier": "every state", "why_tests_cant": "All states.", "anchors": ["message.c:flushupdates"]}
{"id": "C46", "title": "Flushing pending updates announces every pending destination once", "statement": "When pending updates are flushed, the destinations handled are exactly the pending ones: announced as ours if redistributed (with priority over the selected route according to the kernel metric), else announced from the selected route unless split horizon forbids it, else retracted; each destination that has something to announce is announced exactly once however often it was pending, in any order; and afterwards nothing is pending. (A destination pending several times of which nothing is known any more is retracted several times: see the refuted theorem.)", "quantifier": "every state and pending list, in any order and with duplicates", "why_tests_cant": "All pending lists.", "anchors": ["message.c:flushupdates", "message.c:buffer_update", "message.c:compare_buffered_updates"]}
{"id": "C47", "title": "Configuration lexing is total and bounded, and read-only clients cannot change configuration", "statement": "Reading any line of input terminates; an accepted line is consumed up to its end and no further (an end of line after a backslash inside a quoted string does not end it); no token longer than 255 characters is ever stored; on a read-only control connection no line changes the configuration, and only empty lines and the single commands quit, dump, monitor and unmonitor (up to a NUL character) are not answered with an error; these four commands are always obeyed.", "quantifier": "every input string", "why_tests_cant": "All strings.", "anchors": ["configuration.c:getword", "configuration.c:getstring", "configuration.c:skip_to_eol", "configuration.c:parse_config_line", "configuration.c:parse_config_from_string"]}
{"id": "C48", "title": "Parsing interface configuration is memory safe", "statement": "No accepted configuration line makes the parser use or free a token that it has freed; nor does a rejected one, unless it begins with 'interface' or 'default' and contains a quotation mark or has more than 255 characters (then it may: refuted for `interface eth0 rxcost 96 \"x\"`).", "quantifier": "every input string", "why_tests_cant": "All strings.", "anchors": ["configuration.c:parse_anonymous_ifconf", "configuration.c:parse_key", "configuration.c:parse_filter"]}
{"id": "C49", "title": "Each control command gets its own reply", "statement": "On the control socket, while replies can be written, every complete line is processed exactly once, in order, however the bytes are split into reads; the reply to a line depends on that line only as long as the earlier lines of the same read were accepted; monitoring is on or off as the last line that switched it says, and the connection is ended exactly when a line asks for it; the receive buffer never holds more than its size and an over-long line closes the connection without being processed. (Refuted in general: a reply repeats an earlier error of the same read, and a line whose reply cannot be written in time is processed again.)", "quantifier": "every byte stream and every segmentation", "why_tests_cant": "All segmentations.", "anchors": ["local.c:local_read"]}
{"id": "C50", "title": "Sequence number survives restarts", "statement": "After any number of clean shutdowns and restarts with the same router-id the daemon starts with a seqno strictly newer than any it announced (in an update under its router-id or a wildcard retraction), as long as fewer than half of the numbers were used and the state file could be written, read and removed; the state file is consumed once, so that a crash after reading it cannot reuse the number. A file that does not hold a number of 16 bits has no effect. When the file cannot be removed, or a start fails after reading it, the next number is random and may be older.", "quantifier": "every run and crash point", "why_tests_cant": "Crash points.", "anchors": ["babeld.c:main"]}
{"id": "C51", "title": "The main loop wakes up in time", "statement": "The time for which the main loop sleeps is positive and never exceeds the time to the earliest pending deadline (checks, hellos, updates, flushes, retransmissions); deadlines known to the second are met before that second ends. When the loop does not sleep, an action is due, except in the very microsecond for which a check of neighbours or interfaces is set.", "quantifier": "every set of timers", "why_tests_cant": "All timer states.", "anchors": ["babeld.c:main", "util.c:timeval_min", "util.c:timeval_min_sec"]}
{"id": "C52", "title": "Loop freedom across the network", "statement": "For any number of routers running this code, in any topology, with updates delayed, reordered, duplicated or lost, and with every other event of each router arbitrary: as long as source entries are not garbage-collected, the sequence numbers of the source stay within half a circle and the kernel accepts routes, the selected routes of a (prefix, router-id) that satisfy the feasibility condition form no cycle. If moreover no neighbour announces a link cost of zero, no retracted route of the source is ever selected, and no retraction naming the source reaches a selected route of another source, then all the selected routes of the source form no cycle. (Without these last two conditions the claim is false of the code: with nothing selected, a retracted route is selected like any other, and a later unfeasible update of the same router-id then leaves it selected with a finite metric, so that two routers can point at each other.)", "quantifier": "every topology, every interleaving of sends, deliveries and selections", "why_tests_cant": "Distributed interleavings.", "anchors": ["route.c:update_route", "route.c:consider_route", "source.c:update_source", "message.c:flushupdates"]}
{"id": "C53", "title": "Keys in use are never freed", "statement": "The reference count of a key is at least the number of interfaces that use it, so that releasing it never fails an assertion; no key ever leaves the table. (Refuted: the count does not equal the number of users, and 65537 definitions of one key make the daemon abort.)", "quantifier": "every sequence of key/interface configuration", "why_tests_cant": "Histories.", "anchors": ["hmac.c:retain_key", "hmac.c:release_key", "hmac.c:add_key"]}
{"id": "C54", "title": "Ordering of pending updates is a total order", "statement": "The order in which pending updates are sorted is a total preorder whose equivalence is equality of destination, so duplicates become adjacent whatever the sorting algorithm does.", "quantifier": "every pair and triple of pending updates", "why_tests_cant": "All triples.", "anchors": ["message.c:compare_buffered_updates"]}
{"id": "C55", "title": "Expired source information is not used too early", "statement": "A feasibility entry is discarded only 200 s or more after its last use and never while a route refers to it; a clock step backwards does not discard it.", "quantifier": "every table and clock value", "why_tests_cant": "Time.", "anchors": ["source.c:expire_sources"]}
{"id": "C56", "title": "The monotonic clock fallback never goes backwards by a second or more", "statement": "When no monotonic clock is available, the clock readings given to the rest of the daemon never decrease in seconds whatever the system clock does, and advance with the system clock as long as it does not go back. Within a second they may go back.", "quantifier": "every sequence of system clock readings", "why_tests_cant": "All sequences.", "anchors": ["kernel.c:gettime"]}
{"id": "C57", "title": "A wildcard retraction retracts exactly the sender's routes", "statement": "Receiving an update with wildcard address encoding and infinite metric makes all routes learned from that neighbour infinite and touches no route of any other neighbour.", "quantifier": "every state", "why_tests_cant": "All states.", "anchors": ["message.c:parse_packet", "route.c:retract_neighbour_routes"]}
{"id": "C58", "title": "Datagrams fit in the MTU, and the receive buffer always holds a full one", "statement": "The receive buffer only grows and, once the memory for it was obtained, is at least as large as every interface MTU seen, so a datagram from a correctly configured link is never truncated; and whatever is sent on an interface with an MTU of at least 512 fits, with its IPv6 and UDP headers, in that MTU. When memory is refused the buffer keeps its size and longer datagrams are truncated.", "quantifier": "every sequence of interface MTUs", "why_tests_cant": "Histories.", "anchors": ["babeld.c:resize_receive_buffer", "interface.c:interface_updown"]}
{"id": "C59", "title": "An accepted update is recorded exactly", "statement": "After an update that is not filtered, martian, our own or from an unknown neighbour has been processed, the table holds a route for that destination and neighbour exactly if it had one before or the update has a finite metric and a next hop; that route carries the announced router-id, seqno, hold time and metric, the current link cost and the cost of the input filter (unless the kernel refused the change), and every other route keeps what was announced for it.", "quantifier": "every reachable state, every update", "why_tests_cant": "All table states and all field values.", "anchors": ["route.c:update_route", "route.c:find_route_slot", "route.c:insert_route", "route.c:change_route"]}
{"id": "C60", "title": "A new link cost reaches every route of the neighbour", "statement": "After an IHU that changes the cost announced by a neighbour, after a Hello unless the last six Hellos of its kind (multicast or unicast) have all been received, and after an RTT sample that changes the penalty of a neighbour whose RTT was already valid, every unexpired route learned from that neighbour carries the link cost computed from the new values (unless the kernel refused a change). Not so: the sixth Hello in a row may lower the cost of a link that measures quality without reaching its routes, and the first RTT sample never reaches them.", "quantifier": "every reachable state, every neighbour and IHU", "why_tests_cant": "The walk reorders the table while it runs: all table shapes.", "anchors": ["route.c:update_neighbour_metric", "route.c:update_route_metric", "message.c:parse_packet"]}
{"id": "C61", "title": "What the packet parser hands over is well formed", "statement": "Whatever the bytes of a packet, every action the parser takes carries values in range: 16-bit sequence numbers, metrics and intervals, 8-byte router-ids, prefixes of at most 128 bits in which no bit after the prefix length is set, and an announcement which is not a retraction always has a router-id and a next hop. (A prefix ::ffff:0:0/96 written in the IPv6 encoding is accepted, and is then confused with an IPv4 one.)", "quantifier": "every byte string of at least 4 bytes, every sender address", "why_tests_cant": "The space of packets is unbounded; a test settles one packet.", "anchors": ["message.c:64-124", "message.c:573-1105"]}
{"id": "C62", "title": "A timestamped IHU travels with a timestamped Hello", "statement": "When RTT measurement is enabled, an IHU that carries timestamps is sent in the same datagram as a Hello that carries its sending time, so that the peer takes a round-trip sample from it, with or without a key on the interface and whatever was buffered before, unless the packet being built contains no Hello and has between 30 and 39 bytes left besides those reserved for authentication: then the Hello ends one packet and the IHU begins the next, and the peer gets no sample.", "quantifier": "every fill level of the output buffer, every pair of timestamps, every neighbour", "why_tests_cant": "Depends on how full the packet is when the IHU is built, which depends on all messages sent before.", "anchors": ["message.c:send_ihu", "message.c:buffer_ihu", "message.c:buffer_hello", "message.c:ensure_space", "message.c:fill_rtt_message"]}
{"id": "C63", "title": "What is announced is covered by the feasibility distance", "statement": "After a learned route has been announced with a finite metric, the feasibility distance kept for its router-id and prefix is, and was just refreshed to be, at least as good as the announced sequence number and metric (before the output filter).", "quantifier": "every reachable state, every set of pending updates, in any order", "why_tests_cant": "It has to hold for every interleaving of announcements and every sorted order of pending updates, with duplicates; loop freedom depends on it and a violation is silent.", "anchors": ["message.c:1615-1739 flushupdates", "source.c:187-205 update_source"]}
{"id": "C64", "title": "A rejected configuration line has no effect", "statement": "A configuration line that is answered with an error leaves the configuration (filters, interfaces, defaults, keys, options) as it was, except that an interface or default line may have raised the reference counts of the keys it names, and that a line beginning with the name of an option may already have set that option.", "quantifier": "all lines, all states of the configuration, before and after the configuration is finalised", "why_tests_cant": "The error may be at any place of a line of any length; what earlier words did must not remain.", "anchors": ["configuration.c:370-542", "configuration.c:544-738", "configuration.c:969-1271"]}
{"id": "C65", "title": "Serving the control sockets ends", "statement": "If no read and no write on a control socket answers that it would block, one pass of the main loop over the control sockets ends after at most one read per socket; a client that does not read its replies must not stop the daemon (refuted: it does).", "quantifier": "all sets of connections, all data received, all outcomes of reads and writes", "why_tests_cant": "Depends on the outcomes of every read and write; non-termination cannot be observed by a test.", "anchors": ["babeld.c:682-697", "local.c:51-81", "local.c:318-394"]}
{"id": "C66", "title": "Whatever datagrams arrive, the tables stay well formed", "statement": "Any datagram of at least four bytes, from any address, on any interface and in any state that such datagrams, timers and kernel notifications can lead to, is processed to its end without reading outside of it, and the resulting state is again one of those reachable by well-formed events, so that everything proved about executions of the daemon holds for it.", "quantifier": "every sequence of datagrams of any contents, interleaved with any other events", "why_tests_cant": "All sequences of byte strings; the connection between the parser and the tables.", "anchors": ["message.c:parse_packet", "babeld.c:main", "neighbour.c:find_neighbour", "route.c:update_route"]}
{"id": "C67", "title": "Updates that wait to be announced are sent within 6.25 seconds", "statement": "Updates are collected per interface before they are sent. As long as the monotonic clock does not go back, whenever updates wait on an interface a timer is armed for them, at most 6.25 seconds ahead, however many updates, requests, route changes and interface changes follow; the main loop never sleeps past that timer and flushes the updates once it is reached, and the updates that wait always fit in the array allocated for them.", "quantifier": "every reachable state, every interface, every order of datagrams, timers, kernel notifications and interface changes, every value of the random jitter", "why_tests_cant": "Many places schedule, delay or advance the timer; that none of them leaves updates waiting without a timer, or moves it ever further away, concerns all interleavings.", "anchors": ["message.c:1728-1790", "message.c:1742-1750", "babeld.c:598-640", "babeld.c:755-757", "interface.c:480-500"]}
{"id": "C68", "title": "The kernel is asked for exactly the route that was decided", "statement": "Whenever a route is added to or removed from the kernel, the netlink message that is sent stays inside its 1024-byte buffer and, read by the rules of rtnetlink, is a request of protocol Babel to add exclusively, or to delete, exactly that destination and source prefix, with that priority, interface, gateway (also an IPv6 gateway for an IPv4 destination) and preferred source address, or the unreachable route for that destination; requests that no kernel could carry out are refused without being sent. The table that is asked for is the configured one modulo 256.", "quantifier": "all destinations, source prefixes, gateways of both families, preferred sources, interfaces, metrics, tables and sequence numbers", "why_tests_cant": "The attributes have different sizes, alignments and order per address family, and the buffer arithmetic depends on all of them; an example shows one combination.", "anchors": ["kernel_netlink.c:955-1139", "kernel_netlink.c:520-560"]}
{"id": "C69", "title": "Messages of the kernel are understood", "statement": "From a datagram of route, address and link messages of the kernel, with attributes in any order, with unknown attributes and in any number, the daemon learns exactly the changes that it did not cause itself: routes with their prefix, source prefix, metric, interface and protocol, except routes of protocol Babel, cached copies, routes of tables that are not imported, and unreachable IPv6 default routes; addresses with their interface; link changes. An answer to a request may span any number of datagrams; exactly the messages carrying the request's sender and sequence number count until its end, and a request fails with the error number that the kernel reports. No message is read beyond its end.", "quantifier": "all lists of well-formed messages of any length, all attribute lists, all import tables", "why_tests_cant": "Datagrams are nested lists of variable-length records with alignment; tests cover a few shapes of what kernels send.", "anchors": ["kernel_netlink.c:405-516", "kernel_netlink.c:1141-1278", "kernel_netlink.c:1352-1463"]}
{"id": "C70", "title": "Interfaces come up with the documented parameters", "statement": "Whatever the configuration files and lines say, the parameters of interfaces stay in the documented ranges. Whenever the daemon checks its interfaces, each of them is up afterwards exactly if it exists under its current number, is operational and, unless it was already up, could be set up (sysctls, multicast group, a link-local address). An interface that comes up has exactly the parameters of the manual page: those of its configuration, else those of 'default', else the built-in defaults that depend on its type, on -w, -h and -H and on the kernel, with valid intervals, costs and a send buffer of at least 460 bytes that fits its MTU; an interface that stays up keeps its parameters and only takes over new addresses. No route remains through an interface that went down, was replaced or changed its IPv4 address, and no other change happens to the set of neighbours and interfaces. (The option -s, split horizon on interfaces whose type is detected, and switching off unicast, faraway or probe-mtu behave otherwise than documented.)", "quantifier": "every configuration text, every reachable state with any number of interfaces, every answer of the kernel, every sequence of checks", "why_tests_cant": "The parameters depend on seventeen configured values, each given, defaulted or left open, on the type detection, on the previous life of the interface and on every way in which bringing it up can fail; the routes that must disappear depend on the whole routing table.", "anchors": ["interface.c:254-526", "interface.c:543-583", "interface.c:164-251", "configuration.c:1505-1560", "babeld.c:174-198", "babeld.man:325-440"]}
{"id": "C71", "title": "Routes survive the loss of scheduled updates", "statement": "A router announces with every update how often it sends updates on that interface, and schedules the next full update at most 5/4 of the interval later. A router that records such an update keeps the route through all its expiration passes for at least three times that longest delay, so that the loss of two scheduled updates in a row does not remove it; for intervals of 11 seconds or more the loss of three does not. This holds for update intervals up to 655.344 seconds (longer ones, including defaults derived from hello intervals of 164 seconds or more, are announced modulo 2^16 centiseconds and make routes expire between updates).", "quantifier": "every sender state, interface and announced update, every receiver state, neighbour and filter that accepts it, every later time in the range", "why_tests_cant": "The announced interval, the jittered timer of the sender and the hold time of the receiver are computed in different units with different rounding; that the product always suffices is a statement about all intervals and random choices, and its failure above the 16-bit range shows only after ten minutes.", "anchors": ["message.c:1530", "message.c:1836-1853", "route.c:837", "route.c:621-631", "route.c:1191-1224", "util.c:41-50"]}
{"id": "C72", "title": "A usable route is used", "statement": "When an update arrives that is feasible and whose total metric (announced metric plus link cost plus filter cost) is finite, for a destination the router does not redistribute itself, then afterwards some route of finite metric to the destination is selected, unless the kernel refused a change or an install filter denies the route; if metrics are not smoothed, the metric of the selected route is at most that of the new one. The same holds when the metric of a feasible known route changes to a finite value because the cost of its link changed. A route that becomes feasible only because time passes (the feasibility distance is more than 200 seconds old) stays unused until something about its destination changes.", "quantifier": "every reachable state, every neighbour and accepted update, every route whose metric is recomputed", "why_tests_cant": "Whether a route ends up selected depends on the previously selected route, its smoothed metric, the hysteresis and switching rules, and failures in between; a test covers a few combinations and cannot show that no state leaves a usable destination without a route.", "anchors": ["route.c:826-982", "route.c:1013-1058", "route.c:1140-1162", "route.c:757-787"]}
{"id": "C73", "title": "The control socket prints the tables faithfully", "statement": "A client that sends 'dump' to the control socket receives, in this order and nothing else, one line for every interface, every neighbour, every redistributed route and every route, in text from which the client can read back unambiguously the name and state and addresses of the interface; the address, interface, hello histories, costs and RTT of the neighbour; the destination, source prefix and metric of the redistributed route; and the destination, source prefix, router-id, metric, announced metric, neighbour, interface and installed state of the route. No line is truncated or runs into the next one. If the client does not read fast enough, what it has received is a prefix of that text and the connection is shut down, so it can never mistake an incomplete dump for a complete one. Lines of notifications have the same form with 'add', 'change' or 'flush' in front, and the greeting gives the router-id.", "quantifier": "for all reachable states of the daemon whose values have the sizes of their types, all interface names the system allows, all inet_ntop that write an address in at most 45 characters with a colon and without blanks, dashes or slashes and injectively, and all sequences of results of write(2)", "why_tests_cant": "A test prints a few entries on a socket that takes everything; the claim is about every table, the longest possible addresses against the 512-byte buffer, and every pattern of short writes and failures.", "anchors": ["local.c:51-316", "local.c:396-421", "util.c:287-339"]}
{"id": "C74", "title": "Filter lines match exactly the routes they describe", "statement": "For every in, out, redistribute or install line written in the documented syntax - its clauses in any order, any spaces and tabs between the words, an optional comment - the line is accepted, adds one rule at the end of the chain it names and changes nothing else, and that rule matches a route exactly when the route satisfies every selector of the line: the prefix lies inside the ip network and its length satisfies every eq, le and ge clause (counted from the IPv4 length when the line is about IPv4), likewise for the source prefix, and the neighbour, router-id, interface and protocol are those named; a line that names no protocol never matches local addresses or boot-time routes; a line giving only lengths is about IPv6. When a selector of one kind is repeated, only the last one counts. The rule does what its action clauses say (allow, deny, metric, src-prefix, table, pref-src). A line mixing IPv4 and IPv6 clauses is rejected and changes nothing. A file made of such lines is accepted, and every later decision about a route is that of the first applicable rule in file order, or the documented default.", "quantifier": "all lists of clauses with lengths 0..128, all spacings and comments, all texts that follow, all answers of inet_pton and if_nametoindex, all routes of one family, all files of such lines", "why_tests_cant": "The number of clause lists, orders and routes is unbounded; tests check some rules on some routes, not that the text and its meaning agree for all of them.", "anchors": ["configuration.c:370-542 (parse_filter)", "configuration.c:846-878 (add_filter)", "configuration.c:1163-1198", "configuration.c:1374-1540 (filter_match, do_filter, finalise_config)", "util.c:341-422 (parse_address, parse_net)", "babeld.man: Filtering rules"]}
{"id": "C75", "title": "Every interface gets the parameters its lines give", "statement": "For every configuration file in the documented syntax (interface, default, key, option and filter lines and comments in any order and spacing; a key defined before it is used; keys named at most 65535 times), read by a daemon that has no configuration yet: the file is accepted, and the configured interfaces are exactly those that have an interface line, each once. Each parameter of an interface has the value given by the last interface line for that name that sets it, otherwise by the last default line that sets it - wherever in the file these lines stand - and is left to the daemon's own default if there is none; the same holds for the key the interface signs with. Within one line the last clause about a parameter counts. Intervals are read to the millisecond, round-trip times to the microsecond. Not so: a line that says auto does not undo an earlier line or a default line, and an interface added over the control socket ignores the default lines.", "quantifier": "all files of such lines, of any length and in any order, all spacings and comments, all answers of the C library", "why_tests_cant": "The files are unbounded and the merging of lines depends on their order; tests check a few files.", "anchors": ["configuration.c:544-738 (parse_anonymous_ifconf, parse_ifconf)", "configuration.c:880-945 (merge_ifconf, add_ifconf)", "configuration.c:1199-1217", "configuration.c:1289-1316 (parse_config_from_file)", "configuration.c:1521-1563 (finalise_config)", "interface.c:66-98 (add_interface)", "babeld.man: Interface configuration"]}
{"id": "C76", "title": "A configuration file takes effect as written", "statement": "For every configuration file as in C75: every global option takes effect, in the order of the file and with the value written there; whether control clients may change the configuration is decided by the last of the local-port, local-port-readwrite, local-path and local-path-readwrite lines; the known keys are those of the file, each once, with the type and the secret of its last key line (an HMAC-SHA256 secret padded with zeros to 64 bytes), the clauses of a key line being accepted in any order; and the filter lines decide about routes as in C74 whatever other lines stand between them. The newline at the end of the file may be missing. Not so: the documented value 0 of kernel-check-interval and shutdown-delay-ms and the documented option first-rule-priority make the daemon refuse the file.", "quantifier": "all files of such lines, of any length and in any order, all spacings and comments, all routes of one family, all answers of the C library", "why_tests_cant": "The files are unbounded; that lines of one kind do not disturb those of another, in every order, cannot be tested exhaustively.", "anchors": ["configuration.c:740-844 (parse_key)", "configuration.c:969-1111 (parse_option)", "configuration.c:1113-1271 (parse_config_line)", "configuration.c:1289-1316 (parse_config_from_file)", "hmac.c:41-107", "babeld.man: Global options"]}
{"id": "C77", "title": "Interfaces can be added, changed and removed while the daemon runs", "statement": "For every sequence of interface, default and flush interface lines, before and after the start, and every list of interfaces on the command line: there is never more than one interface of a name; the interfaces are exactly those that were added and not removed since; control clients that saw all notifications know exactly these; and flush interface succeeds exactly if the interface is there. No configuration record is read after it was freed, or freed twice, and the number of records is bounded by the names that were mentioned, not by the number of lines. Each interface reads the parameters that its lines give: an interface of the configuration those in force at the start; one of the command line those of the default lines, also of later ones if there was one before; one that was added at run time those of the lines for it since it was last removed, the newest first. Not so: a line for an interface of the configuration is ignored while that interface is there, but counts again once it was removed and added anew; and the record of a removed interface of the configuration is never freed.", "quantifier": "all sequences of lines, of any length, all names of fewer than 16 bytes, all parameter values", "why_tests_cant": "Whether a record is shared by the list of configurations, the default and the interfaces depends on the whole sequence of lines; use after free shows only in particular orders.", "anchors": ["interface.c:66-132 (add_interface, flush_interface)", "configuration.c:917-968 (add_ifconf, flush_ifconf)", "configuration.c:1199-1252", "configuration.c:1543-1558 (finalise_config)", "babeld.c:430-442", "local.c (local_notify_interface)"]}
{"id": "C78", "title": "The MAC of a packet is that of RFC 8967 with the secret of the configuration", "statement": "For every documented configuration file, the last line that defines a key gives the secret with which packets are signed: for hmac-sha256 the MAC is HMAC (RFC 2104) with SHA-256 under the bytes written in the line, for blake2s128 keyed BLAKE2s with 16 bytes, in both cases over source address, port, destination address, port, packet header and packet body. Whatever lines and files were given, valid or not, and whatever interfaces came up and went, every key in the table can sign, so that signing and checking never fail for a key of bad type or length. Two daemons that are given the same type and secret, under any names, verify each other's packets, and only a MAC under that secret verifies. (A line for an hmac-sha256 key without a value is accepted, and signs with the empty secret: theorem C78_no_value_refuted.)", "quantifier": "every hash function with digests of 32 (16) bytes, every file, every sequence of lines and interface events, every packet", "why_tests_cant": "All secrets, packets and histories of the key table.", "anchors": ["hmac.c:compute_hmac", "hmac.c:add_hmac", "hmac.c:check_hmac", "configuration.c:parse_key"]}
{"id": "C79", "title": "The kernel's settings are as a router needs them while babeld runs, and are put back", "statement": "Between a successful start and the exit, IPv4 and IPv6 forwarding are on, IPv6 redirects and the global reverse path filter are off, and the reverse path filter of every interface that is up is off. Every other file below /proc/sys, and every one of these as soon as babeld does not hold it any more (the interface went down or was removed, the process ended, by exit, by a failure after the start or because its sockets could not be opened), is exactly as if babeld had never run, through any number of starts, interface changes and changes by other programs to files that are not held. No file but these is ever written, whatever fails, and none at all with skip-kernel-setup. The table of saved values is never accessed out of bounds with at most 1024 interfaces. (Not so: a start that fails at one of the settings leaves the earlier ones changed, C79_failed_start_refuted; an interface deleted and created again between two checks gets the old one's value, C79_recreated_refuted; at the exit the first file that cannot be written ends the restoration, C79_first_failure_refuted; with more than 1024 interfaces up a value is read from outside the table, C79_many_refuted.)", "quantifier": "every file system, every sequence of starts, interface events, exits and changes by others", "why_tests_cant": "All orders of interface events, failures and restarts.", "anchors": ["kernel_netlink.c:kernel_setup", "kernel_netlink.c:kernel_setup_interface", "kernel_netlink.c:get_old_if", "kernel_netlink.c:free_old_if", "interface.c:interface_updown", "interface.c:check_interfaces", "babeld.c:babel_main"]}
{"id": "C80", "title": "A router keeps its identity: router-id and process id file", "statement": "The router-id of the configuration is used if there is one; otherwise, unless a random one is asked for, it is the modified EUI-64 of the first interface (of numbers 1 to 255) that has a hardware address assigned by its manufacturer, so that it is the same after every restart; ids of different hardware addresses of the same length differ, differ from every random id, and are never a reserved value. Only without such an interface, or when asked for, the id is random, with the group and local bits cleared. As long as nobody else touches the file, of all daemons told to use one process id file at most one runs, the file holds its number, it is removed when that daemon ends by itself, and a daemon that finds the file there leaves everything unchanged. (The random id, and the id of the configuration, may be a value reserved by RFC 8966: C80_reserved_refuted. If the file of a running daemon is removed, the end of that daemon removes the file of its successor: C80_removed_refuted.)", "quantifier": "every set of interfaces and hardware addresses, every configuration file, all random bytes, every sequence of starts, failures, exits and kills of any number of daemons", "why_tests_cant": "Needs all combinations of interface numbers, hardware types and addresses, and all interleavings of several daemons.", "anchors": ["babeld.c:447-480", "babeld.c:349-378", "babeld.c:843-859", "kernel_netlink.c:171-229", "kernel.c:86-104", "configuration.c:1094-1103"]}
{"id": "C81", "title": "The command line means what the manual says", "statement": "For every command line made of the options of the manual, with the letters joined or apart, arguments attached or separate, interfaces before, between or after the options where the C library allows it, and \"--\" ending the options: the daemon starts, with exactly the operands as interfaces, in order. The options -C count as lines of configuration and the other options like the corresponding lines of a file; they all count before the lines of the files, which are those named by -c in order, otherwise /etc/babeld.conf if it exists. Every variable has the value given last, otherwise its documented default: port 6696, group ff02::1:6, hello intervals 4 s (at least 5 ms), half-life 4 s, kernel priority 0, process id, state and log files, at most ten import tables, the control server on the port or path named last; the resend delay is between 20 ms and 2 s. An option and a line of a file that say the same have the same effect. Conversely the daemon starts only if the arguments are such options with numbers in their ranges and -m names an IPv6 multicast address; otherwise usage or an error is printed. Not so: -k accepts 0 where the equivalent kernel-priority does not; protocol-group accepts addresses that are not multicast where -m does not; an empty argument is taken for the number 0.", "quantifier": "all argument vectors, of any length and layout, both kinds of getopt, all files, all answers of the C library", "why_tests_cant": "Argument vectors and files are unbounded; tests try a few layouts and values, not that any later option or file overrides any earlier one and nothing else.", "anchors": ["babeld.c:120-323 (main)", "util.c:138-154 (parse_nat)", "kernel.c:106-113 (add_import_table)", "configuration.c:1273-1316", "local.c:48-49", "babeld.man: Options"]}
{"id": "C82", "title": "A monitoring client always knows the tables", "statement": "A client that sends \"monitor\" at any time and applies the add, change and flush lines about routes and redistributed routes to a copy of its own has, after any further events, exactly the daemon's routes and redistributed routes, each with its destination, router-id, metric, reference metric, neighbour and whether it is installed, as long as the kernel refuses no request. It is never told \"add\" for something it knows, nor \"change\" or \"flush\" for something it does not know. Whatever the kernel answers, it has exactly the routes and redistributed routes with their destinations, metrics and neighbours. Not so: after a refused request \"installed\" and \"id\" may be out of date.", "quantifier": "all reachable states at which the client connects, all event sequences from there, all answers of the kernel", "why_tests_cant": "A missing or superfluous line shows only after particular sequences of updates, switches, expiry, redistribution and kernel errors, of any length; tests compare the lines of a few scenarios.", "anchors": ["local.c:183-316 (local_notify_xroute, local_notify_route, local_notify_all_1)", "route.c:469-611 (install_route, uninstall_route, switch_routes, change_route_metric)", "route.c:124-180, 846-1000 (flush_route, update_route)", "xroute.c:118-240 (add_xroute, flush_xroute)", "babeld.man: Local configuration interface"]}
{"id": "C83", "title": "A link survives the loss of Hellos and IHUs", "statement": "A node sends a Hello the first time its main loop runs at or after the time set for it, 0.75 to 1.25 hello intervals after the last one, whatever else it sends. Without timestamps (or in RFC 6126 mode, or if everything is sent by unicast) the Hellos are numbered one by one modulo 65536 and every neighbour gets an IHU after every third Hello at the latest, before the next one. A node that hears a new neighbour whose hello interval is at most 66 s keeps it as long as of any three Hellos in a row at most one is lost and two gaps between Hellos plus the delay of the network are at most 2.7 intervals: the neighbour is never flushed whenever the periodic check runs; from the second Hello heard on the receiving cost of a wired interface is the configured one at all times; and the cost of the link is the one in the last IHU heard if an IHU is heard at least every 5 Hellos, or every 20 for intervals of at most 6.3 s. Not so: with timestamps, requests of one neighbour can keep another one without any IHU for 21845 Hellos; with an interval of 150 s the cost becomes infinite between two Hellos although none is lost. The interval announced in Hellos is the hello interval rounded up to a hundredth of a second; the one in IHUs is three times that, rounded up, for hello intervals up to 218.45 s.", "quantifier": "all hello intervals, all times of sending, arrival and checking within the bounds, all patterns of loss within the bound, of any length, all sequence numbers (wrapping); all neighbours, requests and flushes at the sender", "why_tests_cant": "Whether a link flaps depends on the interleaving of jittered Hellos, losses, delays and the periodic check over an unbounded time; tests see a few seconds of one interleaving.", "anchors": ["neighbour.c:132-267 (update_neighbour, reset_txcost, check_neighbours)", "neighbour.c:269-370 (two_three, neighbour_rxcost, neighbour_cost)", "message.c:1371-1435 (send_multicast_hello, send_hello)", "message.c:1976-2058 (send_ihu, send_marginal_ihu)", "message.c:692-754, 993 (Hello, IHU, wildcard request)", "babeld.c:748-752", "interface.c:158-162 (set_timeout)"]}
{"id": "C84", "title": "A neighbour that falls silent is noticed and forgotten in bounded time", "statement": "Let a neighbour's last multicast Hello, announcing the interval I, arrive at time T, and let no Hello arrive from it afterwards, nor any packet at all once it has been forgotten (a packet would make it known again). Provided the main loop is never late for a check of neighbours by more than L, then more than 18.575 I + 1 ms + L after T the neighbour is no longer known and no route goes through it. Already more than 4.575 I + 1 ms + L after T on a wired interface, and 14.575 I + 1 ms + L on any interface, the receiving cost and the cost of the link are infinite, if its unicast Hellos (if any) did not announce a longer interval. This holds whatever else happens: packets of other neighbours (which postpone no check), extra checks, interface, kernel and clock events, for any random jitter.", "quantifier": "all reachable states, all neighbours, all intervals 0.01 s to 655.35 s, all sequence numbers, all values of random(), all later executions of any length without a Hello from that neighbour in which the clock does not go back", "why_tests_cant": "The time of the next check is pushed around by every Hello and IHU of every neighbour and by random jitter; that it is never pushed too far for one particular neighbour is a statement about all interleavings.", "anchors": ["babeld.c:724-730, 913-923 (schedule_neighbours_check)", "neighbour.c:132-197 (update_neighbour)", "neighbour.c:227-267 (check_neighbours)", "neighbour.c:282-370 (neighbour_rxcost, neighbour_cost)", "message.c:713-715, 752-754", "route.c:307-327 (flush_neighbour_routes)"]}
{"id": "C85", "title": "Routes through a neighbour that falls silent are given up in bounded time", "statement": "Let a neighbour's last multicast Hello, announcing the interval I, arrive at time T (its unicast Hellos, if any, announcing no longer an interval), and let no Hello arrive from it afterwards, though its updates, IHUs and requests may. Provided the main loop is never late for a check of neighbours by more than L, then more than 4.575 I + 1 ms + L after T, if the interface stays one that does not measure the quality of links, and more than 14.575 I + 1 ms + L after T on any interface, no route through the neighbour has a finite metric, unless the kernel refused a request in the meantime. If the kernel carries out what it is asked (conditions of C22), then every entry of the kernel's table that has a next hop is that of a selected route of finite metric through another neighbour.", "quantifier": "all reachable states, all neighbours, all intervals 0.01 s to 655.35 s, all sequence numbers, all values of random(), all later executions of any length without a Hello from that neighbour in which the clock does not go back", "why_tests_cant": "The metric of a route is only recomputed when something is noticed to have changed; that no order of Hellos, checks, updates, IHUs, RTT samples and interface events leaves one route behind with the cost of a link that is gone is a statement about all executions.", "anchors": ["neighbour.c:132-197 (update_neighbour)", "neighbour.c:227-267 (check_neighbours)", "neighbour.c:282-370 (neighbour_rxcost, neighbour_cost)", "route.c:758-822 (update_route_metric, update_neighbour_metric, update_interface_metric)", "route.c:825-982 (update_route)", "babeld.c:913-923 (schedule_neighbours_check)"]}
{"id": "C86", "title": "Routes over a link that has become one-way are given up in bounded time", "statement": "Let a neighbour's last IHU, with a finite cost and announcing the interval J, arrive at time T, and let no IHU arrive from it afterwards, though its Hellos, updates and requests still do (it no longer hears this node). Provided the main loop is never late for a check of neighbours by more than L, then more than max(3.75 J, min(10 J, 180 s)) + 1.875 J + 1 ms + L after T the cost of the link is infinite and no route through the neighbour has a finite metric, unless the kernel refused a request in the meantime. If the kernel carries out what it is asked (conditions of C22), every entry of its table that has a next hop is then that of a selected route of finite metric through another neighbour. This also holds if the neighbour is forgotten and comes back meanwhile.", "quantifier": "all reachable states, all neighbours, all costs below 65535, all intervals 0.01 s to 655.35 s, all values of random(), all later executions of any length without an IHU from that neighbour in which the clock does not go back", "why_tests_cant": "A link that works in one direction only looks alive: all Hellos arrive and each of them may recompute costs. That the expiry of the last IHU is noticed in time, and reaches every route whatever comes in between, is a statement about all interleavings and all jitter.", "anchors": ["neighbour.c:199-219 (reset_txcost)", "neighbour.c:227-267 (check_neighbours)", "neighbour.c:221-225, 337-370 (neighbour_txcost, neighbour_cost)", "message.c:743-754 (IHU)", "babeld.c:913-923 (schedule_neighbours_check)", "route.c:758-822 (update_route_metric, update_neighbour_metric, update_interface_metric)"]}
{"id": "C87", "title": "A monitoring client always knows the neighbours", "statement": "A client that sends \"monitor\" at any time and applies the add, change and flush lines about neighbours to a copy of its own has, after any further events, exactly the daemon's neighbours, each with its address, interface, windows of received multicast and unicast Hellos and cost of transmission; it is never told \"add\" for a neighbour it knows, nor \"change\" or \"flush\" for one it does not know. At the time of the command and right after every check of neighbours, the cost of reception, the cost of the link and the RTT with its cost that it was last told are the present ones for all neighbours, and right after a Hello or an IHU those of its sender are. Not so in between: the line sent for the first RTT sample shows neither the RTT nor the new cost, and the passing of time changes costs without a line.", "quantifier": "all reachable states at which the client connects, all event sequences from there", "why_tests_cant": "A missing or superfluous line shows only after particular sequences of first contacts, Hellos, IHUs, checks and expiry of any length; tests compare the lines of a few scenarios.", "anchors": ["local.c:142-194 (local_notify_neighbour)", "local.c:290-292 (local_notify_all_1)", "neighbour.c:57-74, 76-128 (flush_neighbour, find_neighbour)", "neighbour.c:227-266 (check_neighbours)", "route.c:789-807 (update_neighbour_metric)", "message.c:1068-1103 (RTT)"]}
{"id": "C88", "title": "A monitoring client knows the interfaces", "statement": "A client that has been told of the daemon's interfaces and keeps, for each, what the last line about it said (down, or up with first link-local address and IPv4 address) understands every line that a check of the interfaces sends, whatever the kernel answers during the check and whether or not interfaces come up, go down, change number, fail to start or get other addresses; afterwards its table shows every interface exactly as it is: an interface which the kernel reports as running and which could be set up (or needed not be) is up with the addresses of the last answers, every other one is down. Between checks no other event makes the table wrong, so it is right after any sequence of events and checks in which no interface is added, removed or reconfigured by command.", "quantifier": "all reachable states, all numbers of interfaces, all valid configurations, all answers of the kernel for each interface, all sequences of events and checks", "why_tests_cant": "Each of the six places that send a line must send it after the change and none of the paths through the check, with its failures at any step, may change an address or the state without one; the combinations of previous state and answers are unbounded.", "anchors": ["local.c:94-140 (local_notify_interface)", "interface.c:164-196 (check_interface_ipv4)", "interface.c:198-252 (check_link_local_addresses)", "interface.c:254-526 (interface_updown)", "interface.c:543-583 (check_interfaces)"]}
