{
 "C01": [
  "proved",
  ""
 ],
 "C02": [
  "proved",
  ""
 ],
 "C03": [
  "proved",
  "Jitter, timers and the deadline of acknowledgements. The deadline is relative to the clock when the acknowledgement is put in the buffer."
 ],
 "C04": [
  "proved",
  ""
 ],
 "C05": [
  "proved",
  ""
 ],
 "C06": [
  "proved",
  "parse_thousands wraps for large values: C06_thousands_exact_refuted"
 ],
 "C07": [
  "proved",
  "Packets of at least 4 bytes, with and without a key. parse_packet reads the first 4 bytes without checking the length (message.c:595-604): shorter datagrams read stale bytes of the receive buffer."
 ],
 "C08": [
  "proved",
  "All six TLVs that are acted upon, any number and order of sub-TLVs; unknown TLVs at packet level."
 ],
 "C09": [
  "proved",
  "All histories of a buffer, any size, keyed or not, with any other message in between."
 ],
 "C10": [
  "proved",
  "All histories of a buffer; acknowledgements and challenges are compared as TLVs, all the rest as the actions of the decoder."
 ],
 "C11": [
  "proved",
  "As amended; the two refuted parts are theorems."
 ],
 "C12": [
  "proved",
  "As amended; the keyed hash is a parameter."
 ],
 "C13": [
  "proved",
  "C13_replay_refuted: a packet can be replayed after a challenge answered by an earlier packet that arrived later."
 ],
 "C14": [
  "proved",
  ""
 ],
 "C15": [
  "proved",
  "Any number of packets, wrapping included."
 ],
 "C16": [
  "proved",
  "C16_datagram: the whole state, for every datagram and every reachable state."
 ],
 "C17": [
  "proved",
  ""
 ],
 "C18": [
  "proved",
  ""
 ],
 "C19": [
  "proved",
  "for configurations with smoothing half-life other than 2 (see C29)"
 ],
 "C20": [
  "proved",
  "half-life other than 2"
 ],
 "C21": [
  "proved",
  "half-life other than 2"
 ],
 "C22": [
  "proved",
  "C22_kernel_mirrors_selection under the two stated conditions; each condition is shown necessary by a refuted theorem with a witness"
 ],
 "C23": [
  "proved",
  "the code does not require a finite metric; half-life other than 2"
 ],
 "C24": [
  "proved",
  "half-life other than 2"
 ],
 "C25": [
  "proved",
  "C25_redistributed_refuted shows why the destination must not be redistributed."
 ],
 "C26": [
  "proved",
  ""
 ],
 "C27": [
  "proved",
  "The feasibility of a route at the moment of selection is C05; C27_selected_unfeasible_refuted shows that it may become unfeasible while selected."
 ],
 "C28": [
  "proved",
  "C28_next_hop_of_creation; the original wording is refuted by C28_most_recent_refuted"
 ],
 "C29": [
  "proved",
  "All reachable states; every half-life but 2 (refuted: C29_half_life_2_refuted), and the computation itself for half-life 2 with a moderate difference."
 ],
 "C30": [
  "proved",
  "saturation and recorded metric (C59_update_recorded), kernel priority; reflect-kernel-metric case refuted"
 ],
 "C31": [
  "proved",
  "flush_interface itself leaves neighbours referring to the freed interface: C31_no_dangling_interface_refuted; references are C20_references_live"
 ],
 "C32": [
  "proved",
  "The second half is refuted for interfaces configured for unicast (C32_unicast_refuted): the retraction stays in buffers that are never flushed. C32_neighbours_retract composes the sender buffer with the receiver."
 ],
 "C33": [
  "proved",
  "The pass may leave a route older than 7/8 of its hold time (but not expired) when a metric change moves it to the front of its group during the walk."
 ],
 "C34": [
  "proved",
  ""
 ],
 "C35": [
  "proved",
  "the unrestricted lower bound on the receive cost is false: C35_rxcost_at_least_nominal_refuted"
 ],
 "C36": [
  "proved",
  "above 16.7 s the average wraps: C36_rtt_is_an_average_refuted; soon after the boot of the machine a neighbour never measured counts as measured: C36_unsampled_refuted"
 ],
 "C37": [
  "proved",
  ""
 ],
 "C38": [
  "proved",
  "Complete case analysis of requests in all reachable states. Hypotheses: the smoothing half-life is not 2; for the 200 ms bound, a sane clock, flush timer and hello interval."
 ],
 "C39": [
  "proved",
  "The statement was amended; the original one is refuted by C39_refuted and C39_router_refuted."
 ],
 "C40": [
  "proved",
  "C40_one_entry, C40_backed_off, C40_pass, C40_at_most_3, C40_messages over all executions of the daemon; C40_wake_up over all sequences of operations of resend.c. Two conditions of the statement are necessary: C40_stale_request_refuted (an older request recorded over an exhausted newer one leaves retransmissions that nothing wakes up) and C40_early_clock_refuted (before 65 s of clock, a request satisfied while it is being repeated gets 255 more retransmissions)."
 ],
 "C41": [
  "proved",
  "Dump and notifications, every list of addresses and routes."
 ],
 "C42": [
  "proved",
  "Under the condition on the first entry; C42_refuted shows that the condition is needed (xroute.c:155-204 reads entry 0)."
 ],
 "C43": [
  "proved",
  ""
 ],
 "C44": [
  "proved",
  "input side: with C59 and C26"
 ],
 "C45": [
  "proved",
  ""
 ],
 "C46": [
  "proved",
  "repeated retractions: C46_once_refuted"
 ],
 "C47": [
  "proved",
  "Termination is the absence of exhausted fuel, which is proved for every input."
 ],
 "C48": [
  "proved",
  "C48_refuted gives a line on which parse_anonymous_ifconf frees a token twice."
 ],
 "C49": [
  "proved",
  "C49_reply_refuted and C49_twice_refuted show the two exceptions."
 ],
 "C50": [
  "proved",
  "C50_restart_newer is over histories of any number of lives of the world model; the announced numbers are those of all messages sent. C50_unremovable_refuted: unlink failure and failed starts."
 ],
 "C51": [
  "proved",
  "C51_spinning_refuted: at the microsecond of a check timer the loop neither sleeps nor acts."
 ],
 "C52": [
  "proved",
  "Unbounded networks of the full single-router model; C52_refuted shows that the conditions on retracted routes are needed (two-router loop with finite metrics and genuine packets only)."
 ],
 "C53": [
  "proved",
  "Statement weakened from equality, which C53_refuted refutes; C53_abort_refuted shows the overflow of the count."
 ],
 "C54": [
  "proved",
  ""
 ],
 "C55": [
  "proved",
  ""
 ],
 "C56": [
  "proved",
  "C56_microseconds_refuted shows the granularity."
 ],
 "C57": [
  "proved",
  "C57_wildcard_retraction; the exception is a kernel that refuses a request"
 ],
 "C58": [
  "proved",
  "C58_no_memory_refuted: realloc failure."
 ],
 "C59": [
  "proved",
  "C59_update_recorded"
 ],
 "C60": [
  "proved",
  "C60_ihu_cost_applied, C60_hello_cost_applied, C60_rtt_cost_applied; C60_hello_refuted and C60_first_rtt_refuted show the two exceptions"
 ],
 "C61": [
  "proved",
  "C61_mapped_refuted: a mapped prefix in the IPv6 encoding is handed over with the IPv6 'no source prefix' and so is a different destination from the same prefix in the IPv4 encoding."
 ],
 "C62": [
  "proved",
  "The gap of 30 to 39 bytes is a defect of the code (send_ihu reserves 30 bytes for a Hello and an IHU that need 40): C62_same_packet_refuted."
 ],
 "C63": [
  "proved",
  ""
 ],
 "C64": [
  "proved",
  "C64_refuted and C64_leak_refuted show that both exceptions occur."
 ],
 "C65": [
  "proved",
  "C65_refuted: a client that does not read makes the main loop spin."
 ],
 "C66": [
  "proved",
  ""
 ],
 "C67": [
  "proved",
  "The bound: four seconds of jitter, randomised twice by up to a quarter (update_jitter and set_timeout). Executions in which the clock does not go back and interfaces change as interface.c changes them (S_Arm.v)."
 ],
 "C68": [
  "proved",
  "C68_request: requests as the kernel reads them; C68_table_refuted: tables above 255 are truncated."
 ],
 "C69": [
  "proved",
  "C69_notifications, C69_dump, C69_verdict, C69_own_routes for all lists of well-formed messages; C69_default_refuted: unreachable IPv4 default routes are reported although IPv6 ones are not."
 ],
 "C70": [
  "proved",
  "The configuration ranges (C70_config, C70_config_used), the resulting parameters (C70_valid) and one check of all interfaces (C70_check). Documented behaviour that the code does not have: C70_option_s_refuted, C70_auto_wired_refuted, C70_unicast_off_refuted."
 ],
 "C71": [
  "proved",
  "C71_timer (sender), C71_survives (announcement, record and expiration together). Refuted for intervals above 655.35 s: C71_long_interval_refuted."
 ],
 "C72": [
  "proved",
  "C72_update (an update arrives), C72_metric (the metric of a known route is recomputed). That a usable route is always used at rest is refuted: C72_at_rest_refuted."
 ],
 "C73": [
  "proved",
  "Tables of every reachable state; inet_ntop and if names are arguments with stated assumptions. The values are required to have the sizes of their C types (tables_ok). Which clients are notified, and when, is not part of this property."
 ],
 "C74": [
  "proved",
  "Lines with numbers in decimal, unquoted words, addresses as understood by inet_pton. C74_repeated_refuted: selectors of one kind do not accumulate, the last one wins. C74_length_refuted: lengths above 128 are accepted and wrap modulo 256."
 ],
 "C75": [
  "proved",
  "C75_interfaces for every file of documented lines; C75_auto_refuted: auto does not undo an earlier line; C75_runtime_refuted: interfaces added at run time ignore the default lines. Words in quotes are not covered."
 ],
 "C76": [
  "proved",
  "C76_file: options, write access, keys and rules after any file of documented lines; C76_last_newline: the last newline may be missing, for every file; C76_zero_refuted and C76_first_rule_refuted: documented values that are refused."
 ],
 "C77": [
  "proved",
  "Histories of any length over a heap of configuration records. Names of fewer than 16 bytes, allocation succeeds. Three readings of the manual are refuted: a line for an interface of the configuration is ignored (C77_ignored_refuted), counts again after flush and re-adding (C77_again_refuted), and its record leaks (C77_leak_refuted)."
 ],
 "C78": [
  "proved",
  "SHA-256 and BLAKE2s are parameters (their sources are not in the repository): only the lengths of their digests, success of their streaming calls and the refusal of BLAKE2s keys of other than 1 to 32 bytes are assumed. C78_no_value_refuted: a key line without value is accepted for hmac-sha256."
 ],
 "C79": [
  "proved",
  "Linux only. Files hold numbers (the decimal text is not modelled); side effects of one sysctl on others inside the kernel are not modelled. Assumed of other programs: they do not change a held file (an interface may disappear). The four _refuted theorems record where the wider claim fails."
 ],
 "C80": [
  "proved",
  "C80_reserved_refuted: reserved ids are not avoided; C80_removed_refuted: what happens when the process id file is removed by hand."
 ],
 "C81": [
  "proved",
  "C81_command_line: every documented argument vector starts the daemon with the interfaces, keys, rules and values that its options and then its files give; C81_same: option and line of a file; C81_accepted: the converse (numbers below 2^63, intervals below 2^31 ms); C81_equivalent_refuted, C81_group_refuted, C81_number_refuted: where option and line, or manual and daemon, differ."
 ],
 "C82": [
  "proved",
  "C82_monitor: full picture while the kernel refuses nothing; C82_any_kernel: everything but installed and id whatever the kernel answers; C82_installed_refuted and C82_id_refuted show that these two can be out of date after a refused request. Notifications about neighbours are in C87, those about interfaces are not modelled; a route is identified by a number never used twice (in the program by its address, free for use again after its flush line)."
 ],
 "C83": [
  "proved",
  "C83_link_kept: the receiver; C83_every_third and C83_on_time: the sender; C83_starved_refuted, C83_long_refuted and C83_two_lost_refuted show that the restrictions to interfaces without unscheduled Hellos, to intervals of at most 66 s and to one loss of three are needed. Wireless (link-quality) interfaces: only that the neighbour is kept and the cost announced; their receiving cost is in C35. C83_announced: what is announced; C83_ihu_wrap_refuted: not beyond 218.45 s."
 ],
 "C84": [
  "proved",
  "World-level: reachable states, all later executions of events with the timer of checks beside them. SIGUSR2, which makes a check due at once, is not modelled."
 ],
 "C85": [
  "proved",
  "C85_given_up: metrics, in the daemon; C85_kernel: entries of the kernel table, under the conditions of C22; C85_refused_refuted: with a kernel that refuses every request the route stays selected with its finite metric."
 ],
 "C86": [
  "proved",
  "World-level: reachable states, all later executions of events with the timer of checks beside them; the last IHU carries a finite cost. If the kernel refuses changes the metric stays, as in C85_refused_refuted."
 ],
 "C87": [
  "proved",
  "C87_neighbours: the set of neighbours and their attributes after any events; C87_after_check, C87_after_hello: costs and RTT too; C87_rtt_refuted and C87_time_refuted show that these can be out of date in between. A neighbour is identified by a number (in the program by its address in memory); how the lines interleave with those about routes is not modelled."
 ],
 "C88": [
  "proved",
  "C88_interfaces: the table after a check; C88_kernel: what it says in terms of the kernel answers; C88_between, C88_life: other events, and any sequence of events and checks. Lines of the monitor command, of add_interface and of flush_interface are not part of it."
 ]
}