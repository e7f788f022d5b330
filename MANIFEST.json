{
 "claims": [
  {
   "property": "C01",
   "status": "proved",
   "theorems": [
    "C01_seqno_compare_circle",
    "C01_newer_after_increment",
    "C01_antisymmetric",
    "C01_opposite_points",
    "C01_transitive_within_half",
    "C01_translation_invariant",
    "C01_minus_plus_inverse"
   ],
   "note": ""
  },
  {
   "property": "C02",
   "status": "proved",
   "theorems": [
    "C02_compare",
    "C02_add_msec",
    "C02_minus",
    "C02_minus_msec",
    "C02_min",
    "C02_min_sec"
   ],
   "note": ""
  },
  {
   "property": "C03",
   "status": "proved",
   "theorems": [
    "C03_timer_window",
    "C03_ack_deadline",
    "C03_jitter_bounds",
    "C03_jitter_sign_and_small",
    "C03_jitter_no_overflow"
   ],
   "note": "Jitter, timers and the deadline of acknowledgements. The deadline is relative to the clock when the acknowledgement is put in the buffer."
  },
  {
   "property": "C04",
   "status": "proved",
   "theorems": [
    "C04_in_prefix_bitwise",
    "C04_normalize_bitwise",
    "C04_normalize_idempotent",
    "C04_normalize_keeps_containment",
    "C04_normal_forms_equal_iff_same_bits"
   ],
   "note": ""
  },
  {
   "property": "C05",
   "status": "proved",
   "theorems": [
    "C05_martian_exactly_reserved",
    "C05_no_martian_learned",
    "C05_no_martian_redistributed"
   ],
   "note": ""
  },
  {
   "property": "C06",
   "status": "proved",
   "theorems": [
    "C06_eui64_roundtrip",
    "C06_mac48_expansion",
    "C06_hex_exact",
    "C06_thousands_roundtrip",
    "C06_thousands_exact_refuted"
   ],
   "note": "parse_thousands wraps for large values: C06_thousands_exact_refuted"
  },
  {
   "property": "C07",
   "status": "proved",
   "theorems": [
    "C07_auth_total",
    "C07_parse_total",
    "C07_framing"
   ],
   "note": "Packets of at least 4 bytes, with and without a key. parse_packet reads the first 4 bytes without checking the length (message.c:595-604): shorter datagrams read stale bytes of the receive buffer."
  },
  {
   "property": "C08",
   "status": "proved",
   "theorems": [
    "C08_mandatory",
    "C08_optional",
    "C08_unknown_tlv"
   ],
   "note": "All six TLVs that are acted upon, any number and order of sub-TLVs; unknown TLVs at packet level."
  },
  {
   "property": "C09",
   "status": "proved",
   "theorems": [
    "C09_updates"
   ],
   "note": "All histories of a buffer, any size, keyed or not, with any other message in between."
  },
  {
   "property": "C10",
   "status": "proved",
   "theorems": [
    "C10_messages"
   ],
   "note": "All histories of a buffer; acknowledgements and challenges are compared as TLVs, all the rest as the actions of the decoder."
  },
  {
   "property": "C11",
   "status": "proved",
   "theorems": [
    "C11_bounds",
    "C11_padded",
    "C11_unicast_probe_refuted",
    "C11_no_address_refuted"
   ],
   "note": "As amended; the two refuted parts are theorems."
  },
  {
   "property": "C12",
   "status": "proved",
   "theorems": [
    "C12_signed_verifies",
    "C12_only_matching",
    "C12_trailer",
    "C12_pad1_refuted",
    "C12_sent_verifies"
   ],
   "note": "As amended; the keyed hash is a parameter."
  },
  {
   "property": "C13",
   "status": "proved",
   "theorems": [
    "C13_no_replay",
    "C13_once",
    "C13_replay_refuted"
   ],
   "note": "C13_replay_refuted: a packet can be replayed after a challenge answered by an earlier packet that arrived later."
  },
  {
   "property": "C14",
   "status": "proved",
   "theorems": [
    "C14_challenges",
    "C14_adopts"
   ],
   "note": ""
  },
  {
   "property": "C15",
   "status": "proved",
   "theorems": [
    "C15_distinct"
   ],
   "note": "Any number of packets, wrapping included."
  },
  {
   "property": "C16",
   "status": "proved",
   "theorems": [
    "C16_no_mac",
    "C16_refused",
    "C16_accepted",
    "C16_datagram"
   ],
   "note": "C16_datagram: the whole state, for every datagram and every reachable state."
  },
  {
   "property": "C17",
   "status": "proved",
   "theorems": [
    "C17_table_is_finite_map",
    "C17_find_or_create"
   ],
   "note": ""
  },
  {
   "property": "C18",
   "status": "proved",
   "theorems": [
    "C18_distance_is_best_announced",
    "C18_infeasible_stays_infeasible"
   ],
   "note": ""
  },
  {
   "property": "C19",
   "status": "proved",
   "theorems": [
    "C19_feasible_iff",
    "C19_selected_only_if_feasible",
    "C19_candidate_feasible"
   ],
   "note": "for configurations with smoothing half-life other than 2 (see C29)"
  },
  {
   "property": "C20",
   "status": "proved",
   "theorems": [
    "C20_references_live",
    "C20_expire_only_unused"
   ],
   "note": "half-life other than 2"
  },
  {
   "property": "C21",
   "status": "proved",
   "theorems": [
    "C21_table_wellformed"
   ],
   "note": "half-life other than 2"
  },
  {
   "property": "C22",
   "status": "proved",
   "theorems": [
    "C22_kernel_mirrors_selection",
    "C22_install_table_refuted",
    "C22_next_hop_family_refuted"
   ],
   "note": "C22_kernel_mirrors_selection under the two stated conditions; each condition is shown necessary by a refuted theorem with a witness"
  },
  {
   "property": "C23",
   "status": "proved",
   "theorems": [
    "C23_best_route_minimal"
   ],
   "note": "the code does not require a finite metric; half-life other than 2"
  },
  {
   "property": "C24",
   "status": "proved",
   "theorems": [
    "C24_replaced_only_by_better",
    "C24_every_replacement_fine"
   ],
   "note": "half-life other than 2"
  },
  {
   "property": "C25",
   "status": "proved",
   "theorems": [
    "C25_flush",
    "C25_retracted",
    "C25_metric",
    "C25_withdrawn",
    "C25_redistributed_refuted"
   ],
   "note": "C25_redistributed_refuted shows why the destination must not be redistributed."
  },
  {
   "property": "C26",
   "status": "proved",
   "theorems": [
    "C26_ignored_updates"
   ],
   "note": ""
  },
  {
   "property": "C27",
   "status": "proved",
   "theorems": [
    "C27_selected_unfeasible_refuted",
    "C27_unselects"
   ],
   "note": "The feasibility of a route at the moment of selection is C05; C27_selected_unfeasible_refuted shows that it may become unfeasible while selected."
  },
  {
   "property": "C28",
   "status": "proved",
   "theorems": [
    "C28_next_hop_of_creation",
    "C28_most_recent_refuted"
   ],
   "note": "C28_next_hop_of_creation; the original wording is refuted by C28_most_recent_refuted"
  },
  {
   "property": "C29",
   "status": "proved",
   "theorems": [
    "C29_smoothing",
    "C29_progress",
    "C29_every_half_life",
    "C29_half_life_2_refuted"
   ],
   "note": "All reachable states; every half-life but 2 (refuted: C29_half_life_2_refuted), and the computation itself for half-life 2 with a moderate difference."
  },
  {
   "property": "C30",
   "status": "proved",
   "theorems": [
    "C30_kernel_priority",
    "C30_reflect_refuted"
   ],
   "note": "saturation and recorded metric (C59_update_recorded), kernel priority; reflect-kernel-metric case refuted"
  },
  {
   "property": "C31",
   "status": "proved",
   "theorems": [
    "C31_neighbour_removed",
    "C31_interface_down",
    "C31_no_dangling_interface_refuted"
   ],
   "note": "flush_interface itself leaves neighbours referring to the freed interface: C31_no_dangling_interface_refuted; references are C20_references_live"
  },
  {
   "property": "C32",
   "status": "proved",
   "theorems": [
    "C32_shutdown_table_empty",
    "C32_shutdown_kernel_empty",
    "C32_retraction_buffered",
    "C32_neighbours_retract",
    "C32_unicast_refuted"
   ],
   "note": "The second half is refuted for interfaces configured for unicast (C32_unicast_refuted): the retraction stays in buffers that are never flushed. C32_neighbours_retract composes the sender buffer with the receiver."
  },
  {
   "property": "C33",
   "status": "proved",
   "theorems": [
    "C33_expired",
    "C33_kept"
   ],
   "note": "The pass may leave a route older than 7/8 of its hold time (but not expired) when a metric change moves it to the front of its group during the walk."
  },
  {
   "property": "C34",
   "status": "proved",
   "theorems": [
    "C34_marked_only_if_heard",
    "C34_hello_effect",
    "C34_first_hello",
    "C34_consecutive_fill",
    "C34_history_wellformed"
   ],
   "note": ""
  },
  {
   "property": "C35",
   "status": "proved",
   "theorems": [
    "C35_rxcost_range",
    "C35_rxcost_infinite_when_silent",
    "C35_rxcost_wired",
    "C35_rxcost_at_least_nominal",
    "C35_rxcost_at_least_nominal_slow",
    "C35_rxcost_at_least_nominal_refuted",
    "C35_cost_formula",
    "C35_cost_bounds"
   ],
   "note": "the unrestricted lower bound on the receive cost is false: C35_rxcost_at_least_nominal_refuted"
  },
  {
   "property": "C36",
   "status": "proved",
   "theorems": [
    "C36_rtt_is_an_average",
    "C36_rtt_is_an_average_refuted",
    "C36_rtt_penalty",
    "C36_penalty_monotone",
    "C36_penalty_capped",
    "C36_sample_iff_consistent",
    "C36_unsampled_refuted"
   ],
   "note": "above 16.7 s the average wraps: C36_rtt_is_an_average_refuted; soon after the boot of the machine a neighbour never measured counts as measured: C36_unsampled_refuted"
  },
  {
   "property": "C37",
   "status": "proved",
   "theorems": [
    "C37_silent_neighbour_flushed",
    "C37_live_neighbour_kept",
    "C37_txcost_expires",
    "C37_txcost_kept"
   ],
   "note": ""
  },
  {
   "property": "C38",
   "status": "proved",
   "theorems": [
    "C38_own_seqno",
    "C38_answered",
    "C38_dropped",
    "C38_forwarded"
   ],
   "note": "Complete case analysis of requests in all reachable states. Hypotheses: the smoothing half-life is not 2; for the 200 ms bound, a sane clock, flush timer and hello interval."
  },
  {
   "property": "C39",
   "status": "proved",
   "theorems": [
    "C39_suppressed_only",
    "C39_refuted",
    "C39_router_refuted"
   ],
   "note": "The statement was amended; the original one is refuted by C39_refuted and C39_router_refuted."
  },
  {
   "property": "C40",
   "status": "proved",
   "theorems": [
    "C40_one_entry",
    "C40_backed_off",
    "C40_pass",
    "C40_at_most_3",
    "C40_messages",
    "C40_wake_up",
    "C40_stale_request_refuted",
    "C40_early_clock_refuted"
   ],
   "note": "C40_one_entry, C40_backed_off, C40_pass, C40_at_most_3, C40_messages over all executions of the daemon; C40_wake_up over all sequences of operations of resend.c. Two conditions of the statement are necessary: C40_stale_request_refuted (an older request recorded over an exhausted newer one leaves retransmissions that nothing wakes up) and C40_early_clock_refuted (before 65 s of clock, a request satisfied while it is being repeated gets 255 more retransmissions)."
  },
  {
   "property": "C41",
   "status": "proved",
   "theorems": [
    "C41_dump",
    "C41_strict",
    "C41_notify"
   ],
   "note": "Dump and notifications, every list of addresses and routes."
  },
  {
   "property": "C42",
   "status": "proved",
   "theorems": [
    "C42_own",
    "C42_refuted"
   ],
   "note": "Under the condition on the first entry; C42_refuted shows that the condition is needed (xroute.c:155-204 reads entry 0)."
  },
  {
   "property": "C43",
   "status": "proved",
   "theorems": [
    "C43_input_first_match",
    "C43_output_first_match",
    "C43_redistribute_first_match",
    "C43_install_first_match",
    "C43_first_match_unique",
    "C43_default_install",
    "C43_default_redistribute"
   ],
   "note": ""
  },
  {
   "property": "C44",
   "status": "proved",
   "theorems": [
    "C44_input_never_improves",
    "C44_output_never_improves",
    "C44_announced"
   ],
   "note": "input side: with C59 and C26"
  },
  {
   "property": "C45",
   "status": "proved",
   "theorems": [
    "C45_split_horizon"
   ],
   "note": ""
  },
  {
   "property": "C46",
   "status": "proved",
   "theorems": [
    "C46_flush",
    "C46_nothing_pending",
    "C46_says",
    "C46_once_refuted"
   ],
   "note": "repeated retractions: C46_once_refuted"
  },
  {
   "property": "C47",
   "status": "proved",
   "theorems": [
    "C47_line",
    "C47_file",
    "C47_tokens",
    "C47_read_only",
    "C47_commands"
   ],
   "note": "Termination is the absence of exhausted fuel, which is proved for every input."
  },
  {
   "property": "C48",
   "status": "proved",
   "theorems": [
    "C48_accepted",
    "C48_rejected",
    "C48_refuted"
   ],
   "note": "C48_refuted gives a line on which parse_anonymous_ifconf frees a token twice."
  },
  {
   "property": "C49",
   "status": "proved",
   "theorems": [
    "C49_lines",
    "C49_splits",
    "C49_bounded",
    "C49_switches",
    "C49_overlong",
    "C49_replies",
    "C49_reply_refuted",
    "C49_twice_refuted"
   ],
   "note": "C49_reply_refuted and C49_twice_refuted show the two exceptions."
  },
  {
   "property": "C50",
   "status": "proved",
   "theorems": [
    "C50_restart_newer",
    "C50_consumed_once",
    "C50_garbage",
    "C50_unremovable_refuted"
   ],
   "note": "C50_restart_newer is over histories of any number of lives of the world model; the announced numbers are those of all messages sent. C50_unremovable_refuted: unlink failure and failed starts."
  },
  {
   "property": "C51",
   "status": "proved",
   "theorems": [
    "C51_wakes_in_time",
    "C51_no_spinning",
    "C51_spinning_refuted"
   ],
   "note": "C51_spinning_refuted: at the microsecond of a check timer the loop neither sleeps nor acts."
  },
  {
   "property": "C52",
   "status": "proved",
   "theorems": [
    "C52_feasible_no_loop",
    "C52_no_loop",
    "C52_refuted"
   ],
   "note": "Unbounded networks of the full single-router model; C52_refuted shows that the conditions on retracted routes are needed (two-router loop with finite metrics and genuine packets only)."
  },
  {
   "property": "C53",
   "status": "proved",
   "theorems": [
    "C53_count",
    "C53_kept",
    "C53_assertions",
    "C53_refuted",
    "C53_abort_refuted"
   ],
   "note": "Statement weakened from equality, which C53_refuted refutes; C53_abort_refuted shows the overflow of the count."
  },
  {
   "property": "C54",
   "status": "proved",
   "theorems": [
    "C54_total_order",
    "C54_adjacent"
   ],
   "note": ""
  },
  {
   "property": "C55",
   "status": "proved",
   "theorems": [
    "C55_discard_only_old_unused",
    "C55_kept_entries"
   ],
   "note": ""
  },
  {
   "property": "C56",
   "status": "proved",
   "theorems": [
    "C56_seconds_never_decrease",
    "C56_advances",
    "C56_microseconds_refuted"
   ],
   "note": "C56_microseconds_refuted shows the granularity."
  },
  {
   "property": "C57",
   "status": "proved",
   "theorems": [
    "C57_wildcard_retraction"
   ],
   "note": "C57_wildcard_retraction; the exception is a kernel that refuses a request"
  },
  {
   "property": "C58",
   "status": "proved",
   "theorems": [
    "C58_send_buffer",
    "C58_sent_fits",
    "C58_grows_and_fits",
    "C58_not_truncated",
    "C58_no_memory_refuted"
   ],
   "note": "C58_no_memory_refuted: realloc failure."
  },
  {
   "property": "C59",
   "status": "proved",
   "theorems": [
    "C59_update_recorded"
   ],
   "note": "C59_update_recorded"
  },
  {
   "property": "C60",
   "status": "proved",
   "theorems": [
    "C60_hello_cost_applied",
    "C60_rtt_cost_applied",
    "C60_hello_refuted",
    "C60_ihu_cost_applied",
    "C60_first_rtt_refuted"
   ],
   "note": "C60_ihu_cost_applied, C60_hello_cost_applied, C60_rtt_cost_applied; C60_hello_refuted and C60_first_rtt_refuted show the two exceptions"
  },
  {
   "property": "C61",
   "status": "proved",
   "theorems": [
    "C61_actions_ok",
    "C61_mapped_refuted"
   ],
   "note": "C61_mapped_refuted: a mapped prefix in the IPv6 encoding is handed over with the IPv6 'no source prefix' and so is a different destination from the same prefix in the IPv4 encoding."
  },
  {
   "property": "C62",
   "status": "proved",
   "theorems": [
    "C62_same_packet",
    "C62_same_packet_refuted"
   ],
   "note": "The gap of 30 to 39 bytes is a defect of the code (send_ihu reserves 30 bytes for a Hello and an IHU that need 40): C62_same_packet_refuted."
  },
  {
   "property": "C63",
   "status": "proved",
   "theorems": [
    "C63_distance_covers"
   ],
   "note": ""
  },
  {
   "property": "C64",
   "status": "proved",
   "theorems": [
    "C64_rejected",
    "C64_refuted",
    "C64_leak_refuted"
   ],
   "note": "C64_refuted and C64_leak_refuted show that both exceptions occur."
  },
  {
   "property": "C65",
   "status": "proved",
   "theorems": [
    "C65_serve_ends",
    "C65_refuted"
   ],
   "note": "C65_refuted: a client that does not read makes the main loop spin."
  },
  {
   "property": "C66",
   "status": "proved",
   "theorems": [
    "C66_datagrams"
   ],
   "note": ""
  },
  {
   "property": "C67",
   "status": "proved",
   "theorems": [
    "C67_timer",
    "C67_room",
    "C67_flushed_in_time"
   ],
   "note": "The bound: four seconds of jitter, randomised twice by up to a quarter (update_jitter and set_timeout). Executions in which the clock does not go back and interfaces change as interface.c changes them (S_Arm.v)."
  },
  {
   "property": "C68",
   "status": "proved",
   "theorems": [
    "C68_request",
    "C68_table_refuted"
   ],
   "note": "C68_request: requests as the kernel reads them; C68_table_refuted: tables above 255 are truncated."
  },
  {
   "property": "C69",
   "status": "proved",
   "theorems": [
    "C69_notifications",
    "C69_dump",
    "C69_verdict",
    "C69_own_routes",
    "C69_default_refuted"
   ],
   "note": "C69_notifications, C69_dump, C69_verdict, C69_own_routes for all lists of well-formed messages; C69_default_refuted: unreachable IPv4 default routes are reported although IPv6 ones are not."
  },
  {
   "property": "C70",
   "status": "proved",
   "theorems": [
    "C70_config",
    "C70_config_used",
    "C70_valid",
    "C70_check",
    "C70_option_s_refuted",
    "C70_auto_wired_refuted",
    "C70_unicast_off_refuted"
   ],
   "note": "The configuration ranges (C70_config, C70_config_used), the resulting parameters (C70_valid) and one check of all interfaces (C70_check). Documented behaviour that the code does not have: C70_option_s_refuted, C70_auto_wired_refuted, C70_unicast_off_refuted."
  },
  {
   "property": "C71",
   "status": "proved",
   "theorems": [
    "C71_timer",
    "C71_survives",
    "C71_long_interval_refuted"
   ],
   "note": "C71_timer (sender), C71_survives (announcement, record and expiration together). Refuted for intervals above 655.35 s: C71_long_interval_refuted."
  },
  {
   "property": "C72",
   "status": "proved",
   "theorems": [
    "C72_update",
    "C72_metric",
    "C72_at_rest_refuted"
   ],
   "note": "C72_update (an update arrives), C72_metric (the metric of a known route is recomputed). That a usable route is always used at rest is refuted: C72_at_rest_refuted."
  },
  {
   "property": "C73",
   "status": "proved",
   "theorems": [
    "C73_dump",
    "C73_prefix",
    "C73_unambiguous",
    "C73_notify",
    "C73_header"
   ],
   "note": "Tables of every reachable state; inet_ntop and if names are arguments with stated assumptions. The values are required to have the sizes of their C types (tables_ok). Which clients are notified, and when, is not part of this property."
  },
  {
   "property": "C74",
   "status": "proved",
   "theorems": [
    "C74_line",
    "C74_mixed",
    "C74_file",
    "C74_repeated_refuted",
    "C74_length_refuted"
   ],
   "note": "Lines with numbers in decimal, unquoted words, addresses as understood by inet_pton. C74_repeated_refuted: selectors of one kind do not accumulate, the last one wins. C74_length_refuted: lengths above 128 are accepted and wrap modulo 256."
  },
  {
   "property": "C75",
   "status": "proved",
   "theorems": [
    "C75_interfaces",
    "C75_auto_refuted",
    "C75_runtime_refuted"
   ],
   "note": "C75_interfaces for every file of documented lines; C75_auto_refuted: auto does not undo an earlier line; C75_runtime_refuted: interfaces added at run time ignore the default lines. Words in quotes are not covered."
  },
  {
   "property": "C76",
   "status": "proved",
   "theorems": [
    "C76_file",
    "C76_last_newline",
    "C76_zero_refuted",
    "C76_first_rule_refuted"
   ],
   "note": "C76_file: options, write access, keys and rules after any file of documented lines; C76_last_newline: the last newline may be missing, for every file; C76_zero_refuted and C76_first_rule_refuted: documented values that are refused."
  },
  {
   "property": "C77",
   "status": "proved",
   "theorems": [
    "C77_interfaces",
    "C77_parameters",
    "C77_run_time",
    "C77_memory",
    "C77_same_tables",
    "C77_ignored_refuted",
    "C77_again_refuted",
    "C77_leak_refuted"
   ],
   "note": "Histories of any length over a heap of configuration records. Names of fewer than 16 bytes, allocation succeeds. Three readings of the manual are refuted: a line for an interface of the configuration is ignored (C77_ignored_refuted), counts again after flush and re-adding (C77_again_refuted), and its record leaks (C77_leak_refuted)."
  },
  {
   "property": "C78",
   "status": "proved",
   "theorems": [
    "C78_mac",
    "C78_file",
    "C78_never_fails",
    "C78_same",
    "C78_interop",
    "C78_only",
    "C78_no_value_refuted"
   ],
   "note": "SHA-256 and BLAKE2s are parameters (their sources are not in the repository): only the lengths of their digests, success of their streaming calls and the refusal of BLAKE2s keys of other than 1 to 32 bytes are assumed. C78_no_value_refuted: a key line without value is accepted for hmac-sha256."
  },
  {
   "property": "C79",
   "status": "proved",
   "theorems": [
    "C79_restored",
    "C79_running",
    "C79_safe",
    "C79_only",
    "C79_skip",
    "C79_failed_start_refuted",
    "C79_recreated_refuted",
    "C79_first_failure_refuted",
    "C79_many_refuted"
   ],
   "note": "Linux only. Files hold numbers (the decimal text is not modelled); side effects of one sysctl on others inside the kernel are not modelled. Assumed of other programs: they do not change a held file (an interface may disappear). The four _refuted theorems record where the wider claim fails."
  },
  {
   "property": "C80",
   "status": "proved",
   "theorems": [
    "C80_choice",
    "C80_stable",
    "C80_distinct",
    "C80_file",
    "C80_reserved_refuted",
    "C80_pid_file",
    "C80_removed_refuted"
   ],
   "note": "C80_reserved_refuted: reserved ids are not avoided; C80_removed_refuted: what happens when the process id file is removed by hand."
  },
  {
   "property": "C81",
   "status": "proved",
   "theorems": [
    "C81_command_line",
    "C81_same",
    "C81_accepted",
    "C81_equivalent_refuted",
    "C81_group_refuted",
    "C81_number_refuted"
   ],
   "note": "C81_command_line: every documented argument vector starts the daemon with the interfaces, keys, rules and values that its options and then its files give; C81_same: option and line of a file; C81_accepted: the converse (numbers below 2^63, intervals below 2^31 ms); C81_equivalent_refuted, C81_group_refuted, C81_number_refuted: where option and line, or manual and daemon, differ."
  },
  {
   "property": "C82",
   "status": "proved",
   "theorems": [
    "C82_monitor",
    "C82_any_kernel",
    "C82_installed_refuted",
    "C82_id_refuted"
   ],
   "note": "C82_monitor: full picture while the kernel refuses nothing; C82_any_kernel: everything but installed and id whatever the kernel answers; C82_installed_refuted and C82_id_refuted show that these two can be out of date after a refused request. Notifications about neighbours are in C87, those about interfaces are not modelled; a route is identified by a number never used twice (in the program by its address, free for use again after its flush line)."
  },
  {
   "property": "C83",
   "status": "proved",
   "theorems": [
    "C83_link_kept",
    "C83_every_third",
    "C83_on_time",
    "C83_starved_refuted",
    "C83_long_refuted",
    "C83_two_lost_refuted",
    "C83_announced",
    "C83_ihu_wrap_refuted"
   ],
   "note": "C83_link_kept: the receiver; C83_every_third and C83_on_time: the sender; C83_starved_refuted, C83_long_refuted and C83_two_lost_refuted show that the restrictions to interfaces without unscheduled Hellos, to intervals of at most 66 s and to one loss of three are needed. Wireless (link-quality) interfaces: only that the neighbour is kept and the cost announced; their receiving cost is in C35. C83_announced: what is announced; C83_ihu_wrap_refuted: not beyond 218.45 s."
  },
  {
   "property": "C84",
   "status": "proved",
   "theorems": [
    "C84_forgotten",
    "C84_link_lost"
   ],
   "note": "World-level: reachable states, all later executions of events with the timer of checks beside them. SIGUSR2, which makes a check due at once, is not modelled."
  },
  {
   "property": "C85",
   "status": "proved",
   "theorems": [
    "C85_given_up",
    "C85_kernel",
    "C85_refused_refuted"
   ],
   "note": "C85_given_up: metrics, in the daemon; C85_kernel: entries of the kernel table, under the conditions of C22; C85_refused_refuted: with a kernel that refuses every request the route stays selected with its finite metric."
  },
  {
   "property": "C86",
   "status": "proved",
   "theorems": [
    "C86_given_up",
    "C86_kernel"
   ],
   "note": "World-level: reachable states, all later executions of events with the timer of checks beside them; the last IHU carries a finite cost. If the kernel refuses changes the metric stays, as in C85_refused_refuted."
  },
  {
   "property": "C87",
   "status": "proved",
   "theorems": [
    "C87_neighbours",
    "C87_after_check",
    "C87_after_hello",
    "C87_rtt_refuted",
    "C87_time_refuted"
   ],
   "note": "C87_neighbours: the set of neighbours and their attributes after any events; C87_after_check, C87_after_hello: costs and RTT too; C87_rtt_refuted and C87_time_refuted show that these can be out of date in between. A neighbour is identified by a number (in the program by its address in memory); how the lines interleave with those about routes is not modelled."
  },
  {
   "property": "C88",
   "status": "proved",
   "theorems": [
    "C88_interfaces",
    "C88_kernel",
    "C88_between",
    "C88_life"
   ],
   "note": "C88_interfaces: the table after a check; C88_kernel: what it says in terms of the kernel answers; C88_between, C88_life: other events, and any sequence of events and checks. Lines of the monitor command, of add_interface and of flush_interface are not part of it."
  }
 ]
}