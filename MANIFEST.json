{
 "claims": [
  {
   "property": "C01",
   "status": "proved",
   "theorems": [
    "C01_key_identifies",
    "C01_key_to_labels",
    "C01_any_number_of_selectors_refuted",
    "C01_all_labels_key_order_independent",
    "C01_all_labels_key_identifies",
    "C01_all_labels_key_to_labels",
    "C01_all_labels_key_total_refuted"
   ],
   "note": ""
  },
  {
   "property": "C02",
   "status": "proved",
   "theorems": [
    "C02_conserved_under_concurrency",
    "C02_aggregate_always_progresses",
    "C02_counters_conserved",
    "C02_no_panic_on_integers",
    "C02_conserved_for_any_metrics_refuted",
    "C02_totals_conserved"
   ],
   "note": ""
  },
  {
   "property": "C03",
   "status": "proved",
   "theorems": [
    "C03_dump_exports_windows",
    "C03_dump_single_exports_windows",
    "C03_max_is_largest",
    "C03_max_of_negatives_refuted",
    "C03_last_is_last",
    "C03_average_between",
    "C03_dump_exports_windows_under_concurrency",
    "C03_dump_single_exports_windows_under_concurrency",
    "C03_last_of_one_call_under_concurrency_refuted"
   ],
   "note": "Stated for one call at a time and for every interleaving of Aggregate calls with dumps. Refuted: the maximum of negative readings is 0, and under concurrency two last values of one export need not come from the same call. The timestamp of a series is not modelled under concurrency."
  },
  {
   "property": "C04",
   "status": "proved",
   "theorems": [
    "C04_histogram_of_integers",
    "C04_buckets_monotone",
    "C04_merge_is_concatenation",
    "C04_any_histogram_accepted_refuted",
    "C04_histogram_under_concurrency"
   ],
   "note": ""
  },
  {
   "property": "C05",
   "status": "proved",
   "theorems": [
    "C05_collection_exports_live_series",
    "C05_busy_series_never_reset",
    "C05_idle_series_forgotten",
    "C05_idle_series_not_exported_refuted"
   ],
   "note": ""
  },
  {
   "property": "C06",
   "status": "proved",
   "theorems": [
    "C06_trace_decision",
    "C06_rates_0_and_100",
    "C06_error_type_traced_refuted",
    "C06_metrics_independent_of_sampling",
    "C06_series_labels_fit",
    "C06_every_request_counted"
   ],
   "note": "A request flagged only by its error type is never traced (C06_error_type_traced_refuted)."
  },
  {
   "property": "C07",
   "status": "proved",
   "theorems": [
    "C07_independent_maps",
    "C07_target_exact",
    "C07_panics_only_on_type_change",
    "C07_clone_independent",
    "C07_others_unchanged_without_merge",
    "C07_merge_independent_refuted",
    "C07_string_form"
   ],
   "note": ""
  },
  {
   "property": "C08",
   "status": "proved",
   "theorems": [
    "C08_reads_fresh",
    "C08_recycled_has_no_stale_names_refuted",
    "C08_stale_names_were_written",
    "C08_no_panic_when_typed"
   ],
   "note": ""
  },
  {
   "property": "C09",
   "status": "proved",
   "theorems": [
    "C09_lookup_is_first",
    "C09_set_then_get",
    "C09_integers_decode",
    "C09_short_value_panics_refuted",
    "C09_return_value"
   ],
   "note": "Reading an attribute whose value is shorter than its declared type panics (C09_short_value_panics_refuted)."
  },
  {
   "property": "C10",
   "status": "proved",
   "theorems": [
    "C10_parse_text",
    "C10_parse_only",
    "C10_lookup_forms",
    "C10_text_number",
    "C10_text_number_refuted",
    "C10_words",
    "C10_words_refuted",
    "C10_int_ip_int",
    "C10_ip_int_ip",
    "C10_text_of_bytes",
    "C10_text_determines_address"
   ],
   "note": ""
  },
  {
   "property": "C11",
   "status": "proved",
   "theorems": [
    "C11_split_total",
    "C11_split_of_packed",
    "C11_split_of_truncated",
    "C11_trailing_empty_message_refuted",
    "C11_one_event_per_message"
   ],
   "note": "An empty message at the very end of the packed data is lost (C11_trailing_empty_message_refuted)."
  },
  {
   "property": "C12",
   "status": "proved",
   "theorems": [
    "C12_parts_add_up",
    "C12_exact",
    "C12_single"
   ],
   "note": "Exact when the times lie in the ranges the kernel reports; otherwise the sum holds modulo 2^64."
  },
  {
   "property": "C13",
   "status": "proved",
   "theorems": [
    "C13_payload_prefix",
    "C13_sizes"
   ],
   "note": ""
  },
  {
   "property": "C14",
   "status": "proved",
   "theorems": [
    "C14_each_connection",
    "C14_at_most_once",
    "C14_no_request_lost",
    "C14_continue_carried_over",
    "C14_scan_flushes",
    "C14_no_panic"
   ],
   "note": ""
  },
  {
   "property": "C15",
   "status": "partial",
   "theorems": [
    "C15_reported_at_most_once",
    "C15_connection_goes_dark_refuted",
    "C15_request_lost_refuted",
    "C15_no_overlap_is_sequential"
   ],
   "note": "Proved: no pair is reported twice in any interleaving, and histories without overlap behave sequentially. The full property is false: C15_connection_goes_dark_refuted (a response racing with the timeout silences the connection for ever) and C15_request_lost_refuted."
  },
  {
   "property": "C16",
   "status": "proved",
   "theorems": [
    "C16_gauge_drifts_refuted",
    "C16_gauge_is_pending"
   ],
   "note": "Proved for the sequential analyzer and non-overlapping histories; overlapping goroutines make the gauge drift (C16_gauge_drifts_refuted)."
  },
  {
   "property": "C17",
   "status": "proved",
   "theorems": [
    "C17_list_content",
    "C17_no_duplicates_generic_last"
   ],
   "note": "Sequential histories; the code guards additions and removals with one mutex."
  },
  {
   "property": "C18",
   "status": "proved",
   "theorems": [
    "C18_remembered_exactly",
    "C18_first_accepting",
    "C18_static_port",
    "C18_connect_only",
    "C18_configured_parsers",
    "C18_new_protocol_shadowed_refuted"
   ],
   "note": "Parsers are a parameter (parse). Finding: after 50 unrecognised messages a port stops recognising new protocols until the 5000th (C18_new_protocol_shadowed_refuted)."
  },
  {
   "property": "C19",
   "status": "proved",
   "theorems": [
    "C19_overlap_reports_twice_refuted",
    "C19_overlap_loses_query_refuted",
    "C19_each_id",
    "C19_answer_matches_query",
    "C19_at_most_once",
    "C19_no_query_lost",
    "C19_scan_reports_overdue",
    "C19_no_panic",
    "C19_repeated_id_lost_refuted",
    "C19_cache_never_removed_refuted",
    "C19_conversations_apart"
   ],
   "note": "Proved for one event or scan at a time, given what the DNS parser finds. Findings: a repeated id replaces the earlier query (C19_repeated_id_lost_refuted), the cache may then never be removed, and overlapping goroutines can report a query twice or lose it (C19_overlap_*_refuted)."
  },
  {
   "property": "C20",
   "status": "proved",
   "theorems": [
    "C20_integers",
    "C20_varints",
    "C20_varint_any_encoding",
    "C20_strings",
    "C20_compact_string_takes_next_byte_refuted",
    "C20_cut_strings",
    "C20_array_sizes",
    "C20_in_bounds",
    "C20_until_blank",
    "C20_until_crlf",
    "C20_text_in_bounds"
   ],
   "note": "Every reader is covered. One defect: a compact string followed by exactly one more byte is read together with it (C20_compact_string_takes_next_byte_refuted); C20_strings excludes that case. The blank- and line-readers panic only for start offsets outside the payload, which no caller passes."
  },
  {
   "property": "C21",
   "status": "proved",
   "theorems": [
    "C21_request",
    "C21_request_only",
    "C21_response",
    "C21_response_only",
    "C21_total"
   ],
   "note": "ASCII urls are recorded unchanged; others up to the UTF-8 cut of C27. url clustering and base64 are parameters."
  },
  {
   "property": "C22",
   "status": "proved",
   "theorems": [
    "C22_total",
    "C22_request",
    "C22_command_sent",
    "C22_response",
    "C22_malformed",
    "C22_argument_wins_refuted",
    "C22_reply_overwrites_refuted",
    "C22_binary_value_refuted",
    "C22_commands"
   ],
   "note": "Refuted beyond that: an argument that is a command name replaces the command sent; a reply's bulk string that is a command name overwrites the request's command; binary values holding a carriage return are not recognised."
  },
  {
   "property": "C23",
   "status": "proved",
   "theorems": [
    "C23_statement",
    "C23_statement_any",
    "C23_quit",
    "C23_request_total",
    "C23_error",
    "C23_no_error",
    "C23_response_accepted",
    "C23_response_total",
    "C23_short_error_panics_refuted",
    "C23_unmarked_message_refuted"
   ],
   "note": "Requests and responses in closed form. Refuted parts: an error packet of 6 or 7 bytes panics; without the 4.1 marker the first character of the message is lost."
  },
  {
   "property": "C24",
   "status": "proved",
   "theorems": [
    "C24_unknown",
    "C24_table",
    "C24_fallback",
    "C24_shape",
    "C24_independent",
    "C24_literal_before_table_refuted"
   ],
   "note": "Regular expressions replaced by what they match (ASCII case folding). Refuted part: a literal in front of the table can be taken for it."
  },
  {
   "property": "C25",
   "status": "proved",
   "theorems": [
    "C25_name",
    "C25_name_only",
    "C25_name_total",
    "C25_name_round_trip",
    "C25_text_injective",
    "C25_request",
    "C25_request_only",
    "C25_response",
    "C25_response_no_address",
    "C25_second_address_refuted",
    "C25_invented_address_refuted",
    "C25_response_total",
    "C25_pair",
    "C25_tcp_pointer_refuted"
   ],
   "note": "net.IP.String of other than four bytes is a parameter. Refuted parts: second address lost, invented address, pointers over TCP."
  },
  {
   "property": "C26",
   "status": "proved",
   "theorems": [
    "C26_dubbo_hessian_call",
    "C26_dubbo_json_call",
    "C26_dubbo_other_requests",
    "C26_dubbo_request_total",
    "C26_dubbo_json_short_line_panics_refuted",
    "C26_dubbo_null_version_refuted",
    "C26_dubbo_response",
    "C26_dubbo_response_total",
    "C26_kafka_versions",
    "C26_kafka_fetch",
    "C26_kafka_produce",
    "C26_kafka_other",
    "C26_kafka_request_total",
    "C26_kafka_nameless_client_refuted",
    "C26_kafka_flexible_topic_refuted",
    "C26_kafka_produce_answer",
    "C26_kafka_fetch_answer",
    "C26_kafka_answer_of_other_request",
    "C26_kafka_response_total",
    "C26_kafka_error_unmarked_refuted",
    "C26_rocketmq_names",
    "C26_rocketmq_request",
    "C26_rocketmq_json_request",
    "C26_rocketmq_response",
    "C26_rocketmq_json_response",
    "C26_rocketmq_total",
    "C26_rocketmq_response_of_other_request"
   ],
   "note": "Refuted parts: a Dubbo JSON line of one character panics; a null Dubbo service version loses the method; Kafka requests without a client id are refused; tagged fields of Kafka flexible headers are not skipped; Kafka error codes never mark an error. json.Unmarshal is an arbitrary function."
  },
  {
   "property": "C27",
   "status": "proved",
   "theorems": [
    "C27_ascii_payload",
    "C27_text_total",
    "C27_printable_unchanged",
    "C27_dubbo_payload",
    "C27_utf8_cut_anywhere",
    "C27_utf8_three_byte_text",
    "C27_dubbo_short_payload_panics_refuted",
    "C27_http_text_printable_refuted",
    "C27_utf8_wellformed_refuted",
    "C27_utf8_two_byte_kept_refuted",
    "C27_limit"
   ],
   "note": "Printable-only output is proved for the protocols rendered as ASCII; for HTTP and Redis the text is a prefix of the payload, and a cut inside a character drops that character. Refuted: short Dubbo payloads panic, HTTP text may hold control characters, malformed input may give malformed UTF-8, two-byte characters at the end may be dropped."
  },
  {
   "property": "C28",
   "status": "proved",
   "theorems": [
    "C28_request",
    "C28_response",
    "C28_formats",
    "C28_empty_header_hides_refuted",
    "C28_no_blank_refuted",
    "C28_bad_skywalking_hides_refuted"
   ],
   "note": "Refuted beyond the stated header form: an empty-valued header hides later ones; a header without the blank behind the colon loses its first value byte; an undecodable SkyWalking header hides other schemes."
  },
  {
   "property": "C29",
   "status": "proved",
   "theorems": [
    "C29_clustering_by_segments",
    "C29_every_url_has_segments",
    "C29_every_segment_list_has_clustering",
    "C29_output_vocabulary",
    "C29_no_query_no_space",
    "C29_never_longer",
    "C29_idempotent",
    "C29_agrees_with_baseline",
    "C29_agrees_with_baseline_refuted",
    "C29_noparam",
    "C29_no_query_any_method",
    "C29_method_names"
   ],
   "note": "Agreement of the optimised and baseline clusterings is proved for urls without inner white space and refuted with white space (C29_agrees_with_baseline_refuted)."
  },
  {
   "property": "C30",
   "status": "proved",
   "theorems": [
    "C30_ring",
    "C30_forward",
    "C30_stored",
    "C30_sound",
    "C30_kept",
    "C30_retention",
    "C30_boundary_refuted",
    "C30_odd_refuted"
   ],
   "note": "Proved for every history of puts, sends, exits, checks, starts and stops, for even ring sizes and timestamps that do not wrap. Refuted: an event ending exactly one ring length after the base loses its last second (endOffset > n instead of >=); with an odd ring size events land in segments labelled with another second."
  },
  {
   "property": "C31",
   "status": "proved",
   "theorems": [
    "C31_window",
    "C31_records",
    "C31_resend",
    "C31_ticks",
    "C31_early_trigger_refuted"
   ],
   "note": "C31_window gives the whole output of a send; C31_records restates it segment by segment. Go's map order over threads is the order of the association list, so the theorem says 'some order'. C31_ticks gives the union of the windows of a trigger's ticks. Refuted: a trigger that starts before the edge window's width wraps and sends nothing."
  },
  {
   "property": "C32",
   "status": "proved",
   "theorems": [
    "C32_present",
    "C32_removed",
    "C32_not_early",
    "C32_stopped",
    "C32_reuse_refuted",
    "C32_late_event_refuted"
   ],
   "note": "For a clock that does not go back. Refuted: data of a reused thread id is removed with the exited thread; an event delivered after the removal leaves data that no check removes."
  },
  {
   "property": "C33",
   "status": "proved",
   "theorems": [
    "C33_pending",
    "C33_report",
    "C33_outcome",
    "C33_once",
    "C33_duration",
    "C33_gone",
    "C33_group",
    "C33_every_attempt_ends_refuted",
    "C33_own_start_refuted"
   ],
   "note": "ConnectSpec.v follows one connection through the events that name it. Found: an attempt for which no system call event was seen (process id 0) is never given up by a scan, and keeps its start for a later attempt from the same port (two refuted theorems). Attempts with source port 0 are excluded: the event path drops their report while the scan does not. A given-up attempt is reported with error number 0."
  },
  {
   "property": "C34",
   "status": "proved",
   "theorems": [
    "C34_lookup_sound",
    "C34_lookup_complete",
    "C34_looked_up_stays",
    "C34_size_bound",
    "C34_compaction_terminates",
    "C34_compaction_exact",
    "C34_register_both_directions"
   ],
   "note": "Histories are sequences because the tracker holds one mutex around every operation; the clock is assumed non-decreasing for soundness of expiry."
  },
  {
   "property": "C35",
   "status": "proved",
   "theorems": [
    "C35_nat_iff_not_mirror",
    "C35_mirror_not_stored",
    "C35_dnat_changes_destination",
    "C35_dnat_complete",
    "C35_nat_test_total_refuted"
   ],
   "note": "C35_nat_test_total_refuted records that a decoded connection without addresses makes IsNAT dereference nil."
  },
  {
   "property": "C36",
   "status": "partial",
   "theorems": [
    "C36_roundtrip",
    "C36_roundtrip_keys",
    "C36_terminates",
    "C36_event_terminates",
    "C36_event_messages",
    "C36_no_overread_partial",
    "C36_no_overread_refuted"
   ],
   "note": "Round trip and termination proved for all inputs; freedom from out-of-range access holds except for protocol attributes with too little data, where the decoder panics (C36_no_overread_refuted)."
  },
  {
   "property": "C37",
   "status": "proved",
   "theorems": [
    "C37_conc_apart",
    "C37_conc_lost_addition_refuted",
    "C37_live",
    "C37_deleted",
    "C37_settles",
    "C37_exact",
    "C37_any_port",
    "C37_recreated_refuted",
    "C37_regained_address_refuted",
    "C37_shared_address_refuted",
    "C37_lost_address_refuted"
   ],
   "note": "Sequential histories of watch events, with the deletion queue; C37_conc_*: the locking of the address maps (operations on one address that overlap can lose an addition). Refuted parts: pods recreated under their name, regained or shared addresses, lost address within the grace period."
  },
  {
   "property": "C38",
   "status": "proved",
   "theorems": [
    "C38_last",
    "C38_live",
    "C38_named_by_address",
    "C38_deleted_refuted",
    "C38_former_address_refuted"
   ],
   "note": ""
  },
  {
   "property": "C39",
   "status": "proved",
   "theorems": [
    "C39_address_added",
    "C39_address_deleted",
    "C39_address",
    "C39_second_service_refuted",
    "C39_reassigned_address_refuted",
    "C39_shared_address_refuted",
    "C39_later_node_refuted",
    "C39_match",
    "C39_pod",
    "C39_service",
    "C39_exact",
    "C39_no_deleted_service"
   ],
   "note": "Exact for histories in which a service is added while no deletion waits and selects no pod another service selects (C39_exact); addresses and node ports: C39_address*. Refuted parts: deleting one of two services clears the pod's attribution, an address reassigned in the grace period, shared addresses, node ports on nodes learned later."
  },
  {
   "property": "C40",
   "status": "proved",
   "theorems": [
    "C40_second_pod_refuted",
    "C40_remote_pod_refuted",
    "C40_replaced_pod_refuted",
    "C40_same_name_refuted",
    "C40_late_replica_set_refuted",
    "C40_listed",
    "C40_sound",
    "C40_once",
    "C40_exact",
    "C40_kept"
   ],
   "note": "Exactness holds while a workload has at most one pod (C40_exact). Refuted beyond that: deleting one of two pods of a workload, a pod on another node, or the predecessor of a replaced pod removes the workload of a live pod; two kinds of one name share an entry; a replica set learned late leaves a stale entry."
  },
  {
   "property": "C41",
   "status": "proved",
   "theorems": [
    "C41_compare_exact",
    "C41_compare_membership"
   ],
   "note": ""
  },
  {
   "property": "C42",
   "status": "proved",
   "theorems": [
    "C42_container_id",
    "C42_no_prefix",
    "C42_bounded"
   ],
   "note": ""
  },
  {
   "property": "C43",
   "status": "proved",
   "theorems": [
    "C43_one_port",
    "C43_others_kept",
    "C43_source",
    "C43_destination",
    "C43_live_client",
    "C43_live_server",
    "C43_live_destination",
    "C43_service_destination",
    "C43_tcp_host_port_refuted",
    "C43_loopback_refuted",
    "C43_disabled",
    "C43_client",
    "C43_server",
    "C43_tcp"
   ],
   "note": "Exact tables for client, server and tcp groups (C43_client, C43_server, C43_tcp), consistency of the two ends (C43_source, C43_destination), ports (C43_one_port), frame and no failure (C43_others_kept), and the combination with C37 and C39 (C43_live_*, C43_service_destination). Refuted: C43_tcp_host_port_refuted, C43_loopback_refuted. The caches are those of one moment; the types of the labels are those every producer writes."
  },
  {
   "property": "C44",
   "status": "proved",
   "theorems": [
    "C44_aggregated",
    "C44_single",
    "C44_other_groups",
    "C44_history_free",
    "C44_history_free_single",
    "C44_redis_span",
    "C44_redis_span_refuted",
    "C44_custom_collision_refuted",
    "C44_stale_span_refuted",
    "C44_histogram_panics_refuted",
    "C44_simple"
   ],
   "note": "Full model of the ten label converters and their pools, over every history of conversions, frees and pool drops. Found false of the code, with theorems: Redis spans (both payloads under one name; in list form the response payload overwrites the alphabetically first label), custom labels named like exported ones, map-form spans with a missing metric (stale value), histogram in the place of a time (panic)."
  },
  {
   "property": "C45",
   "status": "proved",
   "theorems": [
    "C45_colours"
   ],
   "note": "The colours are stated on the labels of the exported trace metric, for every history of the adapter."
  },
  {
   "property": "C46",
   "status": "proved",
   "theorems": [
    "C46_date",
    "C46_name",
    "C46_directory",
    "C46_path",
    "C46_daylight_saving_refuted",
    "C46_underscore_refuted",
    "C46_cpu_file",
    "C46_own_file",
    "C46_trace_kept"
   ],
   "note": "Found: when daylight saving ends, two requests exactly an hour apart get the same file and the later overwrites the earlier; a protocol with an underscore (possible for agents' traces) can make names collide. Paths are pairs of names; the storage path and failures other than an uncreatable file are not modelled."
  },
  {
   "property": "C47",
   "status": "proved",
   "theorems": [
    "C47_rotation",
    "C47_no_rotation",
    "C47_no_panic",
    "C47_limit_one_refuted",
    "C47_keeps_newest_refuted",
    "C47_bound"
   ],
   "note": "Removals happen at any later moment, in any order. Modification times are read in one step. Found: limit 1 panics on the second trace; limits 2 and 3 remove even the newest file."
  },
  {
   "property": "C48",
   "status": "proved",
   "theorems": [
    "C48_valid",
    "C48_label_mode",
    "C48_unchanged",
    "C48_characters",
    "C48_single_symbol_refuted",
    "C48_other_letters_refuted",
    "C48_distinct_names_refuted"
   ],
   "note": "PromModel.v models sanitize rune by rune, with Unicode letters and digits beyond ASCII as parameters. C48_valid and C48_label_mode: the result is a valid name (hypothesis: ASCII; in the mode used for metric names, not a lone symbol). C48_unchanged, C48_characters. Findings: C48_single_symbol_refuted (panic on a one-symbol name), C48_other_letters_refuted, C48_distinct_names_refuted."
  },
  {
   "property": "C49",
   "status": "proved",
   "theorems": [
    "C49_routing",
    "C49_once",
    "C49_two_catch_all_refuted"
   ],
   "note": "C49_routing gives the exact list of receivers for every set of analyzers; C49_once is the English claim under the stated side conditions; C49_two_catch_all_refuted shows the defect of NewManager with two catch-all analyzers."
  },
  {
   "property": "C50",
   "status": "proved",
   "theorems": [
    "C50_alternate",
    "C50_no_panic",
    "C50_created_started_refuted",
    "C50_file_watch_refuted",
    "C50_requests",
    "C50_failed_start_runs_refuted",
    "C50_armed",
    "C50_own_session",
    "C50_can_finish",
    "C50_stale_timer_refuted",
    "C50_late_goroutine_refuted"
   ],
   "note": "Every request and every step of the timer goroutines is one step of the machine (Start and Stop hold the module's mutex). Refuted side claims: stale timer and late goroutine stop a later session, a failed start leaves the module running, a module created started panics on stop, a file watch option panics."
  },
  {
   "property": "C51",
   "status": "proved",
   "theorems": [
    "C51_counts",
    "C51_sum",
    "C51_subscription_name",
    "C51_dashed_name_refuted"
   ],
   "note": "Counters are int64 and modelled with wrap-around; the theorems assume fewer than 2^63 events. C51_dashed_name_refuted: a subscription whose event name itself has a dash is counted under the wrong name."
  },
  {
   "property": "C52",
   "status": "proved",
   "theorems": [
    "C52_exact",
    "C52_conserved",
    "C52_unknown",
    "C52_panic"
   ],
   "note": "C52_panic characterises the only failure: a request_io or response_io metric that is a histogram (never produced upstream of this processor in the shipped pipeline)."
  },
  {
   "property": "C53",
   "status": "proved",
   "theorems": [
    "C53_in_order",
    "C53_nothing_missed",
    "C53_converges",
    "C53_nodes",
    "C53_replicasets",
    "C53_late_deletion_refuted",
    "C53_cross_kind_refuted",
    "C53_dropped_client_told",
    "C53_silent_client_refuted"
   ],
   "note": "Proved per kind of object for every schedule of handlers, broadcasts and clients. Refuted and recorded: a late deletion (DeletedFinalStateUnknown) is lost at the client; events of different kinds may arrive in another order than they were handled, so a pod can get another workload at the client; a stale timer tick drops a healthy client that stays connected and hears nothing more. The services map, which registration does not lock, is out of the claim."
  },
  {
   "property": "C54",
   "status": "proved",
   "theorems": [
    "C54_direction",
    "C54_socket_key_injective"
   ],
   "note": ""
  },
  {
   "property": "C55",
   "status": "proved",
   "theorems": [
    "C55_parser_labels",
    "C55_record",
    "C55_slow",
    "C55_payload",
    "C55_measures",
    "C55_continue",
    "C55_total",
    "C55_text_exists",
    "C55_parsed",
    "C55_generic",
    "C55_single",
    "C55_connect_fail",
    "C55_multi",
    "C55_multi_all",
    "C55_dns_pairing",
    "C55_kept",
    "C55_pool_typed",
    "C55_static_dubbo_panics_refuted",
    "C55_same_query_twice_refuted"
   ],
   "note": "Label-by-label specification of single, multi-request and failed-connect records over any group the pool can hand out. Refuted parts: a static dubbo port with a request shorter than sixteen bytes panics; two DNS queries with the same id and name on one connection are both paired with the first. Requests past the tenth of one pair get no record (C55_kept)."
  },
  {
   "property": "C56",
   "status": "proved",
   "theorems": [
    "C56_workload",
    "C56_added"
   ],
   "note": ""
  },
  {
   "property": "C57",
   "status": "proved",
   "theorems": [
    "C57_kept",
    "C57_tick",
    "C57_represented",
    "C57_inner_calls",
    "C57_masked_refuted"
   ],
   "note": "Sampling map as a step machine over starts, stops, traces and ticks; the state after every history equals a function of the history. Finding: URL and pid are joined without a separator, so a trace can be masked by one of another process (C57_masked_refuted). Channels never fill up in the model."
  },
  {
   "property": "C58",
   "status": "proved",
   "theorems": [
    "C58_exit",
    "C58_entry",
    "C58_entry_kept",
    "C58_collision_refuted",
    "C58_backwards_refuted",
    "C58_reentry_refuted",
    "C58_never_cleaned"
   ],
   "note": "Findings: trace id and pid joined without a separator (C58_collision_refuted); an exit stamped before its entry wraps (C58_backwards_refuted); a second entry is removed when the first expires (C58_reentry_refuted); after one profiling stop entries are never removed again (C58_never_cleaned)."
  },
  {
   "property": "C59",
   "status": "proved",
   "theorems": [
    "C59_cpu",
    "C59_cpu_panic",
    "C59_roundtrip",
    "C59_futex",
    "C59_span",
    "C59_transaction",
    "C59_events",
    "C59_not_lost",
    "C59_inner_call"
   ],
   "note": "The JSON text of an event is a parameter. Transaction events use the first attribute of a key, the others the last."
  },
  {
   "property": "C60",
   "status": "proved",
   "theorems": [
    "C60_table",
    "C60_scan",
    "C60_bad_line",
    "C60_gone",
    "C60_address6",
    "C60_digits_of_either_case"
   ],
   "note": "IPv4 tables; the text of a 16-byte address is a parameter. Reading errors of the file system other than a missing file are not modelled."
  },
  {
   "property": "C61",
   "status": "proved",
   "theorems": [
    "C61_scrape",
    "C61_labels",
    "C61_distinct",
    "C61_no_panic",
    "C61_exact",
    "C61_shared_labels_refuted",
    "C61_one_sample_per_label_set_refuted"
   ],
   "note": "C61_scrape composes the cumulative aggregator (C05), the kinds of newCollector and Collect; C61_labels and C61_distinct relate a series' labels to the recorded results; C61_exact: float64 is exact up to 2^53; C61_no_panic. Hypothesis sameMetrics: results with the same labels carry the same metrics. Findings: C61_shared_labels_refuted (the exporter drops the group name, so TCP round-trip time, retransmits and packet loss of one connection share a series and only the first recorded kind is ever shown), C61_one_sample_per_label_set_refuted (a label that is a number in one result and text in another gives two identical label sets). The registry and HTTP handler of the client library are not modelled."
  },
  {
   "property": "C62",
   "status": "proved",
   "theorems": [
    "C62_drop",
    "C62_retransmit",
    "C62_rtt",
    "C62_nothing_else",
    "C62_redirected_connection",
    "C62_short_attribute_refuted",
    "C62_signed_address_refuted",
    "C62_says"
   ],
   "note": "Proved for every event with the four coordinates in unsigned attributes of any width. Refuted beside it: an attribute shorter than its type panics, and an address given as a signed value is read as 0.0.0.0."
  },
  {
   "property": "C63",
   "status": "proved",
   "theorems": [
    "C63_counters_end_to_end",
    "C63_runs",
    "C63_totals",
    "C63_of_a_pod",
    "C63_rtt_is_the_last"
   ],
   "note": "End to end over analyzer, enrichment and aggregator; sums are in 64-bit arithmetic. Events are processed one at a time; concurrent aggregation is the subject of C16 and AggConcProps."
  },
  {
   "property": "C64",
   "status": "proved",
   "theorems": [
    "C64_stream",
    "C64_stream_ends",
    "C64_initial_table",
    "C64_error_beside_refuted",
    "C64_tracker_refines_cache",
    "C64_announced_is_found",
    "C64_loaded_is_found",
    "C64_read_is_processed"
   ],
   "note": "The loop's reads are inputs, with the answer of the throttle (C65). Finding: a batch with an error message is dropped as a whole, so an error beside the end of the table keeps the loader waiting (C64_error_beside_refuted)."
  },
  {
   "property": "C65",
   "status": "proved",
   "theorems": [
    "C65_limiter",
    "C65_below_the_limit",
    "C65_no_limit",
    "C65_sustained_excess",
    "C65_slight_excess_refuted",
    "C65_share_shrinks",
    "C65_one_answer_per_trip",
    "C65_says_when_sampling",
    "C65_sampler",
    "C65_negative_limit_refuted"
   ],
   "note": "Floating point rounding is not modelled (exact fractions, truncation kept). Findings: an excess of up to 4 messages per second is never noticed (C65_slight_excess_refuted); a negative limit other than -1 panics (C65_negative_limit_refuted)."
  },
  {
   "property": "C66",
   "status": "proved",
   "theorems": [
    "C66_no_deadlock",
    "C66_every_call_returns",
    "C66_tables_guarded",
    "C66_host_ports_guarded",
    "C66_services_guarded",
    "C66_snapshot_of_one_moment",
    "C66_load_in_one_go",
    "C66_services_snapshot_refuted",
    "C66_host_port_map_refuted",
    "C66_load_refuted",
    "C66_stalled_client_refuted"
   ],
   "note": "Refuted: the snapshot walks the services without their lock, a published container's host port map is written without a lock, loading takes no lock for the host ports and workloads, a client that does not read its snapshot stops the provider. Fields of records (the service of a pod) are not tracked. Since C79 the calls of the goroutines include those of the profiling analyzer, so the theorems here hold beside them too."
  },
  {
   "property": "C67",
   "status": "proved",
   "theorems": [
    "C67_same_answers",
    "C67_handed_on",
    "C67_workloads",
    "C67_live",
    "C67_deleted",
    "C67_exact",
    "C67_host_network_refuted",
    "C67_pending_deletion_refuted",
    "C67_deleted_service_refuted",
    "C67_later_service_refuted",
    "C67_no_container_refuted",
    "C67_service_workload_refuted"
   ],
   "note": "Refuted: the host network flag is lost (undeclared ports of a node's address are answered), pods whose deletion waits are kept for ever, a deleted service stays with the client's pods, a later service does not reach the copies host ports are answered with, a pod without a container id keeps its old address, the workload of a service does not reach service addresses. JSON text itself is not modelled."
  },
  {
   "property": "C68",
   "status": "proved",
   "theorems": [
    "C68_group",
    "C68_collection",
    "C68_totals",
    "C68_gauges_stay_refuted",
    "C68_restart_keeps_gauges_refuted",
    "C68_rtt_apart_refuted",
    "C68_trace_counter_refuted",
    "C68_any_gauge_refuted",
    "C68_trace_gauge_labels",
    "C68_rtt_gauge_labels",
    "C68_trace_node_ip_refuted",
    "C68_histograms_refuted"
   ],
   "note": "Hypotheses: custom labels are texts with names of their own, the trace metric is a gauge or unconfigured (otherwise C68_trace_counter_refuted), label integers are int64, a Redis request is not exported as a span (C44). Refuted: a second collection sees no gauge values, a restart loses pending ones, round-trip times that differ in the translated address merge, other gauges export nothing, histograms are dropped, three labels of the trace gauge are always empty. The SDK itself is not modelled."
  },
  {
   "property": "C69",
   "status": "proved",
   "theorems": [
    "C69_counters",
    "C69_all_delivered",
    "C69_requests_of_a_pod",
    "C69_number_of_requests",
    "C69_dubbo_code_refuted",
    "C69_redis_error_refuted"
   ],
   "note": "Hypotheses: the shipped aggregation map, custom labels that are texts with names of their own, groups shaped as their analyzers make them, ports of the caches are int32 values, Redis is not exported as a span (C44), fewer than 2^60 steps; amounts modulo 2^64. C69_all_delivered shows that the empty queue is reached from every history. Refuted: the code of a Dubbo answer and the error of a Redis answer are not kept by the aggregation. The analyzers' own side is C14, C33, C55, C62 and C63."
  },
  {
   "property": "C70",
   "status": "proved",
   "theorems": [
    "C70_shipped_parsers",
    "C70_counters_of_a_pod",
    "C70_request_bytes_of_a_pod",
    "C70_number_of_requests",
    "C70_one_record"
   ],
   "note": "Hypotheses: Go's integer types, groups from the pool are cleared (C08), every pair handed over gave one record (C70_one_record says when not: DNS over TCP, an HTTP 100 Continue, an unanswered MySQL quit), Redis is not exported as a span (C44); amounts modulo 2^64. Events and scans one at a time (the interleavings are C15). UDP DNS is not part of it."
  },
  {
   "property": "C71",
   "status": "proved",
   "theorems": [
    "C71_goes_on",
    "C71_parser_verdicts",
    "C71_shipped_configuration",
    "C71_without_mysql",
    "C71_without_mysql_and_redis",
    "C71_every_message_has_a_byte",
    "C71_short_mysql_error_stops_refuted",
    "C71_empty_messages_stop_refuted",
    "C71_dubbo_json_stops_refuted",
    "C71_dubbo_port_stops_refuted"
   ],
   "note": "The full claim (any event, shipped configuration) is false: C71_short_mysql_error_stops_refuted, C71_empty_messages_stop_refuted; with Dubbo also C71_dubbo_json_stops_refuted, C71_dubbo_port_stops_refuted. Proved: C71_goes_on for any parsers and least length, C71_shipped_configuration from eight bytes on, C71_without_mysql, C71_without_mysql_and_redis. Hypotheses: Go's types, an event has both addresses or none, its res attribute has eight bytes, pool groups are typed (C55_pool_typed). Events and scans one at a time; UDP DNS is C19."
  },
  {
   "property": "C72",
   "status": "proved",
   "theorems": [
    "C72_conversion",
    "C72_conversion_unique",
    "C72_seen",
    "C72_conversion_panics",
    "C72_parameter",
    "C72_in_order",
    "C72_bounded",
    "C72_analyzers",
    "C72_counters",
    "C72_quiet_after_shutdown",
    "C72_shutdown_bounded",
    "C72_shutdown_rest",
    "C72_shutdown_returns",
    "C72_shutdown_hangs_refuted",
    "C72_shutdown_loses_refuted",
    "C72_late_loop_refuted"
   ],
   "note": "Refuted as findings: Shutdown hangs on a full channel, drops queued events, and does not wait for a loop that has not begun."
  },
  {
   "property": "C73",
   "status": "proved",
   "theorems": [
    "C73_once",
    "C73_kept",
    "C73_can_return",
    "C73_twice_refuted",
    "C73_stale_refuted",
    "C73_lost_refuted",
    "C73_prompt",
    "C73_seconds",
    "C73_runs",
    "C73_none_refuted",
    "C73_more_refuted"
   ],
   "note": "Proved for restarts after the goroutines of the earlier session returned, and for routines that are waiting when the clock fires; false otherwise (five refutations). StartProfile and StopProfile are one step each; the trigger channel does not fill up."
  },
  {
   "property": "C74",
   "status": "proved",
   "theorems": [
    "C74_taken",
    "C74_every_attempt",
    "C74_of_a_pod",
    "C74_runs",
    "C74_stopped",
    "C74_drained_refuted",
    "C74_short_wait_refuted",
    "C74_starts",
    "C74_no_port_refuted"
   ],
   "note": "The counters are stated for any history of the analyzer and of the pipeline once the exporter's queue is empty, modulo 2^64. Counter kinds only. Three refutations: events left in the channel at Shutdown, short waits, no source port."
  },
  {
   "property": "C75",
   "status": "proved",
   "theorems": [
    "C75_scrape",
    "C75_sound",
    "C75_complete",
    "C75_every_scrape_refuted"
   ],
   "note": "The step of the ticker may be taken whenever the goroutine is idle. Assumed: the other groups do not carry the metric of the inventory, the metric is configured as a gauge (as shipped), and, for C75_sound, the caches come from the steady histories of C40. The inventory itself is C40, whose refutations apply."
  },
  {
   "property": "C76",
   "status": "proved",
   "theorems": [
    "C76_cut",
    "C76_not_ready",
    "C76_fresh",
    "C76_keeps_trying",
    "C76_three_failures",
    "C76_pause_follows_failures",
    "C76_three_times_refuted",
    "C76_slows_down_refuted",
    "C76_unknown_operation_refuted"
   ],
   "note": "encoding/json is a parameter: the theorem asks that a line has no line feed, is read back, and that a part of the text of a snapshot is not read as a snapshot. Three refutations."
  },
  {
   "property": "C77",
   "status": "proved",
   "theorems": [
    "C77_starts",
    "C77_one_tracker",
    "C77_short_wait_refuted",
    "C77_long_period_refuted",
    "C77_without_api_refuted",
    "C77_api_disabled_refuted",
    "C77_unknown_storage_refuted",
    "C77_storage",
    "C77_ends",
    "C77_signal_heard",
    "C77_early_signal_refuted",
    "C77_further_signals_refuted",
    "C77_stop_race_refuted",
    "C77_timer_after_stop_refuted"
   ],
   "note": "The fields of the configuration that cannot stop the process are left out, and so is a file that cannot be read. The Shutdown of the receiver is one step here; whether it comes is C72. Nine refutations."
  },
  {
   "property": "C78",
   "status": "proved",
   "theorems": [
    "C78_once",
    "C78_kept",
    "C78_delivered",
    "C78_in_order",
    "C78_stuck_refuted",
    "C78_stale_refuted",
    "C78_reordered_refuted"
   ],
   "note": "A call is a pair of numbers; what its labels become is C59, which traces go this way C57. Three refutations."
  },
  {
   "property": "C79",
   "status": "proved",
   "theorems": [
    "C79_guarded",
    "C79_no_deadlock",
    "C79_send_of_one_moment",
    "C79_apm_table_refuted",
    "C79_java_queue_refuted",
    "C79_switch_refuted",
    "C79_marks_refuted"
   ],
   "note": "The locks inside the next consumers are not part of the machine, nor is the wait at a full channel (C78). Four refutations."
  },
  {
   "property": "C80",
   "status": "proved",
   "theorems": [
    "C80_records",
    "C80_total",
    "C80_answered",
    "C80_unanswered",
    "C80_name_asked_for_refuted"
   ],
   "note": "Events and scans one at a time; their interleaving is C19's concurrent part. The record of a query whose id is used again on its socket before an answer is lost: C19_repeated_id_lost_refuted. One refutation."
  },
  {
   "property": "C81",
   "status": "proved",
   "theorems": [
    "C81_once",
    "C81_indexed",
    "C81_written",
    "C81_trace",
    "C81_nothing",
    "C81_histogram",
    "C81_storage",
    "C81_other_storage_refuted"
   ],
   "note": "Indexed means handed to the client library; encoding, batching, retries and the network are not modelled. The size of the ring is even (C30_odd_refuted). One refutation."
  },
  {
   "property": "C82",
   "status": "proved",
   "theorems": [
    "C82_tables",
    "C82_threads",
    "C82_thread_back_refuted",
    "C82_handles",
    "C82_handles_closed_refuted",
    "C82_failed_dump_refuted",
    "C82_restarts",
    "C82_whole_start",
    "C82_limit_refuted",
    "C82_start",
    "C82_released",
    "C82_left_running_refuted"
   ],
   "note": "Handles are never reused numbers, close does not fail, sockets are left out. Five refutations, one for each thing that is not given back."
  },
  {
   "property": "C83",
   "status": "proved",
   "theorems": [
    "C83_option",
    "C83_defaults",
    "C83_nested",
    "C83_listed",
    "C83_port_refuted",
    "C83_settings",
    "C83_starts",
    "C83_required",
    "C83_missing_section_refuted",
    "C83_sampling_refuted",
    "C83_names_refuted",
    "C83_missing_storage_refuted"
   ],
   "note": "Decoding of durations and of texts into numbers is a parameter; unknown keys are ignored as in the code. Four refutations."
  },
  {
   "property": "C84",
   "status": "proved",
   "theorems": [
    "C84_lines",
    "C84_off",
    "C84_panic",
    "C84_names",
    "C84_checked_refuted",
    "C84_capitals_refuted",
    "C84_console_only_refuted"
   ],
   "note": "One call is one step; file rotation, time stamps and callers are left out. Three refutations."
  },
  {
   "property": "C85",
   "status": "proved",
   "theorems": [
    "C85_characters",
    "C85_long",
    "C85_printable",
    "C85_numbers",
    "C85_attributes",
    "C85_total",
    "C85_text",
    "C85_off",
    "C85_on",
    "C85_when",
    "C85_debug_refuted"
   ],
   "note": "The texts of the context and of floating point numbers are parameters. One refutation: a value shorter than its type needs stops the collector only when debugging."
  },
  {
   "property": "C86",
   "status": "proved",
   "theorems": [
    "C86_values",
    "C86_clone",
    "C86_shared_metric_refuted",
    "C86_buckets_refuted"
   ],
   "note": "Two refutations: shared metrics, and histogram slices shared by a clone. No code in the repository writes buckets in place today."
  },
  {
   "property": "C87",
   "status": "proved",
   "theorems": [
    "C87_total",
    "C87_one_close",
    "C87_closed",
    "C87_write",
    "C87_flushed",
    "C87_after_close_refuted"
   ],
   "note": "One refutation: a Write that passed its test before the Close writes after it. The comment on Close promises more."
  },
  {
   "property": "C88",
   "status": "proved",
   "theorems": [
    "C88_client",
    "C88_told",
    "C88_counted",
    "C88_deleted",
    "C88_trim_refuted",
    "C88_forwarded_refuted",
    "C88_blank_refuted"
   ],
   "note": "Three refutations: added and updated pods are not trimmed, X-Forwarded-For is ignored, blanks hide addresses. Delivery of the messages is C67's and C76's."
  },
  {
   "property": "C89",
   "status": "proved",
   "theorems": [
    "C89_read",
    "C89_same",
    "C89_stored",
    "C89_canonical",
    "C89_parts",
    "C89_unmarshal_refuted",
    "C89_bytes_refuted"
   ],
   "note": "encoding/json is modelled from the documented behaviour of Go 1.20. The reader reads whole numbers and no white space, which is what is written. Two refutations: UnmarshalJSON of a label map refuses what MarshalJSON wrote; bytes that are no UTF-8 are merged."
  },
  {
   "property": "C90",
   "status": "proved",
   "theorems": [
    "C90_first",
    "C90_once",
    "C90_processor",
    "C90_service",
    "C90_java",
    "C90_java_refuted",
    "C90_retry_refuted"
   ],
   "note": "client-go and the environment are parameters (file loads, service account readable, client made). Two refutations: with the metadata provider IsInitSuccess is never set, so slow Java traces never name their pod; a failure of the first call is not reported by later ones."
  },
  {
   "property": "C91",
   "status": "proved",
   "theorems": [
    "C91_utf8",
    "C91_list",
    "C91_sent",
    "C91_segment",
    "C91_segment_refuted"
   ],
   "note": "The same encoder and reader as C89. Segment.UnmarshalJSON looks up exact names only. One refutation: Segment.UnmarshalJSON stores the address of its loop variable for lock events and ignores spans, transactions and inner calls."
  },
  {
   "property": "C92",
   "status": "proved",
   "theorems": [
    "C92_counts",
    "C92_sizes",
    "C92_balance",
    "C92_answers",
    "C92_scrapes",
    "C92_total",
    "C92_balance_refuted"
   ],
   "note": "A call is one step together with its counters; only the reads of a scrape are spread over time. One refutation: a tuple removed between the reads of a scrape is counted both as there and as removed."
  },
  {
   "property": "C93",
   "status": "proved",
   "theorems": [
    "C93_names",
    "C93_refused",
    "C93_numbers",
    "C93_answers",
    "C93_duration",
    "C93_served",
    "C93_unanswered",
    "C93_seconds_refuted",
    "C93_bad_duration_refuted",
    "C93_type_refuted",
    "C93_served_refuted",
    "C93_process_refuted"
   ],
   "note": "Numbers in a body are whole; float64 rounding and time.ParseDuration are arbitrary functions. Five refutations: process numbers beyond 32 bits, seconds, unreadable durations, the content type, a start with a file watch."
  }
 ]
}