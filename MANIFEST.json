{
 "claims": [
  {
   "property": "C01",
   "status": "proved",
   "theorems": [
    "C01_integer_roundtrip",
    "C01_example"
   ],
   "note": ""
  },
  {
   "property": "C02",
   "status": "proved",
   "theorems": [
    "C02_decode_integer",
    "C02_cases"
   ],
   "note": ""
  },
  {
   "property": "C03",
   "status": "proved",
   "theorems": [
    "C03_string_roundtrip_iff",
    "C03_string_roundtrip_refuted",
    "C03_example"
   ],
   "note": "The unqualified claim is false of the code: see C03_string_roundtrip_refuted."
  },
  {
   "property": "C04",
   "status": "proved",
   "theorems": [
    "C04_decode_string_panics",
    "C04_decode_string_accepts",
    "C04_decode_string_refuted",
    "C04_example"
   ],
   "note": "The unqualified claim is false of the code: see C04_decode_string_refuted."
  },
  {
   "property": "C05",
   "status": "proved",
   "theorems": [
    "C05_dict_roundtrip",
    "C05_list_roundtrip",
    "C05_example"
   ],
   "note": ""
  },
  {
   "property": "C06",
   "status": "proved",
   "theorems": [
    "C06_end_offset",
    "C06_example"
   ],
   "note": ""
  },
  {
   "property": "C07",
   "status": "proved",
   "theorems": [
    "C07_encoder_is_bencode",
    "C07_list_encoder_is_bencode",
    "C07_sorted_keys_refuted",
    "C07_example"
   ],
   "note": "The unqualified claim is false of the code: see C07_sorted_keys_refuted."
  },
  {
   "property": "C08",
   "status": "proved",
   "theorems": [
    "C08_encoder_domain",
    "C08_examples"
   ],
   "note": ""
  },
  {
   "property": "C09",
   "status": "proved",
   "theorems": [
    "C09_decode_dict_sound",
    "C09_decode_dict_complete",
    "C09_grammar_unambiguous",
    "C09_leniencies",
    "C09_example"
   ],
   "note": ""
  },
  {
   "property": "C10",
   "status": "proved",
   "theorems": [
    "C10_decoders_terminate",
    "C10_example"
   ],
   "note": ""
  },
  {
   "property": "C11",
   "status": "proved",
   "theorems": [
    "C11_panic_causes",
    "C11_no_panic_without_long_digit_runs",
    "C11_no_panic_refuted",
    "C11_example"
   ],
   "note": "The unqualified claim is false of the code: see C11_no_panic_refuted."
  },
  {
   "property": "C12",
   "status": "proved",
   "theorems": [
    "C12_decode_slice_exact",
    "C12_example"
   ],
   "note": ""
  },
  {
   "property": "C13",
   "status": "proved",
   "theorems": [
    "C13_decode_dict_outcomes",
    "C13_decode_dict_exact_refuted",
    "C13_example"
   ],
   "note": "The unqualified claim is false of the code: see C13_decode_dict_exact_refuted."
  },
  {
   "property": "C14",
   "status": "proved",
   "theorems": [
    "C14_typed_getters",
    "C14_example"
   ],
   "note": ""
  },
  {
   "property": "C15",
   "status": "proved",
   "theorems": [
    "C15_defaulting_getters",
    "C15_get_val_or_default_refuted",
    "C15_refuted_example"
   ],
   "note": "The unqualified claim is false of the code: see C15_get_val_or_default_refuted, C15_refuted_example."
  },
  {
   "property": "C16",
   "status": "proved",
   "theorems": [
    "C16_list_access",
    "C16_negative_index_refuted",
    "C16_example"
   ],
   "note": "The unqualified claim is false of the code: see C16_negative_index_refuted."
  },
  {
   "property": "C17",
   "status": "proved",
   "theorems": [
    "C17_equal_fold",
    "C17_binary_ids_confused",
    "C17_exact_equality_refuted",
    "C17_contains_string",
    "C17_contains_example",
    "C17_characters"
   ],
   "note": "The unqualified claim is false of the code: see C17_exact_equality_refuted."
  },
  {
   "property": "C18",
   "status": "proved",
   "theorems": [
    "C18_prefix_length",
    "C18_prefix_characterised",
    "C18_example"
   ],
   "note": ""
  },
  {
   "property": "C19",
   "status": "proved",
   "theorems": [
    "C19_txids_sequential",
    "C19_txids_distinct",
    "C19_example"
   ],
   "note": ""
  },
  {
   "property": "C20",
   "status": "proved",
   "theorems": [
    "C20_node_info_roundtrip",
    "C20_example"
   ],
   "note": ""
  },
  {
   "property": "C21",
   "status": "proved",
   "theorems": [
    "C21_parse_node_info_total",
    "C21_example"
   ],
   "note": ""
  },
  {
   "property": "C22",
   "status": "proved",
   "theorems": [
    "C22_join_lengths",
    "C22_aligned_refuted",
    "C22_example"
   ],
   "note": "The unqualified claim is false of the code: see C22_aligned_refuted."
  },
  {
   "property": "C23",
   "status": "proved",
   "theorems": [
    "C23_peer_info_roundtrip",
    "C23_parse_peer_info",
    "C23_example"
   ],
   "note": ""
  },
  {
   "property": "C24",
   "status": "proved",
   "theorems": [
    "C24_bucket_of_distance",
    "C24_example"
   ],
   "note": ""
  },
  {
   "property": "C25",
   "status": "proved",
   "theorems": [
    "C25_table_bounded",
    "C25_example"
   ],
   "note": ""
  },
  {
   "property": "C26",
   "status": "proved",
   "theorems": [
    "C26_no_eviction",
    "C26_example"
   ],
   "note": ""
  },
  {
   "property": "C27",
   "status": "proved",
   "theorems": [
    "C27_add_result",
    "C27_dropped_only_when_full",
    "C27_nil_means_stored_refuted",
    "C27_example"
   ],
   "note": "The unqualified claim is false of the code: see C27_nil_means_stored_refuted."
  },
  {
   "property": "C28",
   "status": "proved",
   "theorems": [
    "C28_size_drift",
    "C28_size_refuted",
    "C28_example"
   ],
   "note": "The unqualified claim is false of the code: see C28_size_refuted."
  },
  {
   "property": "C29",
   "status": "proved",
   "theorems": [
    "C29_find",
    "C29_find_exact_refuted",
    "C29_example"
   ],
   "note": "The unqualified claim is false of the code: see C29_find_exact_refuted."
  },
  {
   "property": "C30",
   "status": "proved",
   "theorems": [
    "C30_find_closest",
    "C30_n_closest_refuted",
    "C30_example"
   ],
   "note": "The unqualified claim is false of the code: see C30_n_closest_refuted."
  },
  {
   "property": "C31",
   "status": "proved",
   "theorems": [
    "C31_total",
    "C31_example"
   ],
   "note": ""
  },
  {
   "property": "C32",
   "status": "proved",
   "theorems": [
    "C32_requested_size",
    "C32_example"
   ],
   "note": ""
  },
  {
   "property": "C33",
   "status": "proved",
   "theorems": [
    "C33_single_owner",
    "C33_double_put_refuted",
    "C33_example"
   ],
   "note": "The unqualified claim is false of the code: see C33_double_put_refuted."
  },
  {
   "property": "C34",
   "status": "proved",
   "theorems": [
    "C34_bounded_not_cleared",
    "C34_example"
   ],
   "note": ""
  },
  {
   "property": "C35",
   "status": "proved",
   "theorems": [
    "C35_each_once_in_order",
    "C35_example"
   ],
   "note": ""
  },
  {
   "property": "C36",
   "status": "proved",
   "theorems": [
    "C36_onion",
    "C36_example"
   ],
   "note": ""
  },
  {
   "property": "C37",
   "status": "proved",
   "theorems": [
    "C37_last_write_wins",
    "C37_example"
   ],
   "note": ""
  },
  {
   "property": "C38",
   "status": "proved",
   "theorems": [
    "C38_one_reply",
    "C38_at_most_one",
    "C38_silent_handler",
    "C38_example"
   ],
   "note": ""
  },
  {
   "property": "C39",
   "status": "proved",
   "theorems": [
    "C39_bad_query_gets_203",
    "C39_example"
   ],
   "note": ""
  },
  {
   "property": "C40",
   "status": "proved",
   "theorems": [
    "C40_garbage_dropped",
    "C40_error_packets",
    "C40_example"
   ],
   "note": ""
  },
  {
   "property": "C41",
   "status": "proved",
   "theorems": [
    "C41_bad_packet_contained",
    "C41_example"
   ],
   "note": ""
  },
  {
   "property": "C42",
   "status": "proved",
   "theorems": [
    "C42_response_routed",
    "C42_request_without_handler",
    "C42_latest_request",
    "C42_query_registers",
    "C42_example"
   ],
   "note": ""
  },
  {
   "property": "C43",
   "status": "proved",
   "theorems": [
    "C43_pending_forever",
    "C43_answered_once_refuted",
    "C43_example"
   ],
   "note": "The unqualified claim is false of the code: see C43_answered_once_refuted."
  },
  {
   "property": "C44",
   "status": "proved",
   "theorems": [
    "C44_register",
    "C44_capitalisation_refuted",
    "C44_example"
   ],
   "note": "The unqualified claim is false of the code: see C44_capitalisation_refuted."
  },
  {
   "property": "C45",
   "status": "proved",
   "theorems": [
    "C45_wire_format",
    "C45_example"
   ],
   "note": ""
  },
  {
   "property": "C46",
   "status": "proved",
   "theorems": [
    "C46_two_crawlers",
    "C46_example"
   ],
   "note": ""
  },
  {
   "property": "C47",
   "status": "proved",
   "theorems": [
    "C47_replies",
    "C47_example"
   ],
   "note": ""
  },
  {
   "property": "C48",
   "status": "proved",
   "theorems": [
    "C48_queue_exact",
    "C48_queue_step",
    "C48_example"
   ],
   "note": ""
  },
  {
   "property": "C49",
   "status": "proved",
   "theorems": [
    "C49_token_refuted"
   ],
   "note": "The unqualified claim is false of the code: see C49_token_refuted."
  },
  {
   "property": "C50",
   "status": "proved",
   "theorems": [
    "C50_find_node_response",
    "C50_table_reachable",
    "C50_example"
   ],
   "note": ""
  },
  {
   "property": "C51",
   "status": "proved",
   "theorems": [
    "C51_queried_once_refuted"
   ],
   "note": "The unqualified claim is false of the code: see C51_queried_once_refuted."
  },
  {
   "property": "C52",
   "status": "proved",
   "theorems": [
    "C52_handshake_roundtrip",
    "C52_wrong_lengths_panic",
    "C52_parse_domain",
    "C52_example"
   ],
   "note": ""
  },
  {
   "property": "C53",
   "status": "proved",
   "theorems": [
    "C53_extended_handshake",
    "C53_example"
   ],
   "note": ""
  },
  {
   "property": "C54",
   "status": "proved",
   "theorems": [
    "C54_wire_format",
    "C54_metadata_roundtrip",
    "C54_example"
   ],
   "note": ""
  },
  {
   "property": "C55",
   "status": "proved",
   "theorems": [
    "C55_frame_reading",
    "C55_at_most_32k",
    "C55_one_message_refuted",
    "C55_example"
   ],
   "note": "The unqualified claim is false of the code: see C55_one_message_refuted."
  },
  {
   "property": "C56",
   "status": "proved",
   "theorems": [
    "C56_authentic",
    "C56_example"
   ],
   "note": ""
  },
  {
   "property": "C57",
   "status": "proved",
   "theorems": [
    "C57_finishes_closed",
    "C57_dial_failure",
    "C57_peer_can_hang_or_kill_refuted",
    "C57_example"
   ],
   "note": "The unqualified claim is false of the code: see C57_peer_can_hang_or_kill_refuted."
  },
  {
   "property": "C58",
   "status": "proved",
   "theorems": [
    "C58_one_piece",
    "C58_pool_stays_sound",
    "C58_example",
    "C58_concurrent_refuted"
   ],
   "note": "The unqualified claim is false of the code: see C58_concurrent_refuted."
  },
  {
   "property": "C59",
   "status": "proved",
   "theorems": [
    "C59_enough_buffers",
    "C59_enough_buffers_example",
    "C59_multi_piece_refuted"
   ],
   "note": "The unqualified claim is false of the code: see C59_multi_piece_refuted."
  },
  {
   "property": "C60",
   "status": "proved",
   "theorems": [
    "C60_honest_session",
    "C60_requests_for_size",
    "C60_only_requests",
    "C60_example",
    "C60_unrequested_piece"
   ],
   "note": ""
  },
  {
   "property": "C61",
   "status": "proved",
   "theorems": [
    "C61_segmentation_refuted",
    "C61_split_message_refuted"
   ],
   "note": "The unqualified claim is false of the code: see C61_segmentation_refuted, C61_split_message_refuted."
  },
  {
   "property": "C62",
   "status": "proved",
   "theorems": [
    "C62_named_by_content",
    "C62_download_is_stored",
    "C62_example"
   ],
   "note": ""
  },
  {
   "property": "C63",
   "status": "proved",
   "theorems": [
    "C63_path_shape",
    "C63_path_injective",
    "C63_example"
   ],
   "note": ""
  },
  {
   "property": "C64",
   "status": "proved",
   "theorems": [
    "C64_crash_damage",
    "C64_not_atomic_refuted",
    "C64_example"
   ],
   "note": "The unqualified claim is false of the code: see C64_not_atomic_refuted."
  },
  {
   "property": "C65",
   "status": "proved",
   "theorems": [
    "C65_ipv4",
    "C65_what_is_dialled",
    "C65_ipv6_implied",
    "C65_ipv6_refuted",
    "C65_example"
   ],
   "note": "The unqualified claim is false of the code: see C65_ipv6_refuted."
  },
  {
   "property": "C66",
   "status": "proved",
   "theorems": [
    "C66_fifo_exactly_once",
    "C66_example"
   ],
   "note": ""
  },
  {
   "property": "C67",
   "status": "proved",
   "theorems": [
    "C67_bounds",
    "C67_submit_blocks",
    "C67_example"
   ],
   "note": ""
  },
  {
   "property": "C68",
   "status": "proved",
   "theorems": [
    "C68_no_submit_after_shutdown",
    "C68_status_forward",
    "C68_status_backwards_refuted",
    "C68_example"
   ],
   "note": "The unqualified claim is false of the code: see C68_status_backwards_refuted."
  },
  {
   "property": "C69",
   "status": "proved",
   "theorems": [
    "C69_shutdown_never_succeeds",
    "C69_shutdown_stops_workers_refuted",
    "C69_example"
   ],
   "note": "The unqualified claim is false of the code: see C69_shutdown_stops_workers_refuted."
  },
  {
   "property": "C70",
   "status": "proved",
   "theorems": [
    "C70_concurrent_shutdown_refuted",
    "C70_dead_is_dead",
    "C70_serial_shutdown",
    "C70_one_call_waits",
    "C70_example"
   ],
   "note": "The unqualified claim is false of the code: see C70_concurrent_shutdown_refuted."
  },
  {
   "property": "C71",
   "status": "proved",
   "theorems": [
    "C71_accepted_tasks_can_finish",
    "C71_example"
   ],
   "note": ""
  },
  {
   "property": "C72",
   "status": "proved",
   "theorems": [
    "C72_success_means_clean",
    "C72_status",
    "C72_example",
    "C72_panicking_clean_function",
    "C72_start_after_return_refuted",
    "C72_late_registration_refuted"
   ],
   "note": "The unqualified claim is false of the code: see C72_start_after_return_refuted, C72_late_registration_refuted."
  },
  {
   "property": "C73",
   "status": "proved",
   "theorems": [
    "C73_linearizable",
    "C73_example"
   ],
   "note": ""
  },
  {
   "property": "C74",
   "status": "proved",
   "theorems": [
    "C74_only_del_races",
    "C74_del_race_refuted"
   ],
   "note": "The unqualified claim is false of the code: see C74_del_race_refuted."
  },
  {
   "property": "C75",
   "status": "proved",
   "theorems": [
    "C75_distinct_buffers",
    "C75_each_packet_once",
    "C75_example"
   ],
   "note": ""
  },
  {
   "property": "C76",
   "status": "proved",
   "theorems": [
    "C76_in_order",
    "C76_example"
   ],
   "note": ""
  },
  {
   "property": "C77",
   "status": "proved",
   "theorems": [
    "C77_filtering",
    "C77_example"
   ],
   "note": ""
  },
  {
   "property": "C78",
   "status": "proved",
   "theorems": [
    "C78_level_is_frozen",
    "C78_setlevel_refuted",
    "C78_example"
   ],
   "note": "The unqualified claim is false of the code: see C78_setlevel_refuted."
  },
  {
   "property": "C79",
   "status": "proved",
   "theorems": [
    "C79_read_once",
    "C79_config_flag",
    "C79_config_flag_ignored_refuted",
    "C79_example",
    "C79_reset",
    "C79_first_read"
   ],
   "note": "The unqualified claim is false of the code: see C79_config_flag_ignored_refuted."
  },
  {
   "property": "C80",
   "status": "proved",
   "theorems": [
    "C80_report",
    "C80_encoded",
    "C80_trailing_refuted",
    "C80_directory",
    "C80_candidates",
    "C80_single_file",
    "C80_panics",
    "C80_example"
   ],
   "note": "The unqualified claim is false of the code: see C80_trailing_refuted."
  },
  {
   "property": "C81",
   "status": "proved",
   "theorems": [
    "C81_concurrent_downloads",
    "C81_example"
   ],
   "note": ""
  },
  {
   "property": "C82",
   "status": "proved",
   "theorems": [
    "C82_close_stops_reception",
    "C82_close_progress",
    "C82_only_close_stops",
    "C82_early_return",
    "C82_early_return_refuted",
    "C82_example"
   ],
   "note": "The unqualified claim is false of the code: see C82_early_return_refuted."
  },
  {
   "property": "C83",
   "status": "proved",
   "theorems": [
    "C83_level_names",
    "C83_example"
   ],
   "note": ""
  },
  {
   "property": "C84",
   "status": "proved",
   "theorems": [
    "C84_zap_level",
    "C84_warn_refuted",
    "C84_example"
   ],
   "note": "The unqualified claim is false of the code: see C84_warn_refuted."
  },
  {
   "property": "C85",
   "status": "proved",
   "theorems": [
    "C85_one_logger_per_name",
    "C85_map_race_refuted",
    "C85_example"
   ],
   "note": "The unqualified claim is false of the code: see C85_map_race_refuted."
  },
  {
   "property": "C86",
   "status": "proved",
   "theorems": [
    "C86_replies_any_schedule",
    "C86_one_packet_per_handler",
    "C86_example"
   ],
   "note": ""
  },
  {
   "property": "C87",
   "status": "proved",
   "theorems": [
    "C87_queue_fifo",
    "C87_announcements",
    "C87_example"
   ],
   "note": ""
  },
  {
   "property": "C88",
   "status": "proved",
   "theorems": [
    "C88_ids_any_schedule",
    "C88_registered_before_sent",
    "C88_example"
   ],
   "note": ""
  },
  {
   "property": "C89",
   "status": "proved",
   "theorems": [
    "C89_node_lists_any_schedule",
    "C89_known_response",
    "C89_unknown_response",
    "C89_example",
    "C89_unknown_example"
   ],
   "note": ""
  },
  {
   "property": "C90",
   "status": "proved",
   "theorems": [
    "C90_table_any_schedule",
    "C90_example"
   ],
   "note": ""
  },
  {
   "property": "C91",
   "status": "proved",
   "theorems": [
    "C91_handlers_finish_alone",
    "C91_full_queue_blocks",
    "C91_example"
   ],
   "note": ""
  },
  {
   "property": "C92",
   "status": "proved",
   "theorems": [
    "C92_one_at_a_time",
    "C92_example"
   ],
   "note": ""
  },
  {
   "property": "C93",
   "status": "proved",
   "theorems": [
    "C93_bounded_reaction",
    "C93_all_datagrams",
    "C93_example"
   ],
   "note": ""
  },
  {
   "property": "C94",
   "status": "proved",
   "theorems": [
    "C94_bucket_linearizable",
    "C94_all_stays_valid",
    "C94_bucket_progress",
    "C94_bucket_sequential",
    "C94_iterator_nil_example",
    "C94_example"
   ],
   "note": ""
  },
  {
   "property": "C95",
   "status": "proved",
   "theorems": [
    "C95_responses_on_the_wire",
    "C95_errors_on_the_wire",
    "C95_example"
   ],
   "note": ""
  },
  {
   "property": "C96",
   "status": "proved",
   "theorems": [
    "C96_refines_crawler",
    "C96_packets_in_order",
    "C96_reads_1024_bytes",
    "C96_announcements_handed_on",
    "C96_bounded",
    "C96_one_download_per_announcement",
    "C96_example"
   ],
   "note": ""
  },
  {
   "property": "C97",
   "status": "proved",
   "theorems": [
    "C97_files_were_announced",
    "C97_files_are_complete",
    "C97_dials_were_announced",
    "C97_example"
   ],
   "note": ""
  },
  {
   "property": "C98",
   "status": "proved",
   "theorems": [
    "C98_can_finish",
    "C98_hung_forever",
    "C98_never_stalls_refuted",
    "C98_only_memory_kills",
    "C98_one_datagram_kills_refuted",
    "C98_example"
   ],
   "note": "The unqualified claim is false of the code: see C98_never_stalls_refuted, C98_one_datagram_kills_refuted."
  },
  {
   "property": "C99",
   "status": "proved",
   "theorems": [
    "C99_stays_running",
    "C99_refines_bounded_queue",
    "C99_bounded_queue_is_live",
    "C99_example"
   ],
   "note": ""
  },
  {
   "property": "C100",
   "status": "proved",
   "theorems": [
    "C100_truncated_dict",
    "C100_other_decoders",
    "C100_truncation_rejected_refuted",
    "C100_long_query",
    "C100_long_query_example"
   ],
   "note": "The unqualified claim is false of the code: see C100_truncation_rejected_refuted."
  },
  {
   "property": "C101",
   "status": "proved",
   "theorems": [
    "C101_strings_come_from_input",
    "C101_decoded_size",
    "C101_example"
   ],
   "note": ""
  },
  {
   "property": "C102",
   "status": "proved",
   "theorems": [
    "C102_injective",
    "C102_prefix_free",
    "C102_streams",
    "C102_example"
   ],
   "note": ""
  },
  {
   "property": "C103",
   "status": "proved",
   "theorems": [
    "C103_nothing_hidden",
    "C103_panics_iff_error",
    "C103_code_first",
    "C103_no_stack_refuted",
    "C103_params_ambiguous_refuted",
    "C103_wire_text",
    "C103_example"
   ],
   "note": "The unqualified claim is false of the code: see C103_no_stack_refuted, C103_params_ambiguous_refuted."
  },
  {
   "property": "C104",
   "status": "proved",
   "theorems": [
    "C104_reply_content",
    "C104_reply_size",
    "C104_query_size",
    "C104_total_bytes",
    "C104_discloses_stack_refuted",
    "C104_reply_exceeds_buffer_refuted",
    "C104_example"
   ],
   "note": "The unqualified claim is false of the code: see C104_discloses_stack_refuted, C104_reply_exceeds_buffer_refuted."
  },
  {
   "property": "C105",
   "status": "proved",
   "theorems": [
    "C105_starts_iff",
    "C105_started",
    "C105_bad_host",
    "C105_port_first",
    "C105_one_process",
    "C105_other_commands",
    "C105_same_id",
    "C105_zero_workers_refuted",
    "C105_version_refuted",
    "C105_bad_host_refuted",
    "C105_port_number",
    "C105_port_refuted",
    "C105_example"
   ],
   "note": "The unqualified claim is false of the code: see C105_zero_workers_refuted, C105_version_refuted, C105_bad_host_refuted, C105_port_refuted."
  },
  {
   "property": "C106",
   "status": "proved",
   "theorems": [
    "C106_handlers_see_all_routes",
    "C106_packets_in_order",
    "C106_bootstrap_first",
    "C106_exit_needs_signal",
    "C106_end_is_final",
    "C106_no_read_after_close",
    "C106_clean_exit_closes",
    "C106_signal_can_end_it",
    "C106_second_signal_ignored",
    "C106_example",
    "C106_early_signal_leaves_open_refuted",
    "C106_early_signal_crash_refuted",
    "C106_packets_lost_refuted"
   ],
   "note": "The unqualified claim is false of the code: see C106_early_signal_leaves_open_refuted, C106_early_signal_crash_refuted, C106_packets_lost_refuted."
  },
  {
   "property": "C107",
   "status": "proved",
   "theorems": [
    "C107_line_is_json",
    "C107_utf8_is_text",
    "C107_what_is_written",
    "C107_prefix",
    "C107_one_line",
    "C107_lines_identify_entries",
    "C107_raw_bytes_refuted",
    "C107_example"
   ],
   "note": "The unqualified claim is false of the code: see C107_raw_bytes_refuted."
  },
  {
   "property": "C108",
   "status": "proved",
   "theorems": [
    "C108_log_is_exact",
    "C108_same_runs",
    "C108_append_only",
    "C108_logged_first",
    "C108_readable",
    "C108_example",
    "C108_unchecked_refuted",
    "C108_logged_not_queued_refuted"
   ],
   "note": "The unqualified claim is false of the code: see C108_unchecked_refuted, C108_logged_not_queued_refuted."
  },
  {
   "property": "C109",
   "status": "proved",
   "theorems": [
    "C109_reach_bounded",
    "C109_distance_exhausted",
    "C109_frozen",
    "C109_asked_again",
    "C109_bound_reached",
    "C109_keeps_crawling_refuted",
    "C109_distance_example",
    "C109_comes_to_rest_refuted"
   ],
   "note": "The unqualified claim is false of the code: see C109_keeps_crawling_refuted, C109_comes_to_rest_refuted."
  },
  {
   "property": "C110",
   "status": "proved",
   "theorems": [
    "C110_handshake_needed",
    "C110_handshake_refused",
    "C110_ids_ignored",
    "C110_wrong_length",
    "C110_no_longer_than_received",
    "C110_accepted_example",
    "C110_other_torrent_refuted",
    "C110_sizes_refuted",
    "C110_extension_id_refuted"
   ],
   "note": "The unqualified claim is false of the code: see C110_other_torrent_refuted, C110_sizes_refuted, C110_extension_id_refuted."
  },
  {
   "property": "C111",
   "status": "proved",
   "theorems": [
    "C111_outcome",
    "C111_deterministic",
    "C111_success_iff",
    "C111_single_message",
    "C111_no_second_chance",
    "C111_example",
    "C111_rules_example",
    "C111_not_understood_example"
   ],
   "note": ""
  },
  {
   "property": "C112",
   "status": "proved",
   "theorems": [
    "C112_outcome",
    "C112_as_if_alone",
    "C112_pool_stays_sound",
    "C112_others_unharmed",
    "C112_example",
    "C112_overdrawn_refuted",
    "C112_holding_example"
   ],
   "note": "The unqualified claim is false of the code: see C112_overdrawn_refuted."
  },
  {
   "property": "C113",
   "status": "proved",
   "theorems": [
    "C113_exist_size",
    "C113_isdir",
    "C113_mkdir_outcome",
    "C113_mkdir_effect",
    "C113_links_refuted",
    "C113_basedir_refuted",
    "C113_basedir",
    "C113_basedir_example",
    "C113_example"
   ],
   "note": "The unqualified claim is false of the code: see C113_links_refuted, C113_basedir_refuted."
  },
  {
   "property": "C114",
   "status": "proved",
   "theorems": [
    "C114_join",
    "C114_entry",
    "C114_listing",
    "C114_directory",
    "C114_single",
    "C114_link_refuted",
    "C114_dotdot_refuted",
    "C114_example"
   ],
   "note": "The unqualified claim is false of the code: see C114_link_refuted, C114_dotdot_refuted."
  },
  {
   "property": "C115",
   "status": "proved",
   "theorems": [
    "C115_first_starts",
    "C115_existing",
    "C115_alone",
    "C115_fresh_directory",
    "C115_killed_refuted",
    "C115_race_refuted",
    "C115_example"
   ],
   "note": "The unqualified claim is false of the code: see C115_killed_refuted, C115_race_refuted."
  },
  {
   "property": "C116",
   "status": "proved",
   "theorems": [
    "C116_each_is_a_download",
    "C116_authentic_and_closed",
    "C116_outcome",
    "C116_thrift",
    "C116_enough_for_all",
    "C116_honest_peer",
    "C116_no_buffer_twice",
    "C116_held_data_safe",
    "C116_never_waits",
    "C116_example",
    "C116_fresh_start_refuted"
   ],
   "note": "The unqualified claim is false of the code: see C116_fresh_start_refuted."
  },
  {
   "property": "C117",
   "status": "proved",
   "theorems": [
    "C117_duration",
    "C117_only_the_first_second",
    "C117_exact",
    "C117_authentic_and_closed",
    "C117_honest_in_time",
    "C117_example",
    "C117_slow_peer_refuted",
    "C117_write_refuted"
   ],
   "note": "The unqualified claim is false of the code: see C117_slow_peer_refuted, C117_write_refuted."
  },
  {
   "property": "C118",
   "status": "proved",
   "theorems": [
    "C118_json",
    "C118_one_line",
    "C118_order_free",
    "C118_faithful",
    "C118_response",
    "C118_console_one_line",
    "C118_example",
    "C118_request_refuted",
    "C118_raw_bytes_refuted",
    "C118_forged_line_refuted",
    "C118_repair_is_mending",
    "C118_text_stays",
    "C118_utf8_example"
   ],
   "note": "The unqualified claim is false of the code: see C118_request_refuted, C118_raw_bytes_refuted, C118_forged_line_refuted."
  },
  {
   "property": "C119",
   "status": "proved",
   "theorems": [
    "C119_contents",
    "C119_like_copying",
    "C119_strings_constant",
    "C119_hex",
    "C119_immutable_refuted",
    "C119_append_refuted",
    "C119_literal_refuted",
    "C119_pooled_buffer_refuted",
    "C119_example"
   ],
   "note": "The unqualified claim is false of the code: see C119_immutable_refuted, C119_append_refuted, C119_literal_refuted, C119_pooled_buffer_refuted."
  },
  {
   "property": "C120",
   "status": "proved",
   "theorems": [
    "C120_is_sha1",
    "C120_metadata",
    "C120_ids",
    "C120_example"
   ],
   "note": ""
  },
  {
   "property": "C121",
   "status": "proved",
   "theorems": [
    "C121_registrations_kept",
    "C121_each_call_cleans",
    "C121_signal_wakes_one",
    "C121_fixed_context",
    "C121_status",
    "C121_example",
    "C121_once_per_process_refuted",
    "C121_overlapping_registrations_refuted",
    "C121_signal_stops_all_refuted",
    "C121_replaced_context_refuted",
    "C121_signal_example"
   ],
   "note": "The unqualified claim is false of the code: see C121_once_per_process_refuted, C121_overlapping_registrations_refuted, C121_signal_stops_all_refuted, C121_replaced_context_refuted."
  },
  {
   "property": "C122",
   "status": "proved",
   "theorems": [
    "C122_work_is_linear",
    "C122_no_spinning",
    "C122_rests_when_done",
    "C122_comes_to_rest",
    "C122_every_packet_taken_up",
    "C122_every_announcement_taken_up",
    "C122_example"
   ],
   "note": ""
  },
  {
   "property": "C123",
   "status": "proved",
   "theorems": [
    "C123_read_back",
    "C123_unambiguous",
    "C123_same_node",
    "C123_udp4",
    "C123_example"
   ],
   "note": ""
  },
  {
   "property": "C124",
   "status": "proved",
   "theorems": [
    "C124_only_the_announcer",
    "C124_port",
    "C124_endpoint",
    "C124_port_refuted",
    "C124_example",
    "C124_whole_run",
    "C124_whole_run_example"
   ],
   "note": "The unqualified claim is false of the code: see C124_port_refuted."
  },
  {
   "property": "C125",
   "status": "proved",
   "theorems": [
    "C125_where",
    "C125_literal",
    "C125_prefers_ipv4",
    "C125_spelling",
    "C125_no_port",
    "C125_defaults",
    "C125_example"
   ],
   "note": ""
  },
  {
   "property": "C126",
   "status": "proved",
   "theorems": [
    "C126_get_logger",
    "C126_one_per_name",
    "C126_close_flushes_all",
    "C126_init_logger_refuted",
    "C126_example"
   ],
   "note": "The unqualified claim is false of the code: see C126_init_logger_refuted."
  },
  {
   "property": "C127",
   "status": "proved",
   "theorems": [
    "C127_start",
    "C127_pages",
    "C127_redirect",
    "C127_not_found",
    "C127_open_by_default_refuted",
    "C127_example"
   ],
   "note": "The unqualified claim is false of the code: see C127_open_by_default_refuted."
  },
  {
   "property": "C128",
   "status": "proved",
   "theorems": [
    "C128_meaning",
    "C128_bad",
    "C128_help",
    "C128_program",
    "C128_usage",
    "C128_file_named_torrent_refuted",
    "C128_ignored_words_refuted",
    "C128_help_in_front_refuted",
    "C128_example"
   ],
   "note": "The unqualified claim is false of the code: see C128_file_named_torrent_refuted, C128_ignored_words_refuted, C128_help_in_front_refuted."
  },
  {
   "property": "C129",
   "status": "proved",
   "theorems": [
    "C129_handlers_end",
    "C129_every_query_answered",
    "C129_every_announcement_taken_up",
    "C129_example",
    "C129_unfair_refuted"
   ],
   "note": "The unqualified claim is false of the code: see C129_unfair_refuted."
  },
  {
   "property": "C130",
   "status": "proved",
   "theorems": [
    "C130_info_lines_fit",
    "C130_info_hashes_found",
    "C130_info_example",
    "C130_files",
    "C130_removed_when_due",
    "C130_recent_kept",
    "C130_nothing_lost",
    "C130_bounded",
    "C130_writes_succeed",
    "C130_all_kept_refuted",
    "C130_unbroken_refuted",
    "C130_clock_refuted",
    "C130_example",
    "C130_looks_bounded"
   ],
   "note": "The unqualified claim is false of the code: see C130_all_kept_refuted, C130_unbroken_refuted, C130_clock_refuted."
  },
  {
   "property": "C131",
   "status": "proved",
   "theorems": [
    "C131_every_run_has_a_log",
    "C131_files_are_logged",
    "C131_dials_are_logged",
    "C131_no_more_downloads_than_lines",
    "C131_found_on_disk",
    "C131_example"
   ],
   "note": ""
  },
  {
   "property": "C132",
   "status": "proved",
   "theorems": [
    "C132_crawlers_learn_nothing",
    "C132_nothing_is_logged",
    "C132_what_is_sent",
    "C132_network_falls_silent",
    "C132_crawlers_find_each_other_refuted",
    "C132_example"
   ],
   "note": "The unqualified claim is false of the code: see C132_crawlers_find_each_other_refuted."
  },
  {
   "property": "C133",
   "status": "proved",
   "theorems": [
    "C133_same_runs",
    "C133_transcript",
    "C133_only_handlers_print",
    "C133_output",
    "C133_table_lines",
    "C133_ignore_line",
    "C133_example",
    "C133_ignored_refuted",
    "C133_sent_refuted",
    "C133_table_log_refuted"
   ],
   "note": "The unqualified claim is false of the code: see C133_ignored_refuted, C133_sent_refuted, C133_table_log_refuted."
  },
  {
   "property": "C134",
   "status": "proved",
   "theorems": [
    "C134_other_responses",
    "C134_example"
   ],
   "note": ""
  },
  {
   "property": "C135",
   "status": "proved",
   "theorems": [
    "C135_same_download",
    "C135_transcript",
    "C135_closing_line",
    "C135_panic_is_last",
    "C135_examples",
    "C135_silent_failure_refuted"
   ],
   "note": "The unqualified claim is false of the code: see C135_silent_failure_refuted."
  },
  {
   "property": "C136",
   "status": "proved",
   "theorems": [
    "C136_same_job",
    "C136_lines",
    "C136_silence_means_stored",
    "C136_success_is_logged",
    "C136_examples",
    "C136_every_job_is_logged_refuted"
   ],
   "note": "The unqualified claim is false of the code: see C136_every_job_is_logged_refuted."
  },
  {
   "property": "C137",
   "status": "proved",
   "theorems": [
    "C137_receive_lines",
    "C137_covers_all_runs",
    "C137_example",
    "C137_lines_tell_datagrams_refuted"
   ],
   "note": "The unqualified claim is false of the code: see C137_lines_tell_datagrams_refuted."
  }
 ]
}