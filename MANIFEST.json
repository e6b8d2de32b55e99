{
 "claims": [
  {
   "property": "C01",
   "status": "proved",
   "theorems": [
    "C01_identifier_fields",
    "C01_identifier_fields_cover",
    "C01_identifier_fields_unique",
    "C01_compute_and_set_hash"
   ],
   "note": "in PropsCodec.v"
  },
  {
   "property": "C02",
   "status": "proved",
   "theorems": [
    "C02_identifier_from_wire",
    "C02_identifier_recompose",
    "C02_identifier_to_raw"
   ],
   "note": "in PropsCodec.v"
  },
  {
   "property": "C03",
   "status": "proved",
   "theorems": [
    "C03_locid_written_big_endian",
    "C03_locid_read_big_endian",
    "C03_reset"
   ],
   "note": "in PropsCodec.v"
  },
  {
   "property": "C04",
   "status": "proved",
   "theorems": [
    "C04_turnout_writes",
    "C04_turnout_init",
    "C04_turnout_layout"
   ],
   "note": "in PropsCodec.v"
  },
  {
   "property": "C05",
   "status": "proved",
   "theorems": [
    "C05_s88_writes",
    "C05_s88_layout",
    "C05_s88_subtype"
   ],
   "note": "in PropsCodec.v"
  },
  {
   "property": "C06",
   "status": "proved",
   "theorems": [
    "C06_system_writes",
    "C06_system_layout",
    "C06_system_init"
   ],
   "note": "in PropsCodec.v"
  },
  {
   "property": "C07",
   "status": "proved",
   "theorems": [
    "C07_turnout_addresses",
    "C07_loco_addresses",
    "C07_values",
    "C07_wrap"
   ],
   "note": "in PropsCodec.v"
  },
  {
   "property": "C08",
   "status": "proved",
   "theorems": [
    "C08_set_protocol_turnout",
    "C08_set_protocol_loco",
    "C08_protocol_replaced",
    "C08_protocol_recognised",
    "C08_unknown_protocol_destroys_address",
    "C08_unknown_refuted"
   ],
   "note": "in PropsCodec.v"
  },
  {
   "property": "C09",
   "status": "proved",
   "theorems": [
    "C09_classification"
   ],
   "note": "in PropsCodec.v"
  },
  {
   "property": "C10",
   "status": "proved",
   "theorems": [
    "C10_recoverable_iff_below_upper_dcc"
   ],
   "note": "in PropsCodec.v"
  },
  {
   "property": "C11",
   "status": "proved",
   "theorems": [
    "C11_sent_command_is_reported",
    "C11_one_callback",
    "C11_without_engine_callback_refuted"
   ],
   "note": "in PropsStation.v"
  },
  {
   "property": "C12",
   "status": "proved",
   "theorems": [
    "C12_every_transmitted_frame",
    "C12_exact_frames",
    "C12_no_transmit_callback",
    "C12_SendPacket_overwrites_only_the_hash"
   ],
   "note": "in PropsStation.v"
  },
  {
   "property": "C13",
   "status": "proved",
   "theorems": [
    "C13_hash_of_station_id",
    "C13_hash_collisions",
    "C13_hash_of_32_bit_id"
   ],
   "note": "in PropsCodec.v"
  },
  {
   "property": "C14",
   "status": "proved",
   "theorems": [
    "C14_engine_list_request",
    "C14_offset_readable"
   ],
   "note": "in PropsStation.v"
  },
  {
   "property": "C15",
   "status": "proved",
   "theorems": [
    "C15_engine_request",
    "C15_same_frames_iff_first_16_agree"
   ],
   "note": "in PropsStation.v"
  },
  {
   "property": "C16",
   "status": "proved",
   "theorems": [
    "C16_dropped_without_effect"
   ],
   "note": "in PropsStation.v"
  },
  {
   "property": "C17",
   "status": "proved",
   "theorems": [
    "C17_dispatch"
   ],
   "note": "in PropsStation.v"
  },
  {
   "property": "C18",
   "status": "proved",
   "theorems": [
    "C18_receiving"
   ],
   "note": "in PropsStation.v"
  },
  {
   "property": "C19",
   "status": "proved",
   "theorems": [
    "C19_null_dereference_iff",
    "C19_otherwise_safe",
    "C19_too_long"
   ],
   "note": "in PropsStation.v"
  },
  {
   "property": "C20",
   "status": "proved",
   "theorems": [
    "C20_received_commands",
    "C20_engine_commands"
   ],
   "note": "in PropsStation.v"
  },
  {
   "property": "C21",
   "status": "proved",
   "theorems": [
    "C21_system_commands"
   ],
   "note": "in PropsStation.v"
  },
  {
   "property": "C22",
   "status": "proved",
   "theorems": [
    "C22_forwarded_once",
    "C22_otherwise_only_console"
   ],
   "note": "in PropsStation.v"
  },
  {
   "property": "C23",
   "status": "proved",
   "theorems": [
    "C23_no_effect"
   ],
   "note": "in PropsStation.v"
  },
  {
   "property": "C24",
   "status": "proved",
   "theorems": [
    "C24_begin",
    "C24_finish"
   ],
   "note": "in PropsStation.v"
  },
  {
   "property": "C25",
   "status": "proved",
   "theorems": [
    "C25_reachable_parsers_are_usable",
    "C25_new_parser_is_usable",
    "C25_stream_outcome",
    "C25_exact_calls",
    "C25_empty_stream"
   ],
   "note": "in PropsStream.v"
  },
  {
   "property": "C26",
   "status": "proved",
   "theorems": [
    "C26_odd_length_never_ends"
   ],
   "note": "in PropsStream.v"
  },
  {
   "property": "C27",
   "status": "proved",
   "theorems": [
    "C27_malformed_frame_aborts_once",
    "C27_idle_parser_ignores"
   ],
   "note": "in PropsStream.v"
  },
  {
   "property": "C28",
   "status": "proved",
   "theorems": [
    "C28_at_most_one_end_per_start",
    "C28_none_before_the_first_start",
    "C28_ends_bounded_by_starts"
   ],
   "note": "in PropsStream.v"
  },
  {
   "property": "C29",
   "status": "proved",
   "theorems": [
    "C29_checksum_is_remainder",
    "C29_checksum_always_defined",
    "C29_is_valid",
    "C29_product_additive",
    "C29_product_monomial"
   ],
   "note": "in PropsCrc.v"
  },
  {
   "property": "C30",
   "status": "proved",
   "theorems": [
    "C30_burst_errors_detected"
   ],
   "note": "in PropsCrc.v"
  },
  {
   "property": "C31",
   "status": "proved",
   "theorems": [
    "C31_odd_errors_detected"
   ],
   "note": "in PropsCrc.v"
  },
  {
   "property": "C32",
   "status": "proved",
   "theorems": [
    "C32_double_errors",
    "C32_same_checksum_iff"
   ],
   "note": "in PropsCrc.v"
  },
  {
   "property": "C33",
   "status": "proved",
   "theorems": [
    "C33_corruption_is_reported"
   ],
   "note": "in PropsStream.v"
  },
  {
   "property": "C34",
   "status": "proved",
   "theorems": [
    "C34_any_cut_is_char_by_char",
    "C34_two_cuts_agree",
    "C34_states_covered"
   ],
   "note": "in PropsText.v"
  },
  {
   "property": "C35",
   "status": "proved",
   "theorems": [
    "C35_parse_shown_document"
   ],
   "note": "in PropsText.v"
  },
  {
   "property": "C36",
   "status": "proved",
   "theorems": [
    "C36_section_limit",
    "C36_key_limit",
    "C36_value_limit"
   ],
   "note": "in PropsText.v"
  },
  {
   "property": "C37",
   "status": "proved",
   "theorems": [
    "C37_errors_are_sticky",
    "C37_reset_is_a_new_parser",
    "C37_too_long_text_is_an_error",
    "C37_constructor"
   ],
   "note": "in PropsText.v"
  },
  {
   "property": "C38",
   "status": "proved",
   "theorems": [
    "C38_no_undefined_behaviour"
   ],
   "note": "in PropsText.v"
  },
  {
   "property": "C39",
   "status": "proved",
   "theorems": [
    "C39_reported_tokens",
    "C39_terminated_refuted"
   ],
   "note": "in PropsText.v"
  },
  {
   "property": "C40",
   "status": "proved",
   "theorems": [
    "C40_bounded_queue",
    "C40_move_conserves",
    "C40_queries"
   ],
   "note": "in PropsBuffer.v"
  },
  {
   "property": "C41",
   "status": "proved",
   "theorems": [
    "C41_find_char",
    "C41_find_any_of",
    "C41_find_any_of_256_finds_nothing"
   ],
   "note": "in PropsBuffer.v"
  },
  {
   "property": "C42",
   "status": "proved",
   "theorems": [
    "C42_sub_buffer",
    "C42_sub_buffer_content"
   ],
   "note": "in PropsBuffer.v"
  },
  {
   "property": "C43",
   "status": "proved",
   "theorems": [
    "C43_set",
    "C43_set_capacity_zero"
   ],
   "note": "in PropsBuffer.v"
  },
  {
   "property": "C44",
   "status": "proved",
   "theorems": [
    "C44_index_read",
    "C44_index_write",
    "C44_empty_is_out_of_bounds"
   ],
   "note": "in PropsBuffer.v"
  },
  {
   "property": "C45",
   "status": "proved",
   "theorems": [
    "C45_function_bits",
    "C45_function_read",
    "C45_function_out_of_range"
   ],
   "note": "in PropsLoco.v"
  },
  {
   "property": "C46",
   "status": "proved",
   "theorems": [
    "C46_set_name",
    "C46_set_name_short",
    "C46_name_is_terminated",
    "C46_set_name_conditional",
    "C46_set_name_conditional_short"
   ],
   "note": "in PropsLoco.v"
  },
  {
   "property": "C47",
   "status": "proved",
   "theorems": [
    "C47_set_protocol_string",
    "C47_terminated_iff_short",
    "C47_print_out_of_bounds_iff"
   ],
   "note": "in PropsLoco.v"
  },
  {
   "property": "C48",
   "status": "proved",
   "theorems": [
    "C48_change_direction",
    "C48_change_twice",
    "C48_switch_direction",
    "C48_switch_twice"
   ],
   "note": "in PropsLoco.v"
  },
  {
   "property": "C49",
   "status": "proved",
   "theorems": [
    "C49_which_lines",
    "C49_line_effect",
    "C49_numerals",
    "C49_no_engine_no_effect",
    "C49_exact_words_refuted"
   ],
   "note": "in PropsConsumer.v"
  },
  {
   "property": "C50",
   "status": "proved",
   "theorems": [
    "C50_engine_download",
    "C50_any_document",
    "C50_long_protocol_refuted"
   ],
   "note": "in PropsConsumer.v"
  },
  {
   "property": "C51",
   "status": "proved",
   "theorems": [
    "C51_line_effect",
    "C51_list_download",
    "C51_first_two_names",
    "C51_full_table_keeps_old_names",
    "C51_counts",
    "C51_reset_clears_table"
   ],
   "note": "in PropsConsumer.v"
  },
  {
   "property": "C52",
   "status": "proved",
   "theorems": [
    "C52_parse_error_still_completes"
   ],
   "note": "in PropsConsumer.v"
  },
  {
   "property": "C53",
   "status": "proved",
   "theorems": [
    "C53_second_request_loses_consumer",
    "C53_finish_first",
    "C53_finish_after_setting_refuted"
   ],
   "note": "in PropsConsumer.v"
  },
  {
   "property": "C54",
   "status": "proved",
   "theorems": [
    "C54_header_frame",
    "C54_data_frame",
    "C54_short_data",
    "C54_built_stream_arrives",
    "C54_pieces_make_up_the_text"
   ],
   "note": "in PropsStream.v"
  },
  {
   "property": "C55",
   "status": "proved",
   "theorems": [
    "C55_data_equality",
    "C55_data_equality_refl",
    "C55_data_equality_sym",
    "C55_data_equality_trans",
    "C55_data_equality_out_of_bounds",
    "C55_frame_equality",
    "C55_turnout_equality"
   ],
   "note": "in PropsCodec.v"
  },
  {
   "property": "C56",
   "status": "proved",
   "theorems": [
    "C56_no_interference",
    "C56_station_kept_over_histories"
   ],
   "note": "in PropsReach.v"
  },
  {
   "property": "C57",
   "status": "proved",
   "theorems": [
    "C57_no_undefined_behaviour",
    "C57_safe_with_short_lines",
    "C57_safe_without_config_data",
    "C57_initial_objects",
    "C57_long_value_refuted",
    "C57_long_section_refuted",
    "C57_long_protocol_refuted",
    "C57_no_engine_callback_refuted",
    "C57_unset_consumer_refuted"
   ],
   "note": "in PropsSafe.v"
  },
  {
   "property": "C58",
   "status": "proved",
   "theorems": [
    "C58_endless_recursion",
    "C58_told_once_more",
    "C58_end_of_stream_comes_last",
    "C58_finishing_at_the_end_is_safe"
   ],
   "note": "in PropsReentry.v"
  },
  {
   "property": "C59",
   "status": "proved",
   "theorems": [
    "C59_nothing_survives_an_abort"
   ],
   "note": "in PropsReentry.v"
  },
  {
   "property": "C60",
   "status": "proved",
   "theorems": [
    "C60_complete_means_answered_refuted"
   ],
   "note": "in PropsReentry.v"
  },
  {
   "property": "C61",
   "status": "proved",
   "theorems": [
    "C61_passive_callbacks",
    "C61_passive_exact",
    "C61_passive_undefined",
    "C61_depth_irrelevant",
    "C61_sending_is_harmless"
   ],
   "note": "in PropsReentry.v"
  },
  {
   "property": "C62",
   "status": "proved",
   "theorems": [
    "C62_wire_form",
    "C62_reception",
    "C62_data",
    "C62_request_with_length",
    "C62_request",
    "C62_request_prefix_refuted",
    "C62_request_unterminated",
    "C62_request_with_length_unterminated"
   ],
   "note": "in PropsFrames.v"
  },
  {
   "property": "C63",
   "status": "proved",
   "theorems": [
    "C63_turnout_helpers",
    "C63_loco_helpers",
    "C63_mm2_loco",
    "C63_helper_and_builder",
    "C63_large_address_refuted",
    "C63_decoder_base",
    "C63_decoder_group"
   ],
   "note": "in PropsFrames.v"
  },
  {
   "property": "C64",
   "status": "proved",
   "theorems": [
    "C64_no_undefined_behaviour",
    "C64_own_consumers",
    "C64_excessive_line_comes_first",
    "C64_long_protocol_refuted"
   ],
   "note": "in PropsRsafe.v"
  },
  {
   "property": "C65",
   "status": "proved",
   "theorems": [
    "C65_only_the_console_differs",
    "C65_same_calls",
    "C65_silent_settings"
   ],
   "note": "in PropsLogged.v"
  },
  {
   "property": "C66",
   "status": "proved",
   "theorems": [
    "C66_undefined_iff",
    "C66_no_undefined_behaviour",
    "C66_logging_is_harmless_refuted"
   ],
   "note": "in PropsLogged.v"
  },
  {
   "property": "C67",
   "status": "proved",
   "theorems": [
    "C67_frames_arrive_once_in_order"
   ],
   "note": "in PropsNet.v"
  },
  {
   "property": "C68",
   "status": "proved",
   "theorems": [
    "C68_commands_arrive",
    "C68_every_schedule_completes"
   ],
   "note": "in PropsNet.v"
  },
  {
   "property": "C69",
   "status": "proved",
   "theorems": [
    "C69_other_traffic_is_separate",
    "C69_engine_download_among_traffic"
   ],
   "note": "in PropsNet.v"
  },
  {
   "property": "C70",
   "status": "proved",
   "theorems": [
    "C70_answers_are_not_addressed",
    "C70_own_answer_refuted"
   ],
   "note": "in PropsNet.v"
  },
  {
   "property": "C71",
   "status": "proved",
   "theorems": [
    "C71_every_stream_ends_at_most_once",
    "C71_no_stream_no_consumer_call"
   ],
   "note": "in PropsEnds.v"
  },
  {
   "property": "C72",
   "status": "proved",
   "theorems": [
    "C72_lost_frames_never_complete",
    "C72_next_stream_is_lost_too",
    "C72_lost_header_aborts"
   ],
   "note": "in PropsChannel.v"
  },
  {
   "property": "C73",
   "status": "proved",
   "theorems": [
    "C73_doubled_frame",
    "C73_doubled_frame_noticed_refuted"
   ],
   "note": "in PropsChannel.v"
  },
  {
   "property": "C74",
   "status": "proved",
   "theorems": [
    "C74_swapped_frames",
    "C74_similar_frames_noticed",
    "C74_cofactor",
    "C74_swapped_frames_noticed_refuted"
   ],
   "note": "in PropsChannel.v"
  },
  {
   "property": "C75",
   "status": "proved",
   "theorems": [
    "C75_decimal",
    "C75_decimal_distinct",
    "C75_hexadecimal",
    "C75_read_back",
    "C75_addresses_refuted"
   ],
   "note": "in PropsConsole.v"
  },
  {
   "property": "C76",
   "status": "proved",
   "theorems": [
    "C76_frame_text",
    "C76_ignored_config_data",
    "C76_handlers",
    "C76_identifier"
   ],
   "note": "in PropsConsole.v"
  },
  {
   "property": "C77",
   "status": "proved",
   "theorems": [
    "C77_engine_text",
    "C77_list_text"
   ],
   "note": "in PropsConsole.v"
  },
  {
   "property": "C78",
   "status": "proved",
   "theorems": [
    "C78_complaints",
    "C78_user_consumer",
    "C78_quiet_iff_accepted"
   ],
   "note": "in PropsConsole.v"
  },
  {
   "property": "C79",
   "status": "proved",
   "theorems": [
    "C79_silent_calls",
    "C79_silent_histories"
   ],
   "note": "in PropsConsole.v"
  },
  {
   "property": "C80",
   "status": "proved",
   "theorems": [
    "C80_codes",
    "C80_commands_read_back",
    "C80_subcommands_read_back"
   ],
   "note": "in PropsValues.v"
  },
  {
   "property": "C81",
   "status": "proved",
   "theorems": [
    "C81_ranges",
    "C81_ranges_disjoint",
    "C81_turnouts_in_range",
    "C81_locos_in_range",
    "C81_mm2_loco_in_range",
    "C81_turnouts_told_apart",
    "C81_locos_told_apart",
    "C81_turnouts_are_not_locos"
   ],
   "note": "in PropsValues.v"
  },
  {
   "property": "C82",
   "status": "proved",
   "theorems": [
    "C82_engine_histories",
    "C82_named_engine_histories"
   ],
   "note": "in PropsValues.v"
  },
  {
   "property": "C83",
   "status": "proved",
   "theorems": [
    "C83_every_text_is_read",
    "C83_reading_unique",
    "C83_uid_line",
    "C83_address_line",
    "C83_counts",
    "C83_platforms_agree_iff",
    "C83_platform_independent_refuted"
   ],
   "note": "in PropsNumber.v"
  },
  {
   "property": "C84",
   "status": "proved",
   "theorems": [
    "C84_turnout_log",
    "C84_turnout_number",
    "C84_shows_the_address_refuted",
    "C84_request_log"
   ],
   "note": "in PropsLogText.v"
  },
  {
   "property": "C85",
   "status": "proved",
   "theorems": [
    "C85_frame_log",
    "C85_config_data_frame",
    "C85_config_data_handler"
   ],
   "note": "in PropsLogText.v"
  },
  {
   "property": "C86",
   "status": "proved",
   "theorems": [
    "C86_download_log",
    "C86_empty_stream_log",
    "C86_rejected_frame_log"
   ],
   "note": "in PropsLogText.v"
  },
  {
   "property": "C87",
   "status": "proved",
   "theorems": [
    "C87_pointers_after_a_call",
    "C87_pointers_come_from_calls",
    "C87_completion_releases_nothing"
   ],
   "note": "in PropsLife.v"
  },
  {
   "property": "C88",
   "status": "proved",
   "theorems": [
    "C88_unreferenced_objects_are_not_touched"
   ],
   "note": "in PropsLife.v"
  },
  {
   "property": "C89",
   "status": "proved",
   "theorems": [
    "C89_destroy_after_finishing",
    "C89_destroy_after_completion_refuted",
    "C89_destroy_before_finishing_refuted"
   ],
   "note": "in PropsLife.v"
  },
  {
   "property": "C90",
   "status": "proved",
   "theorems": [
    "C90_interleaved_as_if_alone",
    "C90_defined_together"
   ],
   "note": "in PropsLife.v"
  },
  {
   "property": "C91",
   "status": "proved",
   "theorems": [
    "C91_engine_download_after_any_history",
    "C91_list_download_after_any_history",
    "C91_finishing_is_enough",
    "C91_without_finishing_refuted",
    "C91_without_reset_refuted"
   ],
   "note": "in PropsRecover.v"
  },
  {
   "property": "C92",
   "status": "proved",
   "theorems": [
    "C92_database_is_its_history",
    "C92_deeds",
    "C92_notification_is_local"
   ],
   "note": "in PropsQuery.v"
  },
  {
   "property": "C93",
   "status": "proved",
   "theorems": [
    "C93_list_answers",
    "C93_latest_means",
    "C93_unset_until_told",
    "C93_complete_means_not_running_refuted"
   ],
   "note": "in PropsQuery.v"
  },
  {
   "property": "C94",
   "status": "proved",
   "theorems": [
    "C94_engine_answer",
    "C94_valid_iff",
    "C94_full_after_call",
    "C94_full_after_setter",
    "C94_becomes_valid",
    "C94_stays_valid",
    "C94_valid_means_consistent_refuted"
   ],
   "note": "in PropsQuery.v"
  },
  {
   "property": "C95",
   "status": "proved",
   "theorems": [
    "C95_bounded_work",
    "C95_bounded_history",
    "C95_no_call_exceeds",
    "C95_attained",
    "C95_requests_attained"
   ],
   "note": "in PropsWork.v"
  },
  {
   "property": "C96",
   "status": "proved",
   "theorems": [
    "C96_names_fetched",
    "C96_complete_up_to_255",
    "C96_masters_exist",
    "C96_all_names_refuted"
   ],
   "note": "in PropsCatalog.v"
  },
  {
   "property": "C97",
   "status": "proved",
   "theorems": [
    "C97_engine_fetched",
    "C97_own_entry",
    "C97_any_name_refuted"
   ],
   "note": "in PropsCatalog.v"
  },
  {
   "property": "C98",
   "status": "proved",
   "theorems": [
    "C98_catalogue_copied",
    "C98_same_names_refuted"
   ],
   "note": "in PropsCatalog.v"
  },
  {
   "property": "C99",
   "status": "proved",
   "theorems": [
    "C99_direct_is_queued",
    "C99_commands_heard_at_once"
   ],
   "note": "in PropsBus.v"
  },
  {
   "property": "C100",
   "status": "proved",
   "theorems": [
    "C100_repeaters_never_return",
    "C100_question_before_answer_refuted"
   ],
   "note": "in PropsBus.v"
  },
  {
   "property": "C101",
   "status": "proved",
   "theorems": [
    "C101_told_as_predicted",
    "C101_state_shown",
    "C101_checksum",
    "C101_new_parser"
   ],
   "note": "in PropsProtocol.v"
  },
  {
   "property": "C102",
   "status": "proved",
   "theorems": [
    "C102_predicted",
    "C102_reset",
    "C102_leaving_them_alone"
   ],
   "note": "in PropsMeddle.v"
  },
  {
   "property": "C103",
   "status": "proved",
   "theorems": [
    "C103_harmless",
    "C103_section_refuted",
    "C103_value_refuted"
   ],
   "note": "in PropsMeddle.v"
  },
  {
   "property": "C104",
   "status": "proved",
   "theorems": [
    "C104_documents"
   ],
   "note": "in PropsMeddle.v"
  },
  {
   "property": "C105",
   "status": "proved",
   "theorems": [
    "C105_page_attempt",
    "C105_nothing_lost"
   ],
   "note": "in PropsRetry.v"
  },
  {
   "property": "C106",
   "status": "proved",
   "theorems": [
    "C106_engine_attempt"
   ],
   "note": "in PropsRetry.v"
  },
  {
   "property": "C107",
   "status": "proved",
   "theorems": [
    "C107_copied_or_given_up",
    "C107_enough_attempts",
    "C107_any_master_refuted"
   ],
   "note": "in PropsRetry.v"
  },
  {
   "property": "C108",
   "status": "proved",
   "theorems": [
    "C108_separate_buffers",
    "C108_overlapping_refuted"
   ],
   "note": "in PropsShared.v"
  },
  {
   "property": "C109",
   "status": "proved",
   "theorems": [
    "C109_parts",
    "C109_own_part",
    "C109_content_part",
    "C109_views_follow"
   ],
   "note": "in PropsShared.v"
  },
  {
   "property": "C110",
   "status": "proved",
   "theorems": [
    "C110_erase",
    "C110_at",
    "C110_pop",
    "C110_push",
    "C110_clean_refuted"
   ],
   "note": "in PropsShared.v"
  },
  {
   "property": "C111",
   "status": "proved",
   "theorems": [
    "C111_elsewhere",
    "C111_inside",
    "C111_into"
   ],
   "note": "in PropsShared.v"
  },
  {
   "property": "C112",
   "status": "proved",
   "theorems": [
    "C112_same_as_copies",
    "C112_reset_same",
    "C112_own_buffer_refuted"
   ],
   "note": "in PropsShared.v"
  },
  {
   "property": "C113",
   "status": "proved",
   "theorems": [
    "C113_undefined_iff",
    "C113_stays_initialised",
    "C113_message_undefined_iff",
    "C113_numbers",
    "C113_includes_C57"
   ],
   "note": "in PropsExact.v"
  },
  {
   "property": "C114",
   "status": "proved",
   "theorems": [
    "C114_history_undefined_iff",
    "C114_history_stays_initialised"
   ],
   "note": "in PropsExact.v"
  },
  {
   "property": "C115",
   "status": "proved",
   "theorems": [
    "C115_engine_download_again",
    "C115_list_download_again"
   ],
   "note": "in PropsAgain.v"
  },
  {
   "property": "C116",
   "status": "proved",
   "theorems": [
    "C116_string_elsewhere",
    "C116_own_name_setName",
    "C116_own_name_setNameConditional",
    "C116_own_name_setProtocolString",
    "C116_own_protocol_setName",
    "C116_own_protocol_setNameConditional",
    "C116_behind_the_protocol",
    "C116_own_protocol_setProtocolString",
    "C116_engines_stay_engines",
    "C116_renaming_is_harmless_refuted"
   ],
   "note": "in PropsOwn.v"
  },
  {
   "property": "C117",
   "status": "proved",
   "theorems": [
    "C117_the_callers_frame",
    "C117_sending_again"
   ],
   "note": "in PropsOwn.v"
  },
  {
   "property": "C118",
   "status": "proved",
   "theorems": [
    "C118_finish_from_a_line",
    "C118_reset_from_a_line",
    "C118_list_request_from_a_line",
    "C118_never_answered",
    "C118_user_request_from_a_line"
   ],
   "note": "in PropsInside.v"
  },
  {
   "property": "C119",
   "status": "proved",
   "theorems": [
    "C119_identifiers",
    "C119_payloads",
    "C119_frames",
    "C119_addresses",
    "C119_functions",
    "C119_checksum",
    "C119_buffers",
    "C119_remaining",
    "C119_int_width"
   ],
   "note": "in PropsArith.v"
  },
  {
   "property": "C120",
   "status": "proved",
   "theorems": [
    "C120_histories",
    "C120_callbacks",
    "C120_told_apart"
   ],
   "note": "in PropsUuid.v"
  },
  {
   "property": "C121",
   "status": "proved",
   "theorems": [
    "C121_objects_stay",
    "C121_engine_download_after_callbacks",
    "C121_list_download_after_callbacks"
   ],
   "note": "in PropsResume.v"
  },
  {
   "property": "C122",
   "status": "proved",
   "theorems": [
    "C122_undefined_iff",
    "C122_stays_initialised",
    "C122_parser_takes_any_length",
    "C122_nine_is_enough",
    "C122_includes_C113",
    "C122_history_undefined_iff",
    "C122_history_stays_initialised",
    "C122_any_length_refuted"
   ],
   "note": "in PropsLength.v"
  },
  {
   "property": "C123",
   "status": "proved",
   "theorems": [
    "C123_unreferenced_objects_are_not_touched",
    "C123_two_installations",
    "C123_unaware_lists",
    "C123_only_the_program_unaware_refuted"
   ],
   "note": "in PropsApart.v"
  },
  {
   "property": "C124",
   "status": "proved",
   "theorems": [
    "C124_only_given_objects",
    "C124_pointers_come_from_calls"
   ],
   "note": "in PropsApart.v"
  },
  {
   "property": "C125",
   "status": "proved",
   "theorems": [
    "C125_last_things",
    "C125_only_out_of_bounds",
    "C125_own_consumers",
    "C125_includes_C64"
   ],
   "note": "in PropsFatal.v"
  },
  {
   "property": "C126",
   "status": "proved",
   "theorems": [
    "C126_only_the_console_differs",
    "C126_same_calls",
    "C126_silent_settings",
    "C126_passive_callbacks",
    "C126_passive_exact",
    "C126_passive_undefined",
    "C126_looking_at_the_console_refuted"
   ],
   "note": "in PropsTalk.v"
  },
  {
   "property": "C127",
   "status": "proved",
   "theorems": [
    "C127_last_things",
    "C127_only_out_of_bounds",
    "C127_own_consumers",
    "C127_only_overfull_lines_matter",
    "C127_without_lines"
   ],
   "note": "in PropsTalk.v"
  },
  {
   "property": "C128",
   "status": "proved",
   "theorems": [
    "C128_same_as_afterwards",
    "C128_one_call",
    "C128_accessory_refuted"
   ],
   "note": "in PropsLate.v"
  },
  {
   "property": "C129",
   "status": "proved",
   "theorems": [
    "C129_jobs_done",
    "C129_catalogue_copied",
    "C129_one_level_refuted",
    "C129_same_object_refuted"
   ],
   "note": "in PropsChain.v"
  },
  {
   "property": "C130",
   "status": "proved",
   "theorems": [
    "C130_last_things",
    "C130_own_consumers",
    "C130_leaving_them_alone",
    "C130_includes_C125"
   ],
   "note": "in PropsTouch.v"
  },
  {
   "property": "C131",
   "status": "proved",
   "theorems": [
    "C131_engine_download_again",
    "C131_list_download_again"
   ],
   "note": "in PropsTouch.v"
  },
  {
   "property": "C132",
   "status": "proved",
   "theorems": [
    "C132_downloads",
    "C132_documents",
    "C132_harmless",
    "C132_next_download_refuted"
   ],
   "note": "in PropsTouch.v"
  },
  {
   "property": "C133",
   "status": "proved",
   "theorems": [
    "C133_last_things",
    "C133_own_consumers",
    "C133_only_the_console_differs",
    "C133_only_overfull_lines_matter",
    "C133_silent_settings",
    "C133_leaving_them_alone"
   ],
   "note": "in PropsTouchLog.v"
  },
  {
   "property": "C134",
   "status": "proved",
   "theorems": [
    "C134_all_named",
    "C134_one_level_refuted",
    "C134_more_than_255_refuted"
   ],
   "note": "in PropsPages.v"
  },
  {
   "property": "C135",
   "status": "proved",
   "theorems": [
    "C135_moves_hand_over",
    "C135_move_copies",
    "C135_swap",
    "C135_use_after_move_refuted"
   ],
   "note": "in PropsMoved.v"
  },
  {
   "property": "C136",
   "status": "proved",
   "theorems": [
    "C136_catalogue_copied",
    "C136_same_names_refuted"
   ],
   "note": "in PropsCopy.v"
  },
  {
   "property": "C137",
   "status": "proved",
   "theorems": [
    "C137_moved_parsers_continue",
    "C137_use_after_end",
    "C137_swap_refuted",
    "C137_move_back_refuted"
   ],
   "note": "in PropsMovedParser.v"
  }
 ]
}