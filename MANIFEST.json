{
 "claims": [
  {
   "property": "C01",
   "status": "proved",
   "theorems": [
    "C01_int_roundtrip",
    "C01_int_out_of_range",
    "C01_int_decode"
   ],
   "note": ""
  },
  {
   "property": "C02",
   "status": "proved",
   "theorems": [
    "C02_f64_roundtrip",
    "C02_f32_rounds",
    "C02_f32_special",
    "C02_f32_pattern",
    "C02_vector_write",
    "C02_vector_read"
   ],
   "note": ""
  },
  {
   "property": "C03",
   "status": "proved",
   "theorems": [
    "C03_uuid_roundtrip",
    "C03_uuid_decode",
    "C03_uuid_short",
    "C03_uuid_long"
   ],
   "note": ""
  },
  {
   "property": "C04",
   "status": "proved",
   "theorems": [
    "C04_quat_write_nonneg",
    "C04_quat_write_neg",
    "C04_quat_write_sym",
    "C04_quat_read",
    "C04_quat_read16",
    "C04_quat_read_short",
    "C04_quat_read_between"
   ],
   "note": ""
  },
  {
   "property": "C05",
   "status": "proved",
   "theorems": [
    "C05_variable_write",
    "C05_variable_read",
    "C05_variable_roundtrip"
   ],
   "note": ""
  },
  {
   "property": "C06",
   "status": "proved",
   "theorems": [
    "C06_layout",
    "C06_layout_unique",
    "C06_depends_on",
    "C06_only",
    "C06_acks_not_sent",
    "C06_no_template"
   ],
   "note": ""
  },
  {
   "property": "C07",
   "status": "proved",
   "theorems": [
    "C07_round_trip",
    "C07_all_empty",
    "C07_shipped"
   ],
   "note": ""
  },
  {
   "property": "C08",
   "status": "proved",
   "theorems": [
    "C08_raw_roundtrip"
   ],
   "note": ""
  },
  {
   "property": "C09",
   "status": "proved",
   "theorems": [
    "C09_decoded_is_said",
    "C09_blocks"
   ],
   "note": ""
  },
  {
   "property": "C10",
   "status": "proved",
   "theorems": [
    "C10_escapes",
    "C10_failures",
    "C10_kinds",
    "C10_always",
    "C10_seven_bytes"
   ],
   "note": ""
  },
  {
   "property": "C11",
   "status": "proved",
   "theorems": [
    "C11_sent_number",
    "C11_number_encoding",
    "C11_decode_number",
    "C11_decode_template",
    "C11_prefix_free",
    "C11_not_codable"
   ],
   "note": ""
  },
  {
   "property": "C12",
   "status": "proved",
   "theorems": [
    "C12_expand_coded",
    "C12_coding_exists",
    "C12_expand_app",
    "C12_no_zeros",
    "C12_expand_any"
   ],
   "note": ""
  },
  {
   "property": "C13",
   "status": "proved",
   "theorems": [
    "C13_zero_coded"
   ],
   "note": ""
  },
  {
   "property": "C14",
   "status": "proved",
   "theorems": [
    "C14_acks_added",
    "C14_acks_reported",
    "C14_same_template",
    "C14_trailers_exist"
   ],
   "note": ""
  },
  {
   "property": "C15",
   "status": "proved",
   "theorems": [
    "C15_expand_bounds",
    "C15_bound_attained"
   ],
   "note": ""
  },
  {
   "property": "C16",
   "status": "proved",
   "theorems": [
    "C16_not_sent",
    "C16_not_received",
    "C16_no_influence_sending",
    "C16_no_influence_receiving",
    "C16_no_flavor_sending",
    "C16_no_flavor_receiving"
   ],
   "note": ""
  },
  {
   "property": "C17",
   "status": "proved",
   "theorems": [
    "C17_registered",
    "C17_unregistered_skipped",
    "C17_registered_unaffected"
   ],
   "note": ""
  },
  {
   "property": "C18",
   "status": "proved",
   "theorems": [
    "C18_count_byte",
    "C18_py27",
    "C18_py26_silent",
    "C18_at_most_255"
   ],
   "note": ""
  },
  {
   "property": "C19",
   "status": "proved",
   "theorems": [
    "C19_counts",
    "C19_mismatch",
    "C19_missing_block",
    "C19_missing_variable",
    "C19_single_unchecked",
    "C19_single_decoded"
   ],
   "note": ""
  },
  {
   "property": "C20",
   "status": "proved",
   "theorems": [
    "C20_extra_skipped",
    "C20_identified_by_extra",
    "C20_one_template"
   ],
   "note": ""
  },
  {
   "property": "C21",
   "status": "proved",
   "theorems": [
    "C21_ids_in_order",
    "C21_ids_on_the_wire",
    "C21_one_attempt"
   ],
   "note": ""
  },
  {
   "property": "C22",
   "status": "proved",
   "theorems": [
    "C22_outstanding"
   ],
   "note": ""
  },
  {
   "property": "C23",
   "status": "proved",
   "theorems": [
    "C23_count",
    "C23_unknown_acks",
    "C23_twice",
    "C23_known_ack"
   ],
   "note": ""
  },
  {
   "property": "C24",
   "status": "proved",
   "theorems": [
    "C24_nothing_to_resend",
    "C24_only_acks",
    "C24_still_outstanding",
    "C24_retry_fails"
   ],
   "note": ""
  },
  {
   "property": "C25",
   "status": "proved",
   "theorems": [
    "C25_queued",
    "C25_number",
    "C25_exception",
    "C25_empty",
    "C25_only_receive"
   ],
   "note": ""
  },
  {
   "property": "C26",
   "status": "proved",
   "theorems": [
    "C26_flushed",
    "C26_succeeds",
    "C26_datagrams",
    "C26_any_order",
    "C26_decodes",
    "C26_ids_fit"
   ],
   "note": ""
  },
  {
   "property": "C27",
   "status": "proved",
   "theorems": [
    "C27_has_unacked",
    "C27_after_processing"
   ],
   "note": ""
  },
  {
   "property": "C28",
   "status": "proved",
   "theorems": [
    "C28_acks_not_written",
    "C28_independent",
    "C28_receiver",
    "C28_receiver_fails"
   ],
   "note": ""
  },
  {
   "property": "C29",
   "status": "proved",
   "theorems": [
    "C29_right_host",
    "C29_wrong_host",
    "C29_shared_host"
   ],
   "note": ""
  },
  {
   "property": "C30",
   "status": "proved",
   "theorems": [
    "C30_contained",
    "C30_printable",
    "C30_bad_host",
    "C30_bad_host_means",
    "C30_subscriber_raises"
   ],
   "note": ""
  },
  {
   "property": "C31",
   "status": "proved",
   "theorems": [
    "C31_no_dedup",
    "C31_outcome"
   ],
   "note": ""
  },
  {
   "property": "C32",
   "status": "proved",
   "theorems": [
    "C32_isolated",
    "C32_created_once",
    "C32_created_by_receive",
    "C32_created_by_send",
    "C32_removed",
    "C32_alive",
    "C32_last_in"
   ],
   "note": ""
  },
  {
   "property": "C33",
   "status": "proved",
   "theorems": [
    "C33_notify_deterministic",
    "C33_notify_in_order",
    "C33_in_subscription_order",
    "C33_over_histories"
   ],
   "note": ""
  },
  {
   "property": "C34",
   "status": "proved",
   "theorems": [
    "C34_raise_stops_delivery",
    "C34_handle_hides_keyerror"
   ],
   "note": ""
  },
  {
   "property": "C35",
   "status": "proved",
   "theorems": [
    "C35_unsubscribe_removes_the_earliest",
    "C35_unsubscribe_unknown_raises",
    "C35_subscribe_unsubscribe",
    "C35_subscribe_unsubscribe_again",
    "C35_clear_raises"
   ],
   "note": ""
  },
  {
   "property": "C36",
   "status": "proved",
   "theorems": [
    "C36_self_removal_skips_the_next",
    "C36_new_subscribers_are_called",
    "C36_unsubscribing_itself_is_self_removing"
   ],
   "note": ""
  },
  {
   "property": "C37",
   "status": "proved",
   "theorems": [
    "C37_register_keeps_subscribers",
    "C37_handled_iff_registered",
    "C37_handle_calls_the_registered",
    "C37_raises_iff",
    "C37_names_are_independent",
    "C37_handle_is_notify"
   ],
   "note": ""
  },
  {
   "property": "C38",
   "status": "proved",
   "theorems": [
    "C38_ack_unique",
    "C38_posts",
    "C38_minus_one"
   ],
   "note": ""
  },
  {
   "property": "C39",
   "status": "proved",
   "theorems": [
    "C39_delivery",
    "C39_exactly_once_iff",
    "C39_successful_polls"
   ],
   "note": ""
  },
  {
   "property": "C40",
   "status": "proved",
   "theorems": [
    "C40_no_poll_after_stop",
    "C40_end",
    "C40_other_capability",
    "C40_start_when_stopped"
   ],
   "note": ""
  },
  {
   "property": "C41",
   "status": "proved",
   "theorems": [
    "C41_decode",
    "C41_delivered",
    "C41_delivered_until_raise",
    "C41_malformed_loses_all"
   ],
   "note": ""
  },
  {
   "property": "C42",
   "status": "proved",
   "theorems": [
    "C42_GET_ok",
    "C42_GET_errors",
    "C42_GET_ignores_headers",
    "C42_POST_ok",
    "C42_POST_errors",
    "C42_POST_lists_and_dicts_only"
   ],
   "note": ""
  },
  {
   "property": "C43",
   "status": "proved",
   "theorems": [
    "C43_seed_exact",
    "C43_seed_all_or_KeyError"
   ],
   "note": ""
  },
  {
   "property": "C44",
   "status": "proved",
   "theorems": [
    "C44_deserialize_string",
    "C44_deserialize"
   ],
   "note": ""
  },
  {
   "property": "C45",
   "status": "proved",
   "theorems": [
    "C45_exactly_once",
    "C45_order",
    "C45_burst",
    "C45_drain",
    "C45_send",
    "C45_reliability"
   ],
   "note": ""
  },
  {
   "property": "C46",
   "status": "proved",
   "theorems": [
    "C46_iterations",
    "C46_acks",
    "C46_acks_survive",
    "C46_drained",
    "C46_checks_when_empty",
    "C46_stop",
    "C46_check",
    "C46_only_when_stopped",
    "C46_exception",
    "C46_after_the_end",
    "C46_bad_datagram",
    "C46_subscriber_raises",
    "C46_stop_result",
    "C46_dispatcher"
   ],
   "note": ""
  },
  {
   "property": "C47",
   "status": "proved",
   "theorems": [
    "C47_message_item",
    "C47_block_item",
    "C47_block_kwargs",
    "C47_add_block",
    "C47_fresh",
    "C47_acks"
   ],
   "note": ""
  },
  {
   "property": "C48",
   "status": "proved",
   "theorems": [
    "C48_build",
    "C48_build_without_message",
    "C48_next_block_result",
    "C48_add_data_result",
    "C48_is_built"
   ],
   "note": ""
  },
  {
   "property": "C49",
   "status": "proved",
   "theorems": [
    "C49_to_dict",
    "C49_faithful_iff_no_repeat",
    "C49_to_llsd_raises",
    "C49_get_var_raises"
   ],
   "note": ""
  },
  {
   "property": "C50",
   "status": "proved",
   "theorems": [
    "C50_parse",
    "C50_accepts",
    "C50_rejects",
    "C50_parsed_range",
    "C50_text_form",
    "C50_parse_str",
    "C50_copy",
    "C50_equality",
    "C50_xor_bits",
    "C50_xor_algebra",
    "C50_bytes",
    "C50_bytes_short",
    "C50_random"
   ],
   "note": ""
  },
  {
   "property": "C51",
   "status": "proved",
   "theorems": [
    "C51_int_to_bytes",
    "C51_inverted_by_unpacking"
   ],
   "note": ""
  },
  {
   "property": "C52",
   "status": "proved",
   "theorems": [
    "C52_bytes_to_hex",
    "C52_length",
    "C52_injective",
    "C52_hex_to_ascii",
    "C52_inverse_without_spaces",
    "C52_not_inverse_with_spaces",
    "C52_odd_length_raises"
   ],
   "note": ""
  },
  {
   "property": "C53",
   "status": "proved",
   "theorems": [
    "C53_parsed",
    "C53_unambiguous",
    "C53_proper",
    "C53_found_again",
    "C53_no_confusion",
    "C53_python27"
   ],
   "note": ""
  },
  {
   "property": "C54",
   "status": "proved",
   "theorems": [
    "C54_round_trip",
    "C54_every_list",
    "C54_unambiguous",
    "C54_refused",
    "C54_noise"
   ],
   "note": ""
  },
  {
   "property": "C55",
   "status": "proved",
   "theorems": [
    "C55_by_name",
    "C55_by_pair",
    "C55_distinct",
    "C55_build_ok",
    "C55_sound"
   ],
   "note": ""
  },
  {
   "property": "C56",
   "status": "proved",
   "theorems": [
    "C56_custom",
    "C56_custom_built",
    "C56_silent",
    "C56_send",
    "C56_default",
    "C56_default_py26",
    "C56_default_py27",
    "C56_not_built",
    "C56_other"
   ],
   "note": ""
  },
  {
   "property": "C57",
   "status": "proved",
   "theorems": [
    "C57_dispatcher",
    "C57_manager",
    "C57_same_behaviour"
   ],
   "note": ""
  },
  {
   "property": "C58",
   "status": "proved",
   "theorems": [
    "C58_quiet_overrides",
    "C58_without_quiet",
    "C58_the_rest_is_fixed"
   ],
   "note": ""
  },
  {
   "property": "C59",
   "status": "proved",
   "theorems": [
    "C59_trusted_drops",
    "C59_never_trusted"
   ],
   "note": ""
  },
  {
   "property": "C60",
   "status": "proved",
   "theorems": [
    "C60_no_acks_on_wire",
    "C60_all_outstanding",
    "C60_never_acknowledged"
   ],
   "note": ""
  },
  {
   "property": "C61",
   "status": "proved",
   "theorems": [
    "C61_one_ack",
    "C61_no_other_acks"
   ],
   "note": ""
  },
  {
   "property": "C62",
   "status": "proved",
   "theorems": [
    "C62_delivered"
   ],
   "note": ""
  },
  {
   "property": "C63",
   "status": "proved",
   "theorems": [
    "C63_ack_of_ack",
    "C63_volley"
   ],
   "note": ""
  },
  {
   "property": "C64",
   "status": "proved",
   "theorems": [
    "C64_coordinates",
    "C64_quaternion_coordinates",
    "C64_other_coordinates",
    "C64_copy",
    "C64_vector_bytes",
    "C64_quaternion_bytes",
    "C64_vector_read",
    "C64_quaternion_read",
    "C64_short",
    "C64_bytes_roundtrip",
    "C64_distance_symmetric",
    "C64_distance_nonneg",
    "C64_distance_self",
    "C64_distance_value",
    "C64_distance_monotone",
    "C64_distance_zero_not_equal"
   ],
   "note": ""
  },
  {
   "property": "C65",
   "status": "proved",
   "theorems": [
    "C65_fields",
    "C65_trimmed",
    "C65_three",
    "C65_other",
    "C65_only_value_error",
    "C65_printed"
   ],
   "note": ""
  },
  {
   "property": "C66",
   "status": "proved",
   "theorems": [
    "C66_base64",
    "C66_base64_injective",
    "C66_uuencoded",
    "C66_uuencoded_injective",
    "C66_uuencoded_too_long"
   ],
   "note": ""
  },
  {
   "property": "C67",
   "status": "proved",
   "theorems": [
    "C67_value",
    "C67_short",
    "C67_monotone",
    "C67_ends",
    "C67_within"
   ],
   "note": ""
  },
  {
   "property": "C68",
   "status": "proved",
   "theorems": [
    "C68_ends",
    "C68_still_waiting",
    "C68_never_early",
    "C68_nonpositive",
    "C68_int",
    "C68_fraction_dropped",
    "C68_under_one_second",
    "C68_bad_duration",
    "C68_other_durations"
   ],
   "note": ""
  },
  {
   "property": "C69",
   "status": "proved",
   "theorems": [
    "C69_report",
    "C69_running_while_polling",
    "C69_after_end",
    "C69_region",
    "C69_agent_domain"
   ],
   "note": ""
  },
  {
   "property": "C70",
   "status": "proved",
   "theorems": [
    "C70_GET_ok",
    "C70_GET_errors",
    "C70_POST_ok",
    "C70_POST_errors",
    "C70_one_request"
   ],
   "note": ""
  },
  {
   "property": "C71",
   "status": "proved",
   "theorems": [
    "C71_words",
    "C71_words_read_back",
    "C71_frequency",
    "C71_block_type",
    "C71_variable_type",
    "C71_hex_number",
    "C71_hex_number_missing",
    "C71_hex_number_identifies",
    "C71_get_block",
    "C71_get_variable",
    "C71_all_types",
    "C71_template_list",
    "C71_shipped"
   ],
   "note": ""
  },
  {
   "property": "C72",
   "status": "proved",
   "theorems": [
    "C72_unusable",
    "C72_builds_nothing"
   ],
   "note": ""
  },
  {
   "property": "C73",
   "status": "proved",
   "theorems": [
    "C73_text",
    "C73_fails",
    "C73_byte_strings",
    "C73_repr",
    "C73_logged",
    "C73_instances_merge",
    "C73_only_name_and_blocks"
   ],
   "note": ""
  },
  {
   "property": "C74",
   "status": "proved",
   "theorems": [
    "C74_counters",
    "C74_manager",
    "C74_returned",
    "C74_handed"
   ],
   "note": ""
  },
  {
   "property": "C75",
   "status": "proved",
   "theorems": [
    "C75_catches",
    "C75_error_catches_all",
    "C75_families",
    "C75_attributes",
    "C75_no_parameters",
    "C75_text",
    "C75_tuple",
    "C75_url",
    "C75_python_text",
    "C75_header_not_caught"
   ],
   "note": ""
  },
  {
   "property": "C76",
   "status": "proved",
   "theorems": [
    "C76_whole_numbers",
    "C76_every_finite_float_is_whole",
    "C76_int_field_refuses",
    "C76_ints_in_float_fields",
    "C76_float_field_refuses",
    "C76_vector_tuple",
    "C76_vector_width",
    "C76_vector_error",
    "C76_vector_other_values",
    "C76_quat_tuple",
    "C76_quat_other_values",
    "C76_uuid_field",
    "C76_text_field",
    "C76_unknown_type"
   ],
   "note": ""
  },
  {
   "property": "C77",
   "status": "proved",
   "theorems": [
    "C77_dropped",
    "C77_rejected",
    "C77_four_ways",
    "C77_truncated",
    "C77_sent_truncated"
   ],
   "note": ""
  },
  {
   "property": "C78",
   "status": "proved",
   "theorems": [
    "C78_outcome_unique",
    "C78_not_both",
    "C78_bystanders",
    "C78_nobody_joins",
    "C78_nobody_leaves",
    "C78_nobody_leaves_raising",
    "C78_endless",
    "C78_exceptions",
    "C78_agrees"
   ],
   "note": ""
  },
  {
   "property": "C79",
   "status": "proved",
   "theorems": [
    "C79_ids",
    "C79_wire",
    "C79_outstanding",
    "C79_one_after_the_other"
   ],
   "note": ""
  },
  {
   "property": "C80",
   "status": "proved",
   "theorems": [
    "C80_accounted",
    "C80_nothing_lost",
    "C80_only_queued",
    "C80_packets",
    "C80_each_flush"
   ],
   "note": ""
  },
  {
   "property": "C81",
   "status": "proved",
   "theorems": [
    "C81_exactly_once",
    "C81_order",
    "C81_one_per_start",
    "C81_iterations",
    "C81_check",
    "C81_ends",
    "C81_ended",
    "C81_stop_receives",
    "C81_stop_ends",
    "C81_dispatcher"
   ],
   "note": ""
  },
  {
   "property": "C82",
   "status": "proved",
   "theorems": [
    "C82_alone",
    "C82_stop",
    "C82_polls_on",
    "C82_stopped_for_good",
    "C82_after_stop",
    "C82_stop_ends",
    "C82_ends"
   ],
   "note": ""
  },
  {
   "property": "C83",
   "status": "proved",
   "theorems": [
    "C83_same_program",
    "C83_settings_irrelevant",
    "C83_quiet_or_spammy",
    "C83_reported"
   ],
   "note": ""
  },
  {
   "property": "C84",
   "status": "proved",
   "theorems": [
    "C84_switches",
    "C84_quiet",
    "C84_handling_never",
    "C84_sent",
    "C84_sent_only",
    "C84_send_failure",
    "C84_received"
   ],
   "note": ""
  },
  {
   "property": "C85",
   "status": "proved",
   "theorems": [
    "C85_formatting",
    "C85_GET",
    "C85_POST",
    "C85_POST_CUSTOM",
    "C85_plain_url",
    "C85_off"
   ],
   "note": ""
  },
  {
   "property": "C86",
   "status": "proved",
   "theorems": [
    "C86_GET",
    "C86_GET_failure",
    "C86_POST",
    "C86_POST_CUSTOM",
    "C86_POST_CUSTOM_failure",
    "C86_POST_failure",
    "C86_payload_in_the_log",
    "C86_quiet",
    "C86_children",
    "C86_seed_same"
   ],
   "note": ""
  },
  {
   "property": "C87",
   "status": "proved",
   "theorems": [
    "C87_printable",
    "C87_tuple_delivers_nothing",
    "C87_tuple_refused",
    "C87_tuple_never_posts",
    "C87_tuple_loses_events",
    "C87_other_names"
   ],
   "note": ""
  },
  {
   "property": "C88",
   "status": "proved",
   "theorems": [
    "C88_story",
    "C88_determined"
   ],
   "note": ""
  },
  {
   "property": "C89",
   "status": "proved",
   "theorems": [
    "C89_equal",
    "C89_unequal",
    "C89_member",
    "C89_dictionary",
    "C89_values",
    "C89_copy",
    "C89_independent"
   ],
   "note": ""
  },
  {
   "property": "C90",
   "status": "proved",
   "theorems": [
    "C90_numbers",
    "C90_at_most",
    "C90_send_fails",
    "C90_acks_lost",
    "C90_for_good",
    "C90_wrap",
    "C90_never_acknowledged"
   ],
   "note": ""
  },
  {
   "property": "C91",
   "status": "proved",
   "theorems": [
    "C91_dispatcher",
    "C91_numbers",
    "C91_outstanding",
    "C91_exactly_once",
    "C91_order",
    "C91_iterations",
    "C91_one_call",
    "C91_ended_by",
    "C91_ends",
    "C91_stop",
    "C91_uninterrupted"
   ],
   "note": ""
  },
  {
   "property": "C92",
   "status": "proved",
   "theorems": [
    "C92_nothing_lost",
    "C92_only_received"
   ],
   "note": ""
  },
  {
   "property": "C93",
   "status": "proved",
   "theorems": [
    "C93_called",
    "C93_in_turn",
    "C93_complete",
    "C93_before_posting",
    "C93_broken_off",
    "C93_decoded",
    "C93_uninterrupted"
   ],
   "note": ""
  },
  {
   "property": "C94",
   "status": "proved",
   "theorems": [
    "C94_acks",
    "C94_ids",
    "C94_one_at_a_time",
    "C94_after_stop",
    "C94_stop_ends",
    "C94_stopped_iff",
    "C94_stays_stopped",
    "C94_running",
    "C94_never_running"
   ],
   "note": ""
  },
  {
   "property": "C95",
   "status": "proved",
   "theorems": [
    "C95_coordinates",
    "C95_coordinates_error",
    "C95_quaternion",
    "C95_parse",
    "C95_parse_error",
    "C95_one_reading",
    "C95_spelling"
   ],
   "note": ""
  },
  {
   "property": "C96",
   "status": "proved",
   "theorems": [
    "C96_text",
    "C96_one_text",
    "C96_numeral",
    "C96_parse_back",
    "C96_exact",
    "C96_same_text",
    "C96_odd_double"
   ],
   "note": ""
  },
  {
   "property": "C97",
   "status": "proved",
   "theorems": [
    "C97_accepted",
    "C97_errors",
    "C97_error_stays",
    "C97_grows",
    "C97_last_line"
   ],
   "note": ""
  },
  {
   "property": "C98",
   "status": "proved",
   "theorems": [
    "C98_nothing_but_copies",
    "C98_no_false_acks",
    "C98_acks_seen"
   ],
   "note": ""
  },
  {
   "property": "C99",
   "status": "proved",
   "theorems": [
    "C99_listing",
    "C99_complete",
    "C99_stops",
    "C99_faithful",
    "C99_names",
    "C99_names_stops",
    "C99_counts",
    "C99_files",
    "C99_program",
    "C99_types",
    "C99_shipped"
   ],
   "note": ""
  },
  {
   "property": "C100",
   "status": "proved",
   "theorems": [
    "C100_udp",
    "C100_queue",
    "C100_udp_alone",
    "C100_queue_alone",
    "C100_called_udp",
    "C100_called_queue",
    "C100_stop_udp",
    "C100_stop_queue",
    "C100_stop_raises",
    "C100_nothing_lost",
    "C100_asked_udp",
    "C100_asked_queue",
    "C100_turns"
   ],
   "note": ""
  },
  {
   "property": "C101",
   "status": "proved",
   "theorems": [
    "C101_delivery",
    "C101_position",
    "C101_alone",
    "C101_ends"
   ],
   "note": ""
  },
  {
   "property": "C102",
   "status": "proved",
   "theorems": [
    "C102_announced",
    "C102_position",
    "C102_once"
   ],
   "note": ""
  },
  {
   "property": "C103",
   "status": "proved",
   "theorems": [
    "C103_nothing_but_copies",
    "C103_subscribers",
    "C103_announced",
    "C103_no_false_acks",
    "C103_acks_seen",
    "C103_delivered",
    "C103_fate"
   ],
   "note": ""
  },
  {
   "property": "C104",
   "status": "proved",
   "theorems": [
    "C104_each",
    "C104_dispatchers",
    "C104_end_to_end",
    "C104_source",
    "C104_no_false_acks",
    "C104_acks_seen",
    "C104_delivered",
    "C104_owed",
    "C104_fate"
   ],
   "note": ""
  },
  {
   "property": "C105",
   "status": "proved",
   "theorems": [
    "C105_never_announces",
    "C105_settled",
    "C105_mesh",
    "C105_delivered",
    "C105_called"
   ],
   "note": ""
  },
  {
   "property": "C106",
   "status": "proved",
   "theorems": [
    "C106_reason",
    "C106_subscriber",
    "C106_unprintable",
    "C106_unreadable",
    "C106_process_acks",
    "C106_coroutine",
    "C106_coroutine_ends"
   ],
   "note": ""
  },
  {
   "property": "C107",
   "status": "proved",
   "theorems": [
    "C107_only_subscribers",
    "C107_none_die",
    "C107_settled"
   ],
   "note": ""
  }
 ]
}
