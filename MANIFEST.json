{
 "claims": [
  {
   "property": "C01",
   "status": "proved",
   "theorems": [
    "C01_serial_frame_round_trip"
   ],
   "note": ""
  },
  {
   "property": "C02",
   "status": "proved",
   "theorems": [
    "C02_command_round_trip_over_serial"
   ],
   "note": ""
  },
  {
   "property": "C03",
   "status": "proved",
   "theorems": [
    "C03_chunking_does_not_matter",
    "C03_chunking_does_not_matter_for_raising",
    "C03_chunking_without_bool_errors",
    "C03_chunking_refuted_for_bool_errors"
   ],
   "note": "Proved for both readings of the library behaviour (parameter lib); the case where it fails is refuted by a witness."
  },
  {
   "property": "C04",
   "status": "proved",
   "theorems": [
    "C04_resynchronisation",
    "C04_garbage_in_one_chunk_is_one_error"
   ],
   "note": ""
  },
  {
   "property": "C05",
   "status": "proved",
   "theorems": [
    "C05_only_crc_checked_messages"
   ],
   "note": ""
  },
  {
   "property": "C06",
   "status": "proved",
   "theorems": [
    "C06_crc_detects",
    "C06_receiver_rejects"
   ],
   "note": ""
  },
  {
   "property": "C07",
   "status": "proved",
   "theorems": [
    "C07_counter_and_type_unprotected",
    "C07_any_command_is_transmitted"
   ],
   "note": ""
  },
  {
   "property": "C08",
   "status": "proved",
   "theorems": [
    "C08_error_counter_counts_jumps",
    "C08_in_step_no_errors",
    "C08_loss_counted_once",
    "C08_fresh_pair_counts_one"
   ],
   "note": ""
  },
  {
   "property": "C09",
   "status": "proved",
   "theorems": [
    "C09_parse_terminates_cleanly"
   ],
   "note": ""
  },
  {
   "property": "C10",
   "status": "proved",
   "theorems": [
    "C10_when_parse_raises",
    "C10_poison_raises",
    "C10_poison_for_ever",
    "C10_poison_loses_earlier_messages",
    "C10_skip_mode_never_raises"
   ],
   "note": "The expected totality is refuted; the exact condition for raising is proved."
  },
  {
   "property": "C11",
   "status": "proved",
   "theorems": [
    "C11_consumed_length",
    "C11_frame_then_rest",
    "C11_overrun_eats_next_frame"
   ],
   "note": ""
  },
  {
   "property": "C12",
   "status": "proved",
   "theorems": [
    "C12_oversized_refused",
    "C12_frame_size"
   ],
   "note": ""
  },
  {
   "property": "C13",
   "status": "proved",
   "theorems": [
    "C13_bounded_buffer_in_skip_mode",
    "C13_alp_mode_retains_a_gigabyte"
   ],
   "note": "The bound for skip mode and the retention in ALP mode are both proved."
  },
  {
   "property": "C14",
   "status": "proved",
   "theorems": [
    "C14_logging_and_rebooted_frames",
    "C14_delivered_between_other_frames"
   ],
   "note": ""
  },
  {
   "property": "C15",
   "status": "proved",
   "theorems": [
    "C15_alp_parse_total",
    "C15_alp_parse_looks_only_at_what_it_consumes",
    "C15_alp_result_depends_on_consumed_bytes_only"
   ],
   "note": ""
  },
  {
   "property": "C16",
   "status": "proved",
   "theorems": [
    "C16_round_trip_iff",
    "C16_action_round_trip",
    "C16_unknown_opcodes_refused",
    "C16_unknown_flags_refused",
    "C16_unknown_interfaces_refused",
    "C16_constructible_but_unparsable"
   ],
   "note": "C16_round_trip_iff is the exact characterisation; the exceptions are those of action_wf."
  },
  {
   "property": "C17",
   "status": "proved",
   "theorems": [
    "C17_empty_data_dropped",
    "C17_empty_data_misparsed",
    "C17_empty_data_round_trip_refuted"
   ],
   "note": ""
  },
  {
   "property": "C18",
   "status": "proved",
   "theorems": [
    "C18_length_round_trip",
    "C18_length_shortest",
    "C18_length_accepts_any_form",
    "C18_length_parsed",
    "C18_length_range",
    "C18_length_prefix_free",
    "C18_length_constructor"
   ],
   "note": ""
  },
  {
   "property": "C19",
   "status": "proved",
   "theorems": [
    "C19_parsed_command",
    "C19_parse_of_actions",
    "C19_action_status_refused"
   ],
   "note": ""
  },
  {
   "property": "C20",
   "status": "proved",
   "theorems": [
    "C20_received_command",
    "C20_reserialization_identity_iff",
    "C20_reserialization",
    "C20_reserialization_succeeds_iff",
    "C20_reserialization_failure",
    "C20_reserialization_refuted"
   ],
   "note": ""
  },
  {
   "property": "C21",
   "status": "proved",
   "theorems": [
    "C21_read",
    "C21_read_refused",
    "C21_write",
    "C21_return",
    "C21_read_header",
    "C21_write_header",
    "C21_create_new_file",
    "C21_host_takes_no_configuration"
   ],
   "note": ""
  },
  {
   "property": "C22",
   "status": "proved",
   "theorems": [
    "C22_generated_tag",
    "C22_no_tag_request",
    "C22_command_bytes"
   ],
   "note": ""
  },
  {
   "property": "C23",
   "status": "proved",
   "theorems": [
    "C23_compress_rounds_up",
    "C23_compress_exact",
    "C23_compress_monotone",
    "C23_compress_too_large",
    "C23_compress_negative"
   ],
   "note": ""
  },
  {
   "property": "C24",
   "status": "proved",
   "theorems": [
    "C24_compress_down_below",
    "C24_compress_down_optimal_iff",
    "C24_compress_down_optimal_refuted",
    "C24_compress_down_monotone_refuted"
   ],
   "note": "The expected optimality and monotonicity are refuted; the exact set of times for which rounding down is not optimal is proved."
  },
  {
   "property": "C25",
   "status": "proved",
   "theorems": [
    "C25_ct_byte",
    "C25_ct_round_trip",
    "C25_ct_constructor",
    "C25_ct_parse_canonical",
    "C25_ct_value"
   ],
   "note": ""
  },
  {
   "property": "C26",
   "status": "proved",
   "theorems": [
    "C26_addressee_round_trip",
    "C26_addressee_size",
    "C26_addressee_reserved_nls",
    "C26_addressee_reserved_bits_ignored"
   ],
   "note": ""
  },
  {
   "property": "C27",
   "status": "proved",
   "theorems": [
    "C27_nbid_survives_iff",
    "C27_nbid_serialized",
    "C27_nbid_round_trip_refuted"
   ],
   "note": "The expected round trip is refuted; the exact set of surviving bytes is proved."
  },
  {
   "property": "C28",
   "status": "proved",
   "theorems": [
    "C28_qos_round_trip",
    "C28_qos_every_byte",
    "C28_configuration_round_trip"
   ],
   "note": ""
  },
  {
   "property": "C29",
   "status": "proved",
   "theorems": [
    "C29_status_serialized",
    "C29_status_round_trip",
    "C29_status_high_level_rejected",
    "C29_status_level_never_above",
    "C29_any_high_level"
   ],
   "note": ""
  },
  {
   "property": "C30",
   "status": "proved",
   "theorems": [
    "C30_channel_header_round_trip",
    "C30_channel_header_every_byte",
    "C30_channel_id_round_trip",
    "C30_channel_id_reserved_bit_ignored"
   ],
   "note": ""
  },
  {
   "property": "C31",
   "status": "proved",
   "theorems": [
    "C31_survives_iff",
    "C31_what_comes_back",
    "C31_documented_text_is_read",
    "C31_strings_give_valid_channels",
    "C31_accepted_iff",
    "C31_refused"
   ],
   "note": "The expected round trip is refuted where it fails; the exact set of channels for which it holds is proved."
  },
  {
   "property": "C32",
   "status": "proved",
   "theorems": [
    "C32_subband_round_trip",
    "C32_subband_parse_canonical",
    "C32_channel_status_identifier_round_trip",
    "C32_channel_status_identifier_every_word",
    "C32_sub_profile_round_trip",
    "C32_sub_profile_parse_canonical",
    "C32_file_permissions_round_trip",
    "C32_file_properties_round_trip",
    "C32_file_properties_every_byte",
    "C32_file_header_round_trip",
    "C32_file_header_parse_inverse"
   ],
   "note": ""
  },
  {
   "property": "C33",
   "status": "proved",
   "theorems": [
    "C33_access_profile_round_trip_iff",
    "C33_access_profile_short",
    "C33_access_profile_always_65_bytes"
   ],
   "note": ""
  },
  {
   "property": "C34",
   "status": "proved",
   "theorems": [
    "C34_query_serialized",
    "C34_query_round_trip",
    "C34_query_unsupported",
    "C34_query_wrong_length_refuted",
    "C34_query_survives_iff"
   ],
   "note": ""
  },
  {
   "property": "C35",
   "status": "proved",
   "theorems": [
    "C35_foreground_frame_recovered",
    "C35_foreground_frame_recovered_any_payload",
    "C35_frame_is_length_plus_one_bytes",
    "C35_large_bytes_rejected",
    "C35_large_length_rejected",
    "C35_accepted_bytes_are_small",
    "C35_background_frame_recovered",
    "C35_background_large_subnet_rejected"
   ],
   "note": ""
  },
  {
   "property": "C36",
   "status": "proved",
   "theorems": [
    "C36_foreground_not_serializable",
    "C36_background_not_serializable",
    "C36_control_bytes",
    "C36_transport_frame_bytes",
    "C36_transport_frame_ack_missing",
    "C36_transport_frame_written_again"
   ],
   "note": "The expected serialization is refuted for every frame."
  },
  {
   "property": "C37",
   "status": "proved",
   "theorems": [
    "C37_one_call",
    "C37_complete_frame_is_delivered",
    "C37_calls_drain_the_buffer",
    "C37_accounting",
    "C37_raises_forever",
    "C37_raises_forever_refuted"
   ],
   "note": "Proved for both readings of the library behaviour (parameter lib)."
  },
  {
   "property": "C38",
   "status": "proved",
   "theorems": [
    "C38_uid",
    "C38_vid",
    "C38_dll_config",
    "C38_dll_status",
    "C38_engineering_mode",
    "C38_phy_status",
    "C38_declared_length",
    "C38_uid_canonical",
    "C38_vid_canonical",
    "C38_dll_config_canonical",
    "C38_dll_status_canonical",
    "C38_engineering_mode_canonical"
   ],
   "note": ""
  },
  {
   "property": "C39",
   "status": "proved",
   "theorems": [
    "C39_firmware_bytes",
    "C39_firmware_read_back",
    "C39_firmware_round_trip",
    "C39_firmware_canonical",
    "C39_firmware_not_ascii_read",
    "C39_firmware_not_ascii_written"
   ],
   "note": ""
  },
  {
   "property": "C40",
   "status": "proved",
   "theorems": [
    "C40_construction_stores_exponent",
    "C40_factory_bytes",
    "C40_small_exponent_unreadable",
    "C40_large_exponent_changed",
    "C40_no_file_survives",
    "C40_serializable_iff",
    "C40_constructed_are_wf"
   ],
   "note": "The expected round trip is refuted; what happens instead is proved for all settings."
  },
  {
   "property": "C41",
   "status": "proved",
   "theorems": [
    "C41_key_accepted_iff",
    "C41_key_refused",
    "C41_key_bytes",
    "C41_key_files",
    "C41_key_too_large",
    "C41_key_never_parsed",
    "C41_key_content_refused"
   ],
   "note": ""
  },
  {
   "property": "C42",
   "status": "proved",
   "theorems": [
    "C42_defaults_accumulate",
    "C42_added_entries",
    "C42_acceptance_depends_on_history",
    "C42_poisoned_defaults",
    "C42_caller_lists_extended",
    "C42_bytes_independent_of_history",
    "C42_bytes_stable"
   ],
   "note": "The leak is proved for all histories of constructor calls."
  },
  {
   "property": "C43",
   "status": "proved",
   "theorems": [
    "C43_content_iff",
    "C43_sent_file_is_recognised",
    "C43_content_id",
    "C43_profile_number_lost",
    "C43_many_channels_not_recognised",
    "C43_keys_never_recognised"
   ],
   "note": ""
  },
  {
   "property": "C44",
   "status": "proved",
   "theorems": [
    "C44_exactly_one_place",
    "C44_unknown_types_nowhere",
    "C44_one_message",
    "C44_arrival_order",
    "C44_sorting_is_unique",
    "C44_command_keeps_other_places"
   ],
   "note": ""
  },
  {
   "property": "C45",
   "status": "proved",
   "theorems": [
    "C45_result_is_the_answers",
    "C45_answers_exist",
    "C45_only_own_tag",
    "C45_undisturbed_schedules"
   ],
   "note": ""
  },
  {
   "property": "C46",
   "status": "proved",
   "theorems": [
    "C46_late_answer_returned_refuted",
    "C46_stale_answer_between_resets_refuted",
    "C46_every_schedule"
   ],
   "note": "Refuted by schedules; what holds under every schedule is proved here, the positive statement for undisturbed schedules is C45."
  },
  {
   "property": "C47",
   "status": "proved",
   "theorems": [
    "C47_collected_tag_is_swallowed",
    "C47_other_tags_are_not",
    "C47_untagged_swallowed_refuted"
   ],
   "note": "The expected delivery is refuted; the exact condition is proved."
  },
  {
   "property": "C48",
   "status": "proved",
   "theorems": [
    "C48_bridge",
    "C48_bridge_mixed_traffic",
    "C48_reader_hands_over_the_traffic"
   ],
   "note": ""
  },
  {
   "property": "C49",
   "status": "proved",
   "theorems": [
    "C49_small_types",
    "C49_addressee",
    "C49_access_profile",
    "C49_file_operands",
    "C49_system_files",
    "C49_firmware",
    "C49_dll_config_unchecked",
    "C49_access_profile_file",
    "C49_interface_status",
    "C49_phy_status",
    "C49_output_is_bytes"
   ],
   "note": "Proved for the classes where it holds, refuted for the DLL configuration, PHY status and access profile files and the interface status; factory settings are in C40, DLL frames in C36."
  },
  {
   "property": "C50",
   "status": "proved",
   "theorems": [
    "C50_read",
    "C50_write",
    "C50_write_unserializable",
    "C50_placeholders_refused",
    "C50_table",
    "C50_table_domain",
    "C50_table_contents",
    "C50_table_written",
    "C50_table_not_written"
   ],
   "note": ""
  },
  {
   "property": "C51",
   "status": "proved",
   "theorems": [
    "C51_loss_counter_depends_on_chunking",
    "C51_every_further_call_counts",
    "C51_cut_before_a_single_bit"
   ],
   "note": "Refutes the expected meaning of error_counter (a witness for both behaviours of the library at the end of the data); the general rule is proved for both, for the library that does not report a missing single bit as ReadError with the cuts in front of a single bit left out; what such a cut does (the frame is given up and reported) is a theorem of its own."
  },
  {
   "property": "C52",
   "status": "proved",
   "theorems": [
    "C52_every_byte_accounted_for"
   ],
   "note": ""
  },
  {
   "property": "C53",
   "status": "proved",
   "theorems": [
    "C53_long_last_action_recovered",
    "C53_two_byte_last_action_lost"
   ],
   "note": "The expected parsing is refuted; the exact outcome is proved."
  },
  {
   "property": "C54",
   "status": "proved",
   "theorems": [
    "C54_one_list_each",
    "C54_nothing_lost",
    "C54_nothing_lost_later",
    "C54_retired_lists_are_frozen",
    "C54_next_command_retires",
    "C54_lists_grow_at_the_end",
    "C54_returned_list_is_final_refuted"
   ],
   "note": "Guarantees proved for all schedules; the expected isolation is refuted."
  },
  {
   "property": "C55",
   "status": "proved",
   "theorems": [
    "C55_alive_iff",
    "C55_exception_ends_reading",
    "C55_dead_for_good",
    "C55_commands_time_out",
    "C55_bridge_survives_any_bytes",
    "C55_peer_can_end_it"
   ],
   "note": "The expected reconnection is refuted; the exact life time is proved."
  },
  {
   "property": "C56",
   "status": "proved",
   "theorems": [
    "C56_request_sent",
    "C56_bridge_mode_does_not_wait",
    "C56_unchecked_sends_nothing",
    "C56_repeated_returns_true_refuted",
    "C56_no_answer_false",
    "C56_answer_decides",
    "C56_unusable_file_raises",
    "C56_end_to_end",
    "C56_any_traffic",
    "C56_begin_keeps",
    "C56_end_keeps"
   ],
   "note": ""
  },
  {
   "property": "C57",
   "status": "proved",
   "theorems": [
    "C57_crc_is_the_remainder",
    "C57_remainder_unique",
    "C57_residue",
    "C57_table_driven"
   ],
   "note": ""
  },
  {
   "property": "C58",
   "status": "proved",
   "theorems": [
    "C58_frames_never_interleave",
    "C58_all_delivered",
    "C58_no_deadlock",
    "C58_every_schedule_ends",
    "C58_no_spurious_errors_before_wrap",
    "C58_spurious_error_refuted",
    "C58_distinct_counters_refuted",
    "C58_one_call",
    "C58_in_turn",
    "C58_in_turn_no_loss"
   ],
   "note": "The guarantees of the lock are proved; the expected distinct counters and absence of spurious errors are refuted by schedules."
  },
  {
   "property": "C59",
   "status": "proved",
   "theorems": [
    "C59_what_the_node_gets",
    "C59_done",
    "C59_failed",
    "C59_raised",
    "C59_size_limit",
    "C59_running",
    "C59_damaged_line",
    "C59_damaged_confirmation"
   ],
   "note": ""
  },
  {
   "property": "C60",
   "status": "proved",
   "theorems": [
    "C60_equal_iff_same_bytes",
    "C60_across_classes",
    "C60_reflexive",
    "C60_symmetric",
    "C60_transitive_without_longs",
    "C60_transitive_refuted",
    "C60_not_equal",
    "C60_not_equal_symmetric_refuted"
   ],
   "note": "Transitivity with longs and the symmetry of != are refuted; the exact relation is proved."
  },
  {
   "property": "C61",
   "status": "proved",
   "theorems": [
    "C61_kept_in_order",
    "C61_cleared_list",
    "C61_read_clear_no_duplicates",
    "C61_read_clear_refuted",
    "C61_read_clear_idle",
    "C61_swap_read",
    "C61_swap_read_refuted",
    "C61_swap_read_patient"
   ],
   "note": "The expected losslessness is refuted; the exact conditions and bounds are proved."
  },
  {
   "property": "C62",
   "status": "proved",
   "theorems": [
    "C62_benign_callbacks",
    "C62_first_exception",
    "C62_alive",
    "C62_delivered_prefix",
    "C62_dead_for_good"
   ],
   "note": ""
  },
  {
   "property": "C63",
   "status": "proved",
   "theorems": [
    "C63_accepted_iff_documented",
    "C63_exactly_one_schema",
    "C63_derived_classes",
    "C63_instances",
    "C63_demanded_exists",
    "C63_names_distinct",
    "C63_addressee",
    "C63_foreign_rejected",
    "C63_unchecked_list",
    "C63_unchecked_takes_anything",
    "C63_only_well_typed_refuted",
    "C63_model_ct",
    "C63_model_channels",
    "C63_model_session",
    "C63_model_operands",
    "C63_model_actions",
    "C63_model_frames",
    "C63_model_files",
    "C63_model_always_accepted"
   ],
   "note": "Cerberus 1.1 is not part of the repository; the meaning of the rules used is modelled in MSchema.v. Also proves that the checks in all other model files are these schemas."
  },
  {
   "property": "C64",
   "status": "proved",
   "theorems": [
    "C64_built_command_is_plain_data",
    "C64_parsed_command_is_plain_data",
    "C64_parsed_frame_is_plain_data",
    "C64_file_is_plain_data",
    "C64_every_attribute_is_there",
    "C64_nothing_is_added",
    "C64_frame_paths",
    "C64_file_paths",
    "C64_command_lossless",
    "C64_parsed_frame_lossless",
    "C64_file_lossless",
    "C64_small_types",
    "C64_session_types",
    "C64_files",
    "C64_operands",
    "C64_operation",
    "C64_action",
    "C64_command",
    "C64_frames",
    "C64_nested_list_refuted"
   ],
   "note": "The attributes of every class are listed in MAsDict.v from its constructor. A dict is modelled as the list of its items in the order of assignment."
  },
  {
   "property": "C65",
   "status": "proved",
   "theorems": [
    "C65_text_understood_iff",
    "C65_other_text_refused",
    "C65_shows_sent_command",
    "C65_shows_device_command",
    "C65_shows_serial_recording",
    "C65_shows_system_file",
    "C65_other_files_never_shown",
    "C65_unknown_file_numbers",
    "C65_frames_never_shown",
    "C65_correct_frame_refuted"
   ],
   "note": "What is shown is modelled as the object handed to print. The expected working of the types fg and bg is refuted."
  },
  {
   "property": "C66",
   "status": "proved",
   "theorems": [
    "C66_parsed_command_prints",
    "C66_built_command_prints",
    "C66_parsed_file_prints",
    "C66_frame_prints_its_dict",
    "C66_configuration_prints_its_dict",
    "C66_file_prints",
    "C66_made_phy_status_prints",
    "C66_short_phy_status_fails",
    "C66_labels_tell_the_truth",
    "C66_every_attribute_has_a_field",
    "C66_command_text",
    "C66_outcome_needed",
    "C66_action_text",
    "C66_operation_text",
    "C66_received_file_text",
    "C66_status_text",
    "C66_access_profile_text",
    "C66_channel_text",
    "C66_phy_status_text",
    "C66_factory_values",
    "C66_factory_lora_swapped",
    "C66_factory_label_refuted",
    "C66_noise_floor_parameters_hidden",
    "C66_action_flags_hidden",
    "C66_permissions_hidden",
    "C66_no_own_text"
   ],
   "note": "A text is modelled as a list of pieces that say which value is written; the digits are left to Python. Names of fields are read off the text by SPrint.fields. The claim is refuted for the LoRa settings of the factory file."
  },
  {
   "property": "C67",
   "status": "proved",
   "theorems": [
    "C67_calls",
    "C67_constructor",
    "C67_wire",
    "C67_received",
    "C67_overload_swallows",
    "C67_overload_at_the_end",
    "C67_overload_round_trip_refuted",
    "C67_second_tag",
    "C67_status_total",
    "C67_status_of_message",
    "C67_status_of_built"
   ],
   "note": "The expected statement is refuted for an overload without an address (C67_overload_round_trip_refuted) and for a second tag (C67_second_tag); the theorems give the exact domain in call_ok."
  },
  {
   "property": "C68",
   "status": "proved",
   "theorems": [
    "C68_serialised_calls",
    "C68_own_answers_refuted",
    "C68_no_exception_refuted",
    "C68_answer_found_refuted",
    "C68_completed_result_refuted",
    "C68_results_arrived",
    "C68_nothing_lost",
    "C68_exception_needs_another"
   ],
   "note": "The expected statement is proved for serialised calls (C68_serialised_calls) and refuted without (four _refuted theorems); three theorems give what every schedule guarantees."
  },
  {
   "property": "C69",
   "status": "proved",
   "theorems": [
    "C69_results",
    "C69_other_messages",
    "C69_peer_receives",
    "C69_request_reply",
    "C69_replies_can_be_sent",
    "C69_constructor_reply_refuted"
   ],
   "note": "Results, other messages and the peer's view for any list of calls; the constructor variant of a reply is refuted (C69_constructor_reply_refuted). Messages arriving between two calls are handled before the second call starts; interleavings within a call are C45, C46 and C68."
  },
  {
   "property": "C70",
   "status": "proved",
   "theorems": [
    "C70_engineering_accepted",
    "C70_engineering_refused",
    "C70_engineering_bytes",
    "C70_engineering_mode_set",
    "C70_engineering_node",
    "C70_paramp_alone_refuted",
    "C70_gaussian_alone_refuted",
    "C70_cleanup",
    "C70_loop_sends",
    "C70_loop_done",
    "C70_loop_running",
    "C70_loop_raised",
    "C70_profile_bytes",
    "C70_profile_refused",
    "C70_settings_bytes",
    "C70_settings_refused",
    "C70_interface_configuration_refuted",
    "C70_damaged_line",
    "C70_damaged_line_goes_on"
   ],
   "note": "Commands built by engineering_mode.py, change_access_profile.py and write_factory_settings.py as functions of their options, with exact acceptance conditions and bytes, the effect on a node that carries them out, and the resend loop of engineering_mode.py. Option combinations that do not work are refuted. RSSI smoothing below 2^21 (float logarithm). The callbacks that call sys.exit are not modelled."
  },
  {
   "property": "C71",
   "status": "proved",
   "theorems": [
    "C71_sends",
    "C71_content",
    "C71_too_long",
    "C71_no_bytes",
    "C71_filed",
    "C71_loop_ends",
    "C71_ok_iff",
    "C71_raised_iff",
    "C71_ok_all_arrived",
    "C71_too_many",
    "C71_ok_means_all_arrived_refuted",
    "C71_nok_means_loss_refuted",
    "C71_ok_means_returned_refuted"
   ],
   "note": "Sending: the loop of start_transmitting over arbitrary device behaviour, the bytes sent are received as n copies. Verdict: exact characterisation over all arrival histories (ends_after is unique); three refutations of stronger readings of OK and NOK. Writing the access profiles before the test is the builder of C70; printed throughput numbers are not modelled."
  },
  {
   "property": "C72",
   "status": "proved",
   "theorems": [
    "C72_push_as_written_refuted",
    "C72_length_object_refused",
    "C72_push_refused",
    "C72_push_bytes",
    "C72_push_sends",
    "C72_push_files",
    "C72_push_threshold",
    "C72_push_interface",
    "C72_push_header",
    "C72_push_parsed_refuted",
    "C72_push_report",
    "C72_push_report_stops",
    "C72_nodes",
    "C72_nodes_logged",
    "C72_phy_status",
    "C72_lorawan_as_written_refuted",
    "C72_keywords",
    "C72_lorawan"
   ],
   "note": "The multiplication int(temperature*10) is a parameter (any integer). What a node does with a stored action (query, read) is a small specification in SPush.v written from the D7A specification, not code of the repository. The two _as_written_refuted theorems state that the shipped programs fail for all inputs; the theorems with LengthInt 2 and the parameter names are about the programs with that one argument corrected."
  },
  {
   "property": "C73",
   "status": "proved",
   "theorems": [
    "C73_at_any_moment",
    "C73_all_published",
    "C73_published_after_connect_refuted",
    "C73_any_bytes",
    "C73_never_stuck",
    "C73_after_device_failure",
    "C73_device_failure",
    "C73_statistics_refuted",
    "C73_statistics_if_counted"
   ],
   "note": "C73_at_any_moment: exact outcome of every schedule for well-formed traffic; C73_any_bytes: for arbitrary bytes; C73_published_after_connect_refuted and C73_statistics_refuted: what the program does not do. What the MQTT client does with a message handed to it is outside the model."
  },
  {
   "property": "C74",
   "status": "proved",
   "theorems": [
    "C74_one_reader",
    "C74_as_if_undisturbed",
    "C74_all_delivered",
    "C74_stopped",
    "C74_one_more_byte",
    "C74_no_call_blocks",
    "C74_stop_returns",
    "C74_nothing_runs_for_ever",
    "C74_restart_after_failure_refuted",
    "C74_second_start_refuted",
    "C74_second_start_stopped_refuted",
    "C74_second_start_stop_returns_refuted"
   ],
   "note": "C74_as_if_undisturbed and C74_all_delivered carry the claim that stopping loses nothing; C74_stopped, C74_one_more_byte, C74_no_call_blocks and C74_stop_returns are about stop_reading; the four _refuted theorems are what does not hold. What pyserial's read() and cancel_read() do is assumed as stated at the head of MLife.v. Handling one byte is one step; commands sent meanwhile are not part of this model (C46, C58, C68). stop_reading called from a callback is part of C78."
  },
  {
   "property": "C75",
   "status": "proved",
   "theorems": [
    "C75_made_from_its_operand",
    "C75_one_class_each",
    "C75_codes_tell_them_apart",
    "C75_code_on_the_wire"
   ],
   "note": "C75_made_from_its_operand gives the outcome for every class and every argument (one positional argument or none; more arguments are a TypeError of Python and are not modelled). instance_of (SSchema.v) is the specification of isinstance also used for C63. The codes are those of the typed model (MAlp), compared with the table of classes transcribed separately in MOperation."
  },
  {
   "property": "C76",
   "status": "proved",
   "theorems": [
    "C76_no_aliases",
    "C76_written",
    "C76_round_trip",
    "C76_members_told_apart",
    "C76_unknown_name",
    "C76_by_number",
    "C76_by_name",
    "C76_numbers_on_the_wire",
    "C76_which",
    "C76_names",
    "C76_system_file_names",
    "C76_names_off_the_wire",
    "C76_all_system_files"
   ],
   "note": "The tables are transcribed from the class bodies. What jsonpickle itself writes (the path of the class) and importing a path that is not a library enumeration are outside the model. C76_numbers_on_the_wire compares the tables with the conversion functions of the other model files, which were transcribed separately. The names are compared with a separate list (SEnumNames.v). FrameType and CsmaCaMode have no conversion function of their own in the model."
  },
  {
   "property": "C77",
   "status": "proved",
   "theorems": [
    "C77_answer_in_time_found",
    "C77_result",
    "C77_over_in_time",
    "C77_over_after_answer",
    "C77_ends",
    "C77_honest_clock",
    "C77_set_back",
    "C77_over_in_time_refuted",
    "C77_full_timeout_refuted",
    "C77_no_waiting"
   ],
   "note": "Instants are integers (microseconds of real time), the clock any function of them; delays of the computer are a parameter. The expectation that it holds for every clock is refuted (C77_over_in_time_refuted, C77_full_timeout_refuted)."
  },
  {
   "property": "C78",
   "status": "proved",
   "theorems": [
    "C78_as_if_at_once",
    "C78_no_response",
    "C78_accepted",
    "C78_only_the_clock",
    "C78_full_time",
    "C78_sent",
    "C78_never_stuck",
    "C78_responses_lost",
    "C78_asynchronous",
    "C78_stop"
   ],
   "note": "Callbacks are well-founded programs (they end); an endless callback stops the reader for ever. Proved positively: schedule independence, what the calls return, what is sent, delivery with asynchronous calls. The expectation that a callback can obtain a response is refuted for every schedule (C78_no_response, C78_responses_lost). Application threads that call the modem at the same time are added in C81."
  },
  {
   "property": "C79",
   "status": "proved",
   "theorems": [
    "C79_others_untouched",
    "C79_unaffected",
    "C79_visible",
    "C79_default",
    "C79_default_kept",
    "C79_write",
    "C79_return",
    "C79_read",
    "C79_shared_by_write",
    "C79_shared_by_read",
    "C79_write_later",
    "C79_return_later",
    "C79_read_later",
    "C79_stale_length",
    "C79_configuration",
    "C79_data",
    "C79_request",
    "C79_offset",
    "C79_parsed",
    "C79_independent_refuted"
   ],
   "note": "Objects are indices of a store; the value of an object is read through the store and compared with the typed model (factories of C21). Simplifications: an argument of a wrong class is a ValueError; operation objects are not separate from their action; the time inside an NBID addressee and the LoRaWAN configurations have no parts of their own; the default arguments of SubProfile, InterfaceConfigurationFile and the action classes are not in the store (lists inside PhyStatus are C42). Independence of commands made with defaults is refuted (C79_independent_refuted)."
  },
  {
   "property": "C80",
   "status": "proved",
   "theorems": [
    "C80_list_by_value",
    "C80_set_by_identity",
    "C80_set_numbers",
    "C80_entries",
    "C80_dict",
    "C80_found_after_change",
    "C80_set_as_list_refuted",
    "C80_address_refuted"
   ],
   "note": "Sets and dicts are lists of entries in the order of insertion; a lookup finds an entry with the same hash that is the same object or equal, as CPython's lookdict does. The hash of objects is CPython 2.7's hash of addresses (64 bit), that of ints their value; the hash of longs that are no ints is a parameter. The dict theorem excludes the accidental equality of hashes, which C80_set_by_identity and C80_address_refuted describe."
  },
  {
   "property": "C81",
   "status": "proved",
   "theorems": [
    "C81_started",
    "C81_last",
    "C81_own",
    "C81_callback",
    "C81_refused",
    "C81_sent",
    "C81_undisturbed_refuted",
    "C81_own_tag_refuted"
   ],
   "note": "The part of a call before its waiting loop, the end of the loop with the return, and the handling of one message are one step each; interruptions inside them are the subject of C46, C58 and C68. Programs of threads and callbacks are well-founded. The two false expectations are refuted by concrete schedules (C81_undisturbed_refuted, C81_own_tag_refuted)."
  },
  {
   "property": "C82",
   "status": "proved",
   "theorems": [
    "C82_all_delivered",
    "C82_after_261_bytes",
    "C82_held_back",
    "C82_after_error",
    "C82_after_cut",
    "C82_swallowed_refuted",
    "C82_pieces"
   ],
   "note": "Generalises C04, whose garbage holds no sync byte. The conditions on the damage are about bytes only (SRecover.v) and cannot be dropped: damage may hold a frame with a right CRC, which is then delivered (C05). The exception for lost bytes equal to the beginning of a frame is a theorem of its own (C82_swallowed_refuted)."
  },
  {
   "property": "C83",
   "status": "proved",
   "theorems": [
    "C83_result",
    "C83_without_failure",
    "C83_connect_without_failure",
    "C83_history_without_failure",
    "C83_same_state",
    "C83_same_answers",
    "C83_line",
    "C83_peer",
    "C83_late_answer_refuted",
    "C83_connect_failed",
    "C83_connect_failed_refuted"
   ],
   "note": "One call up to its waiting loop is one step; what other threads see during a write is the subject of C46 and C58. The device takes any prefix of the frame before it raises; that the lock is released is the meaning of the with statement and is not a separate step. Refuted expectations: C83_late_answer_refuted, C83_connect_failed_refuted."
  },
  {
   "property": "C84",
   "status": "proved",
   "theorems": [
    "C84_both_ways",
    "C84_drained",
    "C84_new_objects"
   ],
   "note": "A schedule is a list of moves: either end sends a command or reads up to n bytes. C84_both_ways holds after every move of every schedule; C84_drained: one long enough read at each end brings everything still under way. C84_new_objects gives the error counters of two new objects."
  },
  {
   "property": "C85",
   "status": "proved",
   "theorems": [
    "C85_log",
    "C85_everything_is_complete",
    "C85_answered",
    "C85_logs_without_connection_refuted",
    "C85_any_bytes",
    "C85_logs_for_ever_refuted"
   ],
   "note": "C85_log gives the log for any intact traffic and any cutting; whole tr n are the frames complete within the first n bytes. C85_answered and C85_logs_without_connection_refuted say when connect() returns true. Digits and layout of a line are as in C66."
  },
  {
   "property": "C86",
   "status": "proved",
   "theorems": [
    "C86_shown",
    "C86_refused",
    "C86_stops",
    "C86_read_back",
    "C86_sent_in_a_row",
    "C86_program"
   ],
   "note": "C86_shown, C86_refused and C86_read_back are about one command; C86_program about the six messages of the program; C86_sent_in_a_row gives the number of losses counted by the receiver. The layout pprint gives to the plain data is not modelled (its content is the subject of C64)."
  },
  {
   "property": "C87",
   "status": "proved",
   "theorems": [
    "C87_returned",
    "C87_own_answers",
    "C87_late_answers",
    "C87_different_tags_suffice",
    "C87_own_answers_refuted",
    "C87_draws",
    "C87_collision"
   ],
   "note": "Every message of the traffic carries a label, the number of the call it answers, which the program does not see (SLate.v). C87_returned is the general statement; C87_own_answers_refuted gives, for any two commands with the same tag, a run in which the second call returns only the answer to the first. Messages arriving between two calls are handled before the second starts, as in C69."
  },
  {
   "property": "C88",
   "status": "proved",
   "theorems": [
    "C88_rounds",
    "C88_returned",
    "C88_raised",
    "C88_shows",
    "C88_reproduced",
    "C88_modem_text",
    "C88_modem_log_refuted"
   ],
   "note": "A round (MReport.v) is one pass of the inner loop; C88_rounds proves that the rounds give exactly the state, messages, errors and exception of parse as modelled in MSerial. The text of the exception and the bit position, which a report also has, are not modelled. C88_modem_text and C88_modem_log_refuted are what does not hold for the log of a modem."
  },
  {
   "property": "C89",
   "status": "proved",
   "theorems": [
    "C89_attempts",
    "C89_skip_mode",
    "C89_one_call",
    "C89_linear_refuted",
    "C89_alp_mode_refuted"
   ],
   "note": "Work is measured by the rounds of MReport.v (proved to be those of parse, C88_rounds): attempts, bytes copied into bit streams, bytes of which the CRC is computed, characters of error texts. Copies made by slicing the buffer and the time inside the ALP parser are not counted. C89_linear_refuted and C89_alp_mode_refuted give exact values for the two quadratic cases."
  },
  {
   "property": "C90",
   "status": "proved",
   "theorems": [
    "C90_lists_actions",
    "C90_trimmed",
    "C90_loose_end_lost",
    "C90_received",
    "C90_built",
    "C90_complete_refuted"
   ],
   "note": "The texts are those of C66 (MPrint.v); MDescribe.v writes them out as characters. How Python writes a number, a boolean, a list or a dict is a parameter of the theorems, about which only tidy is assumed: not empty, no comma or blank at either end; C90_case shows a parameter that satisfies it."
  },
  {
   "property": "C91",
   "status": "proved",
   "theorems": [
    "C91_content",
    "C91_undamaged",
    "C91_content_stays_content_refuted",
    "C91_front",
    "C91_first_byte_missing",
    "C91_modem",
    "C91_answer_refuted"
   ],
   "note": "Built on the recovery theorem of C82 and the detection theorem of C06. A changed counter or type byte is not damage the receiver notices (C07), and a changed length byte gives no certain outcome; both are outside this property. The refuted expectation is C91_content_stays_content_refuted and C91_answer_refuted; C91_undamaged is the case in which it holds."
  },
  {
   "property": "C92",
   "status": "proved",
   "theorems": [
    "C92_two_bytes",
    "C92_contents",
    "C92_one_in_65536",
    "C92_wrong_payloads",
    "C92_same_header",
    "C92_delivered",
    "C92_content_authentic_refuted",
    "C92_same_crc_iff",
    "C92_four_bits",
    "C92_flips"
   ],
   "note": "Counted over the complete list of contents of a length (C92_contents), by induction on the length; not a bounded search. Contents shorter than two bytes are outside: for them C06 gives detection of every change. What a receiver does with a payload whose CRC differs is C06."
  },
  {
   "property": "C93",
   "status": "proved",
   "theorems": [
    "C93_made_iff",
    "C93_refused_iff",
    "C93_acceptable",
    "C93_tag",
    "C93_wire"
   ],
   "note": "Complete description of the constructor as modelled: both outcomes are equivalences. C93_wire leaves interface statuses out (what they are written as is C20)."
  },
  {
   "property": "C94",
   "status": "proved",
   "theorems": [
    "C94_action",
    "C94_actions",
    "C94_commands_iff",
    "C94_command_begins",
    "C94_stream",
    "C94_stream_injective",
    "C94_structure"
   ],
   "note": "Well-formed means what the parser reads back (as in C21 and C22). C94_structure is stated for any serializer and parser pair; the round-trip theorems of C18, C25, C27, C28, C29, C30, C32 and C38 are its instances."
  },
  {
   "property": "C95",
   "status": "proved",
   "theorems": [
    "C95_entries",
    "C95_cause",
    "C95_said",
    "C95_one_cause",
    "C95_readable",
    "C95_at_rest",
    "C95_lost_sync",
    "C95_lost_sync_count",
    "C95_modem"
   ],
   "note": "MCause adds to the rounds of MReport the text and bit position of the errors the header raises. An entry for an error of the ALP parser is recognised by its frame having the right CRC; its text and position are the subject of C103."
  },
  {
   "property": "C96",
   "status": "proved",
   "theorems": [
    "C96_operands",
    "C96_files",
    "C96_time",
    "C96_time_read",
    "C96_time_same",
    "C96_vid",
    "C96_uid",
    "C96_index",
    "C96_data",
    "C96_filled"
   ],
   "note": "The expected behaviour is refuted for four structures, each with its exact outcome. Changes to values that are not integers (or lists of integers) are out of scope, as are the structures not named."
  },
  {
   "property": "C97",
   "status": "proved",
   "theorems": [
    "C97_lives",
    "C97_update_same",
    "C97_mode_same",
    "C97_benign",
    "C97_dead",
    "C97_stop",
    "C97_update_dead",
    "C97_mode_dead",
    "C97_update_late",
    "C97_mode_late",
    "C97_program_late",
    "C97_what_the_node_gets",
    "C97_done",
    "C97_failed"
   ],
   "note": "The expectation is refuted and the exact condition proved. The other examples with this callback execute one command only and are not modelled as programs. Reading is taken to happen between the writes of a round, as in C59."
  },
  {
   "property": "C98",
   "status": "proved",
   "theorems": [
    "C98_arrived",
    "C98_call",
    "C98_calls",
    "C98_modem",
    "C98_result"
   ],
   "note": "For frames accepted by the parser (sent_ok); damaged traffic is the subject of C82. Which frames are complete is stated from the bytes alone (arrived), and C98_arrived shows that this has exactly one answer."
  },
  {
   "property": "C99",
   "status": "proved",
   "theorems": [
    "C99_made",
    "C99_hop",
    "C99_same_iff",
    "C99_forward",
    "C99_hops",
    "C99_reach",
    "C99_end"
   ],
   "note": "The new command is made with the constructor of Command (generated tag). The if-and-only-if covers commands with empty file data, whose operand is not written, whatever the next node may read in its place. C99_estimates shows that the fourth hop is needed."
  },
  {
   "property": "C100",
   "status": "proved",
   "theorems": [
    "C100_each_byte_once",
    "C100_overtakes",
    "C100_overtaken",
    "C100_in_order",
    "C100_single_reader",
    "C100_readers",
    "C100_after_stop",
    "C100_waits_for_last",
    "C100_stopped",
    "C100_still_handed_refuted",
    "C100_no_deadlock",
    "C100_stop_returns",
    "C100_comes_to_rest",
    "C100_after_failure",
    "C100_stop_in_callback"
   ],
   "note": "What happens to a byte after it was handed over is left open in this model (any duration, any calls, any result), so nothing is claimed about the messages: two readers inside the parser at once are not excluded. C100_after_stop holds from any state. C100_comes_to_rest supplies the resting states of C100_no_deadlock and C100_stop_returns. C100_still_handed_refuted refutes that nothing is handed over once stop_reading has returned."
  },
  {
   "property": "C101",
   "status": "proved",
   "theorems": [
    "C101_undisturbed",
    "C101_one_by_one",
    "C101_one_by_one_exists",
    "C101_only_whole_frames",
    "C101_raises",
    "C101_never_waits",
    "C101_twice_refuted",
    "C101_lost_refuted",
    "C101_ends_refuted",
    "C101_comes_out",
    "C101_ends"
   ],
   "note": "The counters are updated in one step, and the text and position in an error report are left out. C101_twice_refuted and C101_lost_refuted refute exactly-once delivery for threads that disturb each other; C101_ends_refuted gives an endless schedule; C101_undisturbed and C101_one_by_one reduce undisturbed calls to the sequential receiver of C05-C12."
  },
  {
   "property": "C102",
   "status": "proved",
   "theorems": [
    "C102_parts",
    "C102_in_order",
    "C102_taking_turns",
    "C102_stop_then_start",
    "C102_comes_to_rest",
    "C102_nobody_stuck",
    "C102_raise_ends",
    "C102_raises_for_ever",
    "C102_whole_frames",
    "C102_other_type_refuted",
    "C102_lost_refuted",
    "C102_twice_refuted",
    "C102_never_stops_refuted"
   ],
   "note": "Composition of the models of C100 and C101; what follows a call of parse (responses and callbacks) is left open as in C100. The four theorems _refuted show what goes wrong with a second reader; the statement contains them."
  },
  {
   "property": "C103",
   "status": "proved",
   "theorems": [
    "C103_same",
    "C103_position",
    "C103_position_unique",
    "C103_explains",
    "C103_one_text",
    "C103_header_entry",
    "C103_payload_entry"
   ],
   "note": "MWhere is the ALP parser once more with position and text; C103_same proves it equal to the parser of the other theorems. The wording of enum (not a valid) and of an AttributeError is that of enum34 and CPython 2.7; what cerberus puts in a ValueError is left open (no text). For a library whose read(bool) raises another error at the end of the stream (lib false) an entry may be about missing bits; its text is not stated."
  },
  {
   "property": "C104",
   "status": "proved",
   "theorems": [
    "C104_parts",
    "C104_each_once",
    "C104_all",
    "C104_forgotten",
    "C104_in_order",
    "C104_stop_then_start",
    "C104_stopped",
    "C104_ends",
    "C104_all_taken",
    "C104_never_taken",
    "C104_no_reader",
    "C104_order_refuted",
    "C104_after_stop_refuted",
    "C104_none_forgotten_refuted",
    "C104_always_taken_refuted"
   ],
   "note": "MDeliver adds the loop over the returned messages to MStation. A message counts as handled when the loop takes it; which of the branches it then goes through is the subject of C47 to C50 and others and left open here. The four refuted claims have witnesses. In C104_ends a callback is one step: it is assumed to return."
  },
  {
   "property": "C105",
   "status": "proved",
   "theorems": [
    "C105_one_reader",
    "C105_nothing_lost",
    "C105_results_received",
    "C105_exception_needs_another",
    "C105_serialised_calls",
    "C105_all_answers_refuted",
    "C105_order_refuted"
   ],
   "note": "MCrowd runs the steps of MSync (C68) with any number of readers; C105_one_reader says that one reader is C68. The expectation that a call gives back all answers in order is refuted for two readers by two theorems."
  },
  {
   "property": "C106",
   "status": "proved",
   "theorems": [
    "C106_alone",
    "C106_alternately",
    "C106_alternately_exists",
    "C106_comes_out",
    "C106_byte_at_rest",
    "C106_errors_bounded",
    "C106_recovers",
    "C106_no_false_alarm_refuted",
    "C106_all_counted_refuted",
    "C106_never_decreases_refuted",
    "C106_always_byte_refuted",
    "C106_messages_unaffected"
   ],
   "note": "MTally has lines 169-175 in steps of one load or store; which thread comes to them with which frame is not restricted, and the other lines of parse are in MInside (C101), which does these in one step. C106_messages_unaffected says that in MInside nothing but the counters depends on the counters, so that the two models can be separate. Four expectations are refuted by theorems."
  },
  {
   "property": "C107",
   "status": "proved",
   "theorems": [
    "C107_counted",
    "C107_in_chunks",
    "C107_one_call_counts_least",
    "C107_arrivals",
    "C107_damage_is_loss_refuted",
    "C107_no_loss_no_count_refuted"
   ],
   "note": "The headers looked at are read off the rounds of parse (C88_rounds: the same states, messages and errors as MSerial). For calls that do not raise in C107_in_chunks; C107_counted also for those that raise. Two expectations are refuted by theorems; C51 and C08 are about special cases."
  },
  {
   "property": "C108",
   "status": "proved",
   "theorems": [
    "C108_connect_all_lost",
    "C108_connect_retry",
    "C108_connect_then_converse",
    "C108_come",
    "C108_calls",
    "C108_modem",
    "C108_reader",
    "C108_same_as_undamaged",
    "C108_result",
    "C108_damaged_answer",
    "C108_results",
    "C108_other_messages",
    "C108_peer_receives",
    "C108_commands_lost",
    "C108_connect",
    "C108_connect_lost"
   ],
   "note": "Generalises C98 (C108_calls, C108_modem, C108_result) and C69 (C108_results, C108_other_messages) to lines with damaged frames as in C107: a header with the right length, no 0xC0 after the first byte, CRC not that of the payload. Damage that hits the sync byte, version or length is the subject of C04 and C82."
  }
 ]
}
