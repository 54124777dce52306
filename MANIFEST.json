{
 "claims": [
  {
   "property": "C01",
   "status": "proved",
   "theorems": [
    "C01_access_round_trip",
    "C01_family_round_trip"
   ],
   "note": ""
  },
  {
   "property": "C02",
   "status": "proved",
   "theorems": [
    "C02_unknown_opcode_transparent",
    "C02_unknown_opcode_bytes"
   ],
   "note": ""
  },
  {
   "property": "C03",
   "status": "proved",
   "theorems": [
    "C03_opcode_build",
    "C03_opcode_parse",
    "C03_legal_opcodes",
    "C03_prefix_free",
    "C03_7F_rejected"
   ],
   "note": ""
  },
  {
   "property": "C04",
   "status": "proved",
   "theorems": [
    "C04_opcodes_legal",
    "C04_value_determines_family",
    "C04_name_determines_family"
   ],
   "note": ""
  },
  {
   "property": "C05",
   "status": "proved",
   "theorems": [
    "C05_parse_terminates",
    "C05_build_terminates",
    "C05_family_parse_terminates"
   ],
   "note": ""
  },
  {
   "property": "C06",
   "status": "proved",
   "theorems": [
    "C06_parsing_is_local",
    "C06_access_trailing_bytes",
    "C06_sub_message"
   ],
   "note": ""
  },
  {
   "property": "C07",
   "status": "proved",
   "theorems": [
    "C07_injective"
   ],
   "note": ""
  },
  {
   "property": "C08",
   "status": "proved",
   "theorems": [
    "C08_descriptors",
    "C08_sensor_data",
    "C08_params",
    "C08_access",
    "C08_43_tenths_refuted",
    "C08_scene_status_refuted",
    "C08_unknown_time_refuted"
   ],
   "note": ""
  },
  {
   "property": "C09",
   "status": "proved",
   "theorems": [
    "C09_same_argument",
    "C09_only_mentioned_keys",
    "C09_unknown_key",
    "C09_key_order",
    "C09_access_message",
    "C09_extended_items_first_entry_refuted",
    "C09_empty_sensor_setting_refuted"
   ],
   "note": ""
  },
  {
   "property": "C10",
   "status": "proved",
   "theorems": [
    "C10_member_number_name",
    "C10_others_rejected",
    "C10_parse",
    "C10_switch_key_by_name_refuted"
   ],
   "note": ""
  },
  {
   "property": "C11",
   "status": "proved",
   "theorems": [
    "C11_build_in_range",
    "C11_build_out_of_range",
    "C11_parse",
    "C11_round_trip"
   ],
   "note": ""
  },
  {
   "property": "C12",
   "status": "proved",
   "theorems": [
    "C12_bits_keep_low_bits",
    "C12_bytesint_in_range",
    "C12_bytesint_negative_rejected",
    "C12_out_of_range_rejected_refuted",
    "C12_int24_overflow",
    "C12_bytesint_overflow",
    "C12_bytesint_too_long_rejected"
   ],
   "note": "the first sentence is refuted (C12_out_of_range_rejected_refuted); the theorems prove the precise version, for every integer and every width"
  },
  {
   "property": "C13",
   "status": "proved",
   "theorems": [
    "C13_address_type",
    "C13_partition"
   ],
   "note": ""
  },
  {
   "property": "C14",
   "status": "proved",
   "theorems": [
    "C14_address_fields"
   ],
   "note": ""
  },
  {
   "property": "C15",
   "status": "proved",
   "theorems": [
    "C15_round_trip"
   ],
   "note": ""
  },
  {
   "property": "C16",
   "status": "proved",
   "theorems": [
    "C16_packing",
    "C16_length",
    "C16_any_integers"
   ],
   "note": ""
  },
  {
   "property": "C17",
   "status": "proved",
   "theorems": [
    "C17_unchanged",
    "C17_opcode_by_name",
    "C17_time",
    "C17_twice",
    "C17_key_list_refuted"
   ],
   "note": ""
  },
  {
   "property": "C18",
   "status": "proved",
   "theorems": [
    "C18_encode",
    "C18_too_long_rejected",
    "C18_decode"
   ],
   "note": ""
  },
  {
   "property": "C19",
   "status": "proved",
   "theorems": [
    "C19_fixed_points",
    "C19_43_refuted",
    "C19_literals"
   ],
   "note": ""
  },
  {
   "property": "C20",
   "status": "proved",
   "theorems": [
    "C20_build",
    "C20_parse_refuted",
    "C20_gap"
   ],
   "note": ""
  },
  {
   "property": "C21",
   "status": "proved",
   "theorems": [
    "C21_decode",
    "C21_encode",
    "C21_too_long_rejected",
    "C21_reencode",
    "C21_whole_seconds"
   ],
   "note": ""
  },
  {
   "property": "C22",
   "status": "proved",
   "theorems": [
    "C22_all_fields",
    "C22_round_trip"
   ],
   "note": ""
  },
  {
   "property": "C23",
   "status": "proved",
   "theorems": [
    "C23_nearest",
    "C23_unknown",
    "C23_unknown_alias_refuted"
   ],
   "note": ""
  },
  {
   "property": "C24",
   "status": "proved",
   "theorems": [
    "C24_all_fields",
    "C24_decode",
    "C24_encode",
    "C24_special"
   ],
   "note": ""
  },
  {
   "property": "C25",
   "status": "proved",
   "theorems": [
    "C25_all_fields",
    "C25_decode",
    "C25_round_trip",
    "C25_encode"
   ],
   "note": ""
  },
  {
   "property": "C26",
   "status": "proved",
   "theorems": [
    "C26_all_fields",
    "C26_build",
    "C26_parse",
    "C26_reject",
    "C26_network_sent",
    "C26_network_refused",
    "C26_network_received"
   ],
   "note": ""
  },
  {
   "property": "C27",
   "status": "proved",
   "theorems": [
    "C27_all_fields",
    "C27_build",
    "C27_same_set",
    "C27_parse",
    "C27_round_trip",
    "C27_any_size"
   ],
   "note": ""
  },
  {
   "property": "C28",
   "status": "proved",
   "theorems": [
    "C28_all_fields",
    "C28_entry_ids",
    "C28_rule_ids"
   ],
   "note": ""
  },
  {
   "property": "C29",
   "status": "proved",
   "theorems": [
    "C29_round_trip",
    "C29_build",
    "C29_C30_C31_all_fields"
   ],
   "note": ""
  },
  {
   "property": "C30",
   "status": "proved",
   "theorems": [
    "C30_text",
    "C30_reencode_refuted",
    "C29_C30_C31_all_fields"
   ],
   "note": "the re-encoding half is refuted for every address (C30_reencode_refuted), the text half proved"
  },
  {
   "property": "C31",
   "status": "proved",
   "theorems": [
    "C31_parse",
    "C31_build",
    "C31_build_plain",
    "C31_build_dict",
    "C31_calendar_functional",
    "C31_calendar_total",
    "C29_C30_C31_all_fields"
   ],
   "note": ""
  },
  {
   "property": "C32",
   "status": "proved",
   "theorems": [
    "C32_parse",
    "C32_parse_unknown",
    "C32_octets",
    "C32_round_trip",
    "C32_any_date",
    "C32_other_spellings",
    "C32_uncertainty_octet"
   ],
   "note": ""
  },
  {
   "property": "C33",
   "status": "proved",
   "theorems": [
    "C33_complete_or_seconds",
    "C33_complete_message",
    "C33_complete_message_refuted",
    "C33_short_message_rejected"
   ],
   "note": "the first sentence is refuted (C33_complete_message_refuted); C33_complete_or_seconds proves the precise version for every complete object"
  },
  {
   "property": "C34",
   "status": "proved",
   "theorems": [
    "C34_zone_and_delta",
    "C34_zone_off_grid_rejected",
    "C34_fractional_delta_rejected",
    "C34_out_of_range_delta_refuted"
   ],
   "note": ""
  },
  {
   "property": "C35",
   "status": "proved",
   "theorems": [
    "C35_parse",
    "C35_round_trip",
    "C35_all_fields"
   ],
   "note": ""
  },
  {
   "property": "C36",
   "status": "proved",
   "theorems": [
    "C36_faults_omitted",
    "C36_lengths",
    "C36_long",
    "C36_short",
    "C36_all_or_nothing",
    "C36_received",
    "C36_coverage"
   ],
   "note": ""
  },
  {
   "property": "C37",
   "status": "proved",
   "theorems": [
    "C37_never_an_error",
    "C37_silently_short",
    "C37_error_iff",
    "C37_named_form_reported",
    "C37_invalid_optional_reported_refuted"
   ],
   "note": "the first sentence is refuted; C37_error_iff proves the precise version"
  },
  {
   "property": "C38",
   "status": "proved",
   "theorems": [
    "C38_passed_count_ignored",
    "C38_coverage",
    "C38_page0_element",
    "C38_page1_element",
    "C38_mesh_profile_entry",
    "C38_relation_item",
    "C38_relation_item_64_refuted",
    "C38_received"
   ],
   "note": ""
  },
  {
   "property": "C39",
   "status": "proved",
   "theorems": [
    "C39_utf8_decode_encode",
    "C39_utf8_encode_decode",
    "C39_utf8_domain",
    "C39_utf8_ascii",
    "C39_fixed_build",
    "C39_fixed_rejects",
    "C39_fixed_parse",
    "C39_fixed_round_trip",
    "C39_trailing_nul",
    "C39_fixed_property_bytes",
    "C39_fixed_property_str",
    "C39_fixed_property_parse",
    "C39_not_text_rejected",
    "C39_pascal_build",
    "C39_pascal_parse",
    "C39_pascal_round_trip",
    "C39_greedy",
    "C39_greedy_total",
    "C39_greedy_not_utf8",
    "C39_counted_build",
    "C39_counted_parse",
    "C39_coverage"
   ],
   "note": ""
  },
  {
   "property": "C40",
   "status": "proved",
   "theorems": [
    "C40_head_octets",
    "C40_head_unique",
    "C40_head_total",
    "C40_build_known",
    "C40_build_unknown",
    "C40_build_head",
    "C40_rejects",
    "C40_short_format_spills_refuted",
    "C40_parse"
   ],
   "note": ""
  },
  {
   "property": "C41",
   "status": "proved",
   "theorems": [
    "C41_received",
    "C41_unreadable_entry_refuted",
    "C41_round_trip",
    "C41_wrong_length_refuted"
   ],
   "note": ""
  },
  {
   "property": "C42",
   "status": "proved",
   "theorems": [
    "C42_received",
    "C42_round_trip",
    "C42_exactly",
    "C42_four_short_refuted"
   ],
   "note": ""
  },
  {
   "property": "C43",
   "status": "proved",
   "theorems": [
    "C43_sent",
    "C43_sent_only",
    "C43_unknown_id_rejected",
    "C43_missing_value_rejected",
    "C43_missing_auto_resume_mode_refuted",
    "C43_received",
    "C43_received_unknown_rejected",
    "C43_received_bad_value_rejected",
    "C43_round_trip"
   ],
   "note": ""
  },
  {
   "property": "C44",
   "status": "proved",
   "theorems": [
    "C44_raw_sent",
    "C44_raw_received",
    "C44_reencoded",
    "C44_known_sent",
    "C44_known_received",
    "C44_known_bad_value_rejected",
    "C44_known_missing_rejected",
    "C44_known_round_trip",
    "C44_known_bad_octets_rejected"
   ],
   "note": ""
  },
  {
   "property": "C45",
   "status": "proved",
   "theorems": [
    "C45_sent_as_zero",
    "C45_part_sent_as_zero",
    "C45_ignored",
    "C45_part_ignored",
    "C45_coverage"
   ],
   "note": ""
  },
  {
   "property": "C46",
   "status": "proved",
   "theorems": [
    "C46_truncation_parse",
    "C46_truncation",
    "C46_optional_truncated_refuted",
    "C46_sub_truncation_parse",
    "C46_sub_truncation",
    "C46_exceptions_are_real",
    "C46_sub_exceptions_are_real"
   ],
   "note": "the exceptions are listed and shown to be real (C46_exceptions_are_real, C46_sub_exceptions_are_real)"
  },
  {
   "property": "C47",
   "status": "proved",
   "theorems": [
    "C47_params_carried_refuted",
    "C47_params_carried",
    "C47_dropped_exactly"
   ],
   "note": "refuted for exactly seven opcodes (C47_dropped_exactly), proved for the others"
  },
  {
   "property": "C48",
   "status": "proved",
   "theorems": [
    "C48_sub_opcodes_distinct_refuted",
    "C48_sub_opcodes_distinct"
   ],
   "note": "refuted for one pair (C48_sub_opcodes_distinct_refuted), proved for every other family"
  },
  {
   "property": "C49",
   "status": "proved",
   "theorems": [
    "C49_parse_agrees",
    "C49_build_agrees",
    "C49_build_by_name",
    "C49_other_names_rejected",
    "C49_contents_sent",
    "C49_contents_received",
    "C49_message_build",
    "C49_message_parse",
    "C49_params_complete",
    "C49_submessage_build",
    "C49_submessage_parse"
   ],
   "note": ""
  },
  {
   "property": "C50",
   "status": "proved",
   "theorems": [
    "C50_embedded_refuted",
    "C50_embedded_unknown",
    "C50_embedded_known",
    "C50_embedded_other_family_rejected"
   ],
   "note": "refuted for known opcodes (C50_embedded_refuted); the theorems say what is decoded instead"
  },
  {
   "property": "C51",
   "status": "proved",
   "theorems": [
    "C51_name_round_trip",
    "C51_round_trip",
    "C51_vocabulary",
    "C51_message",
    "C51_app_key_indices_refuted",
    "C51_gatt_proxy_refuted",
    "C51_digits_then_letters_refuted",
    "C51_one_letter_words_refuted",
    "C51_date_parts",
    "C51_date_again",
    "C51_time_again",
    "C51_octets"
   ],
   "note": ""
  },
  {
   "property": "C52",
   "status": "proved",
   "theorems": [
    "C52_build",
    "C52_parse",
    "C52_coverage",
    "C52_sub_build",
    "C52_sub_parse",
    "C52_sub_coverage",
    "C52_part_build",
    "C52_part_parse",
    "C52_delta_uv_signed_refuted",
    "C52_feature_order_refuted"
   ],
   "note": ""
  },
  {
   "property": "C53",
   "status": "proved",
   "theorems": [
    "C53_ordinals",
    "C53_complete",
    "C53_names",
    "C53_unnamed_union_refuted",
    "C53_struct_twice_refuted",
    "C53_member_lost_refuted",
    "C53_library_schema"
   ],
   "note": ""
  },
  {
   "property": "C54",
   "status": "proved",
   "theorems": [
    "C54_fits",
    "C54_schema",
    "C54_limits_reached",
    "C54_test_messages"
   ],
   "note": "C54_fits is an equivalence; the first sentence is false for the messages that break a limit (C54_limits_reached)"
  },
  {
   "property": "C55",
   "status": "proved",
   "theorems": [
    "C55_recode",
    "C55_received",
    "C55_same_bytes",
    "C55_test_messages",
    "C55_limits_reached",
    "C55_steps_lost",
    "C55_delays_lost"
   ],
   "note": "C55_recode, C55_received and C55_same_bytes for every message outside the listed exceptions, each of which is reached (C55_limits_reached, C55_steps_lost, C55_delays_lost; 43 tenths is already an exception of C08)"
  },
  {
   "property": "C56",
   "status": "proved",
   "theorems": [
    "C56_received",
    "C56_reached"
   ],
   "note": ""
  },
  {
   "property": "C57",
   "status": "proved",
   "theorems": [
    "C57_sent",
    "C57_received",
    "C57_sub_sent",
    "C57_sub_received",
    "C57_accepted",
    "C57_sub_accepted"
   ],
   "note": ""
  },
  {
   "property": "C58",
   "status": "proved",
   "theorems": [
    "C58_sent",
    "C58_received",
    "C58_accepted",
    "C58_unknown_rejected",
    "C58_sub_sent",
    "C58_sub_received",
    "C58_sub_accepted",
    "C58_sub_unknown_rejected",
    "C58_setting_sent",
    "C58_setting_accepted",
    "C58_sensor_status_sent",
    "C58_sensor_status_accepted"
   ],
   "note": ""
  },
  {
   "property": "C59",
   "status": "proved",
   "theorems": [
    "C59_auto_sent",
    "C59_dns_sent",
    "C59_static_sent",
    "C59_status_sent",
    "C59_set_accepted",
    "C59_set_received",
    "C59_status_accepted",
    "C59_status_received",
    "C59_address_sent",
    "C59_address_accepted",
    "C59_address_received"
   ],
   "note": ""
  },
  {
   "property": "C60",
   "status": "proved",
   "theorems": [
    "C60_accepted",
    "C60_received",
    "C60_sent",
    "C60_built",
    "C60_sub_accepted",
    "C60_sub_received",
    "C60_sub_sent",
    "C60_sub_built"
   ],
   "note": ""
  }
 ]
}