{
 "claims": [
  {
   "property": "C01",
   "status": "proved",
   "theorems": [
    "C01_load_save_load",
    "C01_any_hashing_refuted"
   ],
   "note": ""
  },
  {
   "property": "C02",
   "status": "proved",
   "theorems": [
    "C02_save_load_iff",
    "C02_representable_saves",
    "C02_any_hashing"
   ],
   "note": ""
  },
  {
   "property": "C03",
   "status": "proved",
   "theorems": [
    "C03_fixed_point",
    "C03_injective",
    "C03_unconditional_refuted"
   ],
   "note": ""
  },
  {
   "property": "C04",
   "status": "proved",
   "theorems": [
    "C04_truncation"
   ],
   "note": ""
  },
  {
   "property": "C05",
   "status": "proved",
   "theorems": [
    "C05_suffix_ignored",
    "C05_prefix_decides",
    "C05_container_suffix",
    "C05_container_lenient",
    "C05_container_lenient_refuted"
   ],
   "note": ""
  },
  {
   "property": "C06",
   "status": "proved",
   "theorems": [
    "C06_terminates",
    "C06_bound"
   ],
   "note": ""
  },
  {
   "property": "C07",
   "status": "proved",
   "theorems": [
    "C07_round_trip_iff",
    "C07_null",
    "C07_long_rejected",
    "C07_every_string"
   ],
   "note": ""
  },
  {
   "property": "C08",
   "status": "proved",
   "theorems": [
    "C08_accepts_iff",
    "C08_length_error",
    "C08_terminator_error",
    "C08_encoding_error"
   ],
   "note": ""
  },
  {
   "property": "C09",
   "status": "proved",
   "theorems": [
    "C09_same_bytes_iff"
   ],
   "note": ""
  },
  {
   "property": "C10",
   "status": "proved",
   "theorems": [
    "C10_write_read_iff",
    "C10_read_write_read"
   ],
   "note": ""
  },
  {
   "property": "C11",
   "status": "proved",
   "theorems": [
    "C11_accepts_iff",
    "C11_file_type",
    "C11_save_version",
    "C11_package_version",
    "C11_package_version_ue5",
    "C11_custom_format"
   ],
   "note": ""
  },
  {
   "property": "C12",
   "status": "proved",
   "theorems": [
    "C12_header_never_panics",
    "C12_header_terminates"
   ],
   "note": ""
  },
  {
   "property": "C13",
   "status": "proved",
   "theorems": [
    "C13_declared_size",
    "C13_size_unique",
    "C13_inner_size",
    "C13_inner_unique",
    "C13_byte_size_refuted"
   ],
   "note": ""
  },
  {
   "property": "C14",
   "status": "proved",
   "theorems": [
    "C14_written_size",
    "C14_representable",
    "C14_skippable",
    "C14_inner_size"
   ],
   "note": ""
  },
  {
   "property": "C15",
   "status": "proved",
   "theorems": [
    "C15_header",
    "C15_header_written",
    "C15_array",
    "C15_array_written",
    "C15_set",
    "C15_set_written",
    "C15_map_empty"
   ],
   "note": ""
  },
  {
   "property": "C16",
   "status": "proved",
   "theorems": [
    "C16_version",
    "C16_read",
    "C16_read_others",
    "C16_written",
    "C16_written_property",
    "C16_saved",
    "C16_wrong_precision"
   ],
   "note": ""
  },
  {
   "property": "C17",
   "status": "proved",
   "theorems": [
    "C17_version",
    "C17_read_argument",
    "C17_read_culture",
    "C17_written",
    "C17_wrong_width",
    "C17_loss",
    "C17_no_loss",
    "C17_file_loss",
    "C17_file_reload"
   ],
   "note": ""
  },
  {
   "property": "C18",
   "status": "proved",
   "theorems": [
    "C18_lossless",
    "C18_same_bytes",
    "C18_struct_bytes",
    "C18_refuses_iff"
   ],
   "note": ""
  },
  {
   "property": "C19",
   "status": "proved",
   "theorems": [
    "C19_lossless",
    "C19_same_bytes"
   ],
   "note": ""
  },
  {
   "property": "C20",
   "status": "proved",
   "theorems": [
    "C20_order",
    "C20_no_repeats",
    "C20_unique",
    "C20_any_hashing_refuted"
   ],
   "note": ""
  },
  {
   "property": "C21",
   "status": "proved",
   "theorems": [
    "C21_file_iff",
    "C21_unique",
    "C21_no_repeats",
    "C21_written"
   ],
   "note": ""
  },
  {
   "property": "C22",
   "status": "proved",
   "theorems": [
    "C22_more_hints"
   ],
   "note": ""
  },
  {
   "property": "C23",
   "status": "proved",
   "theorems": [
    "C23_missing",
    "C23_progress",
    "C23_asking_converges"
   ],
   "note": ""
  },
  {
   "property": "C24",
   "status": "proved",
   "theorems": [
    "C24_property",
    "C24_struct",
    "C24_map_entry",
    "C24_hint_path"
   ],
   "note": ""
  },
  {
   "property": "C25",
   "status": "proved",
   "theorems": [
    "C25_last_entry",
    "C25_header"
   ],
   "note": ""
  },
  {
   "property": "C26",
   "status": "proved",
   "theorems": [
    "C26_container_round_trip"
   ],
   "note": ""
  },
  {
   "property": "C27",
   "status": "proved",
   "theorems": [
    "C27_fields",
    "C27_read",
    "C27_bad_magic",
    "C27_bad_mode"
   ],
   "note": ""
  },
  {
   "property": "C28",
   "status": "proved",
   "theorems": [
    "C28_failure",
    "C28_success"
   ],
   "note": ""
  },
  {
   "property": "C29",
   "status": "proved",
   "theorems": [
    "C29_save_delivers",
    "C29_failing",
    "C29_header_calls",
    "C29_calls_deliver",
    "C29_string_dropped",
    "C29_header_refuted"
   ],
   "note": ""
  },
  {
   "property": "C30",
   "status": "proved",
   "theorems": [
    "C30_u128_of_bytes",
    "C30_bytes_of_u128",
    "C30_u32_of_bytes",
    "C30_bytes_of_u32",
    "C30_words_digits",
    "C30_bytes_digits",
    "C30_zero_iff"
   ],
   "note": ""
  },
  {
   "property": "C31",
   "status": "proved",
   "theorems": [
    "C31_round_trip",
    "C31_printed",
    "C31_printed_zero",
    "C31_cleaned_unique",
    "C31_accepts_iff",
    "C31_panics_iff"
   ],
   "note": ""
  },
  {
   "property": "C32",
   "status": "proved",
   "theorems": [
    "C32_reflexive",
    "C32_transitive",
    "C32_symmetric",
    "C32_representable_unique",
    "C32_symmetric_refuted",
    "C32_equal_iff",
    "C32_same_iff",
    "C32_lookups",
    "C32_lookups_exact",
    "C32_lookups_exact_refuted",
    "C32_fields_iff",
    "C32_floats",
    "C32_doubles",
    "C32_hash_agrees",
    "C32_order_equal",
    "C32_order_hashes_differ",
    "C32_hash_contract_refuted"
   ],
   "note": ""
  },
  {
   "property": "C33",
   "status": "proved",
   "theorems": [
    "C33_string",
    "C33_count",
    "C33_struct_count",
    "C33_text_count",
    "C33_header_count",
    "C33_exact",
    "C33_stored_size"
   ],
   "note": ""
  },
  {
   "property": "C34",
   "status": "proved",
   "theorems": [
    "C34_sites",
    "C34_reachable",
    "C34_saved_never_panics"
   ],
   "note": ""
  },
  {
   "property": "C35",
   "status": "proved",
   "theorems": [
    "C35_positions"
   ],
   "note": ""
  },
  {
   "property": "C36",
   "status": "proved",
   "theorems": [
    "C36_property",
    "C36_struct",
    "C36_text",
    "C36_file",
    "C36_hollow",
    "C36_unbounded"
   ],
   "note": ""
  },
  {
   "property": "C37",
   "status": "proved",
   "theorems": [
    "C37_engine_version",
    "C37_injective",
    "C37_editor_monotone",
    "C37_latest_above_plus_one",
    "C37_editor_complete",
    "C37_constants"
   ],
   "note": ""
  },
  {
   "property": "C38",
   "status": "proved",
   "theorems": [
    "C38_read_iff",
    "C38_wrong_index_panics",
    "C38_written_iff"
   ],
   "note": ""
  },
  {
   "property": "C39",
   "status": "proved",
   "theorems": [
    "C39_writers",
    "C39_text",
    "C39_saving",
    "C39_saving_small",
    "C39_saving_fails",
    "C39_property",
    "C39_saving_loaded",
    "C39_saving_valid",
    "C39_release_agrees"
   ],
   "note": ""
  },
  {
   "property": "C40",
   "status": "proved",
   "theorems": [
    "C40_size",
    "C40_reload"
   ],
   "note": ""
  },
  {
   "property": "C41",
   "status": "proved",
   "theorems": [
    "C41_load_iff",
    "C41_little_endian",
    "C41_file_iff",
    "C41_property_iff",
    "C41_text_iff",
    "C41_any_hashing",
    "C41_file_unambiguous",
    "C41_property_unambiguous",
    "C41_saved",
    "C41_property_written"
   ],
   "note": ""
  },
  {
   "property": "C42",
   "status": "proved",
   "theorems": [
    "C42_round_trip",
    "C42_any_hashing",
    "C42_property",
    "C42_property_any_hashing",
    "C42_injective",
    "C42_injective_refuted",
    "C42_colliding_refuted"
   ],
   "note": ""
  },
  {
   "property": "C43",
   "status": "proved",
   "theorems": [
    "C43_loaded",
    "C43_loaded_well_formed",
    "C43_all_refuted"
   ],
   "note": ""
  },
  {
   "property": "C44",
   "status": "proved",
   "theorems": [
    "C44_typed",
    "C44_again",
    "C44_all_refuted"
   ],
   "note": ""
  },
  {
   "property": "C45",
   "status": "proved",
   "theorems": [
    "C45_well_formed",
    "C45_shape",
    "C45_type"
   ],
   "note": ""
  },
  {
   "property": "C46",
   "status": "proved",
   "theorems": [
    "C46_panic",
    "C46_ascii",
    "C46_own",
    "C46_never_refuted"
   ],
   "note": ""
  },
  {
   "property": "C47",
   "status": "proved",
   "theorems": [
    "C47_file",
    "C47_embedded",
    "C47_header",
    "C47_property",
    "C47_text",
    "C47_container"
   ],
   "note": ""
  },
  {
   "property": "C48",
   "status": "proved",
   "theorems": [
    "C48_read_property",
    "C48_read_entries",
    "C48_write_property",
    "C48_new_header",
    "C48_needed"
   ],
   "note": ""
  },
  {
   "property": "C49",
   "status": "proved",
   "theorems": [
    "C49_segments",
    "C49_part",
    "C49_file"
   ],
   "note": ""
  },
  {
   "property": "C50",
   "status": "proved",
   "theorems": [
    "C50_bound",
    "C50_unbounded"
   ],
   "note": ""
  },
  {
   "property": "C51",
   "status": "proved",
   "theorems": [
    "C51_written",
    "C51_read",
    "C51_read_int32",
    "C51_read_int64",
    "C51_unique",
    "C51_infinite"
   ],
   "note": ""
  },
  {
   "property": "C52",
   "status": "proved",
   "theorems": [
    "C52_part",
    "C52_file",
    "C52_every_edit",
    "C52_length"
   ],
   "note": ""
  },
  {
   "property": "C53",
   "status": "proved",
   "theorems": [
    "C53_pieces",
    "C53_anywhere",
    "C53_failure",
    "C53_consumed"
   ],
   "note": ""
  },
  {
   "property": "C54",
   "status": "proved",
   "theorems": [
    "C54_file",
    "C54_loaded",
    "C54_property",
    "C54_text",
    "C54_read"
   ],
   "note": ""
  },
  {
   "property": "C55",
   "status": "proved",
   "theorems": [
    "C55_session",
    "C55_container",
    "C55_drop_null_key_refuted",
    "C55_drop_last_byte_refuted",
    "C55_raw_length_refuted"
   ],
   "note": ""
  },
  {
   "property": "C56",
   "status": "proved",
   "theorems": [
    "C56_get",
    "C56_variant",
    "C56_some",
    "C56_one",
    "C56_modify",
    "C56_struct_get",
    "C56_struct_one",
    "C56_struct_none",
    "C56_struct_modify",
    "C56_from_guid",
    "C56_from_fixed",
    "C56_map_from",
    "C56_version_text",
    "C56_version_injective"
   ],
   "note": ""
  },
  {
   "property": "C57",
   "status": "proved",
   "theorems": [
    "C57_file",
    "C57_property",
    "C57_text",
    "C57_backwards",
    "C57_keys_refuted",
    "C57_kinds_refuted",
    "C57_spellings_refuted"
   ],
   "note": ""
  },
  {
   "property": "C58",
   "status": "proved",
   "theorems": [
    "C58_same",
    "C58_accepted",
    "C58_property",
    "C58_held",
    "C58_held_property",
    "C58_string",
    "C58_container",
    "C58_any",
    "C58_range",
    "C58_rejected_refuted",
    "C58_container_refuted"
   ],
   "note": ""
  },
  {
   "property": "C59",
   "status": "proved",
   "theorems": [
    "C59_exact_iff",
    "C59_canonical_kept",
    "C59_saved_canonical",
    "C59_canonical_in_format",
    "C59_one_form",
    "C59_string",
    "C59_text",
    "C59_property"
   ],
   "note": ""
  },
  {
   "property": "C60",
   "status": "proved",
   "theorems": [
    "C60_reported",
    "C60_twice",
    "C60_stops",
    "C60_crash_plain",
    "C60_crash_none",
    "C60_twice_loads",
    "C60_twice_refuted"
   ],
   "note": ""
  },
  {
   "property": "C61",
   "status": "proved",
   "theorems": [
    "C61_text",
    "C61_wording",
    "C61_where",
    "C61_saving",
    "C61_tells"
   ],
   "note": ""
  },
  {
   "property": "C62",
   "status": "proved",
   "theorems": [
    "C62_reads",
    "C62_one_value",
    "C62_too_deep",
    "C62_ends",
    "C62_decimals",
    "C62_read_well_formed",
    "C62_compact",
    "C62_pretty",
    "C62_floats",
    "C62_back",
    "C62_pretty_back",
    "C62_file",
    "C62_again",
    "C62_nesting",
    "C62_shallow",
    "C62_deep",
    "C62_all_refuted",
    "C62_sharp"
   ],
   "note": ""
  },
  {
   "property": "C63",
   "status": "proved",
   "theorems": [
    "C63_determined",
    "C63_near",
    "C63_half_way",
    "C63_file",
    "C63_unchanged",
    "C63_even",
    "C63_all_refuted",
    "C63_printer"
   ],
   "note": ""
  },
  {
   "property": "C64",
   "status": "proved",
   "theorems": [
    "C64_read",
    "C64_refused",
    "C64_one",
    "C64_bound",
    "C64_any_hash",
    "C64_property",
    "C64_text",
    "C64_ascii",
    "C64_written"
   ],
   "note": ""
  },
  {
   "property": "C65",
   "status": "proved",
   "theorems": [
    "C65_text",
    "C65_one_tree",
    "C65_read",
    "C65_panic",
    "C65_settled",
    "C65_kept",
    "C65_both_ways",
    "C65_agree",
    "C65_written",
    "C65_round_trip",
    "C65_unchanged",
    "C65_typed",
    "C65_again",
    "C65_same_refuted",
    "C65_directly_refuted",
    "C65_value_refuted"
   ],
   "note": ""
  },
  {
   "property": "C66",
   "status": "proved",
   "theorems": [
    "C66_struct",
    "C66_struct_tells",
    "C66_struct_kind",
    "C66_struct_kind_refuted",
    "C66_debug_tells",
    "C66_debug_bool"
   ],
   "note": ""
  },
  {
   "property": "C67",
   "status": "proved",
   "theorems": [
    "C67_flat_prefix",
    "C67_texts_prefix",
    "C67_told_apart",
    "C67_doubles_refuted",
    "C67_property_position",
    "C67_history_position",
    "C67_argument_position",
    "C67_struct_position",
    "C67_nested_refuted",
    "C67_crowd",
    "C67_crowd_loads"
   ],
   "note": ""
  },
  {
   "property": "C68",
   "status": "proved",
   "theorems": [
    "C68_exact",
    "C68_rules_unique",
    "C68_more",
    "C68_fuel",
    "C68_contract",
    "C68_store",
    "C68_container"
   ],
   "note": ""
  },
  {
   "property": "C69",
   "status": "proved",
   "theorems": [
    "C69_saves",
    "C69_says",
    "C69_possible",
    "C69_moved",
    "C69_upward",
    "C69_any_hashing",
    "C69_back",
    "C69_keys_refuted"
   ],
   "note": ""
  },
  {
   "property": "C70",
   "status": "proved",
   "theorems": [
    "C70_property",
    "C70_file",
    "C70_finite",
    "C70_unequal",
    "C70_equal_refuted",
    "C70_one_line",
    "C70_refusal"
   ],
   "note": ""
  },
  {
   "property": "C71",
   "status": "proved",
   "theorems": [
    "C71_file",
    "C71_property",
    "C71_header"
   ],
   "note": ""
  },
  {
   "property": "C72",
   "status": "proved",
   "theorems": [
    "C72_plain",
    "C72_container"
   ],
   "note": ""
  },
  {
   "property": "C73",
   "status": "proved",
   "theorems": [
    "C73_open",
    "C73_completed",
    "C73_container",
    "C73_final",
    "C73_container_refuted"
   ],
   "note": ""
  },
  {
   "property": "C74",
   "status": "proved",
   "theorems": [
    "C74_property",
    "C74_struct",
    "C74_text",
    "C74_shown"
   ],
   "note": ""
  },
  {
   "property": "C75",
   "status": "proved",
   "theorems": [
    "C75_declared",
    "C75_tells",
    "C75_one_line",
    "C75_utf8",
    "C75_source"
   ],
   "note": ""
  },
  {
   "property": "C76",
   "status": "proved",
   "theorems": [
    "C76_value",
    "C76_file",
    "C76_debug",
    "C76_error"
   ],
   "note": ""
  },
  {
   "property": "C77",
   "status": "proved",
   "theorems": [
    "C77_iff",
    "C77_container"
   ],
   "note": ""
  },
  {
   "property": "C78",
   "status": "proved",
   "theorems": [
    "C78_failures",
    "C78_successes",
    "C78_decides",
    "C78_same_values",
    "C78_all_hits"
   ],
   "note": ""
  },
  {
   "property": "C79",
   "status": "proved",
   "theorems": [
    "C79_failures",
    "C79_texts",
    "C79_successes",
    "C79_decides",
    "C79_all_hits"
   ],
   "note": ""
  }
 ]
}