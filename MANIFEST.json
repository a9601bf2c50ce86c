{
 "claims": [
  {
   "property": "C01",
   "status": "proved",
   "theorems": [
    "C01_as_grib_int",
    "C01_read_signed",
    "C01_from_bytes",
    "C01_from_bytes_roundtrip",
    "C01_from_bytes_other_lengths_panic"
   ],
   "note": ""
  },
  {
   "property": "C02",
   "status": "proved",
   "theorems": [
    "C02_unpack_exact",
    "C02_unpack_wide",
    "C02_stays_exhausted"
   ],
   "note": ""
  },
  {
   "property": "C03",
   "status": "proved",
   "theorems": [
    "C03_pack_unpack",
    "C03_zero_width"
   ],
   "note": ""
  },
  {
   "property": "C04",
   "status": "proved",
   "theorems": [
    "C04_bitmap_positions",
    "C04_bitmap_complete",
    "C04_bitmap_too_short"
   ],
   "note": ""
  },
  {
   "property": "C05",
   "status": "proved",
   "theorems": [
    "C05_count",
    "C05_count_right"
   ],
   "note": ""
  },
  {
   "property": "C06",
   "status": "proved",
   "theorems": [
    "C06_hint",
    "C06_hint_exact"
   ],
   "note": ""
  },
  {
   "property": "C07",
   "status": "proved",
   "theorems": [
    "C07_no_bitmap_passthrough",
    "C07_no_bitmap_excess"
   ],
   "note": ""
  },
  {
   "property": "C08",
   "status": "proved",
   "theorems": [
    "C08_complex_groups",
    "C08_complex_no_missing",
    "C08_wide_fields"
   ],
   "note": ""
  },
  {
   "property": "C09",
   "status": "proved",
   "theorems": [
    "C09_missing_exact"
   ],
   "note": ""
  },
  {
   "property": "C10",
   "status": "proved",
   "theorems": [
    "C10_first_order_octets",
    "C10_first_order",
    "C10_first_order_wrapping"
   ],
   "note": ""
  },
  {
   "property": "C11",
   "status": "proved",
   "theorems": [
    "C11_second_order_octets",
    "C11_second_order_wrapping",
    "C11_second_order_checked",
    "C11_small_values_fit"
   ],
   "note": ""
  },
  {
   "property": "C12",
   "status": "proved",
   "theorems": [
    "C12_roundtrip",
    "C12_wide_codes_panic",
    "C12_sixteen_bits_release",
    "C12_values"
   ],
   "note": ""
  },
  {
   "property": "C13",
   "status": "proved",
   "theorems": [
    "C13_decode_exact"
   ],
   "note": ""
  },
  {
   "property": "C14",
   "status": "proved",
   "theorems": [
    "C14_terminates"
   ],
   "note": ""
  },
  {
   "property": "C15",
   "status": "proved",
   "theorems": [
    "C15_simple_packing",
    "C15_accuracy",
    "C15_ordinary_in_reach",
    "C15_zero_is_reference",
    "C15_complex_values",
    "C15_first_order_values",
    "C15_second_order_values",
    "C15_extreme_scale"
   ],
   "note": ""
  },
  {
   "property": "C16",
   "status": "proved",
   "theorems": [
    "C16_simple_monotone"
   ],
   "note": ""
  },
  {
   "property": "C17",
   "status": "proved",
   "theorems": [
    "C17_constant_field"
   ],
   "note": ""
  },
  {
   "property": "C18",
   "status": "proved",
   "theorems": [
    "C18_table_sound",
    "C18_table_complete",
    "C18_positions"
   ],
   "note": ""
  },
  {
   "property": "C19",
   "status": "proved",
   "theorems": [
    "C19_first_magic"
   ],
   "note": ""
  },
  {
   "property": "C20",
   "status": "proved",
   "theorems": [
    "C20_short_reads_truncate",
    "C20_errors_same",
    "C20_crash_same",
    "C20_read_exact",
    "C20_short_read_silent"
   ],
   "note": ""
  },
  {
   "property": "C21",
   "status": "proved",
   "theorems": [
    "C21_crash_iff",
    "C21_crash_only"
   ],
   "note": ""
  },
  {
   "property": "C22",
   "status": "proved",
   "theorems": [
    "C22_read_terminates",
    "C22_sections_terminate",
    "C22_endless"
   ],
   "note": ""
  },
  {
   "property": "C23",
   "status": "proved",
   "theorems": [
    "C23_accepts_grammar",
    "C23_index_accepts_grammar"
   ],
   "note": ""
  },
  {
   "property": "C24",
   "status": "proved",
   "theorems": [
    "C24_submessages"
   ],
   "note": ""
  },
  {
   "property": "C25",
   "status": "proved",
   "theorems": [
    "C25_error_ends",
    "C25_exhaustive"
   ],
   "note": ""
  },
  {
   "property": "C26",
   "status": "proved",
   "theorems": [
    "C26_index_follows",
    "C26_value_follows"
   ],
   "note": ""
  },
  {
   "property": "C27",
   "status": "proved",
   "theorems": [
    "C27_iteration",
    "C27_calls",
    "C27_size_hint",
    "C27_bound"
   ],
   "note": ""
  },
  {
   "property": "C28",
   "status": "proved",
   "theorems": [
    "C28_exclusive"
   ],
   "note": ""
  },
  {
   "property": "C29",
   "status": "proved",
   "theorems": [
    "C29_end_section"
   ],
   "note": ""
  },
  {
   "property": "C30",
   "status": "proved",
   "theorems": [
    "C30_templates"
   ],
   "note": ""
  },
  {
   "property": "C31",
   "status": "proved",
   "theorems": [
    "C31_reread",
    "C31_sizes",
    "C31_headers"
   ],
   "note": ""
  },
  {
   "property": "C32",
   "status": "proved",
   "theorems": [
    "C32_indices",
    "C32_size_hint"
   ],
   "note": ""
  },
  {
   "property": "C33",
   "status": "proved",
   "theorems": [
    "C33_no_rows",
    "C33_empty_rows"
   ],
   "note": ""
  },
  {
   "property": "C34",
   "status": "proved",
   "theorems": [
    "C34_ij",
    "C34_ij_octets",
    "C34_ij_errors",
    "C34_latlons",
    "C34_latlons_mismatch",
    "C34_points"
   ],
   "note": ""
  },
  {
   "property": "C35",
   "status": "proved",
   "theorems": [
    "C35_latlons"
   ],
   "note": ""
  },
  {
   "property": "C36",
   "status": "proved",
   "theorems": [
    "C36_single",
    "C36_empty_panics",
    "C36_overflow_panics"
   ],
   "note": ""
  },
  {
   "property": "C37",
   "status": "proved",
   "theorems": [
    "C37_ij",
    "C37_regular",
    "C37_projected"
   ],
   "note": ""
  },
  {
   "property": "C38",
   "status": "proved",
   "theorems": [
    "C38_accessors",
    "C38_short_payloads"
   ],
   "note": ""
  },
  {
   "property": "C39",
   "status": "proved",
   "theorems": [
    "C39_parsed",
    "C39_not_supported",
    "C39_truncated_panics",
    "C39_shape"
   ],
   "note": ""
  },
  {
   "property": "C40",
   "status": "proved",
   "theorems": [
    "C40_parameter",
    "C40_generating_process",
    "C40_generating_process_wrong",
    "C40_forecast_time",
    "C40_forecast_time_44",
    "C40_fixed_surfaces"
   ],
   "note": ""
  },
  {
   "property": "C41",
   "status": "proved",
   "theorems": [
    "C41_missing",
    "C41_value",
    "C41_missing_value"
   ],
   "note": ""
  },
  {
   "property": "C42",
   "status": "proved",
   "theorems": [
    "C42_units",
    "C42_no_collisions"
   ],
   "note": ""
  },
  {
   "property": "C43",
   "status": "proved",
   "theorems": [
    "C43_code",
    "C43_injective",
    "C43_identical"
   ],
   "note": ""
  },
  {
   "property": "C44",
   "status": "proved",
   "theorems": [
    "C44_ref_time"
   ],
   "note": ""
  },
  {
   "property": "C45",
   "status": "proved",
   "theorems": [
    "C45_files"
   ],
   "note": ""
  },
  {
   "property": "C46",
   "status": "proved",
   "theorems": [
    "C46_file",
    "C46_decode",
    "C46_decode_run_length"
   ],
   "note": ""
  },
  {
   "property": "C47",
   "status": "proved",
   "theorems": [
    "C47_bitmap_indicator",
    "C47_refused",
    "C47_only_refused",
    "C47_dispatch_refused",
    "C47_codec_refused"
   ],
   "note": ""
  },
  {
   "property": "C48",
   "status": "proved",
   "theorems": [
    "C48_simple",
    "C48_no_lazy_panic",
    "C48_complex",
    "C48_truncated",
    "C48_zero_groups"
   ],
   "note": ""
  },
  {
   "property": "C49",
   "status": "proved",
   "theorems": [
    "C49_index",
    "C49_refused",
    "C49_find"
   ],
   "note": ""
  },
  {
   "property": "C50",
   "status": "proved",
   "theorems": [
    "C50_binary"
   ],
   "note": ""
  },
  {
   "property": "C51",
   "status": "proved",
   "theorems": [
    "C51_range",
    "C51_no_range",
    "C51_sound",
    "C51_complete",
    "C51_sparse"
   ],
   "note": ""
  },
  {
   "property": "C52",
   "status": "proved",
   "theorems": [
    "C52_sizes",
    "C52_reads",
    "C52_reads_unique"
   ],
   "note": ""
  },
  {
   "property": "C53",
   "status": "proved",
   "theorems": [
    "C53_root_search",
    "C53_count",
    "C53_values",
    "C53_newton",
    "C53_overflow"
   ],
   "note": ""
  },
  {
   "property": "C54",
   "status": "proved",
   "theorems": [
    "C54_bodies",
    "C54_parameter"
   ],
   "note": ""
  },
  {
   "property": "C55",
   "status": "proved",
   "theorems": [
    "C55_points",
    "C55_degrees",
    "C55_ignores_latitudes"
   ],
   "note": ""
  },
  {
   "property": "C56",
   "status": "proved",
   "theorems": [
    "C56_units",
    "C56_lambert",
    "C56_polar_stereographic"
   ],
   "note": ""
  },
  {
   "property": "C57",
   "status": "proved",
   "theorems": [
    "C57_shapes",
    "C57_unscaled_radius",
    "C57_unscaled_axes",
    "C57_scaled_wrong"
   ],
   "note": ""
  },
  {
   "property": "C58",
   "status": "proved",
   "theorems": [
    "C58_line",
    "C58_table",
    "C58_codes",
    "C58_conversion",
    "C58_enumeration"
   ],
   "note": ""
  },
  {
   "property": "C59",
   "status": "proved",
   "theorems": [
    "C59_list"
   ],
   "note": ""
  },
  {
   "property": "C60",
   "status": "proved",
   "theorems": [
    "C60_values",
    "C60_output",
    "C60_errors",
    "C60_no_such_index",
    "C60_bad_index",
    "C60_unreadable"
   ],
   "note": ""
  },
  {
   "property": "C61",
   "status": "proved",
   "theorems": [
    "C61_end_iff",
    "C61_error_iff"
   ],
   "note": ""
  },
  {
   "property": "C62",
   "status": "proved",
   "theorems": [
    "C62_read_ok_iff",
    "C62_read_crash_iff",
    "C62_read_error_iff"
   ],
   "note": ""
  },
  {
   "property": "C63",
   "status": "proved",
   "theorems": [
    "C63_programs"
   ],
   "note": ""
  },
  {
   "property": "C64",
   "status": "proved",
   "theorems": [
    "C64_no_interference"
   ],
   "note": ""
  },
  {
   "property": "C65",
   "status": "proved",
   "theorems": [
    "C65_history"
   ],
   "note": ""
  },
  {
   "property": "C66",
   "status": "proved",
   "theorems": [
    "C66_subtitle",
    "C66_load",
    "C66_blocks",
    "C66_build"
   ],
   "note": ""
  },
  {
   "property": "C67",
   "status": "proved",
   "theorems": [
    "C67_names",
    "C67_unambiguous",
    "C67_once",
    "C67_order"
   ],
   "note": ""
  },
  {
   "property": "C68",
   "status": "proved",
   "theorems": [
    "C68_described",
    "C68_common",
    "C68_parameter",
    "C68_text"
   ],
   "note": ""
  },
  {
   "property": "C69",
   "status": "proved",
   "theorems": [
    "C69_list",
    "C69_no_line",
    "C69_id",
    "C69_dump"
   ],
   "note": ""
  },
  {
   "property": "C70",
   "status": "proved",
   "theorems": [
    "C70_list",
    "C70_dump",
    "C70_no_pager",
    "C70_inspect"
   ],
   "note": ""
  },
  {
   "property": "C71",
   "status": "proved",
   "theorems": [
    "C71_inspect",
    "C71_items"
   ],
   "note": ""
  },
  {
   "property": "C72",
   "status": "proved",
   "theorems": [
    "C72_info"
   ],
   "note": ""
  },
  {
   "property": "C73",
   "status": "proved",
   "theorems": [
    "C73_text"
   ],
   "note": ""
  },
  {
   "property": "C74",
   "status": "proved",
   "theorems": [
    "C74_text",
    "C74_natural",
    "C74_unambiguous",
    "C74_reported",
    "C74_unreadable",
    "C74_decode",
    "C74_levels",
    "C74_decode_unambiguous"
   ],
   "note": ""
  },
  {
   "property": "C75",
   "status": "proved",
   "theorems": [
    "C75_find_layers",
    "C75_list_layers",
    "C75_no_layer",
    "C75_decode_layer",
    "C75_decode_layer_missing",
    "C75_check_file",
    "C75_check_files",
    "C75_unreadable",
    "C75_check_empty"
   ],
   "note": ""
  },
  {
   "property": "C76",
   "status": "proved",
   "theorems": [
    "C76_latlon",
    "C76_gaussian",
    "C76_lambert",
    "C76_polar_stereographic",
    "C76_no_library"
   ],
   "note": ""
  },
  {
   "property": "C77",
   "status": "proved",
   "theorems": [
    "C77_table",
    "C77_colour",
    "C77_limits",
    "C77_missing",
    "C77_pictures",
    "C77_orientation"
   ],
   "note": ""
  },
  {
   "property": "C78",
   "status": "proved",
   "theorems": [
    "C78_read",
    "C78_first",
    "C78_sections",
    "C78_decode",
    "C78_attempts"
   ],
   "note": ""
  },
  {
   "property": "C79",
   "status": "proved",
   "theorems": [
    "C79_released",
    "C79_leak",
    "C79_inside",
    "C79_result"
   ],
   "note": ""
  },
  {
   "property": "C80",
   "status": "proved",
   "theorems": [
    "C80_same",
    "C80_decoders",
    "C80_back",
    "C80_words"
   ],
   "note": ""
  },
  {
   "property": "C81",
   "status": "proved",
   "theorems": [
    "C81_read",
    "C81_any",
    "C81_tiny",
    "C81_decoder",
    "C81_decoder_bound"
   ],
   "note": ""
  },
  {
   "property": "C82",
   "status": "proved",
   "theorems": [
    "C82_exact",
    "C82_any",
    "C82_bomb"
   ],
   "note": ""
  },
  {
   "property": "C83",
   "status": "proved",
   "theorems": [
    "C83_file",
    "C83_same",
    "C83_refused",
    "C83_wasm",
    "C83_digits",
    "C83_bitmap"
   ],
   "note": ""
  },
  {
   "property": "C84",
   "status": "proved",
   "theorems": [
    "C84_ij",
    "C84_pairs",
    "C84_latlons",
    "C84_big",
    "C84_rows",
    "C84_1024",
    "C84_words"
   ],
   "note": ""
  },
  {
   "property": "C85",
   "status": "proved",
   "theorems": [
    "C85_shown",
    "C85_traps",
    "C85_history",
    "C85_held"
   ],
   "note": ""
  },
  {
   "property": "C86",
   "status": "proved",
   "theorems": [
    "C86_order"
   ],
   "note": ""
  },
  {
   "property": "C87",
   "status": "proved",
   "theorems": [
    "C87_read",
    "C87_sections",
    "C87_session",
    "C87_decoder",
    "C87_values",
    "C87_library",
    "C87_points",
    "C87_coordinates",
    "C87_product",
    "C87_list",
    "C87_inspect",
    "C87_decode",
    "C87_decode_text",
    "C87_examples",
    "C87_demo",
    "C87_tables"
   ],
   "note": ""
  },
  {
   "property": "C88",
   "status": "proved",
   "theorems": [
    "C88_same",
    "C88_enough",
    "C88_exhausted",
    "C88_bomb"
   ],
   "note": ""
  },
  {
   "property": "C89",
   "status": "proved",
   "theorems": [
    "C89_full",
    "C89_discarded",
    "C89_outside",
    "C89_times",
    "C89_decoder"
   ],
   "note": ""
  },
  {
   "property": "C90",
   "status": "proved",
   "theorems": [
    "C90_sections",
    "C90_errors",
    "C90_read",
    "C90_decode"
   ],
   "note": ""
  },
  {
   "property": "C91",
   "status": "proved",
   "theorems": [
    "C91_decode",
    "C91_accessors"
   ],
   "note": ""
  },
  {
   "property": "C92",
   "status": "proved",
   "theorems": [
    "C92_sections",
    "C92_crash",
    "C92_errors",
    "C92_any",
    "C92_read",
    "C92_short_reads",
    "C92_decode"
   ],
   "note": ""
  },
  {
   "property": "C93",
   "status": "proved",
   "theorems": [
    "C93_read",
    "C93_first",
    "C93_second"
   ],
   "note": ""
  },
  {
   "property": "C94",
   "status": "proved",
   "theorems": [
    "C94_read",
    "C94_decode"
   ],
   "note": ""
  },
  {
   "property": "C95",
   "status": "proved",
   "theorems": [
    "C95_there",
    "C95_rest",
    "C95_decode"
   ],
   "note": ""
  }
 ]
}