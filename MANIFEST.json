{
 "claims": [
  {
   "property": "C01",
   "status": "proved",
   "theorems": [
    "C01_text_roundtrip",
    "C01_text_server_reads"
   ],
   "note": ""
  },
  {
   "property": "C02",
   "status": "proved",
   "theorems": [
    "C02_text_server_rendered",
    "C02_text_prefix_refuted"
   ],
   "note": "Exact (iff) condition; refuted in general by elements beginning with NULL."
  },
  {
   "property": "C03",
   "status": "proved",
   "theorems": [
    "C03_int_array_literal",
    "C03_int_array_scan",
    "C03_int_array_roundtrip"
   ],
   "note": ""
  },
  {
   "property": "C04",
   "status": "proved",
   "theorems": [
    "C04_int8_uint",
    "C04_int8_uint_refuted"
   ],
   "note": "Exact acceptance set 0..2^32-1; the round trip over the whole type is refuted."
  },
  {
   "property": "C05",
   "status": "proved",
   "theorems": [
    "C05_numeric",
    "C05_narrow_is_reduction"
   ],
   "note": ""
  },
  {
   "property": "C06",
   "status": "proved",
   "theorems": [
    "C06_range_literal",
    "C06_range_scan",
    "C06_range_brackets_ignored",
    "C06_range_store_fetch"
   ],
   "note": ""
  },
  {
   "property": "C07",
   "status": "proved",
   "theorems": [
    "C07_range_array_roundtrip",
    "C07_range_array_literal",
    "C07_range_array_scan",
    "C07_range_array_null_panics"
   ],
   "note": ""
  },
  {
   "property": "C08",
   "status": "proved",
   "theorems": [
    "C08_hstore_server_reads",
    "C08_hstore_scan",
    "C08_hstore_last"
   ],
   "note": ""
  },
  {
   "property": "C09",
   "status": "proved",
   "theorems": [
    "C09_hstorearr_server_reads",
    "C09_hstorearr_scan",
    "C09_hstorearr_last"
   ],
   "note": ""
  },
  {
   "property": "C10",
   "status": "proved",
   "theorems": [
    "C10_bytea_roundtrip",
    "C10_bytea_literal",
    "C10_bytea_null_panics"
   ],
   "note": ""
  },
  {
   "property": "C11",
   "status": "proved",
   "theorems": [
    "C11_uuid_roundtrip",
    "C11_uuid_shape",
    "C11_uuid_array_roundtrip",
    "C11_uuid_array_literal"
   ],
   "note": ""
  },
  {
   "property": "C12",
   "status": "proved",
   "theorems": [
    "C12_bool_bit_roundtrip",
    "C12_bit_uint_normalises",
    "C12_bool_bit_server"
   ],
   "note": ""
  },
  {
   "property": "C13",
   "status": "proved",
   "theorems": [
    "C13_bytes",
    "C13_bytes_dropped",
    "C13_all_dropped",
    "C13_runes",
    "C13_string",
    "C13_strings",
    "C13_empty_string_refuted",
    "C13_server_scan",
    "C13_server_reads",
    "C13_brace_refuted"
   ],
   "note": ""
  },
  {
   "property": "C14",
   "status": "proved",
   "theorems": [
    "C14_int",
    "C14_int_negative_refuted",
    "C14_int_scan",
    "C14_bools",
    "C14_uint8s",
    "C14_bool_arrays",
    "C14_uint8_arrays",
    "C14_string_arrays",
    "C14_string_null_refuted",
    "C14_int_arrays"
   ],
   "note": ""
  },
  {
   "property": "C15",
   "status": "proved",
   "theorems": [
    "C15_parse_float64",
    "C15_float64",
    "C15_coordinates",
    "C15_point_float64",
    "C15_point",
    "C15_line",
    "C15_lseg",
    "C15_path",
    "C15_closed_path_refuted",
    "C15_polygon",
    "C15_empty_is_null"
   ],
   "note": ""
  },
  {
   "property": "C16",
   "status": "proved",
   "theorems": [
    "C16_point_array",
    "C16_line_array",
    "C16_lseg_array",
    "C16_path_array",
    "C16_polygon_array",
    "C16_empty_inner_refuted",
    "C16_null_fails",
    "C16_box_array",
    "C16_box_null_refuted"
   ],
   "note": ""
  },
  {
   "property": "C17",
   "status": "proved",
   "theorems": [
    "C17_box_scan",
    "C17_box_own_literal_refuted"
   ],
   "note": ""
  },
  {
   "property": "C18",
   "status": "proved",
   "theorems": [
    "C18_int2vector",
    "C18_int2vectorarr_roundtrip",
    "C18_int2vectorarr_server",
    "C18_int2vectorarr_refuted",
    "C18_int2vectorarr_server_reads",
    "C18_empty_vector_refuted",
    "C18_tsvector",
    "C18_tsvectorarr",
    "C18_tsvectorarr_null_refuted",
    "C18_tsvectorarr_server_reads",
    "C18_tsvectorarr_server_refuted"
   ],
   "note": ""
  },
  {
   "property": "C19",
   "status": "proved",
   "theorems": [
    "C19_rounding_model",
    "C19_server_reads",
    "C19_large_refuted",
    "C19_roundtrip",
    "C19_roundtrip_refuted",
    "C19_scan_small",
    "C19_scan_large_refuted",
    "C19_scan_negative_refuted",
    "C19_arrays",
    "C19_array_scan_refuted"
   ],
   "note": ""
  },
  {
   "property": "C20",
   "status": "proved",
   "theorems": [
    "C20_resets",
    "C20_keeps",
    "C20_char",
    "C20_stale_refuted"
   ],
   "note": ""
  },
  {
   "property": "C21",
   "status": "proved",
   "theorems": [
    "C21_in_value_list",
    "C21_in_value_list_placeholders"
   ],
   "note": ""
  },
  {
   "property": "C22",
   "status": "proved",
   "theorems": [
    "C22_placeholders",
    "C22_parameters_are_the_given_values",
    "C22_each_value_at_its_predicate"
   ],
   "note": ""
  },
  {
   "property": "C23",
   "status": "proved",
   "theorems": [
    "C23_panics_exactly_beyond_the_limit"
   ],
   "note": ""
  },
  {
   "property": "C24",
   "status": "proved",
   "theorems": [
    "C24_count_filter",
    "C24_position_only_renumbers"
   ],
   "note": ""
  },
  {
   "property": "C25",
   "status": "proved",
   "theorems": [
    "C25_where_is_a_condition",
    "C25_exactly_proper_sequences",
    "C25_parentheses_always_match",
    "C25_fql_condition"
   ],
   "note": ""
  },
  {
   "property": "C26",
   "status": "proved",
   "theorems": [
    "C26_broken_where_clauses"
   ],
   "note": ""
  },
  {
   "property": "C27",
   "status": "proved",
   "theorems": [
    "C27_limit_offset_page",
    "C27_page_can_be_lost"
   ],
   "note": ""
  },
  {
   "property": "C28",
   "status": "proved",
   "theorems": [
    "C28_sort_lenient",
    "C28_sort_strict",
    "C28_every_text_has_items"
   ],
   "note": ""
  },
  {
   "property": "C29",
   "status": "proved",
   "theorems": [
    "C29_condition_read_back",
    "C29_column_alone",
    "C29_result_is_in_the_text",
    "C29_asymmetric_between_is_never_read",
    "C29_operators_are_told_apart",
    "C29_non_ascii_panics_refuted"
   ],
   "note": ""
  },
  {
   "property": "C30",
   "status": "proved",
   "theorems": [
    "C30_column_identifiers",
    "C30_unknown_qualifier",
    "C30_identifier_alphabet",
    "C30_relation_identifiers",
    "C30_column_lists"
   ],
   "note": ""
  },
  {
   "property": "C31",
   "status": "proved",
   "theorems": [
    "C31_namespace"
   ],
   "note": ""
  },
  {
   "property": "C32",
   "status": "proved",
   "theorems": [
    "C32_exclusive",
    "C32_present",
    "C32_repetition_refuted"
   ],
   "note": ""
  },
  {
   "property": "C33",
   "status": "proved",
   "theorems": [
    "C33_on_conflict",
    "C33_some_action_refuted"
   ],
   "note": ""
  },
  {
   "property": "C34",
   "status": "proved",
   "theorems": [
    "C34_last_option_wins",
    "C34_no_options",
    "C34_empty_option_panics",
    "C34_read_only_write_only"
   ],
   "note": ""
  },
  {
   "property": "C35",
   "status": "proved",
   "theorems": [
    "C35_relation",
    "C35_result",
    "C35_complete",
    "C35_accessible_refuted"
   ],
   "note": ""
  },
  {
   "property": "C36",
   "status": "proved",
   "theorems": [
    "C36_written",
    "C36_keys",
    "C36_nested_refuted"
   ],
   "note": ""
  },
  {
   "property": "C37",
   "status": "proved",
   "theorems": [
    "C37_expression",
    "C37_no_using",
    "C37_string_end_refuted",
    "C37_quoted_name_refuted",
    "C37_panic_refuted"
   ],
   "note": ""
  },
  {
   "property": "C38",
   "status": "proved",
   "theorems": [
    "C38_columns",
    "C38_repeated_refuted"
   ],
   "note": ""
  },
  {
   "property": "C39",
   "status": "proved",
   "theorems": [
    "C39_arguments_match_placeholders",
    "C39_call_is_made",
    "C39_count_limit_refuted",
    "C39_default_key_refuted"
   ],
   "note": ""
  },
  {
   "property": "C40",
   "status": "proved",
   "theorems": [
    "C40_in_lists",
    "C40_limit_default_refuted"
   ],
   "note": ""
  },
  {
   "property": "C41",
   "status": "proved",
   "theorems": [
    "C41_rows",
    "C41_update_default_refuted",
    "C41_update_return_refuted",
    "C41_empty_slice_is_cut"
   ],
   "note": ""
  },
  {
   "property": "C42",
   "status": "proved",
   "theorems": [
    "C42_between_kind_ignored"
   ],
   "note": ""
  },
  {
   "property": "C43",
   "status": "proved",
   "theorems": [
    "C43_one_name_per_path",
    "C43_equal_paths",
    "C43_distinct_names",
    "C43_collision_refuted",
    "C43_declared",
    "C43_default_name"
   ],
   "note": ""
  },
  {
   "property": "C44",
   "status": "proved",
   "theorems": [
    "C44_allocated_once",
    "C44_collision_refuted"
   ],
   "note": ""
  },
  {
   "property": "C45",
   "status": "proved",
   "theorems": [
    "C45_cmdline",
    "C45_precedence",
    "C45_flags_checked",
    "C45_accepted",
    "C45_argtype_refuted",
    "C45_tag",
    "C45_separator"
   ],
   "note": ""
  },
  {
   "property": "C46",
   "status": "proved",
   "theorems": [
    "C46_format",
    "C46_name",
    "C46_injective",
    "C46_injective_refuted",
    "C46_not_self",
    "C46_self_refuted",
    "C46_other_refuted"
   ],
   "note": ""
  },
  {
   "property": "C47",
   "status": "proved",
   "theorems": [
    "C47_strings",
    "C47_bytes",
    "C47_bytes_refuted",
    "C47_unescaped_refuted"
   ],
   "note": ""
  },
  {
   "property": "C48",
   "status": "proved",
   "theorems": [
    "C48_text_search_query"
   ],
   "note": ""
  },
  {
   "property": "C49",
   "status": "proved",
   "theorems": [
    "C49_where",
    "C49_alternating_refuted"
   ],
   "note": ""
  },
  {
   "property": "C50",
   "status": "proved",
   "theorems": [
    "C50_joins",
    "C50_unqualified_refuted"
   ],
   "note": ""
  },
  {
   "property": "C51",
   "status": "proved",
   "theorems": [
    "C51_order_by",
    "C51_order_by_tag"
   ],
   "note": ""
  },
  {
   "property": "C52",
   "status": "proved",
   "theorems": [
    "C52_limit",
    "C52_offset",
    "C52_value"
   ],
   "note": ""
  },
  {
   "property": "C53",
   "status": "proved",
   "theorems": [
    "C53_column_lists"
   ],
   "note": ""
  },
  {
   "property": "C54",
   "status": "proved",
   "theorems": [
    "C54_filter",
    "C54_text_search"
   ],
   "note": ""
  },
  {
   "property": "C55",
   "status": "proved",
   "theorems": [
    "C55_filter",
    "C55_single_refuted",
    "C55_order_refuted",
    "C55_returning_refuted",
    "C55_limit_refuted"
   ],
   "note": ""
  },
  {
   "property": "C56",
   "status": "proved",
   "theorems": [
    "C56_rows_collected"
   ],
   "note": ""
  },
  {
   "property": "C57",
   "status": "proved",
   "theorems": [
    "C57_rows_iterated"
   ],
   "note": ""
  },
  {
   "property": "C58",
   "status": "proved",
   "theorems": [
    "C58_rows_returned",
    "C58_too_many_rows"
   ],
   "note": ""
  },
  {
   "property": "C59",
   "status": "proved",
   "theorems": [
    "C59_row_scanned",
    "C59_row_returned",
    "C59_no_row",
    "C59_count",
    "C59_no_row_untouched_refuted"
   ],
   "note": ""
  },
  {
   "property": "C60",
   "status": "proved",
   "theorems": [
    "C60_rows_affected",
    "C60_in_range",
    "C60_overflow_refuted"
   ],
   "note": ""
  },
  {
   "property": "C61",
   "status": "proved",
   "theorems": [
    "C61_call_error",
    "C61_count_error",
    "C61_exec_success",
    "C61_info_handler_refuted"
   ],
   "note": ""
  },
  {
   "property": "C62",
   "status": "proved",
   "theorems": [
    "C62_read"
   ],
   "note": ""
  },
  {
   "property": "C63",
   "status": "proved",
   "theorems": [
    "C63_checked",
    "C63_accepted"
   ],
   "note": ""
  },
  {
   "property": "C64",
   "status": "proved",
   "theorems": [
    "C64_where",
    "C64_directives",
    "C64_joins",
    "C64_return_refuted",
    "C64_default_refuted"
   ],
   "note": ""
  },
  {
   "property": "C65",
   "status": "proved",
   "theorems": [
    "C65_operator_refuted",
    "C65_where",
    "C65_bounds"
   ],
   "note": ""
  },
  {
   "property": "C66",
   "status": "proved",
   "theorems": [
    "C66_sound",
    "C66_complete",
    "C66_order",
    "C66_converter_refuted"
   ],
   "note": ""
  },
  {
   "property": "C67",
   "status": "proved",
   "theorems": [
    "C67_target",
    "C67_update"
   ],
   "note": ""
  },
  {
   "property": "C68",
   "status": "proved",
   "theorems": [
    "C68_table",
    "C68_inet_array_refuted",
    "C68_direct",
    "C68_pointer_refuted",
    "C68_named_refuted",
    "C68_reachable",
    "C68_unreachable_refuted"
   ],
   "note": ""
  },
  {
   "property": "C69",
   "status": "proved",
   "theorems": [
    "C69_written",
    "C69_read"
   ],
   "note": ""
  },
  {
   "property": "C70",
   "status": "proved",
   "theorems": [
    "C70_filters"
   ],
   "note": ""
  },
  {
   "property": "C71",
   "status": "proved",
   "theorems": [
    "C71_no_panic",
    "C71_array_refuted",
    "C71_literal_refuted"
   ],
   "note": ""
  },
  {
   "property": "C72",
   "status": "proved",
   "theorems": [
    "C72_string",
    "C72_length_one",
    "C72_bit"
   ],
   "note": ""
  },
  {
   "property": "C73",
   "status": "proved",
   "theorems": [
    "C73_found",
    "C73_none",
    "C73_search",
    "C73_both_refuted"
   ],
   "note": ""
  },
  {
   "property": "C74",
   "status": "proved",
   "theorems": [
    "C74_search",
    "C74_files",
    "C74_filter"
   ],
   "note": ""
  },
  {
   "property": "C75",
   "status": "proved",
   "theorems": [
    "C75_kind",
    "C75_nonstruct_refuted",
    "C75_alias_refuted",
    "C75_long_s_refuted"
   ],
   "note": ""
  },
  {
   "property": "C76",
   "status": "proved",
   "theorems": [
    "C76_done",
    "C76_untouched",
    "C76_failed",
    "C76_lost_refuted",
    "C76_each_file"
   ],
   "note": ""
  },
  {
   "property": "C77",
   "status": "proved",
   "theorems": [
    "C77_write",
    "C77_read",
    "C77_roundtrip"
   ],
   "note": ""
  },
  {
   "property": "C78",
   "status": "proved",
   "theorems": [
    "C78_read",
    "C78_write",
    "C78_roundtrip",
    "C78_empty_refuted",
    "C78_first_day_refuted",
    "C78_array_read",
    "C78_array_write",
    "C78_array_roundtrip"
   ],
   "note": ""
  },
  {
   "property": "C79",
   "status": "proved",
   "theorems": [
    "C79_read",
    "C79_timetz_read",
    "C79_write",
    "C79_timetz_write",
    "C79_roundtrip",
    "C79_micros_refuted",
    "C79_hours_refuted"
   ],
   "note": ""
  },
  {
   "property": "C80",
   "status": "proved",
   "theorems": [
    "C80_read",
    "C80_tz_read",
    "C80_write",
    "C80_tz_write",
    "C80_roundtrip",
    "C80_tz_roundtrip",
    "C80_tz_exact",
    "C80_instant_refuted",
    "C80_utc_refuted"
   ],
   "note": ""
  },
  {
   "property": "C81",
   "status": "proved",
   "theorems": [
    "C81_read",
    "C81_tz_read",
    "C81_write",
    "C81_tz_write",
    "C81_roundtrip",
    "C81_tz_roundtrip",
    "C81_unbounded_refuted",
    "C81_inclusive_refuted"
   ],
   "note": ""
  },
  {
   "property": "C82",
   "status": "proved",
   "theorems": [
    "C82_read",
    "C82_tz_read",
    "C82_write",
    "C82_tz_write",
    "C82_roundtrip",
    "C82_panic_refuted"
   ],
   "note": ""
  },
  {
   "property": "C83",
   "status": "proved",
   "theorems": [
    "C83_date_time",
    "C83_other",
    "C83_date_text",
    "C83_timetz_text",
    "C83_time_text"
   ],
   "note": ""
  },
  {
   "property": "C84",
   "status": "proved",
   "theorems": [
    "C84_read",
    "C84_write",
    "C84_array_read",
    "C84_array_write",
    "C84_roundtrip",
    "C84_nil_refuted"
   ],
   "note": ""
  },
  {
   "property": "C85",
   "status": "proved",
   "theorems": [
    "C85_read",
    "C85_write",
    "C85_roundtrip",
    "C85_array_read",
    "C85_array_write",
    "C85_mapped_refuted"
   ],
   "note": ""
  },
  {
   "property": "C86",
   "status": "proved",
   "theorems": [
    "C86_read",
    "C86_write",
    "C86_host_refuted",
    "C86_single_refuted",
    "C86_array_read"
   ],
   "note": ""
  },
  {
   "property": "C87",
   "status": "proved",
   "theorems": [
    "C87_read",
    "C87_write",
    "C87_roundtrip",
    "C87_array_read",
    "C87_array_write",
    "C87_nil_refuted",
    "C87_mapped_refuted"
   ],
   "note": ""
  },
  {
   "property": "C88",
   "status": "proved",
   "theorems": [
    "C88_rounding",
    "C88_exact",
    "C88_write",
    "C88_shortest",
    "C88_read",
    "C88_roundtrip",
    "C88_unique"
   ],
   "note": ""
  },
  {
   "property": "C89",
   "status": "proved",
   "theorems": [
    "C89_float8_of_float32",
    "C89_narrow_text",
    "C89_roundtrip",
    "C89_float4_refuted",
    "C89_float4_of_float64"
   ],
   "note": ""
  },
  {
   "property": "C90",
   "status": "proved",
   "theorems": [
    "C90_cut",
    "C90_exact",
    "C90_array_write",
    "C90_array_read",
    "C90_array_roundtrip",
    "C90_int8_refuted",
    "C90_vector",
    "C90_range_write",
    "C90_range_read",
    "C90_numrange_refuted",
    "C90_range_array_refuted",
    "C90_range_array",
    "C90_range_array_write",
    "C90_vecarr_write",
    "C90_vecarr_read",
    "C90_vecarr_roundtrip",
    "C90_vecarr_refuted"
   ],
   "note": ""
  },
  {
   "property": "C91",
   "status": "proved",
   "theorems": [
    "C91_field",
    "C91_key_unique"
   ],
   "note": ""
  },
  {
   "property": "C92",
   "status": "proved",
   "theorems": [
    "C92_kind",
    "C92_override",
    "C92_rows",
    "C92_filter",
    "C92_context",
    "C92_handler"
   ],
   "note": ""
  },
  {
   "property": "C93",
   "status": "proved",
   "theorems": [
    "C93_scope",
    "C93_array_refuted",
    "C93_name_refuted",
    "C93_list_refuted"
   ],
   "note": ""
  },
  {
   "property": "C94",
   "status": "proved",
   "theorems": [
    "C94_described",
    "C94_executed",
    "C94_rows",
    "C94_filter"
   ],
   "note": ""
  },
  {
   "property": "C95",
   "status": "proved",
   "theorems": [
    "C95_record",
    "C95_shape",
    "C95_output",
    "C95_one_source",
    "C95_collected",
    "C95_iterated",
    "C95_returned",
    "C95_single",
    "C95_returned_twice_refuted"
   ],
   "note": ""
  },
  {
   "property": "C96",
   "status": "proved",
   "theorems": [
    "C96_fault",
    "C96_rejected",
    "C96_filter_fault",
    "C96_filter_rejected",
    "C96_decided"
   ],
   "note": ""
  },
  {
   "property": "C97",
   "status": "proved",
   "theorems": [
    "C97_built",
    "C97_methods",
    "C97_calls",
    "C97_init",
    "C97_fql",
    "C97_sort",
    "C97_names_refuted",
    "C97_hides_refuted",
    "C97_field_refuted"
   ],
   "note": ""
  },
  {
   "property": "C98",
   "status": "proved",
   "theorems": [
    "C98_rejected",
    "C98_accepted",
    "C98_decided",
    "C98_ends_refuted",
    "C98_filter_rejected",
    "C98_filter_accepted",
    "C98_filter_decided"
   ],
   "note": ""
  },
  {
   "property": "C99",
   "status": "proved",
   "theorems": [
    "C99_arrays",
    "C99_elements",
    "C99_converters",
    "C99_operators",
    "C99_lists",
    "C99_similar_refuted",
    "C99_distinct_refuted",
    "C99_where"
   ],
   "note": ""
  },
  {
   "property": "C100",
   "status": "proved",
   "theorems": [
    "C100_constants",
    "C100_lseg_refuted",
    "C100_read",
    "C100_written",
    "C100_text_refuted"
   ],
   "note": ""
  },
  {
   "property": "C101",
   "status": "proved",
   "theorems": [
    "C101_column",
    "C101_handlers",
    "C101_conn",
    "C101_constructor",
    "C101_sound",
    "C101_promoted_refuted",
    "C101_alias_refuted",
    "C101_interface",
    "C101_interface_refuted",
    "C101_constructor_refuted",
    "C101_variadic_refuted",
    "C101_path_refuted",
    "C101_total",
    "C101_panic_refuted"
   ],
   "note": ""
  },
  {
   "property": "C102",
   "status": "proved",
   "theorems": [
    "C102_uuid_strings",
    "C102_uuid_bytes",
    "C102_uuid_nil",
    "C102_uuid_braces_refuted",
    "C102_char_byte",
    "C102_char_rune",
    "C102_bit",
    "C102_document",
    "C102_document_string_refuted",
    "C102_document_nil_refuted",
    "C102_any",
    "C102_float_total",
    "C102_counts_wrap",
    "C102_zero_time"
   ],
   "note": ""
  },
  {
   "property": "C103",
   "status": "proved",
   "theorems": [
    "C103_total",
    "C103_short",
    "C103_vector_array",
    "C103_geo",
    "C103_lseg",
    "C103_geo_refuted",
    "C103_bits",
    "C103_money",
    "C103_stamps",
    "C103_stamp_range",
    "C103_uuid",
    "C103_uuid_refuted",
    "C103_hstore",
    "C103_hstore_refuted",
    "C103_char_array",
    "C103_char_array_refuted"
   ],
   "note": ""
  },
  {
   "property": "C104",
   "status": "proved",
   "theorems": [
    "C104_transparent",
    "C104_single",
    "C104_once",
    "C104_stays",
    "C104_key",
    "C104_packages_refuted",
    "C104_qualifier_refuted",
    "C104_failure_refuted"
   ],
   "note": ""
  },
  {
   "property": "C105",
   "status": "proved",
   "theorems": [
    "C105_loaded",
    "C105_total",
    "C105_same_database",
    "C105_pointers"
   ],
   "note": ""
  },
  {
   "property": "C106",
   "status": "proved",
   "theorems": [
    "C106_terminates",
    "C106_needs",
    "C106_same",
    "C106_fuel",
    "C106_record_refuted",
    "C106_type_refuted"
   ],
   "note": ""
  },
  {
   "property": "C107",
   "status": "proved",
   "theorems": [
    "C107_accepts",
    "C107_text",
    "C107_entry",
    "C107_wrong",
    "C107_read",
    "C107_field",
    "C107_unnamed",
    "C107_path_refuted",
    "C107_type_refuted",
    "C107_func_refuted",
    "C107_reference",
    "C107_import_refuted"
   ],
   "note": ""
  },
  {
   "property": "C108",
   "status": "proved",
   "theorems": [
    "C108_text",
    "C108_place",
    "C108_column",
    "C108_found",
    "C108_qualifier",
    "C108_relation",
    "C108_compare",
    "C108_field",
    "C108_operand",
    "C108_says",
    "C108_own",
    "C108_other",
    "C108_struct",
    "C108_panics",
    "C108_predicate_refuted",
    "C108_pointer_refuted"
   ],
   "note": ""
  }
 ]
}