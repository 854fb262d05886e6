{
 "claims": [
  {
   "property": "C01",
   "status": "proved",
   "theorems": [
    "C01_factories",
    "C01_bounds"
   ],
   "note": ""
  },
  {
   "property": "C02",
   "status": "proved",
   "theorems": [
    "C02_is_empty",
    "C02_dense_nonempty",
    "C02_discrete_refuted"
   ],
   "note": ""
  },
  {
   "property": "C03",
   "status": "proved",
   "theorems": [
    "C03_encloses_partial_order",
    "C03_encloses_exact_on_dense"
   ],
   "note": ""
  },
  {
   "property": "C04",
   "status": "proved",
   "theorems": [
    "C04_intersection",
    "C04_intersection_laws"
   ],
   "note": ""
  },
  {
   "property": "C05",
   "status": "proved",
   "theorems": [
    "C05_is_connected"
   ],
   "note": ""
  },
  {
   "property": "C06",
   "status": "proved",
   "theorems": [
    "C06_span"
   ],
   "note": ""
  },
  {
   "property": "C07",
   "status": "proved",
   "theorems": [
    "C07_create_spanning"
   ],
   "note": ""
  },
  {
   "property": "C08",
   "status": "proved",
   "theorems": [
    "C08_intersects",
    "C08_common_member_refuted"
   ],
   "note": ""
  },
  {
   "property": "C09",
   "status": "proved",
   "theorems": [
    "C09_eq_hash",
    "C09_eq_equivalence"
   ],
   "note": ""
  },
  {
   "property": "C10",
   "status": "proved",
   "theorems": [
    "C10_convex"
   ],
   "note": ""
  },
  {
   "property": "C11",
   "status": "proved",
   "theorems": [
    "C11_invariant",
    "C11_calls"
   ],
   "note": ""
  },
  {
   "property": "C12",
   "status": "proved",
   "theorems": [
    "C12_membership"
   ],
   "note": ""
  },
  {
   "property": "C13",
   "status": "proved",
   "theorems": [
    "C13_canonical",
    "C13_equality"
   ],
   "note": ""
  },
  {
   "property": "C14",
   "status": "proved",
   "theorems": [
    "C14_add",
    "C14_absorbed"
   ],
   "note": ""
  },
  {
   "property": "C15",
   "status": "proved",
   "theorems": [
    "C15_range_containing"
   ],
   "note": ""
  },
  {
   "property": "C16",
   "status": "proved",
   "theorems": [
    "C16_enclosing",
    "C16_encloses_all"
   ],
   "note": ""
  },
  {
   "property": "C17",
   "status": "proved",
   "theorems": [
    "C17_ranges_enclosed_by"
   ],
   "note": ""
  },
  {
   "property": "C18",
   "status": "proved",
   "theorems": [
    "C18_ranges_overlapping",
    "C18_shares_value_refuted"
   ],
   "note": ""
  },
  {
   "property": "C19",
   "status": "proved",
   "theorems": [
    "C19_intersects"
   ],
   "note": ""
  },
  {
   "property": "C20",
   "status": "proved",
   "theorems": [
    "C20_nearest",
    "C20_containing",
    "C20_meaning"
   ],
   "note": ""
  },
  {
   "property": "C21",
   "status": "proved",
   "theorems": [
    "C21_span"
   ],
   "note": ""
  },
  {
   "property": "C22",
   "status": "proved",
   "theorems": [
    "C22_immutable_never_changes",
    "C22_copy",
    "C22_isolation",
    "C22_own_history",
    "C22_builder_order"
   ],
   "note": ""
  },
  {
   "property": "C23",
   "status": "proved",
   "theorems": [
    "C23_equal_sets_equal_hash_refuted",
    "C23_listed_ranges_hash"
   ],
   "note": ""
  },
  {
   "property": "C24",
   "status": "proved",
   "theorems": [
    "C24_range",
    "C24_unbounded_refuted",
    "C24_range_set",
    "C24_state_round_trip"
   ],
   "note": ""
  },
  {
   "property": "C25",
   "status": "proved",
   "theorems": [
    "C25_construction"
   ],
   "note": ""
  },
  {
   "property": "C26",
   "status": "proved",
   "theorems": [
    "C26_getitem",
    "C26_nearest",
    "C26_get_enclosed_by",
    "C26_reduce_round_trip"
   ],
   "note": ""
  },
  {
   "property": "C27",
   "status": "proved",
   "theorems": [
    "C27_construction",
    "C27_predicates"
   ],
   "note": ""
  },
  {
   "property": "C28",
   "status": "proved",
   "theorems": [
    "C28_intersection_clip",
    "C28_shift"
   ],
   "note": ""
  },
  {
   "property": "C29",
   "status": "proved",
   "theorems": [
    "C29_as_range"
   ],
   "note": ""
  },
  {
   "property": "C30",
   "status": "proved",
   "theorems": [
    "C30_minimal_enclosing_span",
    "C30_iterator_refuted"
   ],
   "note": ""
  },
  {
   "property": "C31",
   "status": "proved",
   "theorems": [
    "C31_key",
    "C31_containing_first"
   ],
   "note": ""
  },
  {
   "property": "C32",
   "status": "proved",
   "theorems": [
    "C32_index_disjoint",
    "C32_identical_spans_refuted"
   ],
   "note": ""
  },
  {
   "property": "C33",
   "status": "proved",
   "theorems": [
    "C33_last_of_each_span",
    "C33_disjoint_queries",
    "C33_equal_items_refuted"
   ],
   "note": ""
  },
  {
   "property": "C34",
   "status": "proved",
   "theorems": [
    "C34_overlapping_queries"
   ],
   "note": ""
  },
  {
   "property": "C35",
   "status": "proved",
   "theorems": [
    "C35_annotated_text_spec",
    "C35_default_window",
    "C35_wrong_length",
    "C35_no_text_lost",
    "C35_negative_window_refuted"
   ],
   "note": ""
  },
  {
   "property": "C36",
   "status": "proved",
   "theorems": [
    "C36_tags_well_nested",
    "C36_clipped_to_same_refuted"
   ],
   "note": ""
  },
  {
   "property": "C37",
   "status": "proved",
   "theorems": [
    "C37_windowed_complete",
    "C37_windowed_partial_windows",
    "C37_bad_size",
    "C37_windows_of_list",
    "C37_partial_windows_of_list",
    "C37_tile_with_pairs"
   ],
   "note": ""
  },
  {
   "property": "C38",
   "status": "proved",
   "theorems": [
    "C38_drop",
    "C38_drop_negative",
    "C38_drop_list",
    "C38_only",
    "C38_only_equal_to_all_refuted",
    "C38_get_only",
    "C38_only_lookup_error_refuted",
    "C38_non_none"
   ],
   "note": ""
  },
  {
   "property": "C39",
   "status": "proved",
   "theorems": [
    "C39_topological_sort"
   ],
   "note": ""
  },
  {
   "property": "C40",
   "status": "proved",
   "theorems": [
    "C40_validation",
    "C40_rejected",
    "C40_graph_contents"
   ],
   "note": ""
  },
  {
   "property": "C41",
   "status": "proved",
   "theorems": [
    "C41_roundtrip",
    "C41_dots_rejected",
    "C41_not_a_mapping",
    "C41_prefixes"
   ],
   "note": ""
  },
  {
   "property": "C42",
   "status": "proved",
   "theorems": [
    "C42_from_pairs",
    "C42_success",
    "C42_last_wins",
    "C42_items",
    "C42_roundtrip",
    "C42_empty_name_refuted",
    "C42_unify_prefix_refuted"
   ],
   "note": ""
  },
  {
   "property": "C43",
   "status": "proved",
   "theorems": [
    "C43_lookup",
    "C43_dotted_path",
    "C43_from_mapping"
   ],
   "note": ""
  },
  {
   "property": "C44",
   "status": "proved",
   "theorems": [
    "C44_unify",
    "C44_consequences",
    "C44_identity",
    "C44_associative",
    "C44_associative_errors",
    "C44_associative_refuted"
   ],
   "note": ""
  },
  {
   "property": "C45",
   "status": "proved",
   "theorems": [
    "C45_exactly_one"
   ],
   "note": ""
  },
  {
   "property": "C46",
   "status": "proved",
   "theorems": [
    "C46_required_getters",
    "C46_optional_getters",
    "C46_namespaces",
    "C46_enum",
    "C46_wrong_exception_refuted",
    "C46_bool_is_integer_refuted",
    "C46_null_with_default"
   ],
   "note": ""
  },
  {
   "property": "C47",
   "status": "proved",
   "theorems": [
    "C47_defaults",
    "C47_falsy_defaults_refuted"
   ],
   "note": ""
  },
  {
   "property": "C48",
   "status": "proved",
   "theorems": [
    "C48_outcomes",
    "C48_result",
    "C48_values_unique",
    "C48_unreferenced_kept",
    "C48_no_reference_remains_refuted",
    "C48_failures_are_parameter_errors_refuted",
    "C48_no_references"
   ],
   "note": ""
  },
  {
   "property": "C49",
   "status": "proved",
   "theorems": [
    "C49_precedence",
    "C49_dotted_environment_breaks_loading"
   ],
   "note": ""
  },
  {
   "property": "C50",
   "status": "proved",
   "theorems": [
    "C50_file_value_used",
    "C50_context_value_used",
    "C50_falsy_ignored",
    "C50_every_value_refuted"
   ],
   "note": ""
  },
  {
   "property": "C51",
   "status": "proved",
   "theorems": [
    "C51_failures_are_IOErrors",
    "C51_load",
    "C51_extends_context",
    "C51_without_includes",
    "C51_relative_include_in_string",
    "C51_load_error",
    "C51_two_contexts",
    "C51_same_context",
    "C51_unreadable_file",
    "C51_load_file"
   ],
   "note": ""
  },
  {
   "property": "C52",
   "status": "proved",
   "theorems": [
    "C52_key_check",
    "C52_load_rejects",
    "C52_any_depth_refuted"
   ],
   "note": ""
  },
  {
   "property": "C53",
   "status": "proved",
   "theorems": [
    "C53_evaluate",
    "C53_optional_evaluate",
    "C53_object_from_parameters",
    "C53_expected_type",
    "C53_underspecified",
    "C53_special_factory_refuted",
    "C53_special_value_in_namespace_refuted",
    "C53_default_factory_prefix_refuted"
   ],
   "note": ""
  },
  {
   "property": "C54",
   "status": "proved",
   "theorems": [
    "C54_preprocess",
    "C54_no_entry_lost",
    "C54_null_refuted"
   ],
   "note": ""
  },
  {
   "property": "C55",
   "status": "proved",
   "theorems": [
    "C55_round_trip",
    "C55_default_keys",
    "C55_values",
    "C55_not_entered",
    "C55_enter",
    "C55_no_key_list",
    "C55_keys_key_refuted",
    "C55_nul_key_refuted",
    "C55_newline_key_refuted"
   ],
   "note": ""
  },
  {
   "property": "C56",
   "status": "proved",
   "theorems": [
    "C56_history",
    "C56_history_total",
    "C56_session",
    "C56_duplicate",
    "C56_not_entered",
    "C56_none",
    "C56_failed_put",
    "C56_failed_put_refuted",
    "C56_unclosable_refuted",
    "C56_reuse_refuted"
   ],
   "note": ""
  },
  {
   "property": "C57",
   "status": "proved",
   "theorems": [
    "C57_char",
    "C57_bytes",
    "C57_enter",
    "C57_failed_puts",
    "C57_failed_overwrite_refuted",
    "C57_index_key_refuted",
    "C57_plain_names"
   ],
   "note": ""
  },
  {
   "property": "C58",
   "status": "proved",
   "theorems": [
    "C58_round_trip",
    "C58_read",
    "C58_no_list"
   ],
   "note": ""
  },
  {
   "property": "C59",
   "status": "proved",
   "theorems": [
    "C59_lookup",
    "C59_items",
    "C59_items_all",
    "C59_items_none",
    "C59_linear",
    "C59_linear_error",
    "C59_agree",
    "C59_compose"
   ],
   "note": ""
  },
  {
   "property": "C60",
   "status": "proved",
   "theorems": [
    "C60_items",
    "C60_error",
    "C60_not_entered",
    "C60_empty_key_refuted",
    "C60_str"
   ],
   "note": ""
  },
  {
   "property": "C61",
   "status": "proved",
   "theorems": [
    "C61_split",
    "C61_balanced",
    "C61_join_split"
   ],
   "note": ""
  },
  {
   "property": "C62",
   "status": "proved",
   "theorems": [
    "C62_split",
    "C62_missing",
    "C62_partition_refuted"
   ],
   "note": ""
  },
  {
   "property": "C63",
   "status": "proved",
   "theorems": [
    "C63_join",
    "C63_duplicate",
    "C63_bad_input",
    "C63_first_duplicate"
   ],
   "note": ""
  },
  {
   "property": "C64",
   "status": "proved",
   "theorems": [
    "C64_downsample",
    "C64_all"
   ],
   "note": ""
  },
  {
   "property": "C65",
   "status": "proved",
   "theorems": [
    "C65_buffer",
    "C65_string",
    "C65_char_file",
    "C65_char_from_bytes",
    "C65_char_file_unencodable",
    "C65_byte_file",
    "C65_zip_entry",
    "C65_zip_overwrite_refuted",
    "C65_is_empty",
    "C65_is_empty_unreadable"
   ],
   "note": ""
  },
  {
   "property": "C66",
   "status": "proved",
   "theorems": [
    "C66_readlines",
    "C66_line_endings_kept_refuted",
    "C66_join",
    "C66_file_lines_to_set"
   ],
   "note": ""
  },
  {
   "property": "C67",
   "status": "proved",
   "theorems": [
    "C67_round_trip",
    "C67_read",
    "C67_blank_line_refuted"
   ],
   "note": ""
  },
  {
   "property": "C68",
   "status": "proved",
   "theorems": [
    "C68_encodable",
    "C68_round_trip",
    "C68_injective",
    "C68_concat",
    "C68_decode_error"
   ],
   "note": ""
  },
  {
   "property": "C69",
   "status": "proved",
   "theorems": [
    "C69_accepts",
    "C69_errors",
    "C69_round_trip",
    "C69_whole_string_refuted"
   ],
   "note": ""
  },
  {
   "property": "C70",
   "status": "proved",
   "theorems": [
    "C70_short",
    "C70_long",
    "C70_error"
   ],
   "note": ""
  },
  {
   "property": "C71",
   "status": "proved",
   "theorems": [
    "C71_strip_extension",
    "C71_path_refuted",
    "C71_flatten"
   ],
   "note": ""
  },
  {
   "property": "C72",
   "status": "proved",
   "theorems": [
    "C72_history",
    "C72_crash",
    "C72_plain_names",
    "C72_names",
    "C72_set",
    "C72_names_refuted"
   ],
   "note": ""
  },
  {
   "property": "C73",
   "status": "proved",
   "theorems": [
    "C73_not_none",
    "C73_arg",
    "C73_arg_message_refuted",
    "C73_state",
    "C73_args_are_none",
    "C73_args_not_none",
    "C73_isinstance",
    "C73_all_isinstance",
    "C73_opt_isinstance",
    "C73_opt_isinstance_refuted",
    "C73_issubclass",
    "C73_in",
    "C73_with_id",
    "C73_scored",
    "C73_non_empty_refuted"
   ],
   "note": ""
  },
  {
   "property": "C74",
   "status": "proved",
   "theorems": [
    "C74_levels",
    "C74_printed_once",
    "C74_idempotent_refuted",
    "C74_config_file",
    "C74_log_params"
   ],
   "note": ""
  },
  {
   "property": "C75",
   "status": "proved",
   "theorems": [
    "C75_files",
    "C75_stem",
    "C75_stem_unique",
    "C75_directory",
    "C75_duplicate",
    "C75_tar",
    "C75_output_name",
    "C75_tar_gz_name_refuted",
    "C75_subdirectory_error_refuted"
   ],
   "note": ""
  },
  {
   "property": "C76",
   "status": "proved",
   "theorems": [
    "C76_start_tag",
    "C76_insertion_order_irrelevant"
   ],
   "note": ""
  },
  {
   "property": "C77",
   "status": "proved",
   "theorems": [
    "C77_annotation_order_irrelevant",
    "C77_same_span_refuted"
   ],
   "note": ""
  },
  {
   "property": "C78",
   "status": "proved",
   "theorems": [
    "C78_overwrite_crash",
    "C78_append_crash"
   ],
   "note": ""
  },
  {
   "property": "C79",
   "status": "proved",
   "theorems": [
    "C79_in_bounds",
    "C79_out_of_bounds",
    "C79_negative_refuted"
   ],
   "note": ""
  },
  {
   "property": "C80",
   "status": "proved",
   "theorems": [
    "C80_resolution",
    "C80_cases",
    "C80_existing",
    "C80_creatable",
    "C80_creatable_empty",
    "C80_optional",
    "C80_after",
    "C80_creatable_file_is_directory_refuted"
   ],
   "note": ""
  },
  {
   "property": "C81",
   "status": "proved",
   "theorems": [
    "C81_paths",
    "C81_path_list",
    "C81_path_map",
    "C81_slices_round_trip",
    "C81_hash_path_refuted"
   ],
   "note": ""
  },
  {
   "property": "C82",
   "status": "proved",
   "theorems": [
    "C82_entry_point",
    "C82_outcomes",
    "C82_overrides",
    "C82_override_type_refuted",
    "C82_given_parameters_refuted"
   ],
   "note": ""
  },
  {
   "property": "C83",
   "status": "proved",
   "theorems": [
    "C83_zip_sink",
    "C83_zip_source",
    "C83_zip_agree",
    "C83_directory_sink",
    "C83_file_map_source_refuted",
    "C83_map_source",
    "C83_user_type",
    "C83_kind",
    "C83_default_refuted",
    "C83_directory_shortcut_refuted"
   ],
   "note": ""
  },
  {
   "property": "C84",
   "status": "proved",
   "theorems": [
    "C84_split",
    "C84_input_overwritten_refuted",
    "C84_choice",
    "C84_bad_num_slices",
    "C84_bad_input",
    "C84_blocked_output"
   ],
   "note": ""
  },
  {
   "property": "C85",
   "status": "proved",
   "theorems": [
    "C85_join",
    "C85_duplicate",
    "C85_first_duplicate",
    "C85_unreadable_input",
    "C85_output_among_inputs_refuted",
    "C85_join_split",
    "C85_blocked_output",
    "C85_bad_list"
   ],
   "note": ""
  },
  {
   "property": "C86",
   "status": "proved",
   "theorems": [
    "C86_which",
    "C86_downsample",
    "C86_in_place_refuted",
    "C86_bad_num_to_sample",
    "C86_bad_input",
    "C86_blocked_output"
   ],
   "note": ""
  },
  {
   "property": "C87",
   "status": "proved",
   "theorems": [
    "C87_copy",
    "C87_duplicate",
    "C87_output_inside_refuted",
    "C87_no_directory",
    "C87_bad_key_function",
    "C87_blocked_output"
   ],
   "note": ""
  },
  {
   "property": "C88",
   "status": "proved",
   "theorems": [
    "C88_explicit",
    "C88_missing",
    "C88_input_overwritten_refuted",
    "C88_must_be_exhaustive_refuted",
    "C88_list_refuted",
    "C88_no_keys_file",
    "C88_blocked_output"
   ],
   "note": ""
  },
  {
   "property": "C89",
   "status": "proved",
   "theorems": [
    "C89_evaluate",
    "C89_object",
    "C89_namespace",
    "C89_builtin",
    "C89_module",
    "C89_no_module",
    "C89_distinct",
    "C89_nested_refuted",
    "C89_hidden_package_refuted",
    "C89_of_type",
    "C89_of_type_evaluate"
   ],
   "note": ""
  },
  {
   "property": "C90",
   "status": "proved",
   "theorems": [
    "C90_stream",
    "C90_no_tar",
    "C90_blocked",
    "C90_bad_name",
    "C90_unpack",
    "C90_unpack_directory_refuted"
   ],
   "note": ""
  },
  {
   "property": "C91",
   "status": "proved",
   "theorems": [
    "C91_simple_file",
    "C91_load",
    "C91_load_string",
    "C91_unreadable",
    "C91_missing_include",
    "C91_cycle",
    "C91_place_decides",
    "C91_recursion_limit",
    "C91_enough_recursion",
    "C91_write_load",
    "C91_failed_write_empties_file"
   ],
   "note": ""
  },
  {
   "property": "C92",
   "status": "proved",
   "theorems": [
    "C92_constructor",
    "C92_message_refuted",
    "C92_defaults",
    "C92_default_source",
    "C92_defaults_match",
    "C92_names_match",
    "C92_history",
    "C92_session",
    "C92_no_functions",
    "C92_only_writer",
    "C92_enter",
    "C92_exit",
    "C92_enter_fails",
    "C92_stale_keys_refuted"
   ],
   "note": ""
  },
  {
   "property": "C93",
   "status": "proved",
   "theorems": [
    "C93_open",
    "C93_set",
    "C93_has",
    "C93_not_str",
    "C93_set_has",
    "C93_reset",
    "C93_crashed_reset",
    "C93_history",
    "C93_outside_refuted",
    "C93_nested_refuted",
    "C93_chdir_refuted",
    "C93_subdirectory_refuted",
    "C93_reset_here_refuted"
   ],
   "note": ""
  },
  {
   "property": "C94",
   "status": "proved",
   "theorems": [
    "C94_inside",
    "C94_made_before",
    "C94_any",
    "C94_not_entered",
    "C94_left",
    "C94_items_after_exit_refuted",
    "C94_unreadable"
   ],
   "note": ""
  },
  {
   "property": "C95",
   "status": "proved",
   "theorems": [
    "C95_join",
    "C95_downsample",
    "C95_directory",
    "C95_explicit_split",
    "C95_arguments",
    "C95_command",
    "C95_simple_file",
    "C95_split",
    "C95_num_slices_override_refuted",
    "C95_split_then_join"
   ],
   "note": ""
  },
  {
   "property": "C96",
   "status": "proved",
   "theorems": [
    "C96_argument_names",
    "C96_construct",
    "C96_errors",
    "C96_not_shared",
    "C96_needs_immutable_collection",
    "C96_declared",
    "C96_class",
    "C96_positional_refuted",
    "C96_factory_keyword"
   ],
   "note": ""
  },
  {
   "property": "C97",
   "status": "proved",
   "theorems": [
    "C97_any_key",
    "C97_no_file",
    "C97_map_source",
    "C97_put",
    "C97_enter",
    "C97_confined",
    "C97_round_trip",
    "C97_index",
    "C97_absolute_refuted",
    "C97_parent_refuted",
    "C97_nested_refuted",
    "C97_index_directory_refuted",
    "C97_index_key_refuted",
    "C97_space_refuted",
    "C97_shared_refuted",
    "C97_join",
    "C97_directory",
    "C97_join_clash",
    "C97_join_unreadable",
    "C97_join_not_empty"
   ],
   "note": ""
  },
  {
   "property": "C98",
   "status": "proved",
   "theorems": [
    "C98_text",
    "C98_ranges_differ",
    "C98_integer_ranges",
    "C98_sets",
    "C98_spans",
    "C98_integers",
    "C98_constructor",
    "C98_tuples_refuted",
    "C98_strings_refuted"
   ],
   "note": ""
  },
  {
   "property": "C99",
   "status": "proved",
   "theorems": [
    "C99_to_file",
    "C99_construction_keeps",
    "C99_str_paths",
    "C99_session",
    "C99_write",
    "C99_zip_session",
    "C99_write_fails",
    "C99_zip_write",
    "C99_nowhere",
    "C99_history_grows",
    "C99_untouched",
    "C99_last_session",
    "C99_zip_last_session",
    "C99_read",
    "C99_zip_directories_refuted"
   ],
   "note": ""
  },
  {
   "property": "C100",
   "status": "proved",
   "theorems": [
    "C100_results",
    "C100_history",
    "C100_after_configuring",
    "C100_before_configuring_refuted"
   ],
   "note": ""
  },
  {
   "property": "C101",
   "status": "proved",
   "theorems": [
    "C101_sub_namespaces",
    "C101_list_refuted",
    "C101_distinct",
    "C101_shared_refuted"
   ],
   "note": ""
  },
  {
   "property": "C102",
   "status": "proved",
   "theorems": [
    "C102_unknown",
    "C102_leaf",
    "C102_when",
    "C102_advice",
    "C102_tells",
    "C102_namespace",
    "C102_unify"
   ],
   "note": ""
  },
  {
   "property": "C103",
   "status": "proved",
   "theorems": [
    "C103_alone_directory",
    "C103_alone_empty",
    "C103_alone_file",
    "C103_alone_checkpoint",
    "C103_nothing_lost",
    "C103_returned_means_done",
    "C103_own_steps",
    "C103_no_failure",
    "C103_completes",
    "C103_frame",
    "C103_content",
    "C103_same_empty_refuted",
    "C103_exclusive_refuted"
   ],
   "note": ""
  },
  {
   "property": "C104",
   "status": "proved",
   "theorems": [
    "C104_from_mapping",
    "C104_as_nested_dicts",
    "C104_unify",
    "C104_from_key_value_pairs",
    "C104_values",
    "C104_frozen",
    "C104_frozen_value",
    "C104_isolated",
    "C104_cycle",
    "C104_list_refuted",
    "C104_pairs_refuted",
    "C104_example",
    "C104_example_values"
   ],
   "note": ""
  },
  {
   "property": "C105",
   "status": "proved",
   "theorems": [
    "C105_write",
    "C105_write_possible",
    "C105_outside",
    "C105_documents",
    "C105_possible",
    "C105_restart",
    "C105_torn_index",
    "C105_old_value_refuted",
    "C105_torn_refuted",
    "C105_empty_refuted"
   ],
   "note": ""
  },
  {
   "property": "C106",
   "status": "proved",
   "theorems": [
    "C106_view",
    "C106_self",
    "C106_loop",
    "C106_ends",
    "C106_skips_refuted",
    "C106_endless_refuted",
    "C106_snapshot_refuted"
   ],
   "note": ""
  },
  {
   "property": "C107",
   "status": "proved",
   "theorems": [
    "C107_equality",
    "C107_equivalence",
    "C107_same_answers",
    "C107_order_irrelevant",
    "C107_extensional_refuted",
    "C107_inherited_equality_refuted",
    "C107_hash_refuted"
   ],
   "note": ""
  },
  {
   "property": "C108",
   "status": "proved",
   "theorems": [
    "C108_equality",
    "C108_equivalence",
    "C108_same_answers",
    "C108_as_nested_dicts",
    "C108_from_mapping",
    "C108_namespace_copy_refuted",
    "C108_boolean_refuted"
   ],
   "note": ""
  },
  {
   "property": "C109",
   "status": "proved",
   "theorems": [
    "C109_span_order",
    "C109_span_sorted",
    "C109_longest_first_refuted",
    "C109_memory",
    "C109_memory_equal_refuted",
    "C109_memory_order_refuted",
    "C109_scored_refuted",
    "C109_with_id",
    "C109_annotation_equal",
    "C109_annotation"
   ],
   "note": ""
  },
  {
   "property": "C110",
   "status": "proved",
   "theorems": [
    "C110_answers",
    "C110_last",
    "C110_none",
    "C110_write"
   ],
   "note": ""
  },
  {
   "property": "C111",
   "status": "proved",
   "theorems": [
    "C111_any",
    "C111_inside",
    "C111_left",
    "C111_rewritten_refuted"
   ],
   "note": ""
  },
  {
   "property": "C112",
   "status": "proved",
   "theorems": [
    "C112_windowed",
    "C112_drop",
    "C112_only",
    "C112_non_none",
    "C112_agrees"
   ],
   "note": ""
  },
  {
   "property": "C113",
   "status": "proved",
   "theorems": [
    "C113_agrees",
    "C113_factories",
    "C113_members",
    "C113_member_raises",
    "C113_intersects",
    "C113_convex",
    "C113_documented",
    "C113_incomparable",
    "C113_empty",
    "C113_encloses",
    "C113_intersection",
    "C113_span",
    "C113_documented_refuted",
    "C113_encloses_refuted",
    "C113_nan_refuted"
   ],
   "note": ""
  },
  {
   "property": "C114",
   "status": "proved",
   "theorems": [
    "C114_calls",
    "C114_files",
    "C114_read",
    "C114_lost_refuted"
   ],
   "note": ""
  },
  {
   "property": "C115",
   "status": "proved",
   "theorems": [
    "C115_made",
    "C115_call",
    "C115_atomic",
    "C115_history",
    "C115_questions",
    "C115_other_type",
    "C115_bisection",
    "C115_always_TypeError_refuted"
   ],
   "note": ""
  },
  {
   "property": "C116",
   "status": "proved",
   "theorems": [
    "C116_read",
    "C116_cases",
    "C116_hard_links",
    "C116_is_empty",
    "C116_without_links",
    "C116_cycle",
    "C116_is_empty_refuted"
   ],
   "note": ""
  },
  {
   "property": "C117",
   "status": "proved",
   "theorems": [
    "C117_split_moments",
    "C117_split_again",
    "C117_downsample",
    "C117_join",
    "C117_directory",
    "C117_explicit_moments",
    "C117_explicit_again",
    "C117_readable_slice",
    "C117_readable_output",
    "C117_old_output_refuted"
   ],
   "note": ""
  },
  {
   "property": "C118",
   "status": "proved",
   "theorems": [
    "C118_cases",
    "C118_first_broken",
    "C118_broken",
    "C118_unique",
    "C118_passed_over",
    "C118_order_refuted"
   ],
   "note": ""
  },
  {
   "property": "C119",
   "status": "proved",
   "theorems": [
    "C119_made",
    "C119_lookups",
    "C119_other_type",
    "C119_rebuilt",
    "C119_always_TypeError_refuted"
   ],
   "note": ""
  },
  {
   "property": "C120",
   "status": "proved",
   "theorems": [
    "C120_stream_moments",
    "C120_stream_again",
    "C120_unpack_killed",
    "C120_unpack_again",
    "C120_leftovers_refuted"
   ],
   "note": ""
  },
  {
   "property": "C121",
   "status": "proved",
   "theorems": [
    "C121_same_text",
    "C121_missing",
    "C121_store",
    "C121_pairs",
    "C121_outdated_refuted"
   ],
   "note": ""
  },
  {
   "property": "C122",
   "status": "proved",
   "theorems": [
    "C122_contains",
    "C122_bisection",
    "C122_ordinary",
    "C122_leftmost_refuted",
    "C122_map"
   ],
   "note": ""
  },
  {
   "property": "C123",
   "status": "proved",
   "theorems": [
    "C123_damaged",
    "C123_again_refuted"
   ],
   "note": ""
  },
  {
   "property": "C124",
   "status": "proved",
   "theorems": [
    "C124_pickled",
    "C124_mapping",
    "C124_mapping_determines"
   ],
   "note": ""
  },
  {
   "property": "C125",
   "status": "proved",
   "theorems": [
    "C125_append",
    "C125_overwrite_refuted",
    "C125_never_again",
    "C125_once",
    "C125_closed"
   ],
   "note": ""
  },
  {
   "property": "C126",
   "status": "proved",
   "theorems": [
    "C126_sample_repeatable",
    "C126_output_order_refuted",
    "C126_same_pairs_refuted",
    "C126_split_same"
   ],
   "note": ""
  },
  {
   "property": "C127",
   "status": "proved",
   "theorems": [
    "C127_complete",
    "C127_complete_string",
    "C127_sound",
    "C127_sound_string",
    "C127_refused",
    "C127_unique"
   ],
   "note": ""
  },
  {
   "property": "C128",
   "status": "proved",
   "theorems": [
    "C128_any_file",
    "C128_refused",
    "C128_split",
    "C128_join",
    "C128_downsample",
    "C128_directory",
    "C128_explicit_split"
   ],
   "note": ""
  },
  {
   "property": "C129",
   "status": "proved",
   "theorems": [
    "C129_accepts",
    "C129_stand_in",
    "C129_write",
    "C129_write_tells",
    "C129_refuses",
    "C129_writer",
    "C129_text_file_refuted"
   ],
   "note": ""
  },
  {
   "property": "C130",
   "status": "proved",
   "theorems": [
    "C130_bound",
    "C130_polynomial_refuted"
   ],
   "note": ""
  },
  {
   "property": "C131",
   "status": "proved",
   "theorems": [
    "C131_left_open",
    "C131_nothing_left",
    "C131_contents",
    "C131_bytes",
    "C131_after_close",
    "C131_closed_zip",
    "C131_undisturbed",
    "C131_own_zip",
    "C131_is_empty_refuted",
    "C131_missing_member_refuted"
   ],
   "note": ""
  },
  {
   "property": "C132",
   "status": "proved",
   "theorems": [
    "C132_no_invention",
    "C132_any_join",
    "C132_zip_inputs"
   ],
   "note": ""
  },
  {
   "property": "C133",
   "status": "proved",
   "theorems": [
    "C133_delegates",
    "C133_stands_for_span",
    "C133_overlaps_refuted",
    "C133_spans",
    "C133_no_span",
    "C133_index_history",
    "C133_index_follows_refuted"
   ],
   "note": ""
  },
  {
   "property": "C134",
   "status": "proved",
   "theorems": [
    "C134_load",
    "C134_load_text",
    "C134_meaning",
    "C134_getters",
    "C134_after_script",
    "C134_after_scripts",
    "C134_split_then_join"
   ],
   "note": ""
  },
  {
   "property": "C135",
   "status": "proved",
   "theorems": [
    "C135_at_the_same_time",
    "C135_same_as_one_by_one",
    "C135_steady",
    "C135_input_of_another_refuted",
    "C135_same_output_refuted"
   ],
   "note": ""
  },
  {
   "property": "C136",
   "status": "proved",
   "theorems": [
    "C136_path",
    "C136_same",
    "C136_printed",
    "C136_all",
    "C136_either",
    "C136_text"
   ],
   "note": ""
  }
 ]
}