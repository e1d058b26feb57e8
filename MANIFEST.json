{
 "claims": [
  {
   "property": "C01",
   "status": "proved",
   "theorems": [
    "C01_encode_is_rfc4648"
   ],
   "note": ""
  },
  {
   "property": "C02",
   "status": "proved",
   "theorems": [
    "C02_encode_layout",
    "C02_line_length_refuted"
   ],
   "note": ""
  },
  {
   "property": "C03",
   "status": "proved",
   "theorems": [
    "C03_encode_memory_safe"
   ],
   "note": ""
  },
  {
   "property": "C04",
   "status": "proved",
   "theorems": [
    "C04_decode_encode",
    "C04_roundtrip_refuted"
   ],
   "note": ""
  },
  {
   "property": "C05",
   "status": "proved",
   "theorems": [
    "C05_decode_language"
   ],
   "note": ""
  },
  {
   "property": "C06",
   "status": "proved",
   "theorems": [
    "C06_padded_rejected",
    "C06_padded_overruns"
   ],
   "note": ""
  },
  {
   "property": "C07",
   "status": "proved",
   "theorems": [
    "C07_decode_fits_reported_size"
   ],
   "note": ""
  },
  {
   "property": "C08",
   "status": "proved",
   "theorems": [
    "C08_isbase64_counts_symbols",
    "C08_isbase64_ratio",
    "C08_reported_size_refuted"
   ],
   "note": ""
  },
  {
   "property": "C09",
   "status": "proved",
   "theorems": [
    "C09_decode_undefined_iff",
    "C09_isbase64_undefined_iff",
    "C09_unsigned_char_defined"
   ],
   "note": ""
  },
  {
   "property": "C10",
   "status": "proved",
   "theorems": [
    "C10_append",
    "C10_append_assoc",
    "C10_append_empty_left"
   ],
   "note": ""
  },
  {
   "property": "C11",
   "status": "proved",
   "theorems": [
    "C11_directory_and_tail",
    "C11_tail_of_append",
    "C11_directory_of_append",
    "C11_rejoin_refuted"
   ],
   "note": ""
  },
  {
   "property": "C12",
   "status": "proved",
   "theorems": [
    "C12_extension",
    "C12_extension_of_append"
   ],
   "note": ""
  },
  {
   "property": "C13",
   "status": "proved",
   "theorems": [
    "C13_search_path_list",
    "C13_not_found_empty_refuted",
    "C13_search_in_file_system"
   ],
   "note": ""
  },
  {
   "property": "C14",
   "status": "proved",
   "theorems": [
    "C14_colon_list",
    "C14_colon_list_of_join",
    "C14_colon_list_empty"
   ],
   "note": ""
  },
  {
   "property": "C15",
   "status": "proved",
   "theorems": [
    "C15_not_a_directory",
    "C15_success",
    "C15_relative_paths_follow",
    "C15_two_steps",
    "C15_history",
    "C15_set_get",
    "C15_get_current_directory_defined"
   ],
   "note": ""
  },
  {
   "property": "C16",
   "status": "proved",
   "theorems": [
    "C16_escape_total_and_lossless",
    "C16_no_markup",
    "C16_injective",
    "C16_identity_iff"
   ],
   "note": ""
  },
  {
   "property": "C17",
   "status": "proved",
   "theorems": [
    "C17_printed_measurements_read_back",
    "C17_nothing_is_lost",
    "C17_control_character_breaks_file",
    "C17_all_texts_refuted"
   ],
   "note": ""
  },
  {
   "property": "C18",
   "status": "proved",
   "theorems": [
    "C18_factory",
    "C18_unknown",
    "C18_types_distinct",
    "C18_load"
   ],
   "note": ""
  },
  {
   "property": "C19",
   "status": "proved",
   "theorems": [
    "C19_set_data_without_encoding",
    "C19_conversion_refuted",
    "C19_copy_loses_data",
    "C19_set_data_with_compression",
    "C19_stale_after_encoding_change",
    "C19_set_content_refreshes"
   ],
   "note": ""
  },
  {
   "property": "C20",
   "status": "proved",
   "theorems": [
    "C20_base64_data",
    "C20_base64_comparison_undefined",
    "C20_base64_set_get"
   ],
   "note": ""
  },
  {
   "property": "C21",
   "status": "proved",
   "theorems": [
    "C21_integer_value_kept",
    "C21_integer_text_injective",
    "C21_boolean_value_kept",
    "C21_value_defined_iff",
    "C21_value_read",
    "C21_white_space"
   ],
   "note": ""
  },
  {
   "property": "C22",
   "status": "proved",
   "theorems": [
    "C22_integer_tolerance",
    "C22_integer_within_tolerance",
    "C22_integer_undefined"
   ],
   "note": ""
  },
  {
   "property": "C23",
   "status": "proved",
   "theorems": [
    "C23_symmetric",
    "C23_sign_of_tolerance_irrelevant",
    "C23_reflexive",
    "C23_nan_value",
    "C23_nan_tolerance",
    "C23_infinity",
    "C23_monotone",
    "C23_meaning"
   ],
   "note": ""
  },
  {
   "property": "C24",
   "status": "proved",
   "theorems": [
    "C24_in_memory_exact",
    "C24_in_memory_data",
    "C24_default_is_exact",
    "C24_tolerant",
    "C24_tolerant_ignores_names",
    "C24_tolerant_names_refuted"
   ],
   "note": ""
  },
  {
   "property": "C25",
   "status": "proved",
   "theorems": [
    "C25_two_files",
    "C25_directory",
    "C25_images_never_equal",
    "C25_file_and_data"
   ],
   "note": ""
  },
  {
   "property": "C26",
   "status": "proved",
   "theorems": [
    "C26_general_report",
    "C26_plain_text_report",
    "C26_plain_text_report_is_patch"
   ],
   "note": ""
  },
  {
   "property": "C27",
   "status": "proved",
   "theorems": [
    "C27_lines_lossless",
    "C27_line_count"
   ],
   "note": ""
  },
  {
   "property": "C28",
   "status": "proved",
   "theorems": [
    "C28_same_id_iff_same_line",
    "C28_succeeds_without_collisions",
    "C28_collision_refuted"
   ],
   "note": ""
  },
  {
   "property": "C29",
   "status": "proved",
   "theorems": [
    "C29_middle_snake_terminates",
    "C29_diff_terminates",
    "C29_diff_succeeds"
   ],
   "note": ""
  },
  {
   "property": "C30",
   "status": "proved",
   "theorems": [
    "C30_search_in_bounds",
    "C30_outside_reads_harmless",
    "C30_in_bounds_refuted"
   ],
   "note": ""
  },
  {
   "property": "C31",
   "status": "proved",
   "theorems": [
    "C31_edits_correct"
   ],
   "note": ""
  },
  {
   "property": "C32",
   "status": "proved",
   "theorems": [
    "C32_edits_well_formed"
   ],
   "note": ""
  },
  {
   "property": "C33",
   "status": "proved",
   "theorems": [
    "C33_empty_iff_equal"
   ],
   "note": ""
  },
  {
   "property": "C34",
   "status": "proved",
   "theorems": [
    "C34_printed_difference_is_patch",
    "C34_nul_refuted"
   ],
   "note": ""
  },
  {
   "property": "C35",
   "status": "proved",
   "theorems": [
    "C35_bounded",
    "C35_minimal_refuted"
   ],
   "note": ""
  },
  {
   "property": "C36",
   "status": "proved",
   "theorems": [
    "C36_arguments_removed",
    "C36_lone_option_hangs",
    "C36_rejected",
    "C36_only_leading_options",
    "C36_expected_value",
    "C36_expected_text"
   ],
   "note": ""
  },
  {
   "property": "C37",
   "status": "proved",
   "theorems": [
    "C37_compare_status",
    "C37_record_status",
    "C37_unexpected_zero_refuted",
    "C37_missing_baseline_refuted",
    "C37_exit_status_refuted"
   ],
   "note": ""
  },
  {
   "property": "C38",
   "status": "proved",
   "theorems": [
    "C38_positions",
    "C38_run_positions",
    "C38_mismatches_of_exact_measurements",
    "C38_run",
    "C38_leftover_not_counted",
    "C38_beyond_the_end",
    "C38_all_baselines_needed_refuted"
   ],
   "note": ""
  },
  {
   "property": "C39",
   "status": "proved",
   "theorems": [
    "C39_record_then_compare",
    "C39_image_refuted",
    "C39_carriage_return_refuted",
    "C39_name_refuted",
    "C39_host_name_refuted",
    "C39_smallest_integer_refuted",
    "C39_expected_exception_refuted",
    "C39_result_dependent_refuted",
    "C39_same_output_destroys_baseline"
   ],
   "note": ""
  },
  {
   "property": "C40",
   "status": "proved",
   "theorems": [
    "C40_text_splitting_irrelevant",
    "C40_cut_anywhere"
   ],
   "note": ""
  },
  {
   "property": "C41",
   "status": "proved",
   "theorems": [
    "C41_whole_file_reaches_parser",
    "C41_result"
   ],
   "note": ""
  },
  {
   "property": "C42",
   "status": "proved",
   "theorems": [
    "C42_nested_element",
    "C42_type_missing",
    "C42_truncated",
    "C42_unknown_element_skipped"
   ],
   "note": ""
  },
  {
   "property": "C43",
   "status": "proved",
   "theorems": [
    "C43_measured_file_found",
    "C43_measured_file_not_found",
    "C43_no_directories",
    "C43_image_files_never_match",
    "C43_directory_raises",
    "C43_no_permission",
    "C43_recorded_without_name",
    "C43_baseline_only_in_current_directory"
   ],
   "note": ""
  },
  {
   "property": "C44",
   "status": "proved",
   "theorems": [
    "C44_recorded_text",
    "C44_line_determined",
    "C44_recorded_document",
    "C44_exception_refuted",
    "C44_other_files_untouched"
   ],
   "note": ""
  },
  {
   "property": "C45",
   "status": "proved",
   "theorems": [
    "C45_count",
    "C45_output",
    "C45_integers",
    "C45_reported_differs",
    "C45_differing_reported",
    "C45_every_difference_reported_refuted"
   ],
   "note": ""
  },
  {
   "property": "C46",
   "status": "proved",
   "theorems": [
    "C46_split_and_schedule",
    "C46_schedule",
    "C46_magnitude_depends_on_split_refuted"
   ],
   "note": ""
  },
  {
   "property": "C47",
   "status": "proved",
   "theorems": [
    "C47_threshold",
    "C47_radius",
    "C47_identical",
    "C47_bounds",
    "C47_symmetric",
    "C47_symmetric_refuted"
   ],
   "note": ""
  },
  {
   "property": "C48",
   "status": "proved",
   "theorems": [
    "C48_files",
    "C48_files_and_measurement",
    "C48_region_only",
    "C48_size",
    "C48_count",
    "C48_start",
    "C48_region",
    "C48_region_irrelevant",
    "C48_only_region_compared_refuted"
   ],
   "note": ""
  },
  {
   "property": "C49",
   "status": "proved",
   "theorems": [
    "C49_accepted",
    "C49_origin_ignored",
    "C49_documented_checks_refuted"
   ],
   "note": ""
  },
  {
   "property": "C50",
   "status": "proved",
   "theorems": [
    "C50_kth_name",
    "C50_needs_arguments",
    "C50_distinct",
    "C50_distinct_tails",
    "C50_names_of_a_run",
    "C50_absolute_program",
    "C50_boundaries_ignored",
    "C50_numbers_wrap",
    "C50_one_character",
    "C50_runs_distinct_refuted",
    "C50_hash_distinct_refuted"
   ],
   "note": ""
  },
  {
   "property": "C51",
   "status": "proved",
   "theorems": [
    "C51_images_in_order",
    "C51_every_command_line",
    "C51_plan_unique",
    "C51_comparison",
    "C51_passes_iff",
    "C51_counts",
    "C51_only_numbers_refuted"
   ],
   "note": ""
  },
  {
   "property": "C52",
   "status": "proved",
   "theorems": [
    "C52_is_a_text_measurement",
    "C52_pieces_do_not_matter",
    "C52_recorded",
    "C52_comparison",
    "C52_record_then_compare",
    "C52_standard_output_only_refuted",
    "C52_readable_without_output_file_refuted"
   ],
   "note": ""
  },
  {
   "property": "C53",
   "status": "proved",
   "theorems": [
    "C53_append_denotes"
   ],
   "note": ""
  },
  {
   "property": "C54",
   "status": "proved",
   "theorems": [
    "C54_return_value",
    "C54_zero_if_same_refuted"
   ],
   "note": ""
  },
  {
   "property": "C55",
   "status": "proved",
   "theorems": [
    "C55_compare_status",
    "C55_recorded_document",
    "C55_plain_tests",
    "C55_report_of_sizes",
    "C55_report_of_pixels",
    "C55_unreadable_image",
    "C55_baseline_must_be_in_directory",
    "C55_pictures_kept_refuted"
   ],
   "note": ""
  },
  {
   "property": "C56",
   "status": "proved",
   "theorems": [
    "C56_recorded",
    "C56_compared",
    "C56_names_distinct",
    "C56_names_unique_refuted",
    "C56_size_mismatches",
    "C56_small_sizes",
    "C56_all_sizes_refuted",
    "C56_size_run"
   ],
   "note": ""
  },
  {
   "property": "C57",
   "status": "proved",
   "theorems": [
    "C57_record_then_compare",
    "C57_images_recorded",
    "C57_overwritten_baseline_agrees",
    "C57_changed_image_detected_refuted"
   ],
   "note": ""
  },
  {
   "property": "C58",
   "status": "proved",
   "theorems": [
    "C58_at_most_one",
    "C58_kind",
    "C58_permissions",
    "C58_search_directory",
    "C58_nul",
    "C58_change_directory"
   ],
   "note": ""
  },
  {
   "property": "C59",
   "status": "proved",
   "theorems": [
    "C59_asking",
    "C59_output_name",
    "C59_comparison",
    "C59_mode_while_recording",
    "C59_mismatches_count_refuted",
    "C59_mode_is_fixed_refuted"
   ],
   "note": ""
  },
  {
   "property": "C60",
   "status": "proved",
   "theorems": [
    "C60_text_error",
    "C60_text_resolution",
    "C60_distinct_numbers_distinct_texts_refuted",
    "C60_reading",
    "C60_value_kept",
    "C60_short_numbers_kept",
    "C60_value_kept_exactly_refuted",
    "C60_not_numbers"
   ],
   "note": ""
  },
  {
   "property": "C61",
   "status": "proved",
   "theorems": [
    "C61_exact",
    "C61_equal_numbers_agree_refuted",
    "C61_double_tolerance",
    "C61_float_tolerance",
    "C61_not_numbers_count_as_zero",
    "C61_infinite_result_noticed_refuted",
    "C61_repeated_run"
   ],
   "note": ""
  },
  {
   "property": "C62",
   "status": "proved",
   "theorems": [
    "C62_constructor_is_options",
    "C62_constructor_is_options_Main",
    "C62_constructor_is_options_api",
    "C62_constructor_tolerance",
    "C62_refused_output"
   ],
   "note": ""
  },
  {
   "property": "C63",
   "status": "proved",
   "theorems": [
    "C63_text",
    "C63_text_determines_events",
    "C63_as_measurement",
    "C63_always_defined_refuted"
   ],
   "note": ""
  },
  {
   "property": "C64",
   "status": "proved",
   "theorems": [
    "C64_rebaselined",
    "C64_both_ways",
    "C64_rebaselined_back_refuted",
    "C64_changes_counted",
    "C64_passes_iff",
    "C64_what_texts",
    "C64_what_numbers"
   ],
   "note": ""
  },
  {
   "property": "C65",
   "status": "proved",
   "theorems": [
    "C65_data_element",
    "C65_data_element_without_type",
    "C65_file_element",
    "C65_attribute_order"
   ],
   "note": ""
  },
  {
   "property": "C66",
   "status": "proved",
   "theorems": [
    "C66_reports",
    "C66_report_determined",
    "C66_nothing_written_iff_no_mismatch",
    "C66_file_content_in_difference_refuted"
   ],
   "note": ""
  },
  {
   "property": "C67",
   "status": "proved",
   "theorems": [
    "C67_any_pixel_type",
    "C67_split_and_schedule",
    "C67_doubles",
    "C67_defined_pixel_types",
    "C67_integer_images",
    "C67_unsigned_images",
    "C67_compare_image",
    "C67_compare_region",
    "C67_integer_vectors",
    "C67_exchange_refuted",
    "C67_componentwise_refuted"
   ],
   "note": ""
  },
  {
   "property": "C68",
   "status": "proved",
   "theorems": [
    "C68_next_run",
    "C68_passing_run",
    "C68_only_this_run_counts_refuted",
    "C68_first_output_kept_refuted"
   ],
   "note": ""
  },
  {
   "property": "C69",
   "status": "proved",
   "theorems": [
    "C69_drift_refuted",
    "C69_versions",
    "C69_passes",
    "C69_default_tolerance"
   ],
   "note": ""
  },
  {
   "property": "C70",
   "status": "proved",
   "theorems": [
    "C70_stopped_recording",
    "C70_cut_off_noticed",
    "C70_exception_noticed",
    "C70_newline_not_needed"
   ],
   "note": ""
  },
  {
   "property": "C71",
   "status": "proved",
   "theorems": [
    "C71_comparison",
    "C71_recording",
    "C71_determined",
    "C71_generalises",
    "C71_by_hand",
    "C71_compare_value_refuted",
    "C71_caught_exception_refuted",
    "C71_record_then_compare_refuted",
    "C71_search_directory_refuted"
   ],
   "note": ""
  },
  {
   "property": "C72",
   "status": "proved",
   "theorems": [
    "C72_first_run",
    "C72_next_run",
    "C72_names_received",
    "C72_names",
    "C72_names_differ",
    "C72_names_differ_tails",
    "C72_own_tolerance_refuted",
    "C72_same_names_refuted",
    "C72_no_output_name_refuted"
   ],
   "note": ""
  },
  {
   "property": "C73",
   "status": "proved",
   "theorems": [
    "C73_full_disk",
    "C73_recording_success_refuted",
    "C73_noticed_later"
   ],
   "note": ""
  },
  {
   "property": "C74",
   "status": "proved",
   "theorems": [
    "C74_line_ends",
    "C74_converted_baseline",
    "C74_record_convert_compare",
    "C74_text_file_refuted",
    "C74_only_measurements_count"
   ],
   "note": ""
  },
  {
   "property": "C75",
   "status": "proved",
   "theorems": [
    "C75_parallel",
    "C75_same_as_serial",
    "C75_files_used",
    "C75_files_changed",
    "C75_itk_files_used",
    "C75_itk_files_changed",
    "C75_apart_by_names",
    "C75_always_parallel_refuted",
    "C75_itk_difference_images_refuted"
   ],
   "note": ""
  },
  {
   "property": "C76",
   "status": "proved",
   "theorems": [
    "C76_same_driver",
    "C76_no_misuse",
    "C76_nothing_left",
    "C76_exception_leaves",
    "C76_reuse_refuted"
   ],
   "note": ""
  },
  {
   "property": "C77",
   "status": "proved",
   "theorems": [
    "C77_same_driver",
    "C77_exception_reported",
    "C77_rejected",
    "C77_record_run",
    "C77_not_started",
    "C77_compare_run",
    "C77_reader_messages",
    "C77_silent_reader",
    "C77_record_then_compare_silent",
    "C77_not_the_status_refuted",
    "C77_missing_files_refuted",
    "C77_image_types"
   ],
   "note": ""
  },
  {
   "property": "C78",
   "status": "proved",
   "theorems": [
    "C78_values",
    "C78_no_faults",
    "C78_own_data",
    "C78_bill",
    "C78_no_leak",
    "C78_pointer",
    "C78_dangling",
    "C78_assignment_refuted",
    "C78_throwing_comparison_refuted",
    "C78_own_data_refuted"
   ],
   "note": ""
  },
  {
   "property": "C79",
   "status": "proved",
   "theorems": [
    "C79_same_as_lists",
    "C79_memory_given_back",
    "C79_output_is_patch",
    "C79_refused_request",
    "C79_always_given_back_refuted"
   ],
   "note": ""
  },
  {
   "property": "C80",
   "status": "proved",
   "theorems": [
    "C80_stopped_recording",
    "C80_cut_off_noticed",
    "C80_exception_noticed",
    "C80_newline_not_needed"
   ],
   "note": ""
  },
  {
   "property": "C81",
   "status": "proved",
   "theorems": [
    "C81_full_disk",
    "C81_noticed_later"
   ],
   "note": ""
  },
  {
   "property": "C82",
   "status": "proved",
   "theorems": [
    "C82_changes_counted",
    "C82_no_changes",
    "C82_images_counted"
   ],
   "note": ""
  },
  {
   "property": "C83",
   "status": "proved",
   "theorems": [
    "C83_transcript",
    "C83_image_determined",
    "C83_determined",
    "C83_output_file",
    "C83_failures_in_output_file_refuted"
   ],
   "note": ""
  },
  {
   "property": "C84",
   "status": "proved",
   "theorems": [
    "C84_same_driver",
    "C84_exception_reported",
    "C84_rejected",
    "C84_record_run",
    "C84_not_started",
    "C84_compare_run",
    "C84_objection",
    "C84_tool",
    "C84_silent_image",
    "C84_remarks_determined",
    "C84_lines_refuted"
   ],
   "note": ""
  },
  {
   "property": "C85",
   "status": "proved",
   "theorems": [
    "C85_same_program",
    "C85_record",
    "C85_not_started",
    "C85_compare",
    "C85_never_ends",
    "C85_no_arguments",
    "C85_freed_refuted",
    "C85_end_told_refuted",
    "C85_status_ambiguous_refuted"
   ],
   "note": ""
  },
  {
   "property": "C86",
   "status": "proved",
   "theorems": [
    "C86_reading",
    "C86_compare",
    "C86_itk_compare",
    "C86_recording",
    "C86_not_started",
    "C86_itk_not_started",
    "C86_count_refuted",
    "C86_depth_refuted"
   ],
   "note": ""
  },
  {
   "property": "C87",
   "status": "proved",
   "theorems": [
    "C87_comparison",
    "C87_recording",
    "C87_determined",
    "C87_generalises",
    "C87_same_without_images",
    "C87_by_hand",
    "C87_unreadable_counted",
    "C87_compare_value_refuted",
    "C87_type_decides_refuted"
   ],
   "note": ""
  },
  {
   "property": "C88",
   "status": "proved",
   "theorems": [
    "C88_takes",
    "C88_named_class",
    "C88_unknown",
    "C88_nearest",
    "C88_own_exceptions",
    "C88_record_run",
    "C88_compare_run",
    "C88_same_run",
    "C88_ambiguous_refuted",
    "C88_private_refuted",
    "C88_failing_what"
   ],
   "note": ""
  },
  {
   "property": "C89",
   "status": "proved",
   "theorems": [
    "C89_recording",
    "C89_comparing",
    "C89_total",
    "C89_blind",
    "C89_lines",
    "C89_chars",
    "C89_comparing_reads_nothing",
    "C89_generalises",
    "C89_record_then_compare_refuted"
   ],
   "note": ""
  },
  {
   "property": "C90",
   "status": "proved",
   "theorems": [
    "C90_itk_run_returns",
    "C90_run_returns",
    "C90_unread_baseline_returns",
    "C90_reader_ends",
    "C90_every_run_returns_refuted"
   ],
   "note": ""
  },
  {
   "property": "C91",
   "status": "proved",
   "theorems": [
    "C91_recording",
    "C91_comparing",
    "C91_total",
    "C91_blind",
    "C91_generalises",
    "C91_as_plain",
    "C91_image_named_on_input_refuted"
   ],
   "note": ""
  }
 ]
}