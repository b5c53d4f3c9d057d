{
 "claims": [
  {
   "property": "C01",
   "status": "proved",
   "theorems": [
    "C01_mos_range",
    "C01_nan_only_from_mapping"
   ],
   "note": ""
  },
  {
   "property": "C02",
   "status": "proved",
   "theorems": [
    "C02_extremes"
   ],
   "note": ""
  },
  {
   "property": "C03",
   "status": "proved",
   "theorems": [
    "C03_reported_score",
    "C03_reported_monotone",
    "C03_monotone_f64",
    "C03_monotone_exact",
    "C03_exact_value"
   ],
   "note": ""
  },
  {
   "property": "C04",
   "status": "proved",
   "theorems": [
    "C04_mapping_f64",
    "C04_perfect_similarity_f64",
    "C04_reported_score_f64",
    "C04_reported_score",
    "C04_perfect_similarity",
    "C04_maps_to_five_refuted"
   ],
   "note": ""
  },
  {
   "property": "C05",
   "status": "proved",
   "theorems": [
    "C05_no_memory"
   ],
   "note": ""
  },
  {
   "property": "C06",
   "status": "proved",
   "theorems": [
    "C06_sample_rates"
   ],
   "note": ""
  },
  {
   "property": "C07",
   "status": "proved",
   "theorems": [
    "C07_reference_bit_depth",
    "C07_reference_unreadable",
    "C07_degraded_bit_depth",
    "C07_degraded_unreadable",
    "C07_reference_damaged_panics",
    "C07_degraded_damaged_panics"
   ],
   "note": ""
  },
  {
   "property": "C08",
   "status": "proved",
   "theorems": [
    "C08_frames",
    "C08_mean",
    "C08_mono_exact",
    "C08_in_range",
    "C08_ragged_panics",
    "C08_mean_f64"
   ],
   "note": ""
  },
  {
   "property": "C09",
   "status": "proved",
   "theorems": [
    "C09_between",
    "C09_exact_on_powers",
    "C09_exact_to_512",
    "C09_next_power_of_two_refuted",
    "C09_zero",
    "C09_fft_size"
   ],
   "note": ""
  },
  {
   "property": "C10",
   "status": "proved",
   "theorems": [
    "C10_only_shifts",
    "C10_empty_reference",
    "C10_empty_degraded"
   ],
   "note": ""
  },
  {
   "property": "C11",
   "status": "proved",
   "theorems": [
    "C11_equal_lengths"
   ],
   "note": ""
  },
  {
   "property": "C12",
   "status": "proved",
   "theorems": [
    "C12_at_most_one_off",
    "C12_truncation_point",
    "C12_round_trip_refuted"
   ],
   "note": ""
  },
  {
   "property": "C13",
   "status": "proved",
   "theorems": [
    "C13_best_lag",
    "C13_best_lag_f64",
    "C13_clear_peak_f64"
   ],
   "note": ""
  },
  {
   "property": "C14",
   "status": "proved",
   "theorems": [
    "C14_short_signals",
    "C14_best_lag_refuted",
    "C14_short_signals_f64",
    "C14_best_lag_refuted_f64"
   ],
   "note": ""
  },
  {
   "property": "C15",
   "status": "proved",
   "theorems": [
    "C15_envelope",
    "C15_pointwise",
    "C15_hilbert_refuted",
    "C15_envelope_f64",
    "C15_pointwise_f64",
    "C15_hilbert_refuted_f64"
   ],
   "note": ""
  },
  {
   "property": "C16",
   "status": "proved",
   "theorems": [
    "C16_samples",
    "C16_start_past_end_panics"
   ],
   "note": ""
  },
  {
   "property": "C17",
   "status": "proved",
   "theorems": [
    "C17_fixed_grid",
    "C17_patches_cut"
   ],
   "note": ""
  },
  {
   "property": "C18",
   "status": "proved",
   "theorems": [
    "C18_rejects_exactly",
    "C18_minimum_refuted",
    "C18_last_patch_dropped"
   ],
   "note": ""
  },
  {
   "property": "C19",
   "status": "proved",
   "theorems": [
    "C19_three_silent_chunks"
   ],
   "note": ""
  },
  {
   "property": "C20",
   "status": "proved",
   "theorems": [
    "C20_silent_iff_integer_test",
    "C20_active_iff_integer_test"
   ],
   "note": ""
  },
  {
   "property": "C21",
   "status": "proved",
   "theorems": [
    "C21_active_grid_points",
    "C21_first_grid_point"
   ],
   "note": ""
  },
  {
   "property": "C22",
   "status": "proved",
   "theorems": [
    "C22_short_reference_panics",
    "C22_comparison_panics",
    "C22_no_result"
   ],
   "note": ""
  },
  {
   "property": "C23",
   "status": "proved",
   "theorems": [
    "C23_single_patch_panics",
    "C23_comparison_panics",
    "C23_fixed_grid_panics"
   ],
   "note": ""
  },
  {
   "property": "C24",
   "status": "proved",
   "theorems": [
    "C24_number_of_patches",
    "C24_results_kept",
    "C24_none_panics",
    "C24_first_low_panics",
    "C24_never_too_different"
   ],
   "note": ""
  },
  {
   "property": "C25",
   "status": "proved",
   "theorems": [
    "C25_optimal",
    "C25_optimal_exact"
   ],
   "note": ""
  },
  {
   "property": "C26",
   "status": "proved",
   "theorems": [
    "C26_order_window_lost",
    "C26_window_refuted"
   ],
   "note": ""
  },
  {
   "property": "C27",
   "status": "proved",
   "theorems": [
    "C27_never_lowers"
   ],
   "note": ""
  },
  {
   "property": "C28",
   "status": "proved",
   "theorems": [
    "C28_patch_times"
   ],
   "note": ""
  },
  {
   "property": "C29",
   "status": "proved",
   "theorems": [
    "C29_formula",
    "C29_range_and_order",
    "C29_f64_range_and_order",
    "C29_formula_f64",
    "C29_relative_floor_idle"
   ],
   "note": ""
  },
  {
   "property": "C30",
   "status": "proved",
   "theorems": [
    "C30_too_few_samples",
    "C30_dimensions",
    "C30_dimensions_exact",
    "C30_low_rate_panics"
   ],
   "note": ""
  },
  {
   "property": "C31",
   "status": "proved",
   "theorems": [
    "C31_entries",
    "C31_not_negative",
    "C31_column_is_local"
   ],
   "note": ""
  },
  {
   "property": "C32",
   "status": "proved",
   "theorems": [
    "C32_reported_frequencies",
    "C32_reported_frequencies_f64",
    "C32_centre_frequencies"
   ],
   "note": ""
  },
  {
   "property": "C33",
   "status": "proved",
   "theorems": [
    "C33_streaming",
    "C33_causal",
    "C33_difference_equation",
    "C33_linear"
   ],
   "note": ""
  },
  {
   "property": "C34",
   "status": "proved",
   "theorems": [
    "C34_unit_gain"
   ],
   "note": ""
  },
  {
   "property": "C35",
   "status": "proved",
   "theorems": [
    "C35_shape_and_entries",
    "C35_convolution_symmetric_kernel",
    "C35_convolution_refuted"
   ],
   "note": ""
  },
  {
   "property": "C36",
   "status": "proved",
   "theorems": [
    "C36_symmetric",
    "C36_formula",
    "C36_at_most_one",
    "C36_identical"
   ],
   "note": ""
  },
  {
   "property": "C37",
   "status": "proved",
   "theorems": [
    "C37_same_loudness",
    "C37_positive_multiple",
    "C37_gain_independent",
    "C37_same_loudness_f64",
    "C37_files_qualify"
   ],
   "note": ""
  },
  {
   "property": "C38",
   "status": "proved",
   "theorems": [
    "C38_averages_f64",
    "C38_overall_f64",
    "C38_averages",
    "C38_deviations_not_negative",
    "C38_pooled_deviation"
   ],
   "note": ""
  },
  {
   "property": "C39",
   "status": "proved",
   "theorems": [
    "C39_result_shape"
   ],
   "note": ""
  },
  {
   "property": "C40",
   "status": "proved",
   "theorems": [
    "C40_window_is_nearest"
   ],
   "note": ""
  },
  {
   "property": "C41",
   "status": "proved",
   "theorems": [
    "C41_copy_score",
    "C41_identical_inputs"
   ],
   "note": ""
  },
  {
   "property": "C42",
   "status": "proved",
   "theorems": [
    "C42_silent_degraded",
    "C42_silent_reference",
    "C42_silent_degraded_result",
    "C42_silent_degraded_no_result",
    "C42_silent_file_no_result"
   ],
   "note": ""
  },
  {
   "property": "C43",
   "status": "proved",
   "theorems": [
    "C43_short_degraded_panics"
   ],
   "note": ""
  },
  {
   "property": "C44",
   "status": "proved",
   "theorems": [
    "C44_order",
    "C44_first_failure"
   ],
   "note": ""
  },
  {
   "property": "C45",
   "status": "proved",
   "theorems": [
    "C45_last_result_only",
    "C45_appended_refuted"
   ],
   "note": ""
  },
  {
   "property": "C46",
   "status": "proved",
   "theorems": [
    "C46_no_header_no_paths",
    "C46_patch_counts_panic"
   ],
   "note": ""
  },
  {
   "property": "C47",
   "status": "proved",
   "theorems": [
    "C47_files_take_precedence",
    "C47_batch",
    "C47_compares_selected"
   ],
   "note": ""
  },
  {
   "property": "C48",
   "status": "proved",
   "theorems": [
    "C48_fullband_succeeds",
    "C48_wideband_succeeds",
    "C48_wideband_loud_succeeds"
   ],
   "note": ""
  },
  {
   "property": "C49",
   "status": "proved",
   "theorems": [
    "C49_error_values"
   ],
   "note": ""
  },
  {
   "property": "C50",
   "status": "proved",
   "theorems": [
    "C50_segment_exact",
    "C50_at_most_one_early",
    "C50_start_at_frame_refuted",
    "C50_drift_panics"
   ],
   "note": ""
  },
  {
   "property": "C51",
   "status": "proved",
   "theorems": [
    "C51_debug_run_is_release_run",
    "C51_debug_tool_is_release_tool",
    "C51_release_radius_wraps",
    "C51_release_run_is_debug_run_refuted"
   ],
   "note": ""
  },
  {
   "property": "C52",
   "status": "proved",
   "theorems": [
    "C52_similarity_ignores_volume",
    "C52_run_ignores_volume",
    "C52_spectrogram_is_homogeneous"
   ],
   "note": ""
  },
  {
   "property": "C53",
   "status": "proved",
   "theorems": [
    "C53_identical",
    "C53_finite",
    "C53_identical_one_refuted",
    "C53_at_most_one_refuted"
   ],
   "note": ""
  },
  {
   "property": "C54",
   "status": "proved",
   "theorems": [
    "C54_ranges",
    "C54_patch_ranges",
    "C54_overall_is_patch_mean",
    "C54_patch_mean_f64",
    "C54_patch_deviations_f64",
    "C54_overall_is_patch_mean_f64"
   ],
   "note": ""
  },
  {
   "property": "C55",
   "status": "proved",
   "theorems": [
    "C55_delay_is_undone_f64",
    "C55_delay_is_undone",
    "C55_power_of_two",
    "C55_offset_refuted"
   ],
   "note": ""
  },
  {
   "property": "C56",
   "status": "proved",
   "theorems": [
    "C56_stereo_order",
    "C56_dual_mono",
    "C56_dual_mono_run",
    "C56_accuracy",
    "C56_three_channels_order_refuted",
    "C56_three_equal_channels_refuted",
    "C56_opposite_channels",
    "C56_opposite_channels_run"
   ],
   "note": ""
  },
  {
   "property": "C57",
   "status": "proved",
   "theorems": [
    "C57_run_checks_then_compares",
    "C57_direct_never_refuses",
    "C57_direct_rates_refuted"
   ],
   "note": ""
  },
  {
   "property": "C58",
   "status": "proved",
   "theorems": [
    "C58_scaled_copy_is_perfect",
    "C58_inverted_copy_misaligned_refuted"
   ],
   "note": ""
  },
  {
   "property": "C59",
   "status": "proved",
   "theorems": [
    "C59_fullband_outcome",
    "C59_wideband_outcome",
    "C59_alignment_error_iff_empty",
    "C59_exchange_refuted"
   ],
   "note": ""
  },
  {
   "property": "C60",
   "status": "proved",
   "theorems": [
    "C60_whole_output",
    "C60_unwritable_debug_file",
    "C60_unwritable_results_file"
   ],
   "note": ""
  },
  {
   "property": "C61",
   "status": "proved",
   "theorems": [
    "C61_gap_f64",
    "C61_mapping_changes_score_only",
    "C61_scaled_is_a_multiple",
    "C61_wideband_scores",
    "C61_ranking",
    "C61_same_success"
   ],
   "note": ""
  },
  {
   "property": "C62",
   "status": "proved",
   "theorems": [
    "C62_larger_window",
    "C62_larger_window_exact"
   ],
   "note": ""
  },
  {
   "property": "C63",
   "status": "proved",
   "theorems": [
    "C63_filters_are_stable",
    "C63_filters_die_out",
    "C63_spectrogram_is_bounded"
   ],
   "note": ""
  },
  {
   "property": "C64",
   "status": "proved",
   "theorems": [
    "C64_first_row_is_ignored",
    "C64_bad_row_is_an_error",
    "C64_unreadable_first_row",
    "C64_one_column_panics",
    "C64_missing_file_panics",
    "C64_nothing_to_compare"
   ],
   "note": ""
  },
  {
   "property": "C65",
   "status": "proved",
   "theorems": [
    "C65_never_above_4_9",
    "C65_perfect_copy",
    "C65_monotone_refuted"
   ],
   "note": ""
  },
  {
   "property": "C66",
   "status": "proved",
   "theorems": [
    "C66_only_named_files_matter",
    "C66_only_outputs_are_touched",
    "C66_repeatable",
    "C66_repeatable_refuted",
    "C66_batch_is_single_runs",
    "C66_terminal_output"
   ],
   "note": ""
  },
  {
   "property": "C67",
   "status": "proved",
   "theorems": [
    "C67_wideband_reacts_smoothly_f64",
    "C67_jump_at_0_15_f64",
    "C67_wideband_reacts_smoothly",
    "C67_jump_at_0_15",
    "C67_fullband_reacts_smoothly"
   ],
   "note": ""
  },
  {
   "property": "C68",
   "status": "proved",
   "theorems": [
    "C68_debug_file_is_json",
    "C68_always_json_refuted",
    "C68_nothing_lost",
    "C68_not_finite_refuted",
    "C68_results_file"
   ],
   "note": ""
  },
  {
   "property": "C69",
   "status": "proved",
   "theorems": [
    "C69_accepted",
    "C69_intended_refuted",
    "C69_debug_build_starts_refuted"
   ],
   "note": ""
  },
  {
   "property": "C70",
   "status": "proved",
   "theorems": [
    "C70_opposite_channels",
    "C70_silent_reference",
    "C70_silent_reference_file",
    "C70_all_rated_alike"
   ],
   "note": ""
  },
  {
   "property": "C71",
   "status": "proved",
   "theorems": [
    "C71_patches_in_order",
    "C71_patches_in_order_f64"
   ],
   "note": ""
  },
  {
   "property": "C72",
   "status": "proved",
   "theorems": [
    "C72_selected_stretches",
    "C72_sound_skipped",
    "C72_active_sound_compared_refuted",
    "C72_selected_stretches_f64",
    "C72_sound_skipped_f64"
   ],
   "note": ""
  },
  {
   "property": "C73",
   "status": "proved",
   "theorems": [
    "C73_quiet_reference_is_matched_by_anything",
    "C73_turned_down"
   ],
   "note": ""
  },
  {
   "property": "C74",
   "status": "proved",
   "theorems": [
    "C74_example_program",
    "C74_documented_program"
   ],
   "note": ""
  },
  {
   "property": "C75",
   "status": "proved",
   "theorems": [
    "C75_follows_best_lag",
    "C75_follows_best_lag_f64",
    "C75_clear_lag_f64"
   ],
   "note": ""
  },
  {
   "property": "C76",
   "status": "proved",
   "theorems": [
    "C76_overlap",
    "C76_overlap_f64"
   ],
   "note": ""
  },
  {
   "property": "C77",
   "status": "proved",
   "theorems": [
    "C77_measured_where_reported",
    "C77_measured_where_reported_f64"
   ],
   "note": ""
  }
 ]
}