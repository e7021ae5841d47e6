{
 "claims": [
  {
   "property": "C01",
   "status": "proved",
   "theorems": [
    "C01_r_mat_proper_rotation",
    "C01_r_mat_inv_inverse",
    "C01_r_mat_ok_or_value_error",
    "C01_huber_action",
    "C01_huber_missing",
    "C01_four_circle_action",
    "C01_four_circle_missing"
   ],
   "note": ""
  },
  {
   "property": "C02",
   "status": "proved",
   "theorems": [
    "C02_r_mat_of_angles_from_r_mat",
    "C02_with_sgl_limit",
    "C02_angles_from_r_mat_of_r_mat",
    "C02_gimbal_lock_refuted"
   ],
   "note": "The statement names the exceptions found in the code; each is proved: C02_gimbal_lock_refuted."
  },
  {
   "property": "C03",
   "status": "proved",
   "theorems": [
    "C03_fresh",
    "C03_limits_respected",
    "C03_limits_respected_bisect",
    "C03_validate_exact",
    "C03_set_limit"
   ],
   "note": ""
  },
  {
   "property": "C04",
   "status": "proved",
   "theorems": [
    "C04_vector_round_trip",
    "C04_axes",
    "C04_isometry",
    "C04_matrix_round_trip",
    "C04_write_read",
    "C04_conventions_agree",
    "C04_unknown_convention",
    "C04_unset_read_refuted"
   ],
   "note": "The statement names the exceptions found in the code; each is proved: C04_unset_read_refuted."
  },
  {
   "property": "C05",
   "status": "proved",
   "theorems": [
    "C05_en2q",
    "C05_q2en",
    "C05_inverse",
    "C05_increasing",
    "C05_raise_exactly_on_negative"
   ],
   "note": ""
  },
  {
   "property": "C06",
   "status": "proved",
   "theorems": [
    "C06_angle_iff_triangle",
    "C06_short_sides_rejected",
    "C06_angle_correct",
    "C06_side_of_angle",
    "C06_angle_of_side"
   ],
   "note": ""
  },
  {
   "property": "C07",
   "status": "proved",
   "theorems": [
    "C07_two_theta_closes",
    "C07_psi_companion",
    "C07_raise_exactly_when_open"
   ],
   "note": ""
  },
  {
   "property": "C08",
   "status": "proved",
   "theorems": [
    "C08_energy_conservation",
    "C08_transfer_honoured",
    "C08_both_known_refuted"
   ],
   "note": "The statement names the exceptions found in the code; each is proved: C08_both_known_refuted."
  },
  {
   "property": "C09",
   "status": "proved",
   "theorems": [
    "C09_real_space_vectors",
    "C09_volume",
    "C09_dual",
    "C09_impossible_cell"
   ],
   "note": ""
  },
  {
   "property": "C10",
   "status": "proved",
   "theorems": [
    "C10_reciprocal_parameters",
    "C10_basis",
    "C10_involution"
   ],
   "note": ""
  },
  {
   "property": "C11",
   "status": "proved",
   "theorems": [
    "C11_metric",
    "C11_q_norm_agree"
   ],
   "note": ""
  },
  {
   "property": "C12",
   "status": "proved",
   "theorems": [
    "C12_round_trip_b",
    "C12_round_trip_ub",
    "C12_every_ub_factors",
    "C12_singular_is_unit_cube"
   ],
   "note": ""
  },
  {
   "property": "C13",
   "status": "proved",
   "theorems": [
    "C13_accepts_exactly",
    "C13_history",
    "C13_constructor",
    "C13_accepts_impossible_cell_refuted"
   ],
   "note": "The statement names the exceptions found in the code; each is proved: C13_accepts_impossible_cell_refuted."
  },
  {
   "property": "C14",
   "status": "proved",
   "theorems": [
    "C14_q_norm_is_a_norm",
    "C14_independent_of_u"
   ],
   "note": ""
  },
  {
   "property": "C15",
   "status": "proved",
   "theorems": [
    "C15_two_peaks",
    "C15_defined_exactly_when_not_collinear",
    "C15_recovers",
    "C15_calculate_ub_matrix"
   ],
   "note": ""
  },
  {
   "property": "C16",
   "status": "proved",
   "theorems": [
    "C16_one_peak",
    "C16_normal_up",
    "C16_normal_down",
    "C16_defined",
    "C16_normal_up_refuted",
    "C16_calculate_ub_matrix"
   ],
   "note": "The statement names the exceptions found in the code; each is proved: C16_normal_up_refuted."
  },
  {
   "property": "C17",
   "status": "proved",
   "theorems": [
    "C17_three_peaks",
    "C17_defined_exactly_when_not_coplanar",
    "C17_refused",
    "C17_left_handed_refuted",
    "C17_calculate_ub_matrix",
    "C17_no_angles_afterwards"
   ],
   "note": "The statement names the exceptions found in the code; each is proved: C17_left_handed_refuted."
  },
  {
   "property": "C18",
   "status": "proved",
   "theorems": [
    "C18_least_squares",
    "C18_defined",
    "C18_recovers",
    "C18_order_independent",
    "C18_duplication",
    "C18_calculate_ub_matrix"
   ],
   "note": ""
  },
  {
   "property": "C19",
   "status": "proved",
   "theorems": [
    "C19_uv_to_ub",
    "C19_round_trip",
    "C19_collinear"
   ],
   "note": ""
  },
  {
   "property": "C20",
   "status": "proved",
   "theorems": [
    "C20_diffraction_condition",
    "C20_in_plane",
    "C20_out_of_plane",
    "C20_along_normal",
    "C20_tolerance_refuted",
    "C20_needs_plane",
    "C20_defined",
    "C20_defined_exactly"
   ],
   "note": "The statement names the exceptions found in the code; each is proved: C20_tolerance_refuted."
  },
  {
   "property": "C21",
   "status": "proved",
   "theorems": [
    "C21_huber",
    "C21_inelastic_refuted",
    "C21_bisect",
    "C21_bisect_minus",
    "C21_bisect_plus_refuted"
   ],
   "note": "The statement names the exceptions found in the code; each is proved: C21_inelastic_refuted, C21_bisect_plus_refuted."
  },
  {
   "property": "C22",
   "status": "proved",
   "theorems": [
    "C22_one_bin",
    "C22_bin_decides",
    "C22_outside_ignored",
    "C22_default_range"
   ],
   "note": ""
  },
  {
   "property": "C23",
   "status": "proved",
   "theorems": [
    "C23_counts_conserved",
    "C23_together"
   ],
   "note": ""
  },
  {
   "property": "C24",
   "status": "proved",
   "theorems": [
    "C24_bins",
    "C24_x_inside_bin",
    "C24_needs_normalisation",
    "C24_y_between",
    "C24_x_in_order"
   ],
   "note": ""
  },
  {
   "property": "C25",
   "status": "proved",
   "theorems": [
    "C25_order_independent"
   ],
   "note": ""
  },
  {
   "property": "C26",
   "status": "proved",
   "theorems": [
    "C26_scales",
    "C26_raises",
    "C26_restores"
   ],
   "note": ""
  },
  {
   "property": "C27",
   "status": "proved",
   "theorems": [
    "C27_same_length",
    "C27_different_lengths",
    "C27_operand_destroyed_refuted",
    "C27_different_lengths_raises"
   ],
   "note": "The statement names the exceptions found in the code; each is proved: C27_operand_destroyed_refuted."
  },
  {
   "property": "C28",
   "status": "proved",
   "theorems": [
    "C28_accepts",
    "C28_rejects_with_ValueError",
    "C28_zero_step_refuted",
    "C28_pair_refuted"
   ],
   "note": "The statement names the exceptions found in the code; each is proved: C28_zero_step_refuted, C28_pair_refuted."
  },
  {
   "property": "C29",
   "status": "proved",
   "theorems": [
    "C29_one_cell",
    "C29_cells",
    "C29_counts_conserved",
    "C29_order_independent"
   ],
   "note": ""
  },
  {
   "property": "C30",
   "status": "proved",
   "theorems": [
    "C30_matching_scans",
    "C30_less_equal_as_coded",
    "C30_less_equal_refuted",
    "C30_not_equal_sound",
    "C30_not_equal_refuted",
    "C30_order_independent",
    "C30_unknown_keyword_refuted",
    "C30_answers_exactly",
    "C30_narrows",
    "C30_widens",
    "C30_splits",
    "C30_and_within_or",
    "C30_more_scans"
   ],
   "note": "The statement names the exceptions found in the code; each is proved: C30_less_equal_refuted, C30_not_equal_refuted, C30_unknown_keyword_refuted."
  },
  {
   "property": "C31",
   "status": "proved",
   "theorems": [
    "C31_repeatable",
    "C31_changed_conditions_refuted"
   ],
   "note": "The statement names the exceptions found in the code; each is proved: C31_changed_conditions_refuted."
  },
  {
   "property": "C32",
   "status": "proved",
   "theorems": [
    "C32_each_once_in_order",
    "C32_no_registration_meanwhile",
    "C32_exception_stops",
    "C32_never_lost",
    "C32_terminates",
    "C32_one_registry"
   ],
   "note": ""
  },
  {
   "property": "C33",
   "status": "proved",
   "theorems": [
    "C33_each_file_once",
    "C33_schedule_independent",
    "C33_history"
   ],
   "note": ""
  },
  {
   "property": "C34",
   "status": "proved",
   "theorems": [
    "C34_grouped",
    "C34_nameless_raises",
    "C34_get_scan",
    "C34_names_distinct",
    "C34_nexus_folder"
   ],
   "note": ""
  },
  {
   "property": "C35",
   "status": "partial",
   "theorems": [
    "C35_other_experiments_kept",
    "C35_replaced_as_coded",
    "C35_refuted",
    "C35_history_as_coded",
    "C35_exactly_partial"
   ],
   "note": "False of the code: loading again replaces the experiment (C35_refuted). Proved instead: exactly what is stored after one load (C35_replaced_as_coded) and after any history of loads (C35_history_as_coded), when nothing is lost (C35_exactly_partial), and that other experiments are kept."
  },
  {
   "property": "C36",
   "status": "proved",
   "theorems": [
    "C36_members",
    "C36_one_per_request",
    "C36_missing_raises",
    "C36_default_names_distinct"
   ],
   "note": ""
  },
  {
   "property": "C37",
   "status": "proved",
   "theorems": [
    "C37_logs",
    "C37_no_logs_refuted",
    "C37_sound",
    "C37_complete",
    "C37_unique",
    "C37_absent",
    "C37_hidden_refuted",
    "C37_repeatable",
    "C37_changes_entry_refuted"
   ],
   "note": "The statement names the exceptions found in the code; each is proved: C37_no_logs_refuted, C37_hidden_refuted, C37_changes_entry_refuted."
  },
  {
   "property": "C38",
   "status": "proved",
   "theorems": [
    "C38_round_trip",
    "C38_round_trip_exact",
    "C38_other_entries_kept",
    "C38_string_arrays_refuted",
    "C38_scan_num_refuted",
    "C38_overwrite_refuted",
    "C38_plain_values_refuted"
   ],
   "note": "The statement names the exceptions found in the code; each is proved: C38_string_arrays_refuted, C38_scan_num_refuted, C38_overwrite_refuted, C38_plain_values_refuted."
  },
  {
   "property": "C39",
   "status": "proved",
   "theorems": [
    "C39_whole_number",
    "C39_empty_dataset",
    "C39_dataset",
    "C39_untouched",
    "C39_last_dataset",
    "C39_attributes_untouched",
    "C39_last_attribute",
    "C39_false_values",
    "C39_constructor",
    "C39_zero_attribute_refuted",
    "C39_attrs_name_refuted"
   ],
   "note": "The statement names the exceptions found in the code; each is proved: C39_zero_attribute_refuted, C39_attrs_name_refuted."
  },
  {
   "property": "C40",
   "status": "proved",
   "theorems": [
    "C40_keys_preserved",
    "C40_end_time",
    "C40_accepted",
    "C40_title_lost_refuted",
    "C40_inner_blanks_refuted"
   ],
   "note": "The statement names the exceptions found in the code; each is proved: C40_title_lost_refuted, C40_inner_blanks_refuted."
  },
  {
   "property": "C41",
   "status": "proved",
   "theorems": [
    "C41_lines_classified",
    "C41_refused",
    "C41_columns",
    "C41_single_column_refuted",
    "C41_messages_lost_refuted"
   ],
   "note": "The statement names the exceptions found in the code; each is proved: C41_single_column_refuted, C41_messages_lost_refuted."
  },
  {
   "property": "C42",
   "status": "proved",
   "theorems": [
    "C42_ub_recorded",
    "C42_temp_refuted",
    "C42_ub_absent",
    "C42_ubconf_needed",
    "C42_header_recorded",
    "C42_messages_refuted"
   ],
   "note": "The statement names the exceptions found in the code; each is proved: C42_temp_refuted, C42_messages_refuted."
  },
  {
   "property": "C43",
   "status": "proved",
   "theorems": [
    "C43_minimum",
    "C43_definite",
    "C43_inverse",
    "C43_order",
    "C43_soft_axis_refuted"
   ],
   "note": "The statement names the exceptions found in the code; each is proved: C43_soft_axis_refuted."
  },
  {
   "property": "C44",
   "status": "proved",
   "theorems": [
    "C44_widths",
    "C44_extent",
    "C44_equal",
    "C44_variance"
   ],
   "note": ""
  },
  {
   "property": "C45",
   "status": "proved",
   "theorems": [
    "C45_frames",
    "C45_q_frame",
    "C45_axis_angles",
    "C45_centre",
    "C45_axes_definite",
    "C45_aligned",
    "C45_aligned_bisect",
    "C45_four_circle_plus_refuted",
    "C45_r0",
    "C45_definite",
    "C45_defined",
    "C45_meaning",
    "C45_r0_positive"
   ],
   "note": "The statement names the exceptions found in the code; each is proved: C45_four_circle_plus_refuted."
  },
  {
   "property": "C46",
   "status": "proved",
   "theorems": [
    "C46_one_per_point",
    "C46_all_return",
    "C46_caught",
    "C46_none_exactly"
   ],
   "note": ""
  },
  {
   "property": "C47",
   "status": "proved",
   "theorems": [
    "C47_product",
    "C47_spans",
    "C47_members",
    "C47_rejects",
    "C47_two_energies_refuted",
    "C47_zero_step_refuted"
   ],
   "note": "The statement names the exceptions found in the code; each is proved: C47_two_energies_refuted, C47_zero_step_refuted."
  },
  {
   "property": "C48",
   "status": "proved",
   "theorems": [
    "C48_theta",
    "C48_reachable",
    "C48_energy_back",
    "C48_inverse_refuted"
   ],
   "note": "The statement names the exceptions found in the code; each is proved: C48_inverse_refuted."
  },
  {
   "property": "C49",
   "status": "partial",
   "theorems": [
    "C49_source_partial",
    "C49_refuted",
    "C49_exactly_partial"
   ],
   "note": "False of the code: every distance is computed from the first one (C49_refuted). Only the first distance is right (C49_source_partial), and others exactly if they equal it (C49_exactly_partial)."
  },
  {
   "property": "C50",
   "status": "proved",
   "theorems": [
    "C50_x_to_plot",
    "C50_x_to_plot_empty",
    "C50_range_keeps_points",
    "C50_nested_ranges",
    "C50_distinct_prefixes",
    "C50_one_component_each"
   ],
   "note": ""
  },
  {
   "property": "C51",
   "status": "proved",
   "theorems": [
    "C51_labels",
    "C51_zero_vector_refuted",
    "C51_too_many"
   ],
   "note": "The statement names the exceptions found in the code; each is proved: C51_zero_vector_refuted."
  },
  {
   "property": "C52",
   "status": "proved",
   "theorems": [
    "C52_inverse",
    "C52_inverse_back",
    "C52_oblique"
   ],
   "note": ""
  },
  {
   "property": "C53",
   "status": "proved",
   "theorems": [
    "C53_best_first",
    "C53_each_file",
    "C53_whole_folder",
    "C53_named",
    "C53_other_facility_refuted"
   ],
   "note": "The statement names the exceptions found in the code; each is proved: C53_other_facility_refuted."
  },
  {
   "property": "C54",
   "status": "proved",
   "theorems": [
    "C54_transparent",
    "C54_no_deadlock",
    "C54_call_order",
    "C54_one_at_a_time_refuted",
    "C54_interface"
   ],
   "note": "The statement names the exceptions found in the code; each is proved: C54_one_at_a_time_refuted."
  },
  {
   "property": "C55",
   "status": "proved",
   "theorems": [
    "C55_user_settings_kept",
    "C55_complete",
    "C55_nothing_else",
    "C55_idempotent",
    "C55_read_back",
    "C55_readable",
    "C55_valueless_refuted"
   ],
   "note": "The statement names the exceptions found in the code; each is proved: C55_valueless_refuted."
  },
  {
   "property": "C56",
   "status": "proved",
   "theorems": [
    "C56_plain_columns",
    "C56_normalised",
    "C56_rebinned",
    "C56_step_only",
    "C56_grid_wins",
    "C56_underscore_refuted",
    "C56_countfile_refuted"
   ],
   "note": "The statement names the exceptions found in the code; each is proved: C56_underscore_refuted, C56_countfile_refuted."
  },
  {
   "property": "C57",
   "status": "proved",
   "theorems": [
    "C57_2d_one_long_scan",
    "C57_2d_order_independent",
    "C57_2d_rows",
    "C57_2d_rows_refuted",
    "C57_2d_different_presets",
    "C57_2d_needs_grid",
    "C57_axes",
    "C57_2d_lengths",
    "C57_each",
    "C57_one_long_scan",
    "C57_order_independent",
    "C57_different_presets"
   ],
   "note": "The statement names the exceptions found in the code; each is proved: C57_2d_rows_refuted."
  },
  {
   "property": "C58",
   "status": "proved",
   "theorems": [
    "C58_queue",
    "C58_settles",
    "C58_queue_bound",
    "C58_listed",
    "C58_shown",
    "C58_half_updated_refuted",
    "C58_untitled_refuted",
    "C58_click",
    "C58_next_number",
    "C58_leading_zeros_refuted",
    "C58_stale_metadata_refuted",
    "C58_tree",
    "C58_empty_folder_refuted"
   ],
   "note": "The statement names the exceptions found in the code; each is proved: C58_half_updated_refuted, C58_untitled_refuted, C58_leading_zeros_refuted, C58_stale_metadata_refuted, C58_empty_folder_refuted."
  },
  {
   "property": "C59",
   "status": "proved",
   "theorems": [
    "C59_save_open",
    "C59_default_path_refuted"
   ],
   "note": "The statement names the exceptions found in the code; each is proved: C59_default_path_refuted."
  },
  {
   "property": "C60",
   "status": "proved",
   "theorems": [
    "C60_parameters_kept",
    "C60_spacing_of_type",
    "C60_update",
    "C60_update_type_refuted",
    "C60_rectangle_size",
    "C60_round_size",
    "C60_divergences",
    "C60_mosaic",
    "C60_sense"
   ],
   "note": "The statement names the exceptions found in the code; each is proved: C60_update_type_refuted."
  },
  {
   "property": "C61",
   "status": "proved",
   "theorems": [
    "C61_parts_loaded",
    "C61_arms_refuted",
    "C61_parts_made",
    "C61_history",
    "C61_path",
    "C61_path_refuted"
   ],
   "note": "The statement names the exceptions found in the code; each is proved: C61_arms_refuted, C61_path_refuted."
  },
  {
   "property": "C62",
   "status": "partial",
   "theorems": [
    "C62_refuted",
    "C62_equal_errors_partial",
    "C62_inverted",
    "C62_exactly_equal_partial"
   ],
   "note": "False of the code: errors are passed as weights (C62_refuted). It holds of exactly the data whose error bars are all equal (C62_equal_errors_partial, C62_exactly_equal_partial); otherwise every error bar counts as its inverse (C62_inverted)."
  },
  {
   "property": "C63",
   "status": "proved",
   "theorems": [
    "C63_counts",
    "C63_channels_distinct",
    "C63_accepted"
   ],
   "note": ""
  },
  {
   "property": "C64",
   "status": "proved",
   "theorems": [
    "C64_values",
    "C64_modes",
    "C64_formats",
    "C64_unknown_format_refuted",
    "C64_mode_lost_refuted"
   ],
   "note": "The statement names the exceptions found in the code; each is proved: C64_unknown_format_refuted, C64_mode_lost_refuted."
  },
  {
   "property": "C65",
   "status": "proved",
   "theorems": [
    "C65_messages",
    "C65_columns",
    "C65_one_column_refuted",
    "C65_metadata",
    "C65_digit_column_refuted",
    "C65_no_points_refuted",
    "C65_ub",
    "C65_tmp_ub_refuted",
    "C65_no_ubconf_folder_refuted",
    "C65_first_character_refuted",
    "C65_ub_content",
    "C65_ub_refused",
    "C65_ub_xml",
    "C65_ub_attached"
   ],
   "note": "The statement names the exceptions found in the code; each is proved: C65_one_column_refuted, C65_digit_column_refuted, C65_no_points_refuted, C65_tmp_ub_refuted, C65_no_ubconf_folder_refuted, C65_first_character_refuted."
  },
  {
   "property": "C66",
   "status": "proved",
   "theorems": [
    "C66_columns",
    "C66_texts",
    "C66_numbers",
    "C66_senses",
    "C66_users",
    "C66_collimation",
    "C66_times",
    "C66_plot",
    "C66_counting",
    "C66_preset",
    "C66_signed_preset_refuted",
    "C66_detector_channels",
    "C66_channels",
    "C66_logs",
    "C66_log_headers",
    "C66_config_numbers",
    "C66_config_texts",
    "C66_sample_file",
    "C66_ub_refuted",
    "C66_log_lookup",
    "C66_mosaic"
   ],
   "note": "The statement names the exceptions found in the code; each is proved: C66_signed_preset_refuted, C66_ub_refuted."
  },
  {
   "property": "C67",
   "status": "proved",
   "theorems": [
    "C67_folder",
    "C67_converts",
    "C67_scan_name",
    "C67_standard_folder",
    "C67_one_scan",
    "C67_one_scan_found",
    "C67_not_a_folder",
    "C67_columns_shown",
    "C67_counters_shown",
    "C67_channels_shown",
    "C67_detectors_shown",
    "C67_detectors_refuted",
    "C67_only",
    "C67_total",
    "C67_points_needed",
    "C67_data_refuted"
   ],
   "note": "The statement names the exceptions found in the code; each is proved: C67_detectors_refuted, C67_data_refuted."
  },
  {
   "property": "C68",
   "status": "proved",
   "theorems": [
    "C68_request",
    "C68_integers_refuted",
    "C68_centre",
    "C68_cut",
    "C68_projection",
    "C68_order_refuted",
    "C68_angle",
    "C68_angle_refuted"
   ],
   "note": "The statement names the exceptions found in the code; each is proved: C68_integers_refuted, C68_order_refuted, C68_angle_refuted."
  },
  {
   "property": "C69",
   "status": "proved",
   "theorems": [
    "C69_coordinates",
    "C69_cells",
    "C69_order_independent",
    "C69_nothing_kept",
    "C69_two_ranges",
    "C69_coplanar",
    "C69_default_normalisation"
   ],
   "note": ""
  },
  {
   "property": "C70",
   "status": "proved",
   "theorems": [
    "C70_determinant",
    "C70_value",
    "C70_skipped",
    "C70_shrink",
    "C70_cell_volume_refuted",
    "C70_linear",
    "C70_scale",
    "C70_box",
    "C70_calculate"
   ],
   "note": "The statement names the exceptions found in the code; each is proved: C70_cell_volume_refuted."
  },
  {
   "property": "C71",
   "status": "proved",
   "theorems": [
    "C71_value",
    "C71_too_many",
    "C71_linear",
    "C71_constant",
    "C71_constant_positive",
    "C71_shift",
    "C71_monotone",
    "C71_symmetric",
    "C71_sum",
    "C71_components",
    "C71_own_resolution",
    "C71_range_prefix",
    "C71_range_refuted",
    "C71_plot_refuted",
    "C71_guess",
    "C71_guess_refuted",
    "C71_unknown_signal",
    "C71_unknown_background_refuted",
    "C71_integers_refuted"
   ],
   "note": "The statement names the exceptions found in the code; each is proved: C71_range_refuted, C71_plot_refuted, C71_guess_refuted, C71_unknown_background_refuted, C71_integers_refuted."
  },
  {
   "property": "C72",
   "status": "proved",
   "theorems": [
    "C72_one_file",
    "C72_standard",
    "C72_ambiguous",
    "C72_last_file_refuted",
    "C72_data",
    "C72_info",
    "C72_number",
    "C72_number_refuted",
    "C72_preset",
    "C72_channels",
    "C72_channels_refuted",
    "C72_info_given",
    "C72_no_preset_refuted",
    "C72_no_axes_refuted",
    "C72_instrument",
    "C72_sample",
    "C72_sample_given",
    "C72_no_ub_refuted"
   ],
   "note": "The statement names the exceptions found in the code; each is proved: C72_last_file_refuted, C72_number_refuted, C72_channels_refuted, C72_no_preset_refuted, C72_no_axes_refuted, C72_no_ub_refuted."
  },
  {
   "property": "C73",
   "status": "proved",
   "theorems": [
    "C73_get",
    "C73_scan",
    "C73_scan_number",
    "C73_scan_number_refuted",
    "C73_which_scan"
   ],
   "note": "The statement names the exceptions found in the code; each is proved: C73_scan_number_refuted."
  },
  {
   "property": "C74",
   "status": "proved",
   "theorems": [
    "C74_count",
    "C74_half",
    "C74_all_round",
    "C74_closed",
    "C74_cut",
    "C74_projection",
    "C74_drawn"
   ],
   "note": ""
  },
  {
   "property": "C75",
   "status": "proved",
   "theorems": [
    "C75_draws1",
    "C75_draws2",
    "C75_returned",
    "C75_title1",
    "C75_title2",
    "C75_limits",
    "C75_labels1",
    "C75_labels2",
    "C75_legend",
    "C75_showing",
    "C75_title_refuted",
    "C75_label_refuted",
    "C75_keywords_refuted",
    "C75_curve_refuted"
   ],
   "note": "The statement names the exceptions found in the code; each is proved: C75_title_refuted, C75_label_refuted, C75_keywords_refuted, C75_curve_refuted."
  },
  {
   "property": "C76",
   "status": "proved",
   "theorems": [
    "C76_written",
    "C76_columns",
    "C76_beside",
    "C76_inside",
    "C76_given_refuted",
    "C76_trailing_slash_refuted",
    "C76_others_kept",
    "C76_silent_scan_refuted"
   ],
   "note": "The statement names the exceptions found in the code; each is proved: C76_given_refuted, C76_trailing_slash_refuted, C76_silent_scan_refuted."
  },
  {
   "property": "C77",
   "status": "proved",
   "theorems": [
    "C77_radial",
    "C77_rocking",
    "C77_distance",
    "C77_default_angle_refuted",
    "C77_no_momenta",
    "C77_noise_refuted"
   ],
   "note": "The statement names the exceptions found in the code; each is proved: C77_default_angle_refuted, C77_noise_refuted."
  },
  {
   "property": "C78",
   "status": "proved",
   "theorems": [
    "C78_loaded",
    "C78_select_refuted",
    "C78_selected",
    "C78_shared_refuted",
    "C78_isolated"
   ],
   "note": "The statement names the exceptions found in the code; each is proved: C78_select_refuted, C78_shared_refuted."
  },
  {
   "property": "C79",
   "status": "proved",
   "theorems": [
    "C79_six",
    "C79_panel",
    "C79_whole",
    "C79_oblique_refuted"
   ],
   "note": "The statement names the exceptions found in the code; each is proved: C79_oblique_refuted."
  },
  {
   "property": "C80",
   "status": "proved",
   "theorems": [
    "C80_channels",
    "C80_rebinned",
    "C80_chosen",
    "C80_missing",
    "C80_one",
    "C80_ignored_refuted",
    "C80_unnormalised_refuted"
   ],
   "note": "The statement names the exceptions found in the code; each is proved: C80_ignored_refuted, C80_unnormalised_refuted."
  },
  {
   "property": "C81",
   "status": "proved",
   "theorems": [
    "C81_accepts",
    "C81_reason",
    "C81_refused",
    "C81_answer",
    "C81_zero_refuted",
    "C81_no_ub"
   ],
   "note": "The statement names the exceptions found in the code; each is proved: C81_zero_refuted."
  },
  {
   "property": "C82",
   "status": "proved",
   "theorems": [
    "C82_equal",
    "C82_first_difference",
    "C82_close",
    "C82_apart",
    "C82_peaks",
    "C82_symmetric_refuted",
    "C82_transitive_refuted",
    "C82_both_refuted",
    "C82_turn_refuted"
   ],
   "note": "The statement names the exceptions found in the code; each is proved: C82_symmetric_refuted, C82_transitive_refuted, C82_both_refuted, C82_turn_refuted."
  },
  {
   "property": "C83",
   "status": "proved",
   "theorems": [
    "C83_file",
    "C83_accepted",
    "C83_missing",
    "C83_refused",
    "C83_no_ub",
    "C83_convention",
    "C83_shape",
    "C83_set",
    "C83_mosaic",
    "C83_incomplete_refuted",
    "C83_type_refuted",
    "C83_scan",
    "C83_scan_given",
    "C83_scan_no_normal_refuted",
    "C83_scan_no_cell",
    "C83_scan_no_mosaic_refuted",
    "C83_scan_no_reference_refuted",
    "C83_scan_units_refuted",
    "C83_same"
   ],
   "note": "The statement names the exceptions found in the code; each is proved: C83_incomplete_refuted, C83_type_refuted, C83_scan_no_normal_refuted, C83_scan_no_mosaic_refuted, C83_scan_no_reference_refuted, C83_scan_units_refuted."
  },
  {
   "property": "C84",
   "status": "proved",
   "theorems": [
    "C84_curve",
    "C84_width",
    "C84_symmetric",
    "C84_missing",
    "C84_center_refuted",
    "C84_half_done_refuted",
    "C84_plot"
   ],
   "note": "The statement names the exceptions found in the code; each is proved: C84_center_refuted, C84_half_done_refuted."
  },
  {
   "property": "C85",
   "status": "proved",
   "theorems": [
    "C85_convert_again",
    "C85_no_failure",
    "C85_interrupted",
    "C85_raised",
    "C85_silent_refuted",
    "C85_earlier_save_refuted",
    "C85_other_files",
    "C85_convert_no_failure",
    "C85_convert_interrupted",
    "C85_write_again",
    "C85_broken_off",
    "C85_resume",
    "C85_second_run",
    "C85_stale_refuted"
   ],
   "note": "The statement names the exceptions found in the code; each is proved: C85_silent_refuted, C85_earlier_save_refuted, C85_stale_refuted."
  },
  {
   "property": "C86",
   "status": "proved",
   "theorems": [
    "C86_wanted",
    "C86_params",
    "C86_fit",
    "C86_guess",
    "C86_again",
    "C86_stale_refuted",
    "C86_resolution"
   ],
   "note": "The statement names the exceptions found in the code; each is proved: C86_stale_refuted."
  },
  {
   "property": "C87",
   "status": "proved",
   "theorems": [
    "C87_two_peaks",
    "C87_two_peaks_exact",
    "C87_one_peak",
    "C87_three_peaks",
    "C87_many_peaks",
    "C87_drive",
    "C87_drive_four_circle",
    "C87_realign",
    "C87_more_peaks",
    "C87_two_peaks_defined",
    "C87_coplanar_refuted"
   ],
   "note": "The statement names the exceptions found in the code; each is proved: C87_coplanar_refuted."
  },
  {
   "property": "C88",
   "status": "proved",
   "theorems": [
    "C88_never_refuted",
    "C88_in_order_refuted",
    "C88_missing"
   ],
   "note": "The statement names the exceptions found in the code; each is proved: C88_never_refuted, C88_in_order_refuted."
  },
  {
   "property": "C89",
   "status": "proved",
   "theorems": [
    "C89_starts",
    "C89_left_alone",
    "C89_kept",
    "C89_complete",
    "C89_settles",
    "C89_help",
    "C89_broken_off",
    "C89_broken_off_refuted",
    "C89_malformed_refuted",
    "C89_together",
    "C89_together_refuted"
   ],
   "note": "The statement names the exceptions found in the code; each is proved: C89_broken_off_refuted, C89_malformed_refuted, C89_together_refuted."
  }
 ]
}