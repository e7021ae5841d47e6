# TAVI in Rocq: model, specification, proofs

## Layout

`rocq/theories/` (logical name `Verif`):

* `Base.v`, `LinAlg.v`, ... – generic vocabulary (result monad with Python exceptions as values, insertion-ordered
  dictionaries, 3-vectors and 3x3 matrices over the reals, `numpy.linalg.inv`, `arctan2`).
* `M_<area>.v` – the model. Every definition cites the file and lines of `/repo` it models. No proofs.
* `S_<area>.v` – small independent specifications (what the English says), not using the model's helpers.
* `L_<area>.v` – lemmas and proofs.
* `P_<area>.v` – the property theorems (`Theorem ... exact lemma. Qed.`), each followed by `Print Assumptions`
  and by an `Example` that a concrete non-trivial case meets its hypotheses.

## Conventions of the model

* Python exceptions are values: `Ok v | Err e`, with `e` naming the exception class.
* Python floats are idealised as real numbers (`Reals`). Rounding, overflow, NaN arising from overflow and
  signed zeros are not modelled. Division by zero is *not* hidden by Coq's total division: where numpy yields
  `nan`/`inf` the model returns an explicit marker (`option R`) or the theorem carries the non-degeneracy
  hypothesis, which is stated in geometric terms.
* `numpy.linalg.inv` is the adjugate divided by the determinant and raises `LinAlgError` when the determinant is 0.
* Dictionaries are insertion-ordered association lists with Python's update semantics.
* Files, HDF5 and folders are abstract stores (finite maps); Qt, matplotlib, lmfit, h5py themselves are outside.
* Where a claim of the English property is false of the code, the faithful model is kept, the theorem that holds is
  proved and the failure is proved as `..._refuted` with a concrete witness.

## Plan per property

| id | modelled | how proved |
|----|----------|-----------|
| C01 | `r_mat`, `rot_x/y/z`, type-string parsing, signs | matrix algebra + sin^2+cos^2=1, case analysis on mode |
| C02 | `angles_from_r_mat`, `arctan2` | polar-decomposition lemma for arctan2; gimbal lock refuted by witness |
| C03 | limits dictionary, `set_limit`, `validate_motor_positions` | induction over histories |
| C04 | both conversions, UBConf getters/setters | algebra; induction over writes |
| C05 | `en2q`, `q2en` | sqrt/square lemmas |
| C06 | `get_angle_from_triangle`, `get_side_from_triangle` | cos/acos |
| C07 | `get_two_theta`, `get_psi`, `q_lab` | law of cosines, sign of sine on [0,pi] |
| C08 | `_get_ei_ef` | case analysis |
| C09-C12 | `lattice_algorithm.py`, U/B extraction | trigonometric algebra over symbolic cosines |
| C13 | `update_lattice_parameters` | case analysis, induction over histories |
| C14 | `q_norm_from_hkl` | Cauchy-Schwarz in R^3 |
| C15-C19 | `find_u_*`, `find_ub_*`, uv conversions | orthonormal frames; normal equations with sums over lists |
| C20 | `r_matrix_with_minimal_tilt` | three branches, orthonormal frames; tolerance branch refuted |
| C21 | `calculate_motor_angles`, `calculate_hkl_from_angles`, bisect mode | composition of C02, C07, C20 |
| C22-C27 | `scan_data.py` 1D | induction over the data list; monotone boundaries |
| C28 | `format_rebin_params` | case analysis on a Python-value type |
| C29 | `scan_data.py` 2D | as C22-C25 |
| C30-C31 | `filter.py` | set reasoning, sortedness, state machine of `self.output` |
| C32 | `event_broker.py` | induction over histories; shared registry |
| C33 | `dummy_model.py` load | any permutation of batch completions |
| C34-C36 | `tavi.py`, `scan_group.py` | dictionaries; C35 refuted |
| C37-C38 | `nexus_entry.py` | induction on trees |
| C39 | `nexus_builder.py` containers | dictionaries |
| C40-C42 | `spice_reader.py` | induction on lines; C42 refuted parts |
| C43-C44 | `quadric_proj`, widths | Schur complement for matrices of any size |
| C45 | `cooper_nathans.py` matrices, `ellipsoid.py` frames | least unlikeliness of a path (block elimination), change of coordinates of a form |
| C46 | `cooper_nathans` driver | induction over the request list; which errors each step can raise |
| C47 | `generate_hkle` | product enumeration |
| C48 | Bragg angles | asin; constant mismatch refuted |
| C49 | `Distances` | refuted |
| C50 | `fit.py` range and prefixes, `x_to_plot` | filter/zip lemmas; folds of min and max |
| C51 | `labels_from_projection` | finite dictionary of letters, all vectors |
| C52 | plotter transforms | algebra |
| C53 | `load_manager.py` | maximum of scores |
| C54 | `proxy.py` | single-worker queue; threads themselves are abstracted to a FIFO |
| C55 | `configuration.py` | nested dictionaries |
| C56 | `Scan.get_data` | branch by branch, on top of C22-C28 |
| C57 | `ScanGroup.combine_data`, `_combine_data_1d`, `_combine_data_2d`, `get_data` | concatenation of columns, permutations, C25, C29; reshape of equal parts; refuted: unequal scans without a grid |
| C58 | `random_model.py`, `dummy_model.py`, presenters' wiring, `add_tree_data`; the queued signals (`M_Gui`) | induction over histories; decimal strings; refinement: for every interleaving of actions and deliveries, flushing the queue gives the state of the synchronous model; refuted parts |
| C59 | `TAVI.save`, `open_file`, `to_nexus`, `from_nexus` (whole file) | induction over experiments and scans; tree edits; refuted: default path |
| C60 | `TASComponent`, `MonoAna` construction and `update` | dictionary lemmas, induction over the parameters; refuted: change of type |
| C61 | `_load_instrument_parameters`, `load_instrument_params_from_json` (`M_InstrumentFile`) | induction over the sections of the file and over the history of files; refuted: `arms`, `json_path` names the file the parts come from |
| C62 | `Fit1D.fit` weights | counterexample; equal errors proved |
| C63 | count file parser of `spice_reader.py` | loop invariant over the commands; injectivity of decimal numerals |
| C64 | `read_spice_ubconf` | induction over lines against an independent reading of settings; refuted: unknown formats, lost modes |
| C65 | `LoadORNL._load_files`, `FileSystem/spice_reader.py` on a file system of texts | layout of the file, loop invariants over columns and header lines; refuted: digit names, no points, tmp folder, no UBConf, first character |
| C66 | `spice_scan_to_nxdict` and everything it calls, section by section (`M_Builder`) | table of columns and headers as specification; induction over the fields added to a section; refuted: signed or exponent header numbers, UB configuration |
| C67 | `spice_data_to_nxdict`, `from_spice`, `get_dataset_names`, `Scan` data | keys of the result by induction over the sorted listing; shape of built entries, uniqueness of field names; refuted: constants with as many numbers as points |
| C68 | `get_ellipse` | composition of two projections (C43), case analysis of the pairs; refuted: decreasing order, angle with the energy elsewhere, whole energies for integer h, k, l (`el_ints`: whether numpy keeps q_vec as integers, an argument of `new_ellipsoid`) |
| C69 | `combine_data_hkle` | coordinates are unique (inverse matrix); bookkeeping of the moved energy axis by cases; then the cells of C29 |
| C70 | `convolution`, `calculate` | widths from the inverse (C43, C44), the mesh as a duplicate-free list, folds of max and min as bounds, product of the eigenvalues as the determinant, Hadamard's inequality for the volume |
| C71 | `convfit.py` | the sum rewritten with the normal distribution; induction over points and components; histories by an invariant on prefixes; refuted: integer points (`conv_eval_ints`, the values stored by np.empty_like) |
| C72 | `Scan.__init__`, `from_spice`, `scan_info`, `sample_ub_info`, `instrument_info` (`M_ScanInfo`) | every look-up of a key in a built entry reduced to one field (uniqueness of names in the entry), then the theorems of C66; induction over the channels; decimal value of padded numbers |
| C73 | `to_nexus`, `from_nexus`, `Scan.from_nexus` (`M_Nexus`, `M_ScanInfo`) | the file is the image of the entry with two links; a lookup ignores attributes and sees datasets only through how they are stored; what is new under `data` has one content in the entry, which the lookup finds anyway; the names of data sets are compared part by part |
| C74 | `ellipse.py`, `Plot2D.plot` (`M_Ellipse`) | np.linalg.eig is an argument that satisfies the eigenvalue equation; the half-maximum contour is an identity of the decomposition; cut and projection are linked to the four-dimensional ellipsoid by the Schur complement of C68 |
| C75 | `plotter.py` (`M_Plotter`) | histories of operations on numbered plots and shared, numbered objects; a drawing is the list of commands to the axes; invariants over histories give its content, a simulation shows that drawing leaves no trace. Findings: keywords are shared between plots, curves on a 2D plot lose theirs, a title the user set is overwritten, an axis name the user set is never drawn |
| C76 | `convert_spice_to_nexus.py` (`M_Convert`) on the models of C63-C67 and C73 | a disk is a map from paths to HDF5 trees; every entry built from a plain SPICE file is shown to satisfy the conditions of C73 (names without slashes, contents that suit their types, plotted names found once), then C73 and C67 are chained. Findings: folder without final slash, SPICE folder with one, a scan without def_x or def_y |
| C77 | `Scan._get_del_q` (`M_DelQ`), `Scan.get_data` | both branches with the regular expression for the axis; momentum transfers are specified by vectors; the difference of arc and chord is bounded with x - x^3/6 <= sin x <= x. Findings: no default angle, recorded q with noise |
| C78 | `TaviProject`, `TaviData` used from a script (`M_Workspace`), with `LoadManager` (`M_Load`) and `Filter` (`M_Filter`) | histories of operations on a world of projects and of dictionaries they refer to; invariants over the history. Findings: `scan_list` is never set, the dictionary of selections is a mutable default argument |
| C79 | `ResoEllipsoid.plot_ellipses` (`M_EllipsePlot`) with `get_ellipse` and `Plot2D` (`M_Plotter`) | the commands of each panel; widths of projections bound every point drawn (C68, C74). Finding: the limits ignore the shear of oblique axes |
| C80 | `Scan.plot`, the labels of `Scan.get_data` and `make_labels` (`M_ScanPlot`) | induction over the rows of the count file; decimal names of columns read back as numbers; then C56. Findings: options ignored for count files, a channel named without normalisation |
| C81 | `validate_instrument_parameters` (`M_Reso`), `TAS.cooper_nathans` | equivalence with a written-out condition; every exception is traced to a reason. Finding: zero passes |
| C82 | `MotorAngles.__eq__` (`M_Utilities`), `!=` of tuples and equality of `Peak` (`M_Angles`) | induction over the six motors, the first that tells apart decides. Findings: not symmetric, not transitive, `==` and `!=` together, no full turns |
| C83 | `Sample.from_json`, `from_scan`, `set_shape`, `set_mosaic` (`M_SampleFile`), with the models of `UBConf` and of `sample_ub_info` | case analysis over the members of the file; headers through the theorems of C66 and C72; reading back through the inverse of the change of convention. Findings: incomplete shape or mosaic dropped, type ignored, scans without plane normal, mosaic or lattice constants, units of the mosaic |
| C84 | `ResoCurve` (`M_Curve`) | real analysis: the exponential of the square is decreasing in the distance, ln 2 gives the half maximum. Findings: `center` is never read, a failed call leaves new points and old heights |
| C85 | `TAVI.save` and `convert_spice_to_nexus` with an exception at any scan (`M_Interrupt`), on the models of C59 and C76 | the failing scan leaves any tree in its group or file; induction over the experiments and scans before it, with the reading theorems of C59. Writing again (`L_Rewrite`, `P_Rewrite`): induction over the entry, the tree it is written onto holding any part of it, for entries as in C38 (`conforming`); an entry built from a SPICE file with its lists and texts is written like its conforming form (`L_Plain`: writing, linking and reading commute with it), which gives the whole conversion broken off and run again any number of times (`P_Again`). Findings: an OSError is printed and not raised, the earlier file is lost, an entry written over a different one keeps what the new one does not have |
| C86 | `Fit1D.params`, `guess`, `fit` and those of `ConvFit1D` (`M_FitRun`) over the models of C50 and C71; lmfit's least squares and guesses are arguments (any outcome, any exception) | invariant over histories: what is kept is the last accepted outcome; prefixes are pairwise no prefixes of each other, so every parameter comes from the guess of its own component. Finding: a component added after a success |
| C87 | the whole chain of `TAS.calculate_ub_matrix`, `calculate_hkl_from_angles` and `calculate_motor_angles` (`M_Tas`), with `Sample.get_q_norm` as the measure of the lattice | the reading is the one vector that 2 pi UB sends to the measured one; two vectors in a half plane are determined by their Gram matrix; then C15 - C18, C21 and, for the lattice after aligning again, C12. Finding: three peaks measured in one plane |
| C88 | `CombineManager.combine_1d` (`M_Manager`); `argsort` and `binned_statistic` are arguments | a finding: cases over every step, the last one calls `range` |
| C89 | `Configuration.__init__`, `get_data`, `Tavi.__init__`, `help_function` over a template and a user's file (`M_Startup`); the list of files a start can be broken off with; copies that take turns | induction over starts on top of C55; cases over the states of the two files; invariant over schedules; refuted: broken off while writing, read while written, malformed file |

Not expressible / out of scope: GUI widgets and Qt signals, plotting back ends, lmfit's optimiser, HDF5's on-disk format,
floating-point rounding.

## Trusted base

* Coq 8.16.1 kernel (and `coqchk`).
* The reading of the Python source recorded in the comments of the model.
* Axioms of the standard library, and no others: `ClassicalDedekindReals.sig_forall_dec`, `ClassicalDedekindReals.sig_not_dec`
  and `FunctionalExtensionality.functional_extensionality_dep` (from `Reals`), and `Classical_Prop.classic` (from lemmas of `Reals` on
  limits and continuity). The build also loads modules that seal definitions (`Coq.Reals.Rdefinitions.RbaseSymbolsImpl`, `RinvImpl`,
  `Coq.ssr.ssrunder.Under_rel`); their fields are defined in the library and are no assumptions of ours.
* No axiom, `Variable` or `Hypothesis` outside a section, functor, module type or switched-off check is used. What the code takes from
  outside (parsing and printing of numbers, dates, XML, `genfromtxt`, the optimiser of lmfit, the contents of folders) is an argument
  of the functions of the model, and the theorems hold for every such argument.

What `Print Assumptions` says of each theorem (made by `tools/gen_assumptions.py`):

<!-- assumptions -->
* no axioms (124): C03_set_limit, C32_each_once_in_order, C32_exception_stops, C32_never_lost, C32_no_registration_meanwhile, C32_one_registry, C32_terminates, C33_each_file_once, C33_history, C33_schedule_independent, C34_get_scan, C34_grouped, C34_nameless_raises, C34_names_distinct, C34_nexus_folder, C35_exactly_partial, C35_history_as_coded, C35_other_experiments_kept, C35_refuted, C35_replaced_as_coded, C36_default_names_distinct, C36_members, C36_missing_raises, C36_one_per_request, C37_absent, C37_changes_entry_refuted, C37_complete, C37_logs, C37_no_logs_refuted, C37_repeatable, C37_sound, C37_unique, C39_constructor, C40_accepted, C40_end_time, C40_inner_blanks_refuted, C40_keys_preserved, C40_title_lost_refuted, C41_columns, C41_lines_classified, C41_messages_lost_refuted, C41_refused, C42_header_recorded, C42_messages_refuted, C42_temp_refuted, C42_ub_absent, C42_ub_recorded, C42_ubconf_needed, C50_one_component_each, C53_best_first, C53_each_file, C53_named, C53_other_facility_refuted, C53_whole_folder, C54_call_order, C54_interface, C54_no_deadlock, C54_one_at_a_time_refuted, C54_transparent, C55_complete, C55_idempotent, C55_nothing_else, C55_read_back, C55_readable, C55_user_settings_kept, C55_valueless_refuted, C58_click, C58_empty_folder_refuted, C58_half_updated_refuted, C58_leading_zeros_refuted, C58_listed, C58_next_number, C58_queue, C58_queue_bound, C58_settles, C58_shown, C58_stale_metadata_refuted, C58_tree, C58_untitled_refuted, C59_default_path_refuted, C60_parameters_kept, C60_update, C63_accepted, C63_channels_distinct, C63_counts, C64_formats, C64_mode_lost_refuted, C64_modes, C64_unknown_format_refuted, C64_values, C65_columns, C65_digit_column_refuted, C65_messages, C65_metadata, C65_no_points_refuted, C65_one_column_refuted, C65_ub, C65_ub_attached, C65_ub_content, C65_ub_refused, C65_ub_xml, C67_one_scan, C67_one_scan_found, C67_scan_name, C67_standard_folder, C71_unknown_background_refuted, C73_which_scan, C76_beside, C76_given_refuted, C76_inside, C76_trailing_slash_refuted, C84_center_refuted, C86_wanted, C89_broken_off, C89_broken_off_refuted, C89_complete, C89_help, C89_kept, C89_left_alone, C89_malformed_refuted, C89_settles, C89_starts, C89_together, C89_together_refuted
* `sig_forall_dec` (10): C04_unknown_convention, C04_unset_read_refuted, C37_hidden_refuted, C41_single_column_refuted, C49_source_partial, C60_sense, C65_first_character_refuted, C65_no_ubconf_folder_refuted, C65_tmp_ub_refuted, C83_set
* `functional_extensionality_dep`, `sig_forall_dec` (203): C03_fresh, C03_validate_exact, C04_axes, C04_conventions_agree, C04_matrix_round_trip, C04_vector_round_trip, C04_write_read, C05_q2en, C08_both_known_refuted, C08_energy_conservation, C08_transfer_honoured, C13_accepts_exactly, C13_constructor, C13_history, C22_one_bin, C26_raises, C26_restores, C26_scales, C28_accepts, C28_pair_refuted, C28_rejects_with_ValueError, C29_one_cell, C30_and_within_or, C30_answers_exactly, C30_less_equal_as_coded, C30_less_equal_refuted, C30_matching_scans, C30_more_scans, C30_narrows, C30_not_equal_refuted, C30_not_equal_sound, C30_order_independent, C30_splits, C30_unknown_keyword_refuted, C30_widens, C31_changed_conditions_refuted, C31_repeatable, C38_other_entries_kept, C38_overwrite_refuted, C38_plain_values_refuted, C38_round_trip, C38_round_trip_exact, C38_scan_num_refuted, C38_string_arrays_refuted, C39_attributes_untouched, C39_attrs_name_refuted, C39_dataset, C39_empty_dataset, C39_false_values, C39_last_attribute, C39_last_dataset, C39_untouched, C39_whole_number, C39_zero_attribute_refuted, C47_members, C47_product, C47_rejects, C47_spans, C47_two_energies_refuted, C47_zero_step_refuted, C49_exactly_partial, C49_refuted, C50_distinct_prefixes, C50_nested_ranges, C50_range_keeps_points, C50_x_to_plot, C50_x_to_plot_empty, C51_labels, C51_too_many, C51_zero_vector_refuted, C59_save_open, C60_spacing_of_type, C60_update_type_refuted, C61_arms_refuted, C61_history, C61_parts_loaded, C61_parts_made, C61_path, C61_path_refuted, C62_equal_errors_partial, C62_exactly_equal_partial, C62_inverted, C62_refuted, C66_channels, C66_collimation, C66_columns, C66_config_numbers, C66_config_texts, C66_counting, C66_detector_channels, C66_log_headers, C66_log_lookup, C66_logs, C66_mosaic, C66_numbers, C66_plot, C66_preset, C66_sample_file, C66_senses, C66_signed_preset_refuted, C66_texts, C66_times, C66_ub_refuted, C66_users, C67_channels_shown, C67_columns_shown, C67_converts, C67_counters_shown, C67_data_refuted, C67_detectors_refuted, C67_detectors_shown, C67_folder, C67_not_a_folder, C67_only, C67_points_needed, C67_total, C69_coordinates, C70_determinant, C71_components, C71_guess, C71_guess_refuted, C71_unknown_signal, C72_ambiguous, C72_channels, C72_channels_refuted, C72_data, C72_info, C72_info_given, C72_instrument, C72_last_file_refuted, C72_no_axes_refuted, C72_no_preset_refuted, C72_no_ub_refuted, C72_number, C72_number_refuted, C72_one_file, C72_preset, C72_sample, C72_sample_given, C72_standard, C73_get, C73_scan, C73_scan_number, C73_scan_number_refuted, C76_columns, C76_others_kept, C76_silent_scan_refuted, C76_written, C78_isolated, C78_loaded, C78_select_refuted, C78_selected, C78_shared_refuted, C81_accepts, C81_reason, C82_apart, C82_both_refuted, C82_close, C82_equal, C82_first_difference, C82_peaks, C82_symmetric_refuted, C82_transitive_refuted, C82_turn_refuted, C83_accepted, C83_convention, C83_file, C83_incomplete_refuted, C83_missing, C83_mosaic, C83_no_ub, C83_refused, C83_same, C83_scan, C83_scan_given, C83_scan_no_cell, C83_scan_no_normal_refuted, C83_scan_no_reference_refuted, C83_shape, C83_type_refuted, C85_broken_off, C85_convert_again, C85_convert_interrupted, C85_convert_no_failure, C85_earlier_save_refuted, C85_interrupted, C85_no_failure, C85_other_files, C85_raised, C85_resume, C85_second_run, C85_silent_refuted, C85_stale_refuted, C85_write_again, C86_again, C86_fit, C86_guess, C86_params, C86_resolution, C86_stale_refuted, C88_in_order_refuted, C88_missing, C88_never_refuted
* `functional_extensionality_dep`, `sig_forall_dec`, `sig_not_dec` (125): C01_four_circle_action, C01_four_circle_missing, C01_huber_action, C01_huber_missing, C01_r_mat_inv_inverse, C01_r_mat_ok_or_value_error, C01_r_mat_proper_rotation, C04_isometry, C05_en2q, C05_increasing, C05_inverse, C05_raise_exactly_on_negative, C09_dual, C09_impossible_cell, C09_real_space_vectors, C09_volume, C13_accepts_impossible_cell_refuted, C14_independent_of_u, C14_q_norm_is_a_norm, C15_defined_exactly_when_not_collinear, C15_recovers, C15_two_peaks, C16_defined, C16_normal_down, C16_normal_up, C16_normal_up_refuted, C16_one_peak, C17_defined_exactly_when_not_coplanar, C17_three_peaks, C18_defined, C18_duplication, C18_least_squares, C18_order_independent, C18_recovers, C20_along_normal, C20_defined, C20_defined_exactly, C20_diffraction_condition, C20_in_plane, C20_needs_plane, C20_out_of_plane, C20_tolerance_refuted, C22_bin_decides, C22_default_range, C22_outside_ignored, C23_counts_conserved, C23_together, C24_bins, C24_needs_normalisation, C24_x_in_order, C24_x_inside_bin, C24_y_between, C25_order_independent, C27_different_lengths, C27_different_lengths_raises, C27_operand_destroyed_refuted, C27_same_length, C28_zero_step_refuted, C29_cells, C29_counts_conserved, C29_order_independent, C43_definite, C43_inverse, C43_minimum, C43_order, C43_soft_axis_refuted, C52_inverse, C52_inverse_back, C52_oblique, C56_countfile_refuted, C56_grid_wins, C56_normalised, C56_plain_columns, C56_rebinned, C56_step_only, C56_underscore_refuted, C57_2d_different_presets, C57_2d_lengths, C57_2d_needs_grid, C57_2d_one_long_scan, C57_2d_order_independent, C57_2d_rows, C57_2d_rows_refuted, C57_axes, C57_different_presets, C57_each, C57_one_long_scan, C57_order_independent, C60_divergences, C60_mosaic, C60_rectangle_size, C60_round_size, C68_angle, C68_angle_refuted, C68_centre, C68_cut, C68_order_refuted, C68_projection, C69_cells, C69_coplanar, C69_default_normalisation, C69_nothing_kept, C69_order_independent, C69_two_ranges, C70_calculate, C70_cell_volume_refuted, C70_linear, C70_scale, C70_shrink, C70_skipped, C70_value, C71_constant_positive, C77_default_angle_refuted, C77_no_momenta, C77_radial, C77_rocking, C80_channels, C80_chosen, C80_ignored_refuted, C80_missing, C80_one, C80_rebinned, C80_unnormalised_refuted, C83_scan_no_mosaic_refuted, C83_scan_units_refuted
* `classic`, `functional_extensionality_dep`, `sig_forall_dec`, `sig_not_dec` (127): C02_angles_from_r_mat_of_r_mat, C02_gimbal_lock_refuted, C02_r_mat_of_angles_from_r_mat, C02_with_sgl_limit, C03_limits_respected, C03_limits_respected_bisect, C06_angle_correct, C06_angle_iff_triangle, C06_angle_of_side, C06_short_sides_rejected, C06_side_of_angle, C07_psi_companion, C07_raise_exactly_when_open, C07_two_theta_closes, C10_basis, C10_involution, C10_reciprocal_parameters, C11_metric, C11_q_norm_agree, C12_every_ub_factors, C12_round_trip_b, C12_round_trip_ub, C12_singular_is_unit_cube, C15_calculate_ub_matrix, C16_calculate_ub_matrix, C17_calculate_ub_matrix, C17_left_handed_refuted, C17_no_angles_afterwards, C17_refused, C18_calculate_ub_matrix, C19_collinear, C19_round_trip, C19_uv_to_ub, C21_bisect, C21_bisect_minus, C21_bisect_plus_refuted, C21_huber, C21_inelastic_refuted, C44_equal, C44_extent, C44_variance, C44_widths, C45_aligned, C45_aligned_bisect, C45_axes_definite, C45_axis_angles, C45_centre, C45_defined, C45_definite, C45_four_circle_plus_refuted, C45_frames, C45_meaning, C45_q_frame, C45_r0, C45_r0_positive, C46_all_return, C46_caught, C46_none_exactly, C46_one_per_point, C48_energy_back, C48_inverse_refuted, C48_reachable, C48_theta, C68_integers_refuted, C68_request, C70_box, C71_constant, C71_integers_refuted, C71_linear, C71_monotone, C71_own_resolution, C71_plot_refuted, C71_range_prefix, C71_range_refuted, C71_shift, C71_sum, C71_symmetric, C71_too_many, C71_value, C74_all_round, C74_closed, C74_count, C74_cut, C74_drawn, C74_half, C74_projection, C75_curve_refuted, C75_draws1, C75_draws2, C75_keywords_refuted, C75_label_refuted, C75_labels1, C75_labels2, C75_legend, C75_limits, C75_returned, C75_showing, C75_title1, C75_title2, C75_title_refuted, C77_distance, C77_noise_refuted, C79_oblique_refuted, C79_panel, C79_six, C79_whole, C81_answer, C81_no_ub, C81_refused, C81_zero_refuted, C84_curve, C84_half_done_refuted, C84_missing, C84_plot, C84_symmetric, C84_width, C87_coplanar_refuted, C87_drive, C87_drive_four_circle, C87_many_peaks, C87_more_peaks, C87_one_peak, C87_realign, C87_three_peaks, C87_two_peaks, C87_two_peaks_defined, C87_two_peaks_exact
<!-- end -->

## What a status means

`proved`: the whole statement in `properties.jsonl` is proved, including the exceptions it names: the natural claim fails there, and a theorem
`..._refuted` shows it. `partial`: the natural claim is false in its main point (C35, C49, C62); what holds is proved and the failure is shown.

## What is modelled

| module | source | parts |
| --- | --- | --- |
| `M_Utilities`, `M_Lattice`, `M_Sample` | `utilities.py`, `lattice_algorithm.py`, `sample.py` | all but the reading of JSON files |
| `M_UB`, `M_Tas`, `M_Goni` | `ub_algorithm.py`, `instrument/tas.py`, `components/goni.py` | all numerical functions |
| `M_Components` | `components/*.py`, `instrument/tas_base.py` | constructors, conversions, loading of parameters |
| `M_Mat`, `M_Reso`, `M_Ellipsoid`, `M_Conv` | `resolution/cooper_nathans.py`, `resolution_calculator.py`, `ellipsoid.py`, `convolution.py` | matrices, R0, frames, projections, sections, the convolution (eigenvalues of numpy as an argument with their specification; the model of the caller as two functions evaluated point by point; processes not modelled) |
| `M_ScanData`, `M_Scan`, `M_Hkle`, `M_Fit`, `M_ConvFit` | `data/scan_data.py`, `scan.py`, `scan_group.py`, `fit.py`, `convfit.py`, part of `plotter.py` | rebinning, arithmetic, extraction, combination in one and two dimensions and along axes of (h,k,l,E), set-up of fits |
| `M_Ellipse`, `M_Plotter` | `resolution/ellipse.py`, `plotter.py` | points of ellipses, contents of plots and the commands they hand to matplotlib (the iteration order of a Python set is an argument; grid_helper only through `tr`, `inv_tr`) |
| `M_Convert` | `convert_spice_to_nexus.py` | all of it but the creation of the folder (a file that is being written when an error occurs is left as it was; `M_Interrupt` drops this simplification) |
| `M_DelQ` | `scan.py` (`_get_del_q`) | all of it (names of axes without line breaks) |
| `M_Workspace` | `tavi_project.py`, `tavi_data.py` | `__init__`, `load_scans`, `select_scans`; the combined, fitted and plotted data are never used |
| `M_EllipsePlot` | `ellipsoid.py` (`plot_ellipses`) | the panels; the title of the figure is left out |
| `M_ScanPlot` | `scan.py` (`plot`, labels of `get_data`), `scan_data.py` (`make_labels`) | all of it; colours and markers are left out |
| `M_Angles` | `utilities.py` (`!=` of `MotorAngles`, equality of `Peak`) | by the rules of Python for named tuples; hashes are left out |
| `M_Logs` | `nexus_entry.py` (`get_data_from_daslogs`, `get_metadata_from_daslogs`) | all of it; logs are dicts |
| `M_SampleFile` | `sample.py` (`from_json`, `from_scan`, `set_shape`, `set_mosaic`) | from the parsed JSON object on; NaN and lists of other things than numbers are left out; arrays that are not three numbers stored in the Mantid convention are outside the model (`Err NotImplemented`) |
| `M_Gui` | `tavi_presenter/*.py` (signals with `Qt.QueuedConnection`), `tavi_view/*.py` (`add_tree_data`, `set_values`) | the window's thread handles one action or one posted event at a time, posted events in order of posting; the file dialog and the layout are not modelled |
| `M_InstrumentFile` | `instrument/tas_base.py` (`load_instrument_params_from_json`) | a path is no file, an unreadable file or a file with parameters |
| `M_FitRun` | `data/fit.py` (`params`, `guess`, `fit`), `data/convfit.py` (the same) | lmfit is two arguments; names of the parameters of its models as documented there; of a result only success, error bars and parameters are kept |
| `M_Manager` | `tavi_model/combine_data.py` (`combine_1d`) | numpy's `argsort` and scipy's `binned_statistic` are arguments; a step of zero as for Python numbers |
| `M_Curve` | `instrument/resolution/curve.py` | the axes get the points and texts; a width of zero gives heights that are no numbers |
| `M_Interrupt` | `data/tavi.py` (`save`), `convert_spice_to_nexus.py` | an exception that Python sees: the files are closed. A process or computer that stops is not modelled, HDF5 says nothing about such a file |
| `M_Nexus`, `M_Tavi`, `M_Builder`, `M_ScanInfo` | `data/nexus_entry.py`, `tavi.py`, `nexus_builder.py`, the information part of `scan.py` | lookup, writing, reading, building of entries, folders, what a scan says about itself |
| `M_Spice` | `data/spice_reader.py` | all |
| `M_Load`, `M_Filter`, `M_Project`, `M_Proxy`, `M_Broker`, `M_Labels`, `M_Startup` | `tavi_model/`, `multithreading/`, `EventBroker/`, `tavi_presenter/`, `configuration.py` | load manager, filter, presenters and models behind the window, worker proxy, event broker, configuration and start-up |

Not modelled: Qt widgets and their layout (`tavi_view/`, `mainwindow.py`, `tavimain.py`) except the data they show;
matplotlib; the optimiser and model functions of lmfit (`fit.py`, `convfit.py`); HDF5 itself
(a tree of groups, datasets and attributes); floating-point rounding; the loaders of facilities other than ORNL (copies of each other that return nothing); the methods whose body is only `pass`; texts made by `__repr__` and `__str__`.

