{
 "claims": [
  {
   "property": "C01",
   "status": "proved",
   "theorems": [
    "C01_state_space_defined",
    "C01_state_space_iff_eom",
    "C01_state_space_shape",
    "C01_state_space_unique"
   ],
   "note": ""
  },
  {
   "property": "C02",
   "status": "proved",
   "theorems": [
    "C02_canonical_is_newton_euler"
   ],
   "note": ""
  },
  {
   "property": "C03",
   "status": "proved",
   "theorems": [
    "C03_mass_matrix_is_kinetic_energy",
    "C03_mass_matrix_positive_definite",
    "C03_state_space_exists_for_physical_bicycles"
   ],
   "note": ""
  },
  {
   "property": "C04",
   "status": "proved",
   "theorems": [
    "C04_defined_iff",
    "C04_effect_on_argument",
    "C04_first_missing_key_is_reported",
    "C04_frame",
    "C04_structure"
   ],
   "note": ""
  },
  {
   "property": "C05",
   "status": "proved",
   "theorems": [
    "C05_depends_only_on_benchmark_keys",
    "C05_mass_scaling_of_canonical",
    "C05_mass_scaling_of_state_space"
   ],
   "note": ""
  },
  {
   "property": "C06",
   "status": "proved",
   "theorems": [
    "C06_characteristic_polynomial",
    "C06_reversed_travel_negates_eigenvalues"
   ],
   "note": ""
  },
  {
   "property": "C07",
   "status": "proved",
   "theorems": [
    "C07_trail"
   ],
   "note": ""
  },
  {
   "property": "C08",
   "status": "proved",
   "theorems": [
    "C08_closure",
    "C08_closure_up_to_residual",
    "C08_direct_measurement",
    "C08_radii_and_frame",
    "C08_root_location",
    "C08_solver_failure_propagates"
   ],
   "note": ""
  },
  {
   "property": "C09",
   "status": "proved",
   "theorems": [
    "C09_sort_modes_slices_sort_eigenmodes",
    "C09_sorting_is_greedy_rearrangement"
   ],
   "note": ""
  },
  {
   "property": "C10",
   "status": "partial",
   "theorems": [
    "C10_far_eigenvalue_is_lost",
    "C10_permutation_iff",
    "C10_permutation_refuted",
    "C10_permutation_smooth_partial",
    "C10_permutation_two_modes_partial"
   ],
   "note": "False for m >= 3 modes (C10_permutation_refuted: an eigenvalue is lost; C10_far_eigenvalue_is_lost: whenever it is farther from every eigenvalue of the row before than two others). Without ties the exact condition is known (C10_permutation_iff: a row is kept iff for each eigenvalue of the row before, in turn, one of its two nearest neighbours is still free); proved outright for m <= 2 and for finely resolved curves."
  },
  {
   "property": "C11",
   "status": "proved",
   "theorems": [
    "C11_never_decreases",
    "C11_parallel_axis_every_axis",
    "C11_parallel_axis_of_particles",
    "C11_sign_of_offset",
    "C11_symmetric",
    "C11_undone_by_negative_mass",
    "C11_unique"
   ],
   "note": ""
  },
  {
   "property": "C12",
   "status": "proved",
   "theorems": [
    "C12_characteristic_polynomial",
    "C12_composition",
    "C12_conversion_helper_agrees",
    "C12_determinant",
    "C12_inverse",
    "C12_moment_about_y",
    "C12_moments_on_turned_axes",
    "C12_symmetry",
    "C12_trace"
   ],
   "note": ""
  },
  {
   "property": "C13",
   "status": "proved",
   "theorems": [
    "C13_compound_pendulum",
    "C13_nonnegative_iff",
    "C13_stiffness_inverts",
    "C13_torsional_pendulum"
   ],
   "note": ""
  },
  {
   "property": "C14",
   "status": "proved",
   "theorems": [
    "C14_density_exists",
    "C14_nonnegative",
    "C14_tube_inertia_is_the_volume_integral"
   ],
   "note": ""
  },
  {
   "property": "C15",
   "status": "proved",
   "theorems": [
    "C15_defined_for_three_different_axes",
    "C15_exact_recovery",
    "C15_numpy_inverse",
    "C15_recovers_iff",
    "C15_two_directions",
    "C15_unique_least_squares"
   ],
   "note": ""
  },
  {
   "property": "C16",
   "status": "proved",
   "theorems": [
    "C16_defined_iff",
    "C16_dynamics_with_rigid_rider",
    "C16_inertia_about_every_axis",
    "C16_nothing_else_changes",
    "C16_total_mass_and_centre"
   ],
   "note": ""
  },
  {
   "property": "C17",
   "status": "proved",
   "theorems": [
    "C17_frame_tensor",
    "C17_key_error",
    "C17_principal_axes",
    "C17_symmetric",
    "C17_wheel_tensor"
   ],
   "note": ""
  },
  {
   "property": "C18",
   "status": "proved",
   "theorems": [
    "C18_group_by_group",
    "C18_moves_with_translation",
    "C18_order_independent",
    "C18_shape_mismatch",
    "C18_vanishing_moments_and_uniqueness",
    "C18_within_bounds"
   ],
   "note": ""
  },
  {
   "property": "C19",
   "status": "proved",
   "theorems": [
    "C19_lexicographic_enumeration",
    "C19_no_arrays",
    "C19_row_order",
    "C19_rows_are_choices"
   ],
   "note": ""
  },
  {
   "property": "C20",
   "status": "proved",
   "theorems": [
    "C20_defined_iff",
    "C20_exact_for_concurrent_lines",
    "C20_intersections_unique",
    "C20_mean_of_pairwise_intersections",
    "C20_order_of_lines_irrelevant"
   ],
   "note": ""
  },
  {
   "property": "C21",
   "status": "proved",
   "theorems": [
    "C21_all_lines_collected",
    "C21_angle_and_slope",
    "C21_defined_iff",
    "C21_distance_is_measured",
    "C21_line_is_the_plumb_line",
    "C21_unknown_part"
   ],
   "note": ""
  },
  {
   "property": "C22",
   "status": "proved",
   "theorems": [
    "C22_angle",
    "C22_angle_defined",
    "C22_point_to_line_defined",
    "C22_point_to_line_distance",
    "C22_projection_idempotent",
    "C22_projection_nearest",
    "C22_projection_on_line",
    "C22_steer_axis_distance",
    "C22_steer_axis_in_plane",
    "C22_steer_axis_total"
   ],
   "note": ""
  },
  {
   "property": "C23",
   "status": "partial",
   "theorems": [
    "C23_axis_index_partial",
    "C23_direction_array_always_fails",
    "C23_refuted"
   ],
   "note": "Refuted: a direction array always raises UnboundLocalError and for an axis index the scalar product is subtracted from every component; the result is the projection iff the vector already lies in the plane."
  },
  {
   "property": "C24",
   "status": "proved",
   "theorems": [
    "C24_coordinates_faithful",
    "C24_defined_iff",
    "C24_plot_points"
   ],
   "note": ""
  },
  {
   "property": "C25",
   "status": "partial",
   "theorems": [
    "C25_abc",
    "C25_handlebar_reference",
    "C25_handlebar_upright_fails",
    "C25_l1_l2",
    "C25_two_links_partial",
    "C25_two_links_refuted"
   ],
   "note": "abc, l1/l2 and the handlebar rotation are proved (the last fails for a vertical or horizontal steer axis); calc_two_link_angles closes the triangle iff L1^2 <= D^2 + L2^2 (refuted otherwise)."
  },
  {
   "property": "C26",
   "status": "proved",
   "theorems": [
    "C26_complete_set",
    "C26_defined_iff",
    "C26_front_body_inertia_about_every_axis",
    "C26_kept",
    "C26_mass_and_centre",
    "C26_rear_body_inertia_about_every_axis",
    "C26_same_dynamics",
    "C26_wheels"
   ],
   "note": "Bodies with mass centre in the symmetry plane, as the Moore2019 set describes them."
  },
  {
   "property": "C27",
   "status": "proved",
   "theorems": [
    "C27_accepts_exactly_complete",
    "C27_dictionary_untouched_and_shared",
    "C27_extras_accepted",
    "C27_refuted_documented_keys_are_not_enough",
    "C27_rejection_names_first_offender"
   ],
   "note": ""
  },
  {
   "property": "C28",
   "status": "proved",
   "theorems": [
    "C28_own_name_is_identity",
    "C28_principal_to_benchmark",
    "C28_refuted_principal_to_feedback_never_works",
    "C28_refuted_valid_principal_set_without_y_cannot_convert",
    "C28_result_is_a_valid_set_of_that_name",
    "C28_source_never_altered",
    "C28_to_feedback_adds_zero_gains",
    "C28_to_moore2012_keeps_speed",
    "C28_unsupported_name_is_ValueError"
   ],
   "note": "Defect theorems C28_refuted_*: Moore2019 to feedback never works; a valid Moore2019 set without the lateral positions does not convert."
  },
  {
   "property": "C29",
   "status": "proved",
   "theorems": [
    "C29_collection_is_the_mass_centre",
    "C29_inertia_tensor",
    "C29_one_body",
    "C29_order_does_not_matter",
    "C29_unknown_body_is_rejected",
    "C29_whole_bicycle_matches_canonical"
   ],
   "note": ""
  },
  {
   "property": "C30",
   "status": "proved",
   "theorems": [
    "C30_different_lengths_are_ValueError",
    "C30_equal_lengths_are_never_ValueError",
    "C30_no_call_changes_existing_parameters",
    "C30_no_history_changes_existing_parameters",
    "C30_results_do_not_depend_on_history",
    "C30_scalar_overrides_act_like_a_set_with_those_values",
    "C30_unknown_names_are_ignored"
   ],
   "note": ""
  },
  {
   "property": "C31",
   "status": "proved",
   "theorems": [
    "C31_canonical_matrices_constant",
    "C31_canonical_matrices_pointwise",
    "C31_feedback_pointwise",
    "C31_state_space_constant",
    "C31_state_space_pointwise"
   ],
   "note": ""
  },
  {
   "property": "C32",
   "status": "proved",
   "theorems": [
    "C32_canonical_equals_standalone",
    "C32_model_equals_standalone_functions",
    "C32_never_stacked"
   ],
   "note": ""
  },
  {
   "property": "C33",
   "status": "proved",
   "theorems": [
    "C33_entries",
    "C33_feedback_is_A_minus_BK",
    "C33_feedback_model_of_a_plain_set_is_open_loop",
    "C33_zero_gains_open_loop"
   ],
   "note": ""
  },
  {
   "property": "C34",
   "status": "proved",
   "theorems": [
    "C34_bare_file_name_fails",
    "C34_decision",
    "C34_declined_or_failed_changes_no_file",
    "C34_directory_created",
    "C34_existing_directory",
    "C34_printed_numbers_round_trip",
    "C34_saved_file_loads_back"
   ],
   "note": "Defect theorem: C34_bare_file_name_fails."
  },
  {
   "property": "C35",
   "status": "proved",
   "theorems": [
    "C35_blank_or_indented_comment_raises",
    "C35_every_content_is_read_as_one_text",
    "C35_float_text",
    "C35_line_without_equals_raises",
    "C35_load_meaning"
   ],
   "note": ""
  },
  {
   "property": "C36",
   "status": "proved",
   "theorems": [
    "C36_idempotent",
    "C36_load_after_write",
    "C36_missing_final_newline_corrupts",
    "C36_new_content"
   ],
   "note": "Defect theorem: C36_missing_final_newline_corrupts."
  },
  {
   "property": "C37",
   "status": "proved",
   "theorems": [
    "C37_bad_option",
    "C37_file_name",
    "C37_not_idempotent",
    "C37_only_spaces_added",
    "C37_words"
   ],
   "note": "C37_not_idempotent: applying it twice adds further spaces."
  },
  {
   "property": "C38",
   "status": "proved",
   "theorems": [
    "C38_fails_on_own_output_with_list",
    "C38_idempotent_without_lists",
    "C38_values"
   ],
   "note": "Defect theorem: C38_fails_on_own_output_with_list."
  },
  {
   "property": "C39",
   "status": "proved",
   "theorems": [
    "C39_averages",
    "C39_forced",
    "C39_forced_monotone",
    "C39_key",
    "C39_key_distinguishes",
    "C39_order_independent"
   ],
   "note": ""
  },
  {
   "property": "C40",
   "status": "proved",
   "theorems": [
    "C40_fitfunc",
    "C40_jacobian"
   ],
   "note": ""
  },
  {
   "property": "C41",
   "status": "proved",
   "theorems": [
    "C41_contiguous",
    "C41_downward_peak_fails",
    "C41_last_point_dropped",
    "C41_rectified",
    "C41_select",
    "C41_select_defined",
    "C41_select_fails"
   ],
   "note": "Defect theorems: C41_last_point_dropped, C41_downward_peak_fails."
  },
  {
   "property": "C42",
   "status": "proved",
   "theorems": [
    "C42_SSE_can_be_negative",
    "C42_least_squares",
    "C42_perfect",
    "C42_undefined",
    "C42_values"
   ],
   "note": "Defect theorem: C42_SSE_can_be_negative."
  },
  {
   "property": "C43",
   "status": "proved",
   "theorems": [
    "C43_bad_file_name_raises",
    "C43_decision_table",
    "C43_file_name",
    "C43_listing",
    "C43_no_directory",
    "C43_nothing_available_raises",
    "C43_only_measurements_file_changes"
   ],
   "note": "builds (SState.v) is the decision table. Numerical calculation, content of pendulum data files and str() are universally quantified parameters. no_io: the uncertainties package opens no file."
  },
  {
   "property": "C44",
   "status": "proved",
   "theorems": [
    "C44_description",
    "C44_failure_leaves_bicycle",
    "C44_history",
    "C44_new_bicycle_description",
    "C44_ridden_bicycle",
    "C44_second_rider_ignored",
    "C44_success"
   ],
   "note": "configure_rider and combine_bike_rider are universally quantified parameters."
  },
  {
   "property": "C45",
   "status": "proved",
   "theorems": [
    "C45_files_written",
    "C45_later_sets_misnamed",
    "C45_one_set_round_trip",
    "C45_other_formats",
    "C45_rider_files",
    "C45_rider_round_trip"
   ],
   "note": "As stated only for one set (C45_one_set_round_trip, C45_rider_files); refuted for two or more (C45_later_sets_misnamed), C45_files_written gives the names used for any number."
  },
  {
   "property": "C46",
   "status": "proved",
   "theorems": [
    "C46_fork_split",
    "C46_order_irrelevant",
    "C46_parts"
   ],
   "note": ""
  },
  {
   "property": "C47",
   "status": "proved",
   "theorems": [
    "C47_every_bicycle_can_be_measured",
    "C47_flywheel",
    "C47_flywheel_iff",
    "C47_orientation_order",
    "C47_split_fork",
    "C47_split_fork_defined",
    "C47_ten_orientations_mixed_up",
    "C47_whole_fork",
    "C47_whole_fork_defined"
   ],
   "note": "Uncertainties left out; the root finder of scipy is a parameter. Defect theorem: C47_ten_orientations_mixed_up."
  },
  {
   "property": "C48",
   "status": "proved",
   "theorems": [
    "C48_about_mass_centre",
    "C48_about_steer_axis",
    "C48_agrees_with_mass_matrix",
    "C48_defined",
    "C48_moment_about_steer_axis",
    "C48_not_measured_separately"
   ],
   "note": ""
  },
  {
   "property": "C49",
   "status": "proved",
   "theorems": [
    "C49_exact_value_refuted",
    "C49_latex_labels",
    "C49_layout",
    "C49_line_count",
    "C49_name_without_label",
    "C49_rows",
    "C49_second_call_refuted",
    "C49_table_defined",
    "C49_variable_list",
    "C49_variable_list_defined",
    "C49_variable_order",
    "C49_variable_order_refuted"
   ],
   "note": "str() and the iteration order of sets are universally quantified parameters. Numbers are exact reals; rounding is to nearest, ties to even. C49_variable_order_refuted, C49_exact_value_refuted and C49_second_call_refuted record defects of the code."
  },
  {
   "property": "C50",
   "status": "proved",
   "theorems": [
    "C50_differences",
    "C50_figure",
    "C50_half_turn_refuted",
    "C50_matched",
    "C50_no_points",
    "C50_unmoved"
   ],
   "note": "Defect theorem: C50_half_turn_refuted. The phase curves are lists of reals as read from the figure."
  },
  {
   "property": "C51",
   "status": "proved",
   "theorems": [
    "C51_directions",
    "C51_hips",
    "C51_isometry",
    "C51_value"
   ],
   "note": "sin, cos, sqrt of the reals."
  },
  {
   "property": "C52",
   "status": "proved",
   "theorems": [
    "C52_containers_refuted",
    "C52_history",
    "C52_one_edit",
    "C52_plotted",
    "C52_plotted_defined",
    "C52_populate",
    "C52_populate_defined",
    "C52_selected",
    "C52_session_figures",
    "C52_session_selected",
    "C52_speeds",
    "C52_unedited"
   ],
   "note": "Loading of a bicycle and the drawing routines are universally quantified parameters; the browser is modelled as the sequence of callbacks. Defect theorems: C52_containers_refuted, C52_unedited (tilt truncated), part of C52_speeds."
  },
  {
   "property": "C53",
   "status": "proved",
   "theorems": [
    "C53_period_formula",
    "C53_repeats",
    "C53_smallest",
    "C53_time_vector"
   ],
   "note": ""
  },
  {
   "property": "C54",
   "status": "proved",
   "theorems": [
    "C54_configuration",
    "C54_ridden_bicycle",
    "C54_rider_parameters",
    "C54_roots",
    "C54_seat_too_high_refuted",
    "C54_seated"
   ],
   "note": "scipy's fsolve and the yeadon Human (mass, mass centre, inertia of a configuration) are universally quantified parameters. Defect theorem: C54_seat_too_high_refuted."
  },
  {
   "property": "C55",
   "status": "proved",
   "theorems": [
    "C55_closed",
    "C55_on_ellipse"
   ],
   "note": ""
  },
  {
   "property": "C56",
   "status": "proved",
   "theorems": [
    "C56_arrays_pointwise",
    "C56_different_lengths_are_ValueError",
    "C56_matrices_are_those_of_the_upright_operating_point",
    "C56_parameters_untouched",
    "C56_result_requires_an_operating_point"
   ],
   "note": "The generated equations of motion (a large generated C function) are a parameter required only to be linear in the documented way; the pitch solver is an oracle."
  },
  {
   "property": "C57",
   "status": "proved",
   "theorems": [
    "C57_array_call",
    "C57_arrays_pointwise",
    "C57_eigenvalues_exist",
    "C57_eigenvectors_solve_the_equations_of_motion",
    "C57_errors_are_those_of_the_matrices",
    "C57_parameters_untouched",
    "C57_rates_of_an_eigenvector",
    "C57_scalar_call"
   ],
   "note": "numpy.linalg.eig is a universally quantified parameter with its documented contract (eig_contract)."
  },
  {
   "property": "C58",
   "status": "proved",
   "theorems": [
    "C58_arrays_are_rejected",
    "C58_free_motion_is_unique",
    "C58_modes",
    "C58_refuted_initial_conditions_are_overwritten",
    "C58_states_are_samples_of_the_motion",
    "C58_superposition"
   ],
   "note": "scipy's solve_ivp is a parameter with the contract that it returns samples of the exact solution. Defect theorem: C58_refuted_initial_conditions_are_overwritten."
  },
  {
   "property": "C59",
   "status": "proved",
   "theorems": [
    "C59_angles_between_modes_and_inputs",
    "C59_refuted_documented_range",
    "C59_refuted_independent_of_the_eigenvector_phase",
    "C59_refuted_scalar_parameters_crash"
   ],
   "note": "Defect theorems carry the word refuted."
  },
  {
   "property": "C60",
   "status": "proved",
   "theorems": [
    "C60_canonical_is_the_standalone_function",
    "C60_eig_is_the_model_calc_eigen",
    "C60_eig_rows_are_the_spectra",
    "C60_float_is_one_speed",
    "C60_only_two_entries_are_ever_written",
    "C60_other_flag_is_ValueError",
    "C60_refuted_any_scalar_speed",
    "C60_refuted_calls_leave_the_parameters_alone",
    "C60_results_do_not_depend_on_history",
    "C60_state_space_is_the_standalone_function"
   ],
   "note": "Nominal values only. Defect theorems carry the word refuted."
  },
  {
   "property": "C61",
   "status": "proved",
   "theorems": [
    "C61_highlighted_speeds_are_stable_if_contiguous",
    "C61_largest_is_the_greatest_real_part",
    "C61_no_eigenvalue_is_missing_at_the_lowest_speed",
    "C61_no_eigenvalue_is_missing_for_smooth_curves",
    "C61_no_region_means_no_stable_interval",
    "C61_order_of_speeds_does_not_matter",
    "C61_plotly_points_are_eigenvalues",
    "C61_plotted_points_are_eigenvalues",
    "C61_refuted_figure_and_largest_options",
    "C61_refuted_highlighted_speeds_are_stable",
    "C61_refuted_unstable_bicycle_can_be_plotted",
    "C61_stable_speeds_are_highlighted"
   ],
   "note": "Figures are lists of curves. Defect theorems carry the word refuted; C61_refuted_highlighted_speeds_are_stable is stated for the region computation on given mode data."
  },
  {
   "property": "C62",
   "status": "proved",
   "theorems": [
    "C62_accepted_indices",
    "C62_bode_system_is_one_input_one_state",
    "C62_bode_system_is_the_bicycle_with_one_torque"
   ],
   "note": "control.bode itself is not modelled: the theorem is about the system handed to it."
  },
  {
   "property": "C63",
   "status": "proved",
   "theorems": [
    "C63_conversion_keeps_the_front_frame",
    "C63_drawing_depends_on_the_body_only",
    "C63_ellipse_defined_iff",
    "C63_ellipse_drawing",
    "C63_radii_defined_iff",
    "C63_radii_describe_the_body",
    "C63_radii_drawing",
    "C63_refuted_ellipse_is_the_view_of_the_ellipsoid"
   ],
   "note": ""
  },
  {
   "property": "C64",
   "status": "proved",
   "theorems": [
    "C64_bodies_one_by_one",
    "C64_failures_do_not_depend_on_the_axes",
    "C64_geometry",
    "C64_geometry_defined_iff",
    "C64_mass_centers",
    "C64_other_sets_cannot_be_drawn",
    "C64_person_diamond",
    "C64_plot_all",
    "C64_refuted_starts_at_the_wheel_centre",
    "C64_shared_axes",
    "C64_unknown_body"
   ],
   "note": ""
  },
  {
   "property": "C65",
   "status": "proved",
   "theorems": [
    "C65_ellipse",
    "C65_ellipse_aligned",
    "C65_ellipse_aligned_refuted",
    "C65_ellipse_orientation_refuted",
    "C65_figure",
    "C65_geometry_defined",
    "C65_limits",
    "C65_minus_y",
    "C65_plotly",
    "C65_plotly_ellipse_refuted",
    "C65_plotly_refuted"
   ],
   "note": ""
  },
  {
   "property": "C66",
   "status": "proved",
   "theorems": [
    "C66_html_labels_clash",
    "C66_html_labels_distinct",
    "C66_html_labels_spell_the_names",
    "C66_html_missing_parameter",
    "C66_html_rows",
    "C66_ini_loads_back",
    "C66_ini_loses_small_values",
    "C66_ini_unformattable_value",
    "C66_moore2012_yaml_cannot_be_loaded",
    "C66_yaml_forgets_the_rider",
    "C66_yaml_load_criterion",
    "C66_yaml_missing_entries",
    "C66_yaml_parameterization_not_checked",
    "C66_yaml_round_trip"
   ],
   "note": ""
  },
  {
   "property": "C67",
   "status": "proved",
   "theorems": [
    "C67_all_files",
    "C67_all_files_mean",
    "C67_correlation_ignored",
    "C67_estimate",
    "C67_exact_fit",
    "C67_file_rate",
    "C67_file_time",
    "C67_fractional_rate",
    "C67_guess",
    "C67_guess_bounds",
    "C67_guess_shift",
    "C67_guess_short",
    "C67_propagation",
    "C67_reading",
    "C67_reading_missing",
    "C67_texts",
    "C67_times",
    "C67_variance"
   ],
   "note": ""
  },
  {
   "property": "C68",
   "status": "proved",
   "theorems": [
    "C68_controllability_curves",
    "C68_eigenvalue_curves",
    "C68_eigenvalue_figure_exists",
    "C68_eigenvector_panels",
    "C68_gain_curves",
    "C68_mode_curves",
    "C68_mode_errors",
    "C68_parameters_untouched",
    "C68_refuted_panels_of_arrays_show_eigenvectors",
    "C68_refuted_scalar_call_draws_a_figure",
    "C68_refuted_shaded_regions_are_stable",
    "C68_refuted_stable_regions_are_visible",
    "C68_rider_lean_curves",
    "C68_simulation_curves",
    "C68_simulation_errors"
   ],
   "note": "Eigensolver and integrator are universally quantified parameters with contracts. Defect theorems: C68_refuted_*."
  },
  {
   "property": "C69",
   "status": "proved",
   "theorems": [
    "C69_equations_are_dimensionally_homogeneous",
    "C69_generated_equations_qualify",
    "C69_lateral_motion_decouples",
    "C69_matrices_in_other_units",
    "C69_mirror_image",
    "C69_modes_in_other_units",
    "C69_modes_of_riding_backwards",
    "C69_no_uninitialised_memory",
    "C69_rates_integrate",
    "C69_time_reversal"
   ],
   "note": "The program is translated statement by statement by tools/lean_gen.py; a weight checker is proved sound and run by the kernel on the whole program. pitch_from_roll_and_steer (dtk) is a universally quantified parameter. Division by zero and roots of negative numbers count as failures. Dimensions and symmetries do not by themselves determine the equations; C70 does."
  },
  {
   "property": "C70",
   "status": "proved",
   "theorems": [
    "C70_energy_of_a_standing_bicycle",
    "C70_reciprocity",
    "C70_rider_held_still",
    "C70_rider_lean_model_is_newton_euler",
    "C70_torques_from_rest",
    "C70_torques_give_any_accelerations"
   ],
   "note": "The specification (SLean2.v) is a list of rigid bodies with Newton-Euler balances, extending the one of C02 with a leaning rider. Proof: the generated program is run symbolically (Laurent polynomials with cos^2 = 1 - sin^2, a proved normal form); the kernel evaluates the checks. Contract on pitch_from_roll_and_steer (dtk): at zero roll and steer it returns an angle that puts both wheels on the ground (pitch_levels). C70_rider_held_still needs cos(lam) <> 0, as C02's bicycle measures its trail along the ground. The outputs C and D of eval_linear, which models.py discards, are not interpreted."
  },
  {
   "property": "C71",
   "status": "proved",
   "theorems": [
    "C71_balances_itself_iff_all_real_parts_are_negative",
    "C71_falling_is_not_balancing",
    "C71_highlighted_speeds_are_self_stable",
    "C71_largest_real_part_curve",
    "C71_no_bicycle_balances_itself_at_rest",
    "C71_no_region_no_self_stable_interval",
    "C71_positive_real_part_falls_over",
    "C71_self_stable_bicycle_falls_over_backwards",
    "C71_self_stable_speeds_are_highlighted",
    "C71_stable_simulations_die_out"
   ],
   "note": "numpy's eig enters through eig_contract (pairs) and eig_complete (det(sI-A) is the product of s-w); the ODE solver through solver_contract. Smooth/contiguous curves are only needed for 'highlighted implies self-stable'."
  },
  {
   "property": "C72",
   "status": "proved",
   "theorems": [
    "C72_added_to_a_figure",
    "C72_comparison_is_the_single_figures",
    "C72_default_colours_are_distinct",
    "C72_eigenvalues_of_each_bicycle",
    "C72_largest_of_each_bicycle",
    "C72_largest_of_one_bicycle",
    "C72_legend_names_each_bicycle_once",
    "C72_lines_of_one_bicycle",
    "C72_modes_of_one_bicycle",
    "C72_refuted_linestyles_are_used",
    "C72_rejected_calls"
   ],
   "note": "Colour map and numpy's eig are oracles; line widths, fonts, limits and grids are not modelled. refuted: the linestyles argument is honoured (it is ignored unless largest)."
  },
  {
   "property": "C73",
   "status": "proved",
   "theorems": [
    "C73_measured_bicycle",
    "C73_ridden_bicycle"
   ],
   "note": "Composes C43/C44 (files), C47 (physics of the measurements), C16 (rider), C60 and C71 (eigenvalues and motions). Arithmetic with uncertainties is an oracle whose nominal values follow the exact calculation (nominal_calc, nominal_combine); numpy's eig obeys its contract. C47_every_bicycle_can_be_measured shows every solid bicycle has exact measurements."
  },
  {
   "property": "C74",
   "status": "proved",
   "theorems": [
    "C74_canonical_matrices",
    "C74_eigenvalues",
    "C74_eigenvalues_do_not_depend_on_the_routine",
    "C74_measured_eigenvalues",
    "C74_measurements",
    "C74_motions",
    "C74_ridden_bicycle",
    "C74_similar_bicycles",
    "C74_stability",
    "C74_state_space"
   ],
   "note": "numpy's eig obeys its contract and returns all eigenvalues (both routines); uniqueness of the spectrum is proved from the characteristic polynomial (PRoots.v). Measurements: uncertainties left out."
  },
  {
   "property": "C75",
   "status": "proved",
   "theorems": [
    "C75_drawing_is_harmless",
    "C75_every_file_has_its_figure",
    "C75_figure",
    "C75_only_figures",
    "C75_periods_of_a_bicycle",
    "C75_second_plot",
    "C75_succeeds"
   ],
   "note": "leastsq, inv, loadmat, str() of an uncertain number and the rendering are parameters; file names are plain names ending in .mat that are not only dots (C75_dot_names shows '.mat' and '.mat.mat' share a figure)."
  },
  {
   "property": "C76",
   "status": "proved",
   "theorems": [
    "C76_benchmark",
    "C76_canonical",
    "C76_defined",
    "C76_failure",
    "C76_measured_to_state_space",
    "C76_nominal_benchmark",
    "C76_nominal_canonical",
    "C76_nominal_rider",
    "C76_nominal_state_space",
    "C76_nominal_steer_assembly",
    "C76_rider",
    "C76_state_space",
    "C76_steer_assembly",
    "C76_tilt_apart",
    "C76_tilt_not_propagated"
   ],
   "note": "Differentiation rules of the uncertainties library are part of the model (MUnc.v): a number is its nominal value with its derivatives. With a wheelbase: C76_benchmark. Without: C76_tilt_apart states what is reported, C76_tilt_not_propagated that it is not the first-order deviation (as the code's comment admits)."
  },
  {
   "property": "C77",
   "status": "proved",
   "theorems": [
    "C77_capsize_speed",
    "C77_no_balance_beyond_capsize",
    "C77_routh_hurwitz",
    "C77_undamped_oscillation"
   ],
   "note": "numpy.linalg.eig by its contract (eigenpairs, and complete: the reported numbers are the roots of the characteristic polynomial with multiplicity)."
  },
  {
   "property": "C78",
   "status": "proved",
   "theorems": [
    "C78_ab_matrix_accurate",
    "C78_accurate_entries",
    "C78_canonical_matrices_accurate",
    "C78_inertia_formulas",
    "C78_mass_centre_accurate",
    "C78_mass_centre_side",
    "C78_parallel_axis_accurate",
    "C78_parallel_axis_exact",
    "C78_powers_of_two_units",
    "C78_riding_backwards",
    "C78_state_space_accurate",
    "C78_state_space_structure",
    "C78_structure",
    "C78_trail_accurate",
    "C78_turned_tensor_accurate"
   ],
   "note": "Machine arithmetic is a parameter with contracts; double precision of Flocq (round to nearest even; fused or plain array products) meets them. Overflow is not modelled; the error bounds are without underflow, the exact symmetries (not those for units) also with it."
  },
  {
   "property": "C79",
   "status": "proved",
   "theorems": [
    "C79_at_most_two_ranges",
    "C79_between_only_weave",
    "C79_falls_over",
    "C79_not_standing_still",
    "C79_shipped_bicycles",
    "C79_small_errors",
    "C79_stable_speeds",
    "C79_wheels_exchanged"
   ],
   "note": "sin and cos of the steer axis tilt are enclosed by rational bounds proved by Taylor's theorem; the dictionaries' decimal literals are the numbers they denote."
  },
  {
   "property": "C80",
   "status": "proved",
   "theorems": [
    "C80_lean_set_is_the_bicycle_with_legs",
    "C80_legs_and_upper_body_are_the_whole_rider",
    "C80_wheels"
   ],
   "note": "The defect (exchanged wheel inertias) is part of the theorem C80_wheels."
  },
  {
   "property": "C81",
   "status": "proved",
   "theorems": [
    "C81_members",
    "C81_names",
    "C81_once",
    "C81_refuted_names_of_members"
   ],
   "note": "The wrong names are stated as C81_refuted_names_of_members and as the iff of C81_names. Names are not ending in a slash (plain). tar.add's recursion into an entry that is itself a folder is not modelled."
  }
 ]
}