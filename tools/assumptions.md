* **closed under the global context (no axioms)** (64 theorems): C51_refuted, C51_limits_ordered_partial, C52_true_exactly_when_complete, C52_error_names_every_missing_item, C52_no_files, C52_warnings, C52_shipped_data_pass, C53_loaded_table, C53_rejected_only_for_negative_pressure, C123_strings_compare_dimensions, C123_one_reading, C114_numpy_order, C131_frames_kept, C131_history, C92_every_file_is_read, C92_missing_file_is_reported, C93_every_material_has_stress_limits, C93_stray_space, C94_every_material_has_a_flange_table_refuted, C94_flange_table_partial, C94_blank_group_is_refused, C95_shipped_import, C35_unit_ignored, C81_bad_state_name, C84_multiprocessing, C103_only_the_working_gas, C103_cj_state_in_place, C104_initial_may_be_working_partial, C105_fresh_states, C105_states_are_independent, C105_cj_speed_new_state, C130_reads_its_own_files, C130_any_directory, C130_mechanisms, C102_cj_speed_pool_partial, C102_callers_partial, C60_order_independent, C62_keys, C27_available_schedules, C27_integer_sizes, C106_table_is_the_text, C106_shipped_tables, C106_numbers, C106_number_text, C106_names, C106_one_meaning, C71_find_mechanisms, C89_window_safety_factor_elementwise, C89_minimum_thickness_elementwise, C89_bolt_safety_factors_elementwise, C91_window_safety_factor_lengths, C91_minimum_thickness_lengths, C91_bolt_lengths, C120_max_pressure_elementwise, C120_max_stress_elementwise, C120_blockage_diameter_elementwise, C120_max_pressure_lengths, C121_blockage_ratio_refuses_arrays, C121_blockage_ratio_single, C121_load_factor_refuses_arrays, C121_load_factor_single, C116_cj_state_says, C116_get_eq_state_says_partial, C116_speed_refuted

* **fun, sfd** (7 theorems): C43_every_cell_is_a_number, C44_refuted, C44_partial, every_flange_material_is_rated, C36_range_is_covered, C38_smallest_sufficient_class, C23_table_is_filled

* **fun, sfd, snd** (234 theorems): C43_returns_table_entry, C43_bad_class, C43_unknown, C43_ambiguous, C44_usable_threads, C45_screw_area_is_the_weaker, C46_minimum_engagement, C46_laws, C47_plate_twice_as_strong, C47_safety_factors, C48_exact_condition, C48_refuted, C48_no_warning_partial, C49_safety_factors, C49_laws, C50_sign, C50_refuted, C50_not_negative_partial, C49_positive, C54_every_material_works_everywhere, C05_ratio_diameter_ratio, C06_refuted, C06_diameter_ratio_diameter_partial, C06_past_half, C07_blockage_ratio_is_area_fraction, C08_refuted, C08_impossible_blockage_rejected_partial, C09_blockage_diameter_rejects, C09_blockage_diameter_range, C09_zero_diameter, C09_ratio_as_text, C111_pipe_limit_partial, C111_hotter_or_welded_never_higher_partial, C111_thicker_is_stronger_partial, C111_negative_limit_refuted, C112_class_round_trip, C112_ratings_strictly_rise, C113_temperature_round_trip_refuted, C113_temperature_round_trip_partial, C123_wrong_dimension_message, C123_other_messages, C123_refines, C55_least_squares, C55_unique_minimiser, C56_defined, C57_recovers, C57_recovers_nonneg, C58_every_three_distinct_refuted, C58_partial, C114_any_order_of_summation, C114_r_squared_at_most_one_partial, C36_rating_is_straight_line, C36_outside_range, C37_rating_never_rises_with_temperature, C37_rating_rises_with_class, C38_smallest_sufficient_class_exact, C39_outcomes, C39_negative_rejected, C39_refuted, C40_safe_partial, C40_exact_partial, C40_out_of_range, C40_never_returns_on_new_scipy, C40_refuted, C41_refuted, C42_refuted, C42_unknown_class_rejected, C31_meets_tolerance, C32_bounded, C32_bounded_when_raising, C33_one_update, C33_without_load_factor, C34_cj_search, C80_no_update, C81_bad_tube, C82_returned_factor_partial, C83_temperature_unit, C34_refuted, C35_refuted, C80_refuted, C82_refuted, C115_zero, C115_negative_partial, C115_refuted, C124_refused, C124_accepted_window, C124_accepted_thickness, C124_accepted_blockage, C124_accepted_tube, C125_cautious_side, C125_accepted, C125_margin_refused, C126_partial, C126_engagement, C126_refuted, C127_nan_limit_or_tolerance, C127_refuted, C127_partial, C128_ordinary_stays_ordinary, C132_reflect, C134_refuted, C134_partial, C104_cj_state_shared_refuted, C107_cj_state_finds_the_wave_of_a_perfect_gas, C107_cj_state_finds_any_wave_with_default_settings, C151_rating_rounding, C139_flange_for_rated_pipe_partial, C139_default_factor_refuted, C140_largest_class_partial, C140_too_weak_refuted, C140_refuted, C102_missing_mechanism_leaves_pool_refuted, C102_failed_equilibrium_leaves_pool_refuted, C137_one_reflected_state, C137_unwarned_state_is_right, C137_unwarned_reflection_is_right, C138_reflection_compresses_partial, C138_reflection_compresses_refuted, C110_errors_not_amplified_partial, C110_errors_not_amplified_refuted, C96_window_rounding, C97_window_order_rounded, C98_window_rejects_rounded, C99_blockage_rounding, C100_max_pressure_rounding, C101_load_factor_rounding, C117_stress_areas_rounding, C117_safety_factors_rounding, C119_rating_rounding, C119_outside_rounded, C119_class_rounded, C119_class_found_rounded, C150_max_temperature_rounding, C150_safe_rounded, C150_outside_rounded, C150_never_returns_rounded, C147_sound_speed_rounding, C147_run_up_rounding, C129_meets_tolerance, C129_nearly_proportional, C118_stress_rounding, C118_stress_order_rounded, C118_stress_order_between_rows, C63_cj_state_terminates, C63_cj_state_run, C64_temperatures_positive, C64_step_at_most_20_percent, C64_converged_speed_nonnegative, C65_cj_state_refuted, C65_get_eq_state_refuted, C65_partial, C66_settings_physical, C66_get_eq_state_run, C66_terminates, C67_conservation, C67_zero_density, C68_reflected_conservation, C68_reflected_speed, C69_cj_steps, C69_reflected_steps, C72_particle_speed, C73_reflect_well_started, C109_safe_partial, C109_alternates, C109_safe_refuted, C135_partial, C135_refuted, C59_four_rounds, C59_no_other_work, C61_speed_is_vertex_value, C74_exact_on_parabola, C75_state_at_vertex, C23_stress_is_straight_line, C23_range_is_covered, C24_stress_never_rises, C24_welded_below_seamless, C25_refuted, C25_clamped_to_table_ends, C26_refuted, C26_unknown_material_rejected_partial, C28_get_dimensions, C29_refuted, C29_positive_bore_partial, C30_refuted, C30_material_getters_partial, C30_integers_raise, C70_sound_speed, C70_returns, C76_bad_arguments, C77_flame_speed, C78_unit_independent, C79_reflected_shock_state, C18_dynamic_load_factor, C18_no_other_value, C19_dynamic_load_factor_shape, C20_bad_arguments_rejected, C21_refuted, C21_swapped_load_factor, C21_swapped_pressure, C22_hoop_stress_balance, C22_solid_bar, C04_window_safety_factor, C04_window_minimum_thickness, C04_blockage_ratio, C04_blockage_diameter, C04_dynamic_load_factor, C04_max_pressure, C04_bolt_safety_factors, C04_bolt_stress_areas, C146_units_read, C146_units_written, C146_all_units, C122_reflected_shock_state, C122_max_initial_pressure, C122_max_stress, C122_flange_class, C122_flange_pressure, C122_flange_temperature, C01_check_scalar, C01_check_unknown_dimension, C01_check_not_a_quantity, C02_refuted, C02_array_first_element_partial, C03_parse_preserves, C03_parse_magnitude_and_unit, C03_parse_rejects, C90_negative_elements_are_rejected_refuted, C90_blockage_diameter_negative_elements_refuted, C14_window_roundtrip, C15_minimum_thickness_is_minimum, C16_window_laws, C17_safety_factor_argument, C17_minimum_thickness_rejects, C17_safety_factor_rejects

* **cl, fun, sfd, snd** (73 theorems): C114_double_precision_refuted, C155_class_round_trip_partial, C155_largest_class_refuted, C154_ratings_rise_in_doubles, C154_hotter_never_higher_in_doubles, C141_window, C141_blockage, C141_max_pressure, C141_load_factor, C141_window_accuracy, C141_max_pressure_accuracy, C141_load_factor_accuracy, C148_pi, C148_stress_areas, C148_safety_factors, C148_safety_factors_accuracy, C149_max_stress, C149_max_pressure, C149_max_temperature, C149_class, C149_max_stress_accuracy, C149_max_pressure_accuracy, C149_class_accuracy, C142_never_negative, C143_window_order, C143_thickness_order, C144_blockage_bounds_partial, C144_refuted, C145_numbers_partial, C145_refuted, C124_never_an_ordinary_number, C128_with_a_gas, C132_cj_state, C132_nan_gas, C132_ordinary_speed, C132_nan_chemistry, C132_reflected, C132_shock_states, C133_refuted, C133_partial, C151_rating_double, C151_rating_accuracy, C152_thicker_is_stronger_in_doubles, C152_hotter_or_welded_in_doubles, C96_window_double, C99_tiny_ratio_loses_the_spiral, C117_double, C119_rating_double, C150_max_temperature_accuracy, C118_stress_double, C10_range, C10_correlations, C10_returns, C10_between, C11_rough_formula, C11_scaling, C12_continuous, C13_unit, C85_falls_partial, C85_refuted, C86_bad_arguments, C87_viscosity_needed, C87_viscosity_not_needed, C88_sign_partial, C88_refuted, C108_search_converges, C153_stress_order_in_doubles, C153_exact_order_between_rows, C122_run_up, C136_elementwise, C136_between, C136_one_ratio, C136_numbers

