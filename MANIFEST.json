{
 "claims": [
  {
   "property": "C01",
   "status": "proved",
   "theorems": [
    "C01_check_scalar",
    "C01_check_unknown_dimension",
    "C01_check_not_a_quantity"
   ],
   "note": ""
  },
  {
   "property": "C02",
   "status": "partial",
   "theorems": [
    "C02_refuted",
    "C02_array_first_element_partial"
   ],
   "note": "Full statement false of the code (C02_refuted: only element 0 of an array is checked); proved for the first element."
  },
  {
   "property": "C03",
   "status": "proved",
   "theorems": [
    "C03_parse_preserves",
    "C03_parse_magnitude_and_unit",
    "C03_parse_rejects"
   ],
   "note": "'Same unit' is the same scale, offset and dimension; the text returned by pint's format_babel is assumed to name the same unit."
  },
  {
   "property": "C04",
   "status": "proved",
   "theorems": [
    "C04_window_safety_factor",
    "C04_window_minimum_thickness",
    "C04_blockage_ratio",
    "C04_blockage_diameter",
    "C04_dynamic_load_factor",
    "C04_max_pressure",
    "C04_bolt_safety_factors",
    "C04_bolt_stress_areas"
   ],
   "note": ""
  },
  {
   "property": "C05",
   "status": "proved",
   "theorems": [
    "C05_ratio_diameter_ratio"
   ],
   "note": ""
  },
  {
   "property": "C06",
   "status": "partial",
   "theorems": [
    "C06_refuted",
    "C06_diameter_ratio_diameter_partial",
    "C06_past_half"
   ],
   "note": "Full statement false of the code (C06_refuted: a blockage past half the tube diameter is accepted and comes back as its complement); proved below half."
  },
  {
   "property": "C07",
   "status": "proved",
   "theorems": [
    "C07_blockage_ratio_is_area_fraction"
   ],
   "note": ""
  },
  {
   "property": "C08",
   "status": "partial",
   "theorems": [
    "C08_refuted",
    "C08_impossible_blockage_rejected_partial"
   ],
   "note": "Full statement false of the code (C08_refuted: D/2 < d < D is accepted); the rejections that do happen are proved."
  },
  {
   "property": "C09",
   "status": "proved",
   "theorems": [
    "C09_blockage_diameter_rejects",
    "C09_blockage_diameter_range",
    "C09_zero_diameter",
    "C09_ratio_as_text"
   ],
   "note": ""
  },
  {
   "property": "C10",
   "status": "proved",
   "theorems": [
    "C10_range",
    "C10_correlations",
    "C10_returns",
    "C10_between"
   ],
   "note": ""
  },
  {
   "property": "C11",
   "status": "proved",
   "theorems": [
    "C11_rough_formula",
    "C11_scaling"
   ],
   "note": ""
  },
  {
   "property": "C12",
   "status": "proved",
   "theorems": [
    "C12_continuous"
   ],
   "note": "On the whole range (0, 0.75] on which the function is defined."
  },
  {
   "property": "C13",
   "status": "proved",
   "theorems": [
    "C13_unit"
   ],
   "note": ""
  },
  {
   "property": "C14",
   "status": "proved",
   "theorems": [
    "C14_window_roundtrip"
   ],
   "note": ""
  },
  {
   "property": "C15",
   "status": "proved",
   "theorems": [
    "C15_minimum_thickness_is_minimum"
   ],
   "note": ""
  },
  {
   "property": "C16",
   "status": "proved",
   "theorems": [
    "C16_window_laws"
   ],
   "note": ""
  },
  {
   "property": "C17",
   "status": "proved",
   "theorems": [
    "C17_safety_factor_argument",
    "C17_minimum_thickness_rejects",
    "C17_safety_factor_rejects"
   ],
   "note": ""
  },
  {
   "property": "C18",
   "status": "proved",
   "theorems": [
    "C18_dynamic_load_factor",
    "C18_no_other_value"
   ],
   "note": ""
  },
  {
   "property": "C19",
   "status": "proved",
   "theorems": [
    "C19_dynamic_load_factor_shape"
   ],
   "note": ""
  },
  {
   "property": "C20",
   "status": "proved",
   "theorems": [
    "C20_bad_arguments_rejected"
   ],
   "note": ""
  },
  {
   "property": "C21",
   "status": "partial",
   "theorems": [
    "C21_refuted",
    "C21_swapped_load_factor",
    "C21_swapped_pressure"
   ],
   "note": "Full statement false of the code (C21_refuted: ID > OD is accepted by both functions); what happens instead is proved for all inputs."
  },
  {
   "property": "C22",
   "status": "proved",
   "theorems": [
    "C22_hoop_stress_balance",
    "C22_solid_bar"
   ],
   "note": "Strict increase in OD for positive ID (with ID = 0 the pressure does not depend on OD)."
  },
  {
   "property": "C23",
   "status": "proved",
   "theorems": [
    "C23_stress_is_straight_line",
    "C23_table_is_filled",
    "C23_range_is_covered"
   ],
   "note": ""
  },
  {
   "property": "C24",
   "status": "proved",
   "theorems": [
    "C24_stress_never_rises",
    "C24_welded_below_seamless"
   ],
   "note": ""
  },
  {
   "property": "C25",
   "status": "partial",
   "theorems": [
    "C25_refuted",
    "C25_clamped_to_table_ends"
   ],
   "note": "Full statement false of the code (C25_refuted): outside the table the end value is used, which is proved for all temperatures."
  },
  {
   "property": "C26",
   "status": "partial",
   "theorems": [
    "C26_refuted",
    "C26_unknown_material_rejected_partial"
   ],
   "note": "Full statement false of the code (C26_refuted: the column name Temp is accepted as a material); every other unknown name is proved to raise KeyError."
  },
  {
   "property": "C27",
   "status": "proved",
   "theorems": [
    "C27_available_schedules",
    "C27_integer_sizes"
   ],
   "note": ""
  },
  {
   "property": "C28",
   "status": "proved",
   "theorems": [
    "C28_get_dimensions"
   ],
   "note": ""
  },
  {
   "property": "C29",
   "status": "partial",
   "theorems": [
    "C29_refuted",
    "C29_positive_bore_partial"
   ],
   "note": "Full statement false of the code (C29_refuted: the 28 in schedule 10 wall is 312 in in the shipped table); proved for every other pipe."
  },
  {
   "property": "C30",
   "status": "partial",
   "theorems": [
    "C30_refuted",
    "C30_material_getters_partial",
    "C30_integers_raise"
   ],
   "note": "Full statement false of the code (C30_refuted: the integer 304 passes the check and raises IndexError); proved for every string."
  },
  {
   "property": "C31",
   "status": "proved",
   "theorems": [
    "C31_meets_tolerance"
   ],
   "note": "For max_pressure given in pascal; C35 covers other units."
  },
  {
   "property": "C32",
   "status": "proved",
   "theorems": [
    "C32_bounded",
    "C32_bounded_when_raising"
   ],
   "note": ""
  },
  {
   "property": "C33",
   "status": "proved",
   "theorems": [
    "C33_one_update",
    "C33_without_load_factor"
   ],
   "note": ""
  },
  {
   "property": "C34",
   "status": "partial",
   "theorems": [
    "C34_cj_search",
    "C34_refuted"
   ],
   "note": "Full statement false of the code (C34_refuted); what happens instead is proved for all proportional chemistry, and C31 covers 'cj' when the search stops early."
  },
  {
   "property": "C35",
   "status": "partial",
   "theorems": [
    "C35_unit_ignored",
    "C35_refuted"
   ],
   "note": "Full statement false of the code (C35_refuted); proved that only the number counts (C35_unit_ignored)."
  },
  {
   "property": "C36",
   "status": "proved",
   "theorems": [
    "C36_rating_is_straight_line",
    "C36_range_is_covered",
    "C36_outside_range"
   ],
   "note": "Both scipy behaviours; blank cells count as rating 0, as the code reads them."
  },
  {
   "property": "C37",
   "status": "proved",
   "theorems": [
    "C37_rating_never_rises_with_temperature",
    "C37_rating_rises_with_class"
   ],
   "note": ""
  },
  {
   "property": "C38",
   "status": "proved",
   "theorems": [
    "C38_smallest_sufficient_class",
    "C38_smallest_sufficient_class_exact"
   ],
   "note": ""
  },
  {
   "property": "C39",
   "status": "partial",
   "theorems": [
    "C39_outcomes",
    "C39_negative_rejected",
    "C39_refuted"
   ],
   "note": "Full statement false of the code (C39_refuted: IndexError when the pressure is between the largest class's rating at that temperature and its highest rating); every outcome for every pressure and temperature is proved (C39_outcomes, C39_negative_rejected)."
  },
  {
   "property": "C40",
   "status": "partial",
   "theorems": [
    "C40_safe_partial",
    "C40_exact_partial",
    "C40_out_of_range",
    "C40_never_returns_on_new_scipy",
    "C40_refuted"
   ],
   "note": "Full statement false of the code (C40_refuted: class 150, 0.7 bar returns 677 degC where the rating is 0); proved for every pressure at or above some positive rating and below the highest, with exactness up to the second highest; C41 covers the highest; with scipy >= 1.7 the call never returns (C40_never_returns_on_new_scipy)."
  },
  {
   "property": "C41",
   "status": "partial",
   "theorems": [
    "C41_refuted"
   ],
   "note": "Full statement false of the code for every material and class: what is returned instead (0 K, or ValueError with newer scipy) is proved."
  },
  {
   "property": "C42",
   "status": "partial",
   "theorems": [
    "C42_refuted",
    "C42_unknown_class_rejected"
   ],
   "note": "Full statement false of the code for the string Temperature only (C42_refuted); every other non-class is proved to raise ValueError."
  },
  {
   "property": "C43",
   "status": "proved",
   "theorems": [
    "C43_returns_table_entry",
    "C43_every_cell_is_a_number",
    "C43_bad_class",
    "C43_unknown",
    "C43_ambiguous"
   ],
   "note": ""
  },
  {
   "property": "C44",
   "status": "partial",
   "theorems": [
    "C44_usable_threads",
    "C44_refuted",
    "C44_partial"
   ],
   "note": "Full statement false of the data (C44_refuted: sizes above 1 in spelled differently in the two files, 2-6 duplicated); the usable threads are characterised exactly and every other size is proved usable."
  },
  {
   "property": "C45",
   "status": "proved",
   "theorems": [
    "C45_screw_area_is_the_weaker"
   ],
   "note": "For positive plate strength and engagement (with a zero there numpy's 0/0 makes the minimum engagement nan)."
  },
  {
   "property": "C46",
   "status": "proved",
   "theorems": [
    "C46_minimum_engagement",
    "C46_laws"
   ],
   "note": ""
  },
  {
   "property": "C47",
   "status": "proved",
   "theorems": [
    "C47_plate_twice_as_strong",
    "C47_safety_factors"
   ],
   "note": ""
  },
  {
   "property": "C48",
   "status": "partial",
   "theorems": [
    "C48_exact_condition",
    "C48_refuted",
    "C48_no_warning_partial"
   ],
   "note": "Full statement false of the code (C48_refuted: bolt much weaker than the plate); the exact condition under which it holds is proved (C48_exact_condition)."
  },
  {
   "property": "C49",
   "status": "proved",
   "theorems": [
    "C49_safety_factors",
    "C49_laws",
    "C49_positive"
   ],
   "note": ""
  },
  {
   "property": "C50",
   "status": "partial",
   "theorems": [
    "C50_sign",
    "C50_refuted",
    "C50_not_negative_partial"
   ],
   "note": "Full statement false of the code (C50_refuted: below 1 atm absolute both factors are negative); sign proved for every pressure."
  },
  {
   "property": "C51",
   "status": "partial",
   "theorems": [
    "C51_refuted",
    "C51_limits_ordered_partial"
   ],
   "note": "Full statement false of the data (C51_refuted: external major diameter min/max swapped, in every row); every other min/max pair proved ordered."
  },
  {
   "property": "C52",
   "status": "proved",
   "theorems": [
    "C52_true_exactly_when_complete",
    "C52_error_names_every_missing_item",
    "C52_no_files",
    "C52_warnings",
    "C52_shipped_data_pass"
   ],
   "note": ""
  },
  {
   "property": "C53",
   "status": "proved",
   "theorems": [
    "C53_loaded_table",
    "C53_rejected_only_for_negative_pressure"
   ],
   "note": ""
  },
  {
   "property": "C54",
   "status": "proved",
   "theorems": [
    "C54_every_material_works_everywhere"
   ],
   "note": ""
  },
  {
   "property": "C55",
   "status": "proved",
   "theorems": [
    "C55_least_squares",
    "C55_unique_minimiser"
   ],
   "note": ""
  },
  {
   "property": "C56",
   "status": "proved",
   "theorems": [
    "C56_defined"
   ],
   "note": "R^2 itself is nan exactly when all y are equal, as proved."
  },
  {
   "property": "C57",
   "status": "proved",
   "theorems": [
    "C57_recovers",
    "C57_recovers_nonneg"
   ],
   "note": ""
  },
  {
   "property": "C58",
   "status": "partial",
   "theorems": [
    "C58_every_three_distinct_refuted",
    "C58_partial"
   ],
   "note": "Full statement false of the code (C58_every_three_distinct_refuted: abscissae -1, 0, 1); proved whenever the first denominator is non-zero (C58_partial), which C56 shows for non-negative abscissae."
  },
  {
   "property": "C59",
   "status": "proved",
   "theorems": [
    "C59_four_rounds",
    "C59_no_other_work"
   ],
   "note": ""
  },
  {
   "property": "C60",
   "status": "proved",
   "theorems": [
    "C60_order_independent"
   ],
   "note": ""
  },
  {
   "property": "C61",
   "status": "proved",
   "theorems": [
    "C61_speed_is_vertex_value"
   ],
   "note": ""
  },
  {
   "property": "C62",
   "status": "proved",
   "theorems": [
    "C62_keys"
   ],
   "note": ""
  },
  {
   "property": "C63",
   "status": "proved",
   "theorems": [
    "C63_cj_state_terminates",
    "C63_cj_state_run"
   ],
   "note": "The exact text of the warning is the unformatted one the code passes to warnings.warn."
  },
  {
   "property": "C64",
   "status": "proved",
   "theorems": [
    "C64_temperatures_positive",
    "C64_step_at_most_20_percent",
    "C64_converged_speed_nonnegative"
   ],
   "note": ""
  },
  {
   "property": "C65",
   "status": "partial",
   "theorems": [
    "C65_cj_state_refuted",
    "C65_get_eq_state_refuted",
    "C65_partial"
   ],
   "note": "Full statement false of the code (C65_cj_state_refuted, C65_get_eq_state_refuted: with max_iterations <= 0 the equality test never fires and on some gases the loop never ends); proved for every max_iterations >= 1."
  },
  {
   "property": "C66",
   "status": "proved",
   "theorems": [
    "C66_settings_physical",
    "C66_get_eq_state_run",
    "C66_terminates"
   ],
   "note": ""
  },
  {
   "property": "C67",
   "status": "proved",
   "theorems": [
    "C67_conservation",
    "C67_zero_density"
   ],
   "note": ""
  },
  {
   "property": "C68",
   "status": "proved",
   "theorems": [
    "C68_reflected_conservation",
    "C68_reflected_speed"
   ],
   "note": ""
  },
  {
   "property": "C69",
   "status": "proved",
   "theorems": [
    "C69_cj_steps",
    "C69_reflected_steps"
   ],
   "note": ""
  },
  {
   "property": "C70",
   "status": "proved",
   "theorems": [
    "C70_sound_speed",
    "C70_returns"
   ],
   "note": ""
  },
  {
   "property": "C71",
   "status": "proved",
   "theorems": [
    "C71_find_mechanisms"
   ],
   "note": ""
  },
  {
   "property": "C72",
   "status": "proved",
   "theorems": [
    "C72_particle_speed"
   ],
   "note": ""
  },
  {
   "property": "C73",
   "status": "proved",
   "theorems": [
    "C73_reflect_well_started"
   ],
   "note": ""
  },
  {
   "property": "C74",
   "status": "proved",
   "theorems": [
    "C74_exact_on_parabola"
   ],
   "note": ""
  },
  {
   "property": "C75",
   "status": "proved",
   "theorems": [
    "C75_state_at_vertex"
   ],
   "note": ""
  },
  {
   "property": "C76",
   "status": "proved",
   "theorems": [
    "C76_bad_arguments"
   ],
   "note": ""
  },
  {
   "property": "C77",
   "status": "proved",
   "theorems": [
    "C77_flame_speed"
   ],
   "note": ""
  },
  {
   "property": "C78",
   "status": "proved",
   "theorems": [
    "C78_unit_independent"
   ],
   "note": ""
  },
  {
   "property": "C79",
   "status": "proved",
   "theorems": [
    "C79_reflected_shock_state"
   ],
   "note": ""
  },
  {
   "property": "C80",
   "status": "partial",
   "theorems": [
    "C80_no_update",
    "C80_refuted"
   ],
   "note": "Full statement false of the code (C80_refuted); exact condition for stopping without an update proved; with an update C31 gives the full statement."
  },
  {
   "property": "C81",
   "status": "proved",
   "theorems": [
    "C81_bad_state_name",
    "C81_bad_tube"
   ],
   "note": ""
  },
  {
   "property": "C82",
   "status": "partial",
   "theorems": [
    "C82_returned_factor_partial",
    "C82_refuted"
   ],
   "note": "Full statement false of the code (C82_refuted); proved with use_dynamic_load_factor, and without it whenever the returned pressure is not 1 atm."
  },
  {
   "property": "C83",
   "status": "proved",
   "theorems": [
    "C83_temperature_unit"
   ],
   "note": ""
  },
  {
   "property": "C84",
   "status": "proved",
   "theorems": [
    "C84_multiprocessing"
   ],
   "note": ""
  },
  {
   "property": "C85",
   "status": "partial",
   "theorems": [
    "C85_falls_partial",
    "C85_refuted"
   ],
   "note": "Full statement false of the code (C85_refuted: a mixture whose smooth-tube distance is below the rough-tube one); proved within each correlation range and whenever smooth >= rough at one of the two ratios."
  },
  {
   "property": "C86",
   "status": "proved",
   "theorems": [
    "C86_bad_arguments"
   ],
   "note": ""
  },
  {
   "property": "C87",
   "status": "proved",
   "theorems": [
    "C87_viscosity_needed",
    "C87_viscosity_not_needed"
   ],
   "note": ""
  },
  {
   "property": "C88",
   "status": "partial",
   "theorems": [
    "C88_sign_partial",
    "C88_refuted"
   ],
   "note": "Full statement false of the code (C88_refuted: a negative distance at BR = 0.1); the exact sign condition is proved up to 0.1 and positivity from 0.3 on (C11_rough_formula)."
  },
  {
   "property": "C89",
   "status": "proved",
   "theorems": [
    "C89_window_safety_factor_elementwise",
    "C89_minimum_thickness_elementwise",
    "C89_bolt_safety_factors_elementwise"
   ],
   "note": ""
  },
  {
   "property": "C90",
   "status": "partial",
   "theorems": [
    "C90_negative_elements_are_rejected_refuted",
    "C90_blockage_diameter_negative_elements_refuted"
   ],
   "note": "Full statement false of the code (C90_negative_elements_are_rejected_refuted, C90_blockage_diameter_negative_elements_refuted); C89 shows the first element is always checked."
  },
  {
   "property": "C91",
   "status": "proved",
   "theorems": [
    "C91_window_safety_factor_lengths",
    "C91_minimum_thickness_lengths",
    "C91_bolt_lengths"
   ],
   "note": "An empty safety_factor array, and an empty num_bolts array, are accepted by numpy and covered in the statement."
  },
  {
   "property": "C92",
   "status": "proved",
   "theorems": [
    "C92_every_file_is_read",
    "C92_missing_file_is_reported"
   ],
   "note": ""
  },
  {
   "property": "C93",
   "status": "proved",
   "theorems": [
    "C93_every_material_has_stress_limits",
    "C93_stray_space"
   ],
   "note": "Header lines free of stray white space, as the property says; C93_stray_space shows the condition is needed."
  },
  {
   "property": "C94",
   "status": "partial",
   "theorems": [
    "C94_every_material_has_a_flange_table_refuted",
    "C94_flange_table_partial",
    "C94_blank_group_is_refused"
   ],
   "note": "Full statement false of the code (C94_every_material_has_a_flange_table_refuted: groups other than 2.1-2.3 pass the check and are never loaded); proved for materials of those groups; a blank group is proved to stop the import."
  },
  {
   "property": "C95",
   "status": "proved",
   "theorems": [
    "C95_shipped_import"
   ],
   "note": ""
  },
  {
   "property": "C96",
   "status": "proved",
   "theorems": [
    "C96_window_rounding",
    "C96_window_double"
   ],
   "note": ""
  },
  {
   "property": "C97",
   "status": "proved",
   "theorems": [
    "C97_window_order_rounded"
   ],
   "note": ""
  },
  {
   "property": "C98",
   "status": "proved",
   "theorems": [
    "C98_window_rejects_rounded"
   ],
   "note": ""
  },
  {
   "property": "C99",
   "status": "proved",
   "theorems": [
    "C99_blockage_rounding",
    "C99_tiny_ratio_loses_the_spiral"
   ],
   "note": "C99_tiny_ratio_loses_the_spiral is the consequence for ratios below the last digit of 1."
  },
  {
   "property": "C100",
   "status": "proved",
   "theorems": [
    "C100_max_pressure_rounding"
   ],
   "note": ""
  },
  {
   "property": "C101",
   "status": "proved",
   "theorems": [
    "C101_load_factor_rounding"
   ],
   "note": "x ** 0.25 counted as two rounded square roots."
  },
  {
   "property": "C102",
   "status": "partial",
   "theorems": [
    "C102_cj_speed_pool_partial",
    "C102_callers_partial",
    "C102_missing_mechanism_leaves_pool_refuted",
    "C102_failed_equilibrium_leaves_pool_refuted"
   ],
   "note": "Full statement false of the code (C102_missing_mechanism_leaves_pool_refuted, C102_failed_equilibrium_leaves_pool_refuted: the pool is closed only after the loop); proved whenever the call returns, and that at most one pool is left open otherwise."
  },
  {
   "property": "C103",
   "status": "proved",
   "theorems": [
    "C103_only_the_working_gas",
    "C103_cj_state_in_place"
   ],
   "note": ""
  },
  {
   "property": "C104",
   "status": "partial",
   "theorems": [
    "C104_initial_may_be_working_partial",
    "C104_cj_state_shared_refuted"
   ],
   "note": "Full statement false of the code (C104_cj_state_shared_refuted, in exact arithmetic: cj_state never returns with one object for both gases); proved for reflect with the initial gas as working gas."
  },
  {
   "property": "C105",
   "status": "proved",
   "theorems": [
    "C105_fresh_states",
    "C105_states_are_independent",
    "C105_cj_speed_new_state"
   ],
   "note": ""
  },
  {
   "property": "C106",
   "status": "proved",
   "theorems": [
    "C106_table_is_the_text",
    "C106_shipped_tables",
    "C106_numbers",
    "C106_number_text",
    "C106_names",
    "C106_one_meaning"
   ],
   "note": ""
  },
  {
   "property": "C107",
   "status": "proved",
   "theorems": [
    "C107_cj_state_finds_the_wave_of_a_perfect_gas",
    "C107_cj_state_finds_any_wave_with_default_settings"
   ],
   "note": ""
  },
  {
   "property": "C108",
   "status": "proved",
   "theorems": [
    "C108_search_converges"
   ],
   "note": ""
  },
  {
   "property": "C109",
   "status": "partial",
   "theorems": [
    "C109_safe_partial",
    "C109_alternates",
    "C109_safe_refuted"
   ],
   "note": "Full statement false of the code (C109_safe_refuted: load factor stepping between 1 and 4, default settings, loaded four times over; C109_alternates says when); proved when an update was made and the iteration limit was not reached."
  },
  {
   "property": "C110",
   "status": "partial",
   "theorems": [
    "C110_errors_not_amplified_partial",
    "C110_errors_not_amplified_refuted"
   ],
   "note": "Full statement false of the code (C110_errors_not_amplified_refuted: speeds within 0.1 m/s of the parabola, result off by any amount); proved for errors up to 1e-7 times the curvature coefficient and a minimum at a ratio from 1 to 3."
  },
  {
   "property": "C111",
   "status": "partial",
   "theorems": [
    "C111_pipe_limit_partial",
    "C111_hotter_or_welded_never_higher_partial",
    "C111_thicker_is_stronger_partial",
    "C111_negative_limit_refuted"
   ],
   "note": "Full statement false of the code (C111_negative_limit_refuted: 28 in schedule 10 gets a negative pressure); proved for every other offered pipe."
  },
  {
   "property": "C112",
   "status": "proved",
   "theorems": [
    "C112_class_round_trip",
    "C112_ratings_strictly_rise"
   ],
   "note": ""
  },
  {
   "property": "C113",
   "status": "partial",
   "theorems": [
    "C113_temperature_round_trip_refuted",
    "C113_temperature_round_trip_partial"
   ],
   "note": "Full statement false of the code (C113_temperature_round_trip_refuted: from -29 to 38 degC the answer is 0 K, or ValueError with a newer scipy); proved for ratings between the smallest positive and the second highest tabulated one."
  },
  {
   "property": "C114",
   "status": "partial",
   "theorems": [
    "C114_any_order_of_summation",
    "C114_numpy_order",
    "C114_r_squared_at_most_one_partial",
    "C114_double_precision_refuted"
   ],
   "note": "Full statement false of the code (C114_double_precision_refuted: 21 doubles exactly on a parabola in cj_speed's last window give R^2 < 0.9996 and a curvature off by 2 %); independence of the order of summation (exact arithmetic) and R^2 <= 1 (any rounding) proved."
  },
  {
   "property": "C115",
   "status": "partial",
   "theorems": [
    "C115_zero",
    "C115_negative_partial",
    "C115_refuted"
   ],
   "note": "Full statement false of the code (C115_refuted: with max_iterations = 0, or with a tolerance above 1, a negative limit is answered with 1 atm); zero proved for all calls, negative limits for tolerances up to 1 and at least one iteration, with gas objects that refuse negative pressures."
  },
  {
   "property": "C116",
   "status": "partial",
   "theorems": [
    "C116_cj_state_says",
    "C116_get_eq_state_says_partial",
    "C116_speed_refuted"
   ],
   "note": "Full statement false of the code (C116_speed_refuted: get_eq_state's text has {0:.2f} in place of the speed); the iteration counts are right in both texts, for all limits."
  },
  {
   "property": "C117",
   "status": "proved",
   "theorems": [
    "C117_stress_areas_rounding",
    "C117_safety_factors_rounding",
    "C117_double"
   ],
   "note": "A bolt strength within 100 rounding units of 100 000 psi may fall on either side of the handbook's limit; the theorem then gives the area for a strength within 60 units of the given one."
  },
  {
   "property": "C118",
   "status": "proved",
   "theorems": [
    "C118_stress_rounding",
    "C118_stress_double",
    "C118_stress_order_rounded",
    "C118_stress_order_between_rows"
   ],
   "note": ""
  },
  {
   "property": "C119",
   "status": "proved",
   "theorems": [
    "C119_rating_rounding",
    "C119_rating_double",
    "C119_outside_rounded",
    "C119_class_rounded",
    "C119_class_found_rounded"
   ],
   "note": ""
  },
  {
   "property": "C120",
   "status": "proved",
   "theorems": [
    "C120_max_pressure_elementwise",
    "C120_max_stress_elementwise",
    "C120_blockage_diameter_elementwise",
    "C120_max_pressure_lengths"
   ],
   "note": ""
  },
  {
   "property": "C121",
   "status": "proved",
   "theorems": [
    "C121_blockage_ratio_refuses_arrays",
    "C121_blockage_ratio_single",
    "C121_load_factor_refuses_arrays",
    "C121_load_factor_single"
   ],
   "note": ""
  },
  {
   "property": "C122",
   "status": "proved",
   "theorems": [
    "C122_run_up",
    "C122_reflected_shock_state",
    "C122_max_initial_pressure",
    "C122_max_stress",
    "C122_flange_class",
    "C122_flange_pressure",
    "C122_flange_temperature"
   ],
   "note": ""
  },
  {
   "property": "C123",
   "status": "proved",
   "theorems": [
    "C123_strings_compare_dimensions",
    "C123_one_reading",
    "C123_wrong_dimension_message",
    "C123_other_messages",
    "C123_refines"
   ],
   "note": ""
  },
  {
   "property": "C124",
   "status": "proved",
   "theorems": [
    "C124_never_an_ordinary_number",
    "C124_refused",
    "C124_accepted_window",
    "C124_accepted_thickness",
    "C124_accepted_blockage",
    "C124_accepted_tube"
   ],
   "note": ""
  },
  {
   "property": "C125",
   "status": "proved",
   "theorems": [
    "C125_cautious_side",
    "C125_accepted",
    "C125_margin_refused"
   ],
   "note": ""
  },
  {
   "property": "C126",
   "status": "partial",
   "theorems": [
    "C126_partial",
    "C126_engagement",
    "C126_refuted"
   ],
   "note": "Full statement false of the code (C126_refuted: with nan inches of engagement the bolt's factor is that of a long engagement, without the warning; C126_engagement says exactly what is returned); which factor is nan is proved for every argument."
  },
  {
   "property": "C127",
   "status": "partial",
   "theorems": [
    "C127_nan_limit_or_tolerance",
    "C127_refuted",
    "C127_partial"
   ],
   "note": "Full statement false of the code (C127_refuted: 1 atm as the answer; C127_nan_limit_or_tolerance: always, for every gas); that ordinary numbers never lead to a nan or to its behaviour is proved."
  },
  {
   "property": "C128",
   "status": "proved",
   "theorems": [
    "C128_ordinary_stays_ordinary",
    "C128_with_a_gas"
   ],
   "note": ""
  },
  {
   "property": "C129",
   "status": "proved",
   "theorems": [
    "C129_meets_tolerance",
    "C129_nearly_proportional"
   ],
   "note": ""
  },
  {
   "property": "C130",
   "status": "proved",
   "theorems": [
    "C130_reads_its_own_files",
    "C130_any_directory",
    "C130_mechanisms"
   ],
   "note": ""
  },
  {
   "property": "C131",
   "status": "proved",
   "theorems": [
    "C131_frames_kept",
    "C131_history"
   ],
   "note": ""
  },
  {
   "property": "C132",
   "status": "proved",
   "theorems": [
    "C132_cj_state",
    "C132_nan_gas",
    "C132_ordinary_speed",
    "C132_nan_chemistry",
    "C132_reflected",
    "C132_reflect",
    "C132_shock_states"
   ],
   "note": ""
  },
  {
   "property": "C133",
   "status": "partial",
   "theorems": [
    "C133_refuted",
    "C133_partial"
   ],
   "note": "Full statement false of the code (C133_refuted: a nan comes without a warning, and with nan tolerances 2000 m/s is returned for every gas); proved for ordinary results and tolerances."
  },
  {
   "property": "C134",
   "status": "partial",
   "theorems": [
    "C134_refuted",
    "C134_partial"
   ],
   "note": "Full statement false of the code (C134_refuted: a trial with nan pressures is returned); C134_partial says what the search returns for any chemistry."
  },
  {
   "property": "C135",
   "status": "partial",
   "theorems": [
    "C135_partial",
    "C135_refuted"
   ],
   "note": "Full statement false of the code (C135_refuted: with the default settings the limit goes from 500000 Pa to 900000 Pa and the answer from 12500 Pa to 5625 Pa, for a load that is monotone); proved where both searches converge and the limits differ by more than the tolerances."
  },
  {
   "property": "C136",
   "status": "proved",
   "theorems": [
    "C136_elementwise",
    "C136_between",
    "C136_one_ratio",
    "C136_numbers"
   ],
   "note": ""
  },
  {
   "property": "C137",
   "status": "proved",
   "theorems": [
    "C137_one_reflected_state",
    "C137_unwarned_state_is_right",
    "C137_unwarned_reflection_is_right"
   ],
   "note": ""
  },
  {
   "property": "C138",
   "status": "partial",
   "theorems": [
    "C138_reflection_compresses_partial",
    "C138_reflection_compresses_refuted"
   ],
   "note": "Full statement false of the code (C138_reflection_compresses_refuted: a shock at Mach 1.003 in a perfect gas is reflected, without a warning, to a lower pressure by a wave running into the wall); proved when the returned density is at least 3/2 of the post-shock density."
  },
  {
   "property": "C139",
   "status": "partial",
   "theorems": [
    "C139_flange_for_rated_pipe_partial",
    "C139_default_factor_refuted"
   ],
   "note": "Full statement false of the code (C139_default_factor_refuted: 1/2 in schedule XXH in 304 at 38 degC with the default safety factor is rated above class 2500, get_class raises ValueError); proved for safety factors from 4 at temperatures up to 550 degC and from 24 in the whole flange table."
  },
  {
   "property": "C140",
   "status": "partial",
   "theorems": [
    "C140_largest_class_partial",
    "C140_too_weak_refuted",
    "C140_refuted"
   ],
   "note": "Full statement false of the code (C140_refuted, C140_too_weak_refuted: '300' > '1500' as text, in every mixture of 300...900 with 1500 or 2500); proved for classes of one of the two groups."
  },
  {
   "property": "C141",
   "status": "proved",
   "theorems": [
    "C141_window",
    "C141_blockage",
    "C141_max_pressure",
    "C141_load_factor",
    "C141_window_accuracy",
    "C141_max_pressure_accuracy",
    "C141_load_factor_accuracy"
   ],
   "note": ""
  },
  {
   "property": "C142",
   "status": "proved",
   "theorems": [
    "C142_never_negative"
   ],
   "note": ""
  },
  {
   "property": "C143",
   "status": "proved",
   "theorems": [
    "C143_window_order",
    "C143_thickness_order"
   ],
   "note": ""
  },
  {
   "property": "C144",
   "status": "partial",
   "theorems": [
    "C144_blockage_bounds_partial",
    "C144_refuted"
   ],
   "note": "Full statement false of the code (C144_refuted: a 1.5e308 m blockage in a 1.7e308 m tube has the ratio -inf, 2*d overflowing); proved for ratios of diameters up to 1e290 and for all blockage diameters (but of negative pipe diameters above -1e-290, which can round to -0 metres)."
  },
  {
   "property": "C145",
   "status": "partial",
   "theorems": [
    "C145_numbers_partial",
    "C145_refuted"
   ],
   "note": "Full statement false of the code (C145_refuted: 1e-200 m of a material of 1e308 Pa has the safety factor nan, 0 times inf); proved for numbers that are 0 or between 1e-18 and 1e18."
  },
  {
   "property": "C146",
   "status": "proved",
   "theorems": [
    "C146_units_read",
    "C146_units_written",
    "C146_all_units"
   ],
   "note": ""
  },
  {
   "property": "C147",
   "status": "proved",
   "theorems": [
    "C147_sound_speed_rounding",
    "C147_run_up_rounding"
   ],
   "note": ""
  },
  {
   "property": "C148",
   "status": "proved",
   "theorems": [
    "C148_pi",
    "C148_stress_areas",
    "C148_safety_factors",
    "C148_safety_factors_accuracy"
   ],
   "note": ""
  },
  {
   "property": "C149",
   "status": "proved",
   "theorems": [
    "C149_max_stress",
    "C149_max_pressure",
    "C149_max_temperature",
    "C149_class",
    "C149_max_stress_accuracy",
    "C149_max_pressure_accuracy",
    "C149_class_accuracy"
   ],
   "note": ""
  },
  {
   "property": "C150",
   "status": "proved",
   "theorems": [
    "C150_max_temperature_rounding",
    "C150_safe_rounded",
    "C150_outside_rounded",
    "C150_never_returns_rounded",
    "C150_max_temperature_accuracy"
   ],
   "note": ""
  },
  {
   "property": "C151",
   "status": "proved",
   "theorems": [
    "C151_rating_rounding",
    "C151_rating_double",
    "C151_rating_accuracy"
   ],
   "note": ""
  },
  {
   "property": "C152",
   "status": "proved",
   "theorems": [
    "C152_thicker_is_stronger_in_doubles",
    "C152_hotter_or_welded_in_doubles"
   ],
   "note": ""
  },
  {
   "property": "C153",
   "status": "proved",
   "theorems": [
    "C153_stress_order_in_doubles",
    "C153_exact_order_between_rows"
   ],
   "note": ""
  },
  {
   "property": "C154",
   "status": "proved",
   "theorems": [
    "C154_ratings_rise_in_doubles",
    "C154_hotter_never_higher_in_doubles"
   ],
   "note": ""
  },
  {
   "property": "C155",
   "status": "partial",
   "theorems": [
    "C155_class_round_trip_partial",
    "C155_largest_class_refuted"
   ],
   "note": "Full statement false of the code in doubles (C155_largest_class_refuted: class 2500 at 29.6 degC gives ValueError, its interpolated rating being an ulp above the tabulated one; scipy's order of operations, tried outside Coq, gives the same); proved at every accepted temperature for every other class, and for class 2500 where its rating is 1 Pa or more below its highest; for class 150 when its rating is 0 or at least 1e-18 Pa."
  }
 ]
}