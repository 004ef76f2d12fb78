STATUS = {
 "C02": ("partial", "Full statement false of the code (C02_refuted: only element 0 of an array is checked); proved for the first element."),
 "C06": ("partial", "Full statement false of the code (C06_refuted: a blockage past half the tube diameter is accepted and comes back as its complement); proved below half."),
 "C08": ("partial", "Full statement false of the code (C08_refuted: D/2 < d < D is accepted); the rejections that do happen are proved."),
 "C21": ("partial", "Full statement false of the code (C21_refuted: ID > OD is accepted by both functions); what happens instead is proved for all inputs."),
 "C03": ("proved", "'Same unit' is the same scale, offset and dimension; the text returned by pint's format_babel is assumed to name the same unit."),
 "C22": ("proved", "Strict increase in OD for positive ID (with ID = 0 the pressure does not depend on OD)."),
 "C25": ("partial", "Full statement false of the code (C25_refuted): outside the table the end value is used, which is proved for all temperatures."),
 "C26": ("partial", "Full statement false of the code (C26_refuted: the column name Temp is accepted as a material); every other unknown name is proved to raise KeyError."),
 "C29": ("partial", "Full statement false of the code (C29_refuted: the 28 in schedule 10 wall is 312 in in the shipped table); proved for every other pipe."),
 "C30": ("partial", "Full statement false of the code (C30_refuted: the integer 304 passes the check and raises IndexError); proved for every string."),
 "C36": ("proved", "Both scipy behaviours; blank cells count as rating 0, as the code reads them."),
 "C39": ("partial", "Full statement false of the code (C39_refuted: IndexError when the pressure is between the largest class's rating at that temperature and its highest rating); every outcome for every pressure and temperature is proved (C39_outcomes, C39_negative_rejected)."),
 "C40": ("partial", "Full statement false of the code (C40_refuted: class 150, 0.7 bar returns 677 degC where the rating is 0); proved for every pressure at or above some positive rating and below the highest, with exactness up to the second highest; C41 covers the highest; with scipy >= 1.7 the call never returns (C40_never_returns_on_new_scipy)."),
 "C41": ("partial", "Full statement false of the code for every material and class: what is returned instead (0 K, or ValueError with newer scipy) is proved."),
 "C42": ("partial", "Full statement false of the code for the string Temperature only (C42_refuted); every other non-class is proved to raise ValueError."),
 "C44": ("partial", "Full statement false of the data (C44_refuted: sizes above 1 in spelled differently in the two files, 2-6 duplicated); the usable threads are characterised exactly and every other size is proved usable."),
 "C45": ("proved", "For positive plate strength and engagement (with a zero there numpy's 0/0 makes the minimum engagement nan)."),
 "C48": ("partial", "Full statement false of the code (C48_refuted: bolt much weaker than the plate); the exact condition under which it holds is proved (C48_exact_condition)."),
 "C50": ("partial", "Full statement false of the code (C50_refuted: below 1 atm absolute both factors are negative); sign proved for every pressure."),
 "C51": ("partial", "Full statement false of the data (C51_refuted: external major diameter min/max swapped, in every row); every other min/max pair proved ordered."),
 "C56": ("proved", "R^2 itself is nan exactly when all y are equal, as proved."),
 "C58": ("partial", "Full statement false of the code (C58_every_three_distinct_refuted: abscissae -1, 0, 1); proved whenever the first denominator is non-zero (C58_partial), which C56 shows for non-negative abscissae."),
 "C65": ("partial", "Full statement false of the code (C65_cj_state_refuted, C65_get_eq_state_refuted: with max_iterations <= 0 the equality test never fires and on some gases the loop never ends); proved for every max_iterations >= 1."),
 "C63": ("proved", "The exact text of the warning is the unformatted one the code passes to warnings.warn."),
 "C31": ("proved", "For max_pressure given in pascal; C35 covers other units."),
 "C34": ("partial", "Full statement false of the code (C34_refuted); what happens instead is proved for all proportional chemistry, and C31 covers 'cj' when the search stops early."),
 "C35": ("partial", "Full statement false of the code (C35_refuted); proved that only the number counts (C35_unit_ignored)."),
 "C80": ("partial", "Full statement false of the code (C80_refuted); exact condition for stopping without an update proved; with an update C31 gives the full statement."),
 "C82": ("partial", "Full statement false of the code (C82_refuted); proved with use_dynamic_load_factor, and without it whenever the returned pressure is not 1 atm."),
 "C85": ("partial", "Full statement false of the code (C85_refuted: a mixture whose smooth-tube distance is below the rough-tube one); proved within each correlation range and whenever smooth >= rough at one of the two ratios."),
 "C88": ("partial", "Full statement false of the code (C88_refuted: a negative distance at BR = 0.1); the exact sign condition is proved up to 0.1 and positivity from 0.3 on (C11_rough_formula)."),
 "C12": ("proved", "On the whole range (0, 0.75] on which the function is defined."),
 "C90": ("partial", "Full statement false of the code (C90_negative_elements_are_rejected_refuted, C90_blockage_diameter_negative_elements_refuted); C89 shows the first element is always checked."),
 "C91": ("proved", "An empty safety_factor array, and an empty num_bolts array, are accepted by numpy and covered in the statement."),
 "C93": ("proved", "Header lines free of stray white space, as the property says; C93_stray_space shows the condition is needed."),
 "C94": ("partial", "Full statement false of the code (C94_every_material_has_a_flange_table_refuted: groups other than 2.1-2.3 pass the check and are never loaded); proved for materials of those groups; a blank group is proved to stop the import."),
 "C99": ("proved", "C99_tiny_ratio_loses_the_spiral is the consequence for ratios below the last digit of 1."),
 "C117": ("proved", "A bolt strength within 100 rounding units of 100 000 psi may fall on either side of the handbook's limit; the theorem then gives the area for a strength within 60 units of the given one."),
 "C101": ("proved", "x ** 0.25 counted as two rounded square roots."),
 "C102": ("partial", "Full statement false of the code (C102_missing_mechanism_leaves_pool_refuted, C102_failed_equilibrium_leaves_pool_refuted: the pool is closed only after the loop); proved whenever the call returns, and that at most one pool is left open otherwise."),
 "C104": ("partial", "Full statement false of the code (C104_cj_state_shared_refuted, in exact arithmetic: cj_state never returns with one object for both gases); proved for reflect with the initial gas as working gas."),
 "C109": ("partial", "Full statement false of the code (C109_safe_refuted: load factor stepping between 1 and 4, default settings, loaded four times over; C109_alternates says when); proved when an update was made and the iteration limit was not reached."),
 "C110": ("partial", "Full statement false of the code (C110_errors_not_amplified_refuted: speeds within 0.1 m/s of the parabola, result off by any amount); proved for errors up to 1e-7 times the curvature coefficient and a minimum at a ratio from 1 to 3."),
 "C111": ("partial", "Full statement false of the code (C111_negative_limit_refuted: 28 in schedule 10 gets a negative pressure); proved for every other offered pipe."),
 "C113": ("partial", "Full statement false of the code (C113_temperature_round_trip_refuted: from -29 to 38 degC the answer is 0 K, or ValueError with a newer scipy); proved for ratings between the smallest positive and the second highest tabulated one."),
 "C114": ("partial", "Full statement false of the code (C114_double_precision_refuted: 21 doubles exactly on a parabola in cj_speed's last window give R^2 < 0.9996 and a curvature off by 2 %); independence of the order of summation (exact arithmetic) and R^2 <= 1 (any rounding) proved."),
 "C115": ("partial", "Full statement false of the code (C115_refuted: with max_iterations = 0, or with a tolerance above 1, a negative limit is answered with 1 atm); zero proved for all calls, negative limits for tolerances up to 1 and at least one iteration, with gas objects that refuse negative pressures."),
 "C116": ("partial", "Full statement false of the code (C116_speed_refuted: get_eq_state's text has {0:.2f} in place of the speed); the iteration counts are right in both texts, for all limits."),
 "C126": ("partial", "Full statement false of the code (C126_refuted: with nan inches of engagement the bolt's factor is that of a long engagement, without the warning; C126_engagement says exactly what is returned); which factor is nan is proved for every argument."),
 "C127": ("partial", "Full statement false of the code (C127_refuted: 1 atm as the answer; C127_nan_limit_or_tolerance: always, for every gas); that ordinary numbers never lead to a nan or to its behaviour is proved."),
 "C133": ("partial", "Full statement false of the code (C133_refuted: a nan comes without a warning, and with nan tolerances 2000 m/s is returned for every gas); proved for ordinary results and tolerances."),
 "C134": ("partial", "Full statement false of the code (C134_refuted: a trial with nan pressures is returned); C134_partial says what the search returns for any chemistry."),
 "C135": ("partial", "Full statement false of the code (C135_refuted: with the default settings the limit goes from 500000 Pa to 900000 Pa and the answer from 12500 Pa to 5625 Pa, for a load that is monotone); proved where both searches converge and the limits differ by more than the tolerances."),
 "C138": ("partial", "Full statement false of the code (C138_reflection_compresses_refuted: a shock at Mach 1.003 in a perfect gas is reflected, without a warning, to a lower pressure by a wave running into the wall); proved when the returned density is at least 3/2 of the post-shock density."),
 "C139": ("partial", "Full statement false of the code (C139_default_factor_refuted: 1/2 in schedule XXH in 304 at 38 degC with the default safety factor is rated above class 2500, get_class raises ValueError); proved for safety factors from 4 at temperatures up to 550 degC and from 24 in the whole flange table."),
 "C140": ("partial", "Full statement false of the code (C140_refuted, C140_too_weak_refuted: '300' > '1500' as text, in every mixture of 300...900 with 1500 or 2500); proved for classes of one of the two groups."),
 "C144": ("partial", "Full statement false of the code (C144_refuted: a 1.5e308 m blockage in a 1.7e308 m tube has the ratio -inf, 2*d overflowing); proved for ratios of diameters up to 1e290 and for all blockage diameters (but of negative pipe diameters above -1e-290, which can round to -0 metres)."),
 "C145": ("partial", "Full statement false of the code (C145_refuted: 1e-200 m of a material of 1e308 Pa has the safety factor nan, 0 times inf); proved for numbers that are 0 or between 1e-18 and 1e18."),
 "C155": ("partial", "Full statement false of the code in doubles (C155_largest_class_refuted: class 2500 at 29.6 degC gives ValueError, its interpolated rating being an ulp above the tabulated one; scipy's order of operations, tried outside Coq, gives the same); proved at every accepted temperature for every other class, and for class 2500 where its rating is 1 Pa or more below its highest; for class 150 when its rating is 0 or at least 1e-18 Pa."),
}
