## 4. What the code does that its users may not expect

Each is a theorem about the model (`_refuted`, or the theorem named).

* check_pint_quantity looks only at the first element of an array (C02); a negative
  pressure in second place gives a negative safety factor, a negative pipe diameter a
  negative spiral diameter (C90).
* dynamic_load_factor with an empty array of Poisson ratios answers 4 (C121, example).
* calculate_blockage_ratio accepts blockage diameters between half and all of the tube
  diameter, for which no spiral exists (C06, C08).
* dynamic_load_factor and calculate_max_pressure accept ID > OD (C21).
* Temperatures outside the stress table get the end value instead of an error (C25), and
  the material name "Temp" is accepted (C26).
* The shipped schedule table has a 312 in wall for 28 in schedule 10 (C29).
* The integer 304 passes the material check of Tube and then raises IndexError (C30).
* calculate_max_initial_pressure: with 'cj' the error is measured at the CJ state but the
  update uses the reflected state, so it does not converge to a CJ limit (C34); the unit
  of max_pressure is ignored (C35); the first test compares the load factor with the
  number in max_pressure, so some limits return 1 atm unseen (C80); with
  use_dynamic_load_factor=False the factor returned without an update is the dynamic one
  (C82).
* Flange.get_class raises IndexError for pressures between the largest class's rating at
  the temperature and its highest rating (C39); get_max_temperature can return a
  temperature at which the rating is 0 (C40) and 0 K at the top rating (C41), and never
  returns with scipy >= 1.7 (C40_never_returns_on_new_scipy); "Temperature" passes as a
  class (C42).
* The thread tables spell sizes above 1 in differently and list 2-6 twice (C44), and the
  external major diameter min and max are swapped (C51).
* An engagement above the minimum can still give the shear warning (C48); below 1 atm the
  bolt safety factors are negative (C50).
* cj_curve_fit divides by zero for symmetric abscissae such as -1, 0, 1 (C58).
* max_iterations <= 0 can make cj_state and get_eq_state loop for ever (C65); the warning
  of get_eq_state is not formatted (C63 note).
* cj_speed's convergence test never stops it: always four rounds (C59).
* calculate_run_up can give a negative distance (C88) and one that grows with the
  blockage ratio (C85) for mixtures with a small expansion ratio.
* A material group other than 2.1-2.3 passes the import check if some flange file name
  mentions it, but is never loaded: KeyError later (C94).
* A trailing blank in the header of a stress table passes the import check and gives a
  KeyError later (C93_stray_space).
* A blockage ratio of 2^-55 or less gets a spiral of diameter zero in double precision
  (C99_tiny_ratio_loses_the_spiral).
* With use_multiprocessing, an exception in a job (a misspelt mechanism, a failed
  equilibrium) leaves cj_speed's pool of workers unclosed (C102).
* cj_state given one gas object for both arguments cannot work: its linear system is
  singular (C104).
* If the CJ speed crosses the edge of the resonance band between two trials, the search for
  the initial pressure goes back and forth until the iteration limit and then returns, for
  the default limit of 500, a pressure at which the tube is loaded four times over
  (C109_alternates, C109_safe_refuted).
* The last three rounds of cj_speed look at a window of 0.1 % around the vertex, over which
  the speed changes by only 1e-6 times the curvature. Errors of the wave speeds larger than
  that (cj_state stops at a relative tolerance of 1e-4) can send the vertex anywhere and the
  returned speed with it (C110_errors_not_amplified_refuted).
* **A negative pressure limit.** The wall of 28 in schedule 10 is 312 in in
  pipe_schedules.csv, so rating that pipe gives a negative maximum pressure, without an
  error (C111_negative_limit_refuted).
* **Flange temperature at room-temperature rating.** For every material and class,
  get_max_temperature of the rating at any temperature from -29 to 38 degC is 0 K (or
  ValueError with a newer scipy) (C113_temperature_round_trip_refuted).
* **cj_curve_fit loses its digits in the last window.** The formulas subtract sums that agree
  in all but the last few bits when the abscissae lie within 0.1 % of each other: on 21
  doubles that lie exactly on a parabola the double-precision curvature is 2 % off and R^2 is
  0.9996, below the 0.99999 the loop asks for (C114_double_precision_refuted).
* `calculate_max_initial_pressure` does not check max_pressure: zero ends in a bare
  ZeroDivisionError, a negative limit in an error of the gas object, or, with max_iterations = 0
  or a tolerance above 1, in an answer of 1 atm (C115_refuted).
* The warning of `Reflection.get_eq_state` (sd.py:783-784) formats only its second literal: the
  text reads "... for U = {0:.2f} after 500 iterations" (C116_speed_refuted).
* **nan passes the checks.** check_pint_quantity's test for negative values is false for nan.
  Almost everywhere the answer is then nan (C124), the load factor is 4 (C125). Two places lose
  it: a nan maximum pressure or tolerance makes `calculate_max_initial_pressure` return its
  starting value, 1 atm, as if it were the solution (C127_refuted), and a nan engagement length
  gives an ordinary bolt safety factor without the shear warning (C126_refuted).
* **nan from cantera ends every loop silently.** A breakdown of the CJ iteration gives nan
  without the no-convergence warning (C133_refuted); the initial-pressure search stops at the
  first trial whose pressure is nan and returns that trial as the answer (C134_refuted).
* A larger `max_pressure` can give a smaller initial pressure: on the gas of C109 the search for
  500000 Pa does not converge and ends, silently, at 12500 Pa, the one for 900000 Pa at the right
  5625 Pa (C135_refuted).
* `calculate_run_up` takes an array of diameters, except for blockage ratios between 0.1 and 0.3,
  where np.interp gets a two-dimensional array and raises ValueError (C136_between).
* **False convergence for weak shocks.** `get_eq_state` perturbs the volume by 2 % for its finite
  differences; when the gas is within 2 % of the post-shock density the perturbed state lies on
  the other side of the singularity r = 1, and the iteration can converge, without a warning, to
  something that is not a solution: at Mach 1.003 the reflected pressure is below the
  incident one and the wave runs into the wall (C138_refuted).
* **Pipes no flange fits.** With the default safety_factor of 1, `calculate_max_pressure` rates
  small heavy pipes above class 2500, so `get_class` raises ValueError for a pressure the package
  itself calculated (C139_default_factor_refuted).
* **Maximum of flange classes.** `docs/example.ipynb` takes `.max()` of the strings returned by
  `get_class`; as text "300" > "1500", so a mixture gives the weaker flange (C140_refuted).
* **Limits of doubles.** A blockage of 1.5e308 m in a 1.7e308 m tube has the ratio -inf
  (C144_refuted); a 1e-200 m window of a material of 1e308 Pa has the safety factor nan
  (C145_refuted); a blockage ratio of 1e-17 has the blockage diameter 0 (C142_case).
* **Asking the class of a class-2500 flange's own rating can fail.** In doubles the
  interpolation between two equal ratings can come out a unit in the last place above them, so
  get_class(get_max_pressure("2500", T), T) is "Pressure out of range." at 29.6 degC
  (C155_largest_class_refuted).

## 5. Wrong programs

`seeded/LOG.jsonl` lists edits of the model that a realistic bug would make, each
compiled in a scratch copy: every broken proof was replaced by `Admitted` and
`Print Assumptions` then showed which theorems had rested on it. Where a claim was false
of the edited program and its theorem survived, the theorem was tightened (field
`theorems_tightened`). Edits that do not change what a caller can observe are marked
equivalent.

## 6. Tests

`Tests.v` runs the model on the numbers of /repo/pypbomb/tests (rational arithmetic with
approximate square roots). These are tests, not proofs; they guard the reading of the
code.
