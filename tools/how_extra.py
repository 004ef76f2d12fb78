HOW["C92"] = ("the module body of tube.py over an arbitrary directory (ImportM)", "inversion of a successful import; a directory with one file removed runs alike up to that file")
HOW["C93"] = ("the same", "C52's completeness plus the header line pandas reads")
HOW["C94"] = ("the same", "witness directory; the three loaded groups by inversion, C53 for the contents")
HOW["C95"] = ("the same, on the shipped files", "computation; C52 for every path")
HOW["C96"] = ("WindowM and Pint over rounded arithmetic (RoundM)", "a computed value is the exact one times a factor between (1-u)^n and its inverse; n is counted through every operation")
HOW["C97"] = ("the same", "closed form of the rounded result; every step is monotone")
HOW["C98"] = ("the same", "rounding keeps the sign")
HOW["C99"] = ("DdtM over rounded arithmetic", "relative errors up to the subtractions from 1, absolute ones after; doubling is exact")
HOW["C100"] = ("TubeM over rounded arithmetic", "absolute error of OD - ID, relative errors elsewhere")
HOW["C101"] = ("the same", "relative error of the wall bounded by the slenderness; comparison of intervals")
HOW["C102"] = ("SdM, ThermoM, InitPressureM with pool events in the trace", "every other event is neutral; the pools of a sequence of calls add up; witness gases for the failures")
HOW["C103"] = ("sd.py on a heap of gas objects (HeapM)", "frame lemma for every step; simulation of the heap programs by SdM's state-passing ones, so the theorems about SdM carry over")
HOW["C104"] = ("the same", "simulation without the distinctness that is not needed; for cj_state the errors of a gas against itself vanish, so the determinant is zero")
HOW["C105"] = ("the same with calculate_reflected_shock_state", "simulation; addresses below the initial bound are never written")
HOW["C106"] = ("the CSV reader and string functions (Csv) and the shipped tables (Tables)", "induction on the text against an inductive description of decimals, fields, trimming and CSV that uses no model function")
HOW["C107"] = ("cj_state (SdM) on a gas object that is perfect where the iteration looks", "the temperature step is exact up to its cut, the speed step is (51 V^2 + 50 U^2)/(101 V); geometric bounds for both by induction on the number of steps")
HOW["C108"] = ("calculate_max_initial_pressure (InitPressureM) with the chemistry as functions of the initial pressure", "the logarithm of the error shrinks by eps at every update; induction on the number of updates; a gas with eps = 1/10 meets the hypotheses")
HOW["C109"] = ("the same", "partial: the last trial is an evaluation at the returned pressure; refuted: with a load factor that steps between 1 and 4 the trials alternate, by parity of the iteration limit, on a gas and tube given in full")
HOW["C110"] = ("Detonation.cj_speed, cj_curve_fit", "partial: residuals of the best parabola are orthogonal to every parabola, so the fit to 21 errors has explicitly bounded coefficients; each round maps the distance of the vertex from the minimum into the next window; refuted: a gas whose speeds are tilted within 0.1 % of the minimum sends every other round far away")
HOW["C111"] = ("Tube.get_dimensions, calculate_max_stress and calculate_max_pressure composed (DesignP.pipe_limit)", "closed form of the composition; the orders follow from C24 and from the wall term w/(OD - w); refuted at 28 in schedule 10")
HOW["C112"] = ("Flange.get_max_pressure, get_class", "every row of the three files is strictly increasing in the class (computed), so interpolated ratings are; then C38 and C39")
HOW["C113"] = ("Flange.get_max_pressure, get_max_temperature", "partial: C40's exactness; refuted on the plateau from -29 to 38 degC, which every class of every file has (computed)")
HOW["C114"] = ("cj_curve_fit with the order of summation as a parameter, over rounded arithmetic; numpy's pairwise order (numpy_sum)", "induction on how a sum was built; the double-precision refutation is computed on rationals by DoubleQ, which is proved equal to Flocq's rounding")
HOW["C115"] = ("calculate_max_initial_pressure (InitPressureM) over any gas", "zero: the division of the first error; negative: inversion of a run that returns, whose second trial would be at a negative pressure; refuted on the example gas")
HOW["C116"] = ("cj_state and get_eq_state (SdM) with their warning texts, str of an int (Show)", "no other step warns; induction over the loops; the digits of show_int spell the number (TextSpec.digits)")
HOW["C117"] = ("calculate_stress_areas, calculate_safety_factors (BoltM) over rounded arithmetic", "relative errors through products and quotients; absolute ones through the differences, whose loss is bounded for every pair of rows of the shipped tables (computed: at most a factor 40); decisions on rounded numbers are decisions on nearby exact ones")
HOW["C118"] = ("calculate_max_stress (TubeM) and np.interp (Interp) over rounded arithmetic", "absolute error of the temperature conversion in every unit; computed slope bound of all stress tables turns it into a stress error, even across a row; exact order inside a gap from monotone rounding")
HOW["C119"] = ("get_max_pressure, get_class (FlangeM) and the slinear spline (Interp) over rounded arithmetic", "the rounded table is still increasing (rows at least 12 degC apart, computed); each rounded gap value is the exact line at a temperature at most 6820 rounding units away; computed slope bound of all ratings; the choice of class by C38 in any arithmetic")
HOW["C120"] = ("VectorTubeM: numpy broadcasting in class Tube and DDT", "simulation relation of C89 through every operation; no single call raises the sign error, so agreement is exact")
HOW["C121"] = ("the same, with numpy's truth of an array", "a decision on an array of several elements raises, so every argument broadcast into it has one element; simulation at length one")
HOW["C122"] = ("calculate_run_up, calculate_reflected_shock_state, calculate_max_initial_pressure, calculate_max_stress and class Flange", "relational: a step of one call is matched by a step of the other with the same event and operands of the same physical value (UnitIndep, UnitRest); induction over the search")
HOW["C123"] = ("check_pint_quantity with pint's str of a dimensionality (DimTextM)", "a grammar of texts (DimTextSpec) is shown unambiguous by induction on the factors; pint's text, brackets removed, is in the grammar and reads as the dimension; hence injectivity, and agreement with the model of C01")
HOW["C124"] = ("WindowM, DdtM, TubeM, RunUpM over the reals with nan added (NanM: operations give nan, comparisons are false)", "nan is followed through every operation (NanP); two runs side by side, the second with nan in places, for acceptance (NanAccept)")
HOW["C125"] = ("the same", "both tests of the resonance band are false")
HOW["C126"] = ("BoltM over the same numbers", "the same; exact value for a nan engagement by comparison with an engagement long enough for tension to govern (C49)")
HOW["C127"] = ("InitPressureM over the same numbers, any gas", "the loop condition is false at once; witness: the example gas")
HOW["C128"] = ("all calculations over the same numbers", "homomorphism: every operation, comparison, table and cantera call commutes with the embedding of the reals; induction over the loops (NanLift, NanGas)")
HOW["C129"] = ("InitPressureM over `Num_rounded rnd`, any gas", "invariant of the loop with the rounding error of each step bounded (RoundSearchP); near-proportionality makes the second trial already correct to a few units")
HOW["C130"] = ("the path expressions of the import and of find_mechanisms, with posixpath's join, dirname, normpath, abspath and relpath (PathM)", "a path is walked component by component (PathSpec); normpath is the walk, relpath goes up to the common prefix and down again, dirname drops the last name (PathP)")
HOW["C131"] = ("the table look-ups again, with DataFrames as objects that pandas operations make or change in place (FrameM)", "frame rule: only objects made by the call are changed (a Hoare-style invariant over the programs); refinement: with the imported tables each program returns what the function of FlangeM/TubeM returns; induction over the history")
HOW["C132"] = ("cj_state, cj_speed, get_eq_state, reflect (SdM) and calculate_reflected_shock_state over the reals with nan added, any cantera", "each operation gives a number exactly from numbers (NanSdP); loop invariants; a nan step ends the loop at once; the fit is a number only on 21 numbers")
HOW["C133"] = ("the same", "partial: the last pass fails the loop condition, so its step is below the tolerance; refuted on a gas whose enthalpy is nan (NanBlank), and for every gas with nan tolerances")
HOW["C134"] = ("InitPressureM over the same numbers", "partial: induction over the search (NanSearchP); refuted on the gas of NanBlank, computed through all four rounds of cj_speed")
HOW["C135"] = ("InitPressureM, any gas", "partial: a converged search brackets the load by the tolerance, and a monotone load turns the order of the loads into the order of the pressures; refuted on the gas of C109")
HOW["C136"] = ("calculate_run_up with array magnitudes and broadcasting (VectorRunUpM)", "simulation: each array operation is the single operation at every index, and the effects are those of the first single call (VectorRunUpP)")
HOW["C137"] = ("get_eq_state and reflect (SdM), any cantera whose gas is calorically perfect", "existence and uniqueness of the reflected state from a quadratic; one pass is written out for such a gas, and a pass with a small step is shown to leave imbalances of second order (ReflectP), which bound the distance to the root; example by interval arithmetic")
HOW["C138"] = ("the same", "partial: as C137; refuted: 17 passes of the iteration are enclosed in fixed-point interval arithmetic (FixInterval, WeakP), each decision being sure, and computed by the kernel")
HOW["C139"] = ("get_dimensions, calculate_max_stress, calculate_max_pressure (DesignP.pipe_limit) and get_class composed", "partial: the closed form bounds the pipe's limit by stress / factor times the largest wall ratio of the schedule table (computed), and the class 2500 rating is bounded below row by row (computed, interpolated); refuted by computing one pipe")
HOW["C140"] = ("get_class, and Python's order of texts (TextOrderSpec)", "partial: on each group the order of texts is the order of the ratings (C112); refuted: the order is reversed between the groups, for every mixture")
HOW["C141"] = ("WindowM, DdtM, TubeM over `Num_b64`, Flocq's binary64 (IeeeM), against the same over `Num_rounded double`", "relational: every step in doubles stands for the step in unbounded rounding and its size is bounded by a power of two that the step's inputs determine (IeeeP, IeeeWindowP), so it neither overflows nor is subnormal; then C96, C100, C101 apply")
HOW["C142"] = ("WindowM over `Num_b64`", "sign analysis: not-negative doubles are closed under the products, guarded quotients, sums and roots the functions use (IeeeSignP); the checks make the arguments not negative")
HOW["C143"] = ("WindowM over `Num_b64`", "each operation keeps the order of not-negative doubles when no result is nan, with infinity as 2^1024 (IeeeSignP); composed along the formula (IeeeOrderP)")
HOW["C144"] = ("DdtM over `Num_b64`", "partial: interval bounds step by step, rounding being monotone and exact on -1, 0, 1, 2 and on doubling (IeeeBlockP); refuted by computation")
HOW["C145"] = ("WindowM, DdtM over `Num_b64`", "partial: corollary of C141; refuted by computation")
HOW["C146"] = ("the unit table (Pint) and parse_quant_input", "each table entry computed against the legal definition (UnitSpec), then conversion both ways")
HOW["C147"] = ("RunUpM, ThermoM over `Num_rounded rnd`, any cantera", "relative error counted operation by operation; the two cancellations (pressure rise, density ratio minus one) bounded apart (RoundRunUpP)")
HOW["C148"] = ("BoltM over `Num_b64` against the same over `Num_rounded double`", "as C141 (IeeeBoltP), the sizes of all table cells computed; pi from Machin's series (IeeePiP); then C117 applies")
HOW["C149"] = ("TubeM, FlangeM and Interp over `Num_b64` against the same over `Num_rounded double`", "as C141: sorting, searching and the slope formula keep the two in step (IeeeInterpP, IeeeFlangeP), the sizes of all table cells computed; then C118 and C119 apply")
HOW["C151"] = ("`rated_pipe` (RoundPipeSpec: get_dimensions, calculate_max_stress, calculate_max_pressure) over `Num_R`, `Num_rounded rnd` and `Num_b64`", "bores of the table are at least a tenth of the diameter (computed), so the subtraction loses little; C100's bounds with any sign of stress, C118 for the stress; in doubles the cells are computed and the simulation of IeeeP carries the rest (RoundPipeP, IeeePipeP)")
HOW["C152"] = ("`rated_pipe` over `Num_b64`", "walls of one size are equal or 0.001 in apart and diameters at most 48 in (computed: PipeOrderP), which is more than C151's error; equal walls make the same rounded call; C111 for the temperatures")
HOW["C153"] = ("TubeM over `Num_b64`", "C149 carries C118's order theorems to the doubles")
HOW["C154"] = ("FlangeM over `Num_b64`", "classes are 0.1 bar apart in every row (computed: FlangeGapP) and so on every segment; C37 and C149's accuracy")
HOW["C150"] = ("FlangeM and Interp over `Num_rounded rnd` and over `Num_b64`", "ratings of a class are equal or 0.1 bar apart (computed), so that rounding keeps their order; the interval found is the exact one or one that touches the pressure, and there the two lines meet (RoundFlangeTP); C149 for the doubles")

HOW["C155"] = ("FlangeM over `Num_b64`", "C149: the same class as under rounding; the magnitude is a double, so its conversion to base units is exact and the comparison is of a number with itself; the other classes are 0.1 bar away (FlangeGapP); for class 2500 a witness computed with `vm_compute` (29.6 degC)")
