# Formal model of cartemic/pypbomb in Rocq (Coq 8.16.1)

DESIGN.md is put together by `tools/gen_design.py` from `tools/DESIGN.head.md` and the
output of `Print Assumptions`. `properties.jsonl` has the properties in English,
`MANIFEST.json` maps each to its theorems, `seeded/LOG.jsonl` records the wrong programs
the theorems were tested against.

## 1. Shape of the model

* **Arithmetic.** `Num A` (PyBase.v) is a class of operations (add, sub, mul, div, sqrt,
  comparisons, rational literals, pi). Every model function is polymorphic in it. The
  theorems are about the instance `R` (exact real arithmetic). `Q` instances compute:
  `NumQ.v` for facts about the shipped tables, which are lifted to `R`, and `Tests.v`
  (approximate square roots) for running the model on the numbers of
  /repo/pypbomb/tests. A third instance, `Num_rounded rnd` (RoundM.v), rounds the
  result of every operation, every literal and every unit scale by `rnd`; C96-C101, C117-C119 and C129 hold
  for every rounding with a relative error bound that keeps order, small integers and
  doubling (RoundSpec.v), and double precision (Flocq's FLX format with 53 digits, to
  nearest even; no overflow or underflow) is proved to be one. `x ** 0.25` counts as two
  square roots there. Some theorems (C60, C62, C84, C89, C91) hold for *every*
  `Num A`, floating point included.
* **Exceptions** are values: `result A = Ok a | Err e`, with the Python class of the
  exception. Three `exn` constructors are not exceptions: `NotFinite` (numpy would carry
  on with inf or nan), `OutOfFuel` (the loop has not ended), `Unmodelled` (a part of a
  library the model does not describe). Theorems that say what a call returns exclude
  them by saying `Ok`; theorems that say a call raises name the exception class.
* **pint** (Pint.v): magnitude + unit (dimension, scale to base units, optional offset) +
  registry number, with the operations the code uses and the errors pint raises
  (DimensionalityError, OffsetUnitCalculusError, different registries).
* **CSV files** are embedded verbatim as strings (CsvData.v) and parsed inside Coq
  (Csv.v); table facts are computed from that text.
* **cantera** (Gas.v) is a record of *arbitrary* functions on an abstract gas state. Every
  theorem about code that calls it quantifies over all of them; a theorem that needs
  something of the gas (e.g. an ideal-gas law for `TPX`) has it as a visible hypothesis.
* **Effects.** Functions that drive cantera return the list of what they did (objects
  made, states set, equilibrations, flames, warnings), in order, next to the value or
  exception, so "before any chemistry" and "at most n evaluations" are statements about
  that list.
* **Objects.** Gas states are passed as values in SdM/ThermoM; HeapM.v repeats those
  programs on a heap of gas objects changed in place, where a failed cantera call may
  leave any state behind, and C103-C105 prove the two agree and say what is touched.
* **Doubles.** C141-C145, C148 and C149 (and corollaries in C150-C155) are about `Num_b64`, Flocq's IEEE-754 binary64. `x ** 2` is `x * x` and
  `x ** 0.25` is two square roots there; the C library's `pow` may differ in the last digit.
* **Loops** recurse on explicit fuel; running out is an event (`EvStuck`) and the
  termination theorems say it does not occur.

Files (rocq/theories):

| group | files |
|---|---|
| model | PyBase Pint UnitsM DimTextM Csv CsvData Tables Interp WindowM DdtM BoltM TubeM FlangeM Gas FitM SdM ThermoM InitPressureM RunUpM VectorM VectorTubeM VectorRunUpM ImportM RoundM HeapM Show NanM PathM FrameM IeeeM |
| specification vocabulary (no model functions) | Spec TableSpec BoltSpec DataSpec FitSpec SdSpec SpeedSpec ThermoSpec InitPressureSpec RunUpSpec VectorSpec VectorTubeSpec ImportSpec RoundSpec RoundPipeSpec PoolSpec ObjectSpec TextSpec PerfectSpec SearchSpec RoundSearchSpec RoundTempSpec UnitRestSpec DimTextSpec NanSpec PathSpec FrameSpec NanSdSpec ReflectSpec TextOrderSpec IeeeSpec UnitSpec RoundRunUpSpec IeeeBoltSpec |
| lemmas | QLemmas NumQ StrLemmas UnitIndep UnitRest ExampleGas VariableGas BumpGas GasP RunUpAnalysis FlangeT and *P.v (DesignP: the script of C111; FlangeRoundP; DoubleQ: double precision computed on rationals), NanLift, NanAccept, NanGas, NanBlank, IdealGas (a perfect gas), FixInterval (interval arithmetic on integers) |
| properties (theorem, Print Assumptions, example) | Properties_*.v |
| tests | Tests |

## 2. Trusted base

* Coq 8.16.1's kernel (and `vm_compute`, used for table facts). Flocq is used for the
  definition of double precision; its lemmas rest on the standard library's axioms only.
* The axioms `Print Assumptions` lists, all of the standard library's real numbers and
  logic: see section 7. No axiom, parameter, functor or module type of our own; no
  `Admitted`; no kernel check switched off.
* vcheck additionally lists the fields of the module types `Rdefinitions.RbaseSymbolsSig`,
  `RinvSig` (sealed inside the standard library's Reals) and `ssrunder.Under_rel`: they
  belong to the loaded standard library, are implemented there, and no theorem here
  depends on them as axioms.
* That the model is a faithful reading of /repo. The code was not run. Every definition
  cites file and lines.

### Assumed behaviour of libraries (not in /repo)

| library | assumption |
|---|---|
| Python/numpy floats | replaced by real numbers; except in C96-C101, C114, C117-C119, C129, C141-C145 and C147-C155 (see below) no rounding, except in C141-C145 and C148-C155 no overflow or underflow, and except in C124-C128 and C132-C134 no nan: those are proved over the reals with a nan added (NanM). What scipy and pandas do with a nan in the flange tables' index is not claimed. Where numpy yields inf/nan the model stops with `NotFinite` (so a value that numpy would let recover from inf, e.g. 1/inf = 0, is not modelled). |
| pint | as in Pint.v. `q.units.format_babel()` names the same unit in the new registry. Comparison of quantities is done in base units. Addition converts the right operand to the left unit. Offset units raise in products and sums. `str` of a dimensionality as in DimTextM.v (integer exponents). Wrapping a pandas Series raises TypeError. |
| pandas | `read_csv` on well-formed files; `df.interpolate(method="slinear")` as in Interp.v; label lookup by first match; a duplicated index label gives a Series. Selecting columns, applymap, concat and set_index give new frames; setting `columns`, assigning a column and `interpolate(inplace=True)` change the frame (C131). |
| scipy | order-1 spline through the stably sorted points. Releases from 1.7 reject repeated abscissae (`strict = true`), older ones do not (`strict = false`): theorems about flanges quantify over both. |
| numpy | `np.interp` constant beyond both ends; `np.linspace` start + i*step with the last point exact; `np.sum` in any order (exact arithmetic); `np.power`, `np.log`, `np.sqrt` real functions on their domain. |
| multiprocessing | `pool.starmap` runs every job once; the model lets the results arrive in any order (stronger than the library's promise). Making and closing the pool are events of the trace (C102); what an unclosed pool does to the operating system is not modelled. |
| os.path | posixpath of CPython as in PathM.v; no symbolic links (C130). |
| cantera | gas objects are deterministic functions of their state; setters, equilibrate, viscosity and the flame solver may raise. |

### Modelled

Every function of /repo/pypbomb/units.py, tube.py, sd.py and thermochem.py, for scalar
arguments: both functions of units.py; class Bolt; class DDT (blockage functions and
calculate_run_up); class Window; class Tube; class Flange; the import-time loaders and
checks of tube.py; cj_curve_fit; Detonation (cj_state, _calculate_over_ratio_range,
cj_speed); Properties; GetError; Reflection (reflect, get_eq_state);
calculate_laminar_flame_speed, get_eq_sound_speed, calculate_reflected_shock_state,
find_mechanisms. Array-valued quantities: in check_pint_quantity (all), and elementwise
in VectorM.v and VectorTubeM.v for the functions of Window, Bolt, Tube and DDT that take arrays
(Flange is modelled for single values).

### Not modelled

Rounding outside C96-C101, C114, C117-C119, C129, C141-C145 and C147-C155, overflow and underflow outside C141-C145 and C148-C155; progress of real time; the contents of messages where the definition says
"simplified" (pypbomb's own texts are kept where they are simple); the pool object
(start method, termination); logging/printing; `Solution` file lookup (an unknown mechanism
is an arbitrary error of `ct_new`); tests/, docs/, setup.py, _version.py (constants only).

## 3. Properties

All are expressible in the model. *partial* means the full statement is false of the code: it is refuted by a witness (`_refuted`) and what does hold is proved. The last column is what is modelled; how it is proved.

| id | property | status | modelled; proof |
|---|---|---|---|
| C01 | check_pint_quantity accepts exactly the right quantities | proved | check_pint_quantity on scalars, non-quantities, non-numbers (UnitsM); case analysis; accepted iff dimension and sign in base units are right |
| C02 | check_pint_quantity validates every element of an array quantity | partial | the ndarray branch of check_pint_quantity; witness for the refutation; first element decides, by case analysis |
| C03 | parse_quant_input preserves the physical value and moves it to the requested registry | proved | parse_quant_input on quantities, pairs and other values; case analysis; physical value preserved by field algebra |
| C04 | Results do not depend on the units or registry used to express the inputs | proved | all Window, DDT, Tube, Bolt functions; UnitIndep: a closed form in SI values for each function |
| C05 | Blockage ratio -> spiral diameter -> blockage ratio round trip | proved | calculate_blockage_diameter, calculate_blockage_ratio; closed forms, sqrt algebra |
| C06 | Spiral diameter -> blockage ratio -> spiral diameter round trip | partial | the same; closed forms; exact value past half the diameter; witness |
| C07 | Blockage ratio is the blocked area fraction | proved | calculate_blockage_ratio; closed form equals the area ratio |
| C08 | Geometrically impossible blockages are rejected | partial | calculate_blockage_ratio; case analysis; witness (diameter between half and all of the tube) |
| C09 | Blockage diameter input validation | proved | calculate_blockage_diameter, its float() conversion; case analysis over argument kinds; range by sqrt bounds |
| C10 | Run-up distance: range check and correlation selection | proved | calculate_run_up with the cantera record; trace and value computed for each range of BR |
| C11 | Run-up distance for 0.3<=BR<=0.75 | proved | eq4_4; closed form in SI values; scaling laws by field |
| C12 | Run-up distance is continuous across the correlation hand-over | proved | calculate_run_up as a function of BR; continuity of ln, Rpower and quotients on (0,0.75], hand-over points by limits (RunUpAnalysis) |
| C13 | Run-up distance output unit | proved | the unit of the result; inversion of the run |
| C14 | Window thickness/safety factor round trip | proved | Window.minimum_thickness and safety_factor; closed forms, sqrt algebra |
| C15 | minimum_thickness is the minimum | proved | the same; monotonicity of the closed form |
| C16 | Window safety factor laws | proved | Window.safety_factor; closed form; laws by field |
| C17 | minimum_thickness rejects bad safety factors and inputs | proved | argument checks of both; case analysis over all dimensions and signs |
| C18 | Dynamic load factor classification | proved | Tube.dynamic_load_factor; closed form of the critical velocity with the fourth root; three ranges |
| C19 | Dynamic load factor depends on geometry only through shape | proved | the same; closed form is homogeneous of degree 0 in (ID, OD) |
| C20 | Band width outside (0,1) is rejected | proved | the same; case analysis |
| C21 | Impossible tubes (ID > OD) are rejected | partial | dynamic_load_factor, calculate_max_pressure; witness; what is returned for swapped diameters by algebra |
| C22 | Maximum pressure satisfies the hoop-stress balance | proved | Tube.calculate_max_pressure; closed form; monotonicity in each argument |
| C23 | Allowable stress interpolates the ASME B31.1 table | proved | Tube.calculate_max_stress, get_pipe_stress_limits, np.interp, the two stress CSVs; np.interp is the straight line on each bracketing interval (induction); table facts by computation in Q, lifted to R |
| C24 | Allowable stress never rises with temperature; welded never exceeds seamless | proved | the same; monotone table => monotone interpolant, by induction; columnwise domination by computation |
| C25 | Temperatures outside the stress table are rejected | partial | the same; end values by induction; witness |
| C26 | Unknown materials are rejected by the stress lookup | partial | column lookup; membership in the header for all strings; witness |
| C27 | Schedules offered for a pipe size are exactly those with a wall thickness | proved | get_available_pipe_schedules and the schedule CSV; for all strings: membership in the table index, list reasoning |
| C28 | get_dimensions succeeds exactly on offered schedules and is self-consistent | proved | Tube.get_dimensions; table computation lifted to all strings, ID + 2w = OD by field |
| C29 | Every offered pipe has a positive bore | partial | the same; table computation in Q lifted to R; witness |
| C30 | Material property getters accept exactly the listed materials | partial | get_elastic_modulus, get_density, get_poisson; for all strings, integers; values are the table's cells with their unit |
| C31 | Maximum initial pressure meets the tolerance when the iteration stops early | proved | calculate_max_initial_pressure; loop invariant by induction on the remaining iterations |
| C32 | Maximum initial pressure always terminates within max_iterations updates | proved | the same, with the list of effects; counting evaluations by induction, whether it returns or raises |
| C33 | Maximum initial pressure for proportional chemistry | proved | the same, chemistry proportional to initial pressure; one update is exact: algebra on the loop |
| C34 | max_pressure_state='cj' limits the CJ pressure | partial | max_pressure_state='cj'; for proportional chemistry the loop is solved exactly; witness gas (ExampleGas) |
| C35 | Maximum initial pressure does not depend on the unit of max_pressure | partial | the same; two runs compared; witness |
| C36 | Flange pressure rating interpolates ASME B16.5 | proved | Flange.get_max_pressure, flange CSVs, scipy order-1 spline; sorted-spline lemma by induction; table facts lifted |
| C37 | Flange rating never rises with temperature and rises with class | proved | the same; monotone tables, by computation, => monotone interpolants |
| C38 | get_class returns the smallest sufficient class | proved | Flange.get_class; filter/first reasoning; classes sorted by computation |
| C39 | get_class succeeds or raises ValueError | partial | the same; outcome for every pressure and temperature; witness |
| C40 | get_max_temperature is safe | partial | Flange.get_max_temperature; inverse interpolation on tables whose columns fall; witnesses |
| C41 | get_max_temperature at the top rating returns the highest temperature carrying it | partial | the same; what the spline gives on the zero-length last interval |
| C42 | Flange class validation | partial | Flange._check_flange_class; for all strings; witness |
| C43 | get_thread_property returns the table entry or raises | proved | Bolt.get_thread_property and thread CSVs; for all strings; every cell parsed by computation |
| C44 | Every listed thread size can be used in a bolt calculation | partial | index of both thread files; table computation lifted to all strings; witness |
| C45 | Screw stress area is the weaker of tension and shear, and the warning tells which | proved | Bolt.calculate_stress_areas; closed forms for every usable thread |
| C46 | Minimum engagement does not depend on the engagement given | proved | the same; closed form does not contain the engagement |
| C47 | At the minimum engagement the plate is twice as strong as the bolt | proved | calculate_stress_areas and calculate_safety_factors; closed forms, field |
| C48 | Engagement at or above the minimum never triggers the shear warning | partial | the same; exact condition by algebra; witness |
| C49 | Bolt safety factor laws | proved | Bolt.calculate_safety_factors; closed form; laws by field |
| C50 | Safety factors are never negative | partial | the same; sign of the closed form; witness below 1 atm |
| C51 | Thread limits are ordered | partial | thread CSVs; computation over every row; witness |
| C52 | Import-time materials check is complete | proved | _check_materials_list over an arbitrary directory and material list; list and string reasoning, no computation on the shipped data except one corollary |
| C53 | Flange tables contain no negative or missing pressure after loading | proved | _get_flange_limits_from_csv over an arbitrary frame; list induction |
| C54 | Every listed material works in every tube and flange function | proved | all lookups that take a material; finite product of tables lifted to all temperatures |
| C55 | cj_curve_fit is the least-squares parabola | proved | cj_curve_fit over lists of any length; normal equations by induction on the list; uniqueness of the minimiser |
| C56 | cj_curve_fit is defined for positive abscissae with three distinct values | proved | the same; denominators non-zero by Cauchy-Schwarz-type sums, induction |
| C57 | cj_curve_fit recovers exact parabolas | proved | the same; uniqueness of the least-squares parabola |
| C58 | cj_curve_fit works on every data set with three distinct x | partial | the same; witness; exact condition |
| C59 | cj_speed refines exactly four times | proved | Detonation.cj_speed loop; unrolled on an arbitrary gas: the never-updated delta forces four rounds |
| C60 | cj_speed does not depend on multiprocessing or on worker completion order | proved | the same with arbitrary worker schedules; sorting a permutation with distinct indices restores the order |
| C61 | cj_speed returns the vertex value of the last fit | proved | cj_speed result; inversion of the run |
| C62 | cj_speed result keys follow the flags | proved | cj_speed result keys; case analysis on flags |
| C63 | CJ state iteration terminates and warns exactly on non-convergence | proved | Detonation.cj_state; fuel induction; the run as a relation |
| C64 | CJ state temperature stays physical | proved | the same; invariant 0 < T, |dT| <= 0.2 T by induction |
| C65 | max_iterations bounds the CJ iteration | partial | cj_state, get_eq_state; fuel induction; witness gas for max_iterations <= 0 |
| C66 | Reflected-shock iteration keeps volume compressed and temperature positive | proved | Reflection.get_eq_state; invariant on volume and temperature by induction |
| C67 | CJ error functions vanish exactly on conservation | proved | GetError.equilibrium; equivalence with the conservation laws, algebra |
| C68 | Reflected error functions vanish exactly on the reflected jump conditions, and the reported speed is the shock speed | proved | GetError.reflected_shock_frozen, reflect; equivalence with the jump conditions, algebra |
| C69 | Newton updates solve the linearised system | proved | the 2x2 solves; field |
| C70 | Equilibrium sound speed is the isentropic slope | proved | thermochem.get_eq_sound_speed; inversion of the run on an arbitrary gas |
| C71 | find_mechanisms returns exactly the mechanism files | proved | find_mechanisms; filter membership |
| C72 | Reflection.reflect uses the particle speed behind the incident wave | proved | Reflection.reflect; inversion plus algebra with the wave-frame conservation laws |
| C73 | Reflection.reflect always starts from a compressed, hot state and ends | proved | the same; invariant from C66 applied to the computed start |
| C74 | cj_speed is exact when the speeds lie on a parabola | proved | cj_speed; C57 applied in every round |
| C75 | cj_speed returns the state at the vertex | proved | cj_speed with return_state; inversion of the run |
| C76 | Thermochemistry functions reject bad arguments before touching a gas | proved | argument checks of thermochem.py, with effects; computation of the trace |
| C77 | Laminar flame speed is the solved flame's speed in m/s | proved | calculate_laminar_flame_speed; inversion, equivalence |
| C78 | Thermochemistry does not depend on the units of its arguments | proved | thermochem.py; equal traces and values for equal SI arguments |
| C79 | calculate_reflected_shock_state conserves mass and momentum | proved | calculate_reflected_shock_state; composition of C61, C75 and the reflect algebra |
| C80 | A search that stops early has met the tolerance | partial | calculate_max_initial_pressure; exact stopping condition; witness |
| C81 | calculate_max_initial_pressure rejects bad arguments | proved | the same, with effects; trace computation |
| C82 | The returned load factor belongs to the returned pressure | partial | the same; loop invariant; witness |
| C83 | Maximum initial pressure does not depend on the unit of the temperature | proved | the same; equal runs by induction |
| C84 | Multiprocessing does not change the maximum initial pressure | proved | the same with arbitrary schedules; C60 lifted through the loop |
| C85 | More blockage never lengthens the run-up | partial | calculate_run_up; monotonicity within each correlation; exact sufficient condition for the blend; witness gas |
| C86 | calculate_run_up rejects bad arguments before any chemistry | proved | the same, with effects; trace computation |
| C87 | Viscosity is needed exactly below a blockage ratio of 0.3 | proved | the same; trace and value when viscosity raises |
| C88 | The run-up distance is positive | partial | the same; exact sign condition; witness |
| C89 | Array arguments are handled element by element | proved | VectorM: numpy broadcasting in Window and Bolt; simulation relation between one array run and n scalar runs, through every operation |
| C90 | Negative elements of array arguments are rejected | partial | the same; witness family |
| C91 | Arrays that do not fit together are refused | proved | the same; the length of a result determines the lengths of the operands, backwards through every operation |
| C92 | Import stops unless every data file is there | proved | the module body of tube.py over an arbitrary directory (ImportM); inversion of a successful import; a directory with one file removed runs alike up to that file |
| C93 | After import every listed material has stress limits | proved | the same; C52's completeness plus the header line pandas reads |
| C94 | After import every listed material has a flange table | partial | the same; witness directory; the three loaded groups by inversion, C53 for the contents |
| C95 | The shipped data import cleanly | proved | the same, on the shipped files; computation; C52 for every path |
| C96 | Rounding moves window results only in the last digits | proved | WindowM and Pint over rounded arithmetic (RoundM); a computed value is the exact one times a factor between (1-u)^n and its inverse; n is counted through every operation |
| C97 | Rounding never reverses the order of windows | proved | the same; closed form of the rounded result; every step is monotone |
| C98 | Rounding lets no bad window argument through | proved | the same; rounding keeps the sign |
| C99 | Rounding and blockages | proved | DdtM over rounded arithmetic; relative errors up to the subtractions from 1, absolute ones after; doubling is exact |
| C100 | Rounding and the maximum pressure | proved | TubeM over rounded arithmetic; absolute error of OD - ID, relative errors elsewhere |
| C101 | Rounding and the dynamic load factor | proved | the same; relative error of the wall bounded by the slenderness; comparison of intervals |
| C102 | Worker pools are closed | partial | SdM, ThermoM, InitPressureM with pool events in the trace; every other event is neutral; the pools of a sequence of calls add up; witness gases for the failures |
| C103 | Only the working gas is changed | proved | sd.py on a heap of gas objects (HeapM); frame lemma for every step; simulation of the heap programs by SdM's state-passing ones, so the theorems about SdM carry over |
| C104 | One gas object for two arguments | partial | the same; simulation without the distinctness that is not needed; for cj_state the errors of a gas against itself vanish, so the determinant is zero |
| C105 | Returned gas states are new objects | proved | the same with calculate_reflected_shock_state; simulation; addresses below the initial bound are never written |
| C106 | The lookup tables hold exactly what the CSV files say | proved | the CSV reader and string functions (Csv) and the shipped tables (Tables); induction on the text against an inductive description of decimals, fields, trimming and CSV that uses no model function |
| C107 | cj_state finds the wave of a perfect gas | proved | cj_state (SdM) on a gas object that is perfect where the iteration looks; the temperature step is exact up to its cut, the speed step is (51 V^2 + 50 U^2)/(101 V); geometric bounds for both by induction on the number of steps |
| C108 | The initial-pressure search converges | proved | calculate_max_initial_pressure (InitPressureM) with the chemistry as functions of the initial pressure; the logarithm of the error shrinks by eps at every update; induction on the number of updates; a gas with eps = 1/10 meets the hypotheses |
| C109 | A returned initial pressure is safe | partial | the same; partial: the last trial is an evaluation at the returned pressure; refuted: with a load factor that steps between 1 and 4 the trials alternate, by parity of the iteration limit, on a gas and tube given in full |
| C110 | cj_speed does not amplify errors of the wave speeds | partial | Detonation.cj_speed, cj_curve_fit; partial: residuals of the best parabola are orthogonal to every parabola, so the fit to 21 errors has explicitly bounded coefficients; each round maps the distance of the vertex from the minimum into the next window; refuted: a gas whose speeds are tilted within 0.1 % of the minimum sends every other round far away |
| C111 | Rating a catalogue pipe is safe and ordered | partial | Tube.get_dimensions, calculate_max_stress and calculate_max_pressure composed (DesignP.pipe_limit); closed form of the composition; the orders follow from C24 and from the wall term w/(OD - w); refuted at 28 in schedule 10 |
| C112 | Flange class round trip | proved | Flange.get_max_pressure, get_class; every row of the three files is strictly increasing in the class (computed), so interpolated ratings are; then C38 and C39 |
| C113 | Flange temperature round trip | partial | Flange.get_max_pressure, get_max_temperature; partial: C40's exactness; refuted on the plateau from -29 to 38 degC, which every class of every file has (computed) |
| C114 | cj_curve_fit: order of summation and rounding | partial | cj_curve_fit with the order of summation as a parameter, over rounded arithmetic; numpy's pairwise order (numpy_sum); induction on how a sum was built; the double-precision refutation is computed on rationals by DoubleQ, which is proved equal to Flocq's rounding |
| C115 | A limit that is not positive is not answered | partial | calculate_max_initial_pressure (InitPressureM) over any gas; zero: the division of the first error; negative: inversion of a run that returns, whose second trial would be at a negative pressure; refuted on the example gas |
| C116 | Non-convergence warnings are accurate | partial | cj_state and get_eq_state (SdM) with their warning texts, str of an int (Show); no other step warns; induction over the loops; the digits of show_int spell the number (TextSpec.digits) |
| C117 | Rounding and bolts | proved | calculate_stress_areas, calculate_safety_factors (BoltM) over rounded arithmetic; relative errors through products and quotients; absolute ones through the differences, whose loss is bounded for every pair of rows of the shipped tables (computed: at most a factor 40); decisions on rounded numbers are decisions on nearby exact ones |
| C118 | Rounding and the allowable stress | proved | calculate_max_stress (TubeM) and np.interp (Interp) over rounded arithmetic; absolute error of the temperature conversion in every unit; computed slope bound of all stress tables turns it into a stress error, even across a row; exact order inside a gap from monotone rounding |
| C119 | Rounding and flange ratings | proved | get_max_pressure, get_class (FlangeM) and the slinear spline (Interp) over rounded arithmetic; the rounded table is still increasing (rows at least 12 degC apart, computed); each rounded gap value is the exact line at a temperature at most 6820 rounding units away; computed slope bound of all ratings; the choice of class by C38 in any arithmetic |
| C120 | Tube and blockage functions handle arrays element by element | proved | VectorTubeM: numpy broadcasting in class Tube and DDT; simulation relation of C89 through every operation; no single call raises the sign error, so agreement is exact |
| C121 | Functions that decide on a value refuse arrays | proved | the same, with numpy's truth of an array; a decision on an array of several elements raises, so every argument broadcast into it has one element; simulation at length one |
| C122 | Unit independence of the remaining functions | proved | calculate_run_up, calculate_reflected_shock_state, calculate_max_initial_pressure, calculate_max_stress and class Flange; relational: a step of one call is matched by a step of the other with the same event and operands of the same physical value (UnitIndep, UnitRest); induction over the search |
| C123 | Comparing dimensionality strings is sound, and the messages say what is wrong | proved | check_pint_quantity with pint's str of a dimensionality (DimTextM); a grammar of texts (DimTextSpec) is shown unambiguous by induction on the factors; pint's text, brackets removed, is in the grammar and reads as the dimension; hence injectivity, and agreement with the model of C01 |
| C124 | nan in, nan out | proved | WindowM, DdtM, TubeM, RunUpM over the reals with nan added (NanM: operations give nan, comparisons are false); nan is followed through every operation (NanP); two runs side by side, the second with nan in places, for acceptance (NanAccept) |
| C125 | The dynamic load factor of an unknown tube is the cautious one | proved | the same; both tests of the resonance band are false |
| C126 | nan reaches both safety factors of a bolt | partial | BoltM over the same numbers; the same; exact value for a nan engagement by comparison with an engagement long enough for tension to govern (C49) |
| C127 | A nan limit or tolerance is not taken for a solved search | partial | InitPressureM over the same numbers, any gas; the loop condition is false at once; witness: the example gas |
| C128 | Ordinary numbers stay ordinary numbers | proved | all calculations over the same numbers; homomorphism: every operation, comparison, table and cantera call commutes with the embedding of the reals; induction over the loops (NanLift, NanGas) |
| C129 | The initial-pressure search under rounding | proved | InitPressureM over `Num_rounded rnd`, any gas; invariant of the loop with the rounding error of each step bounded (RoundSearchP); near-proportionality makes the second trial already correct to a few units |
| C130 | The files that are read do not depend on the current directory | proved | the path expressions of the import and of find_mechanisms, with posixpath's join, dirname, normpath, abspath and relpath (PathM); a path is walked component by component (PathSpec); normpath is the walk, relpath goes up to the common prefix and down again, dirname drops the last name (PathP) |
| C131 | Looking things up does not change the tables | proved | the table look-ups again, with DataFrames as objects that pandas operations make or change in place (FrameM); frame rule: only objects made by the call are changed (a Hoare-style invariant over the programs); refinement: with the imported tables each program returns what the function of FlangeM/TubeM returns; induction over the history |
| C132 | nan from the chemistry is not turned into a number | proved | cj_state, cj_speed, get_eq_state, reflect (SdM) and calculate_reflected_shock_state over the reals with nan added, any cantera; each operation gives a number exactly from numbers (NanSdP); loop invariants; a nan step ends the loop at once; the fit is a number only on 21 numbers |
| C133 | A result that is not converged comes with a warning | partial | the same; partial: the last pass fails the loop condition, so its step is below the tolerance; refuted on a gas whose enthalpy is nan (NanBlank), and for every gas with nan tolerances |
| C134 | The initial pressure returned was checked against the limit | partial | InitPressureM over the same numbers; partial: induction over the search (NanSearchP); refuted on the gas of NanBlank, computed through all four rounds of cj_speed |
| C135 | A higher limit allows a higher initial pressure | partial | InitPressureM, any gas; partial: a converged search brackets the load by the tolerance, and a monotone load turns the order of the loads into the order of the pressures; refuted on the gas of C109 |
| C136 | Run-up distances for several tubes in one call | proved | calculate_run_up with array magnitudes and broadcasting (VectorRunUpM); simulation: each array operation is the single operation at every index, and the effects are those of the first single call (VectorRunUpP) |
| C137 | A reflection given without a warning is right | proved | get_eq_state and reflect (SdM), any cantera whose gas is calorically perfect; existence and uniqueness of the reflected state from a quadratic; one pass is written out for such a gas, and a pass with a small step is shown to leave imbalances of second order (ReflectP), which bound the distance to the root; example by interval arithmetic |
| C138 | A reflected shock compresses the gas | partial | the same; partial: as C137; refuted: 17 passes of the iteration are enclosed in fixed-point interval arithmetic (FixInterval, WeakP), each decision being sure, and computed by the kernel |
| C139 | A flange can be found for every rated pipe | partial | get_dimensions, calculate_max_stress, calculate_max_pressure (DesignP.pipe_limit) and get_class composed; partial: the closed form bounds the pipe's limit by stress / factor times the largest wall ratio of the schedule table (computed), and the class 2500 rating is bounded below row by row (computed, interpolated); refuted by computing one pipe |
| C140 | The largest of several flange classes | partial | get_class, and Python's order of texts (TextOrderSpec); partial: on each group the order of texts is the order of the ratings (C112); refuted: the order is reversed between the groups, for every mixture |
| C141 | The same results in IEEE-754 doubles | proved | WindowM, DdtM, TubeM over `Num_b64`, Flocq's binary64 (IeeeM), against the same over `Num_rounded double`; relational: every step in doubles stands for the step in unbounded rounding and its size is bounded by a power of two that the step's inputs determine (IeeeP, IeeeWindowP), so it neither overflows nor is subnormal; then C96, C100, C101 apply |
| C142 | Window results are never negative in doubles | proved | WindowM over `Num_b64`; sign analysis: not-negative doubles are closed under the products, guarded quotients, sums and roots the functions use (IeeeSignP); the checks make the arguments not negative |
| C143 | The order of windows in doubles | proved | WindowM over `Num_b64`; each operation keeps the order of not-negative doubles when no result is nan, with infinity as 2^1024 (IeeeSignP); composed along the formula (IeeeOrderP) |
| C144 | Blockages in doubles stay within their bounds | partial | DdtM over `Num_b64`; partial: interval bounds step by step, rounding being monotone and exact on -1, 0, 1, 2 and on doubling (IeeeBlockP); refuted by computation |
| C145 | Finite numbers give finite numbers | partial | WindowM, DdtM over `Num_b64`; partial: corollary of C141; refuted by computation |
| C146 | Units mean what they are defined to mean | proved | the unit table (Pint) and parse_quant_input; each table entry computed against the legal definition (UnitSpec), then conversion both ways |
| C147 | Sound speed and run-up distance under rounding | proved | RunUpM, ThermoM over `Num_rounded rnd`, any cantera; relative error counted operation by operation; the two cancellations (pressure rise, density ratio minus one) bounded apart (RoundRunUpP) |
| C148 | Bolts in double precision | proved | BoltM over `Num_b64` against the same over `Num_rounded double`; as C141 (IeeeBoltP), the sizes of all table cells computed; pi from Machin's series (IeeePiP); then C117 applies |
| C149 | Stress tables and flange ratings in double precision | proved | TubeM, FlangeM and Interp over `Num_b64` against the same over `Num_rounded double`; as C141: sorting, searching and the slope formula keep the two in step (IeeeInterpP, IeeeFlangeP), the sizes of all table cells computed; then C118 and C119 apply |
| C150 | The temperature limit of a flange class under rounding | proved | FlangeM and Interp over `Num_rounded rnd` and over `Num_b64`; ratings of a class are equal or 0.1 bar apart (computed), so that rounding keeps their order; the interval found is the exact one or one that touches the pressure, and there the two lines meet (RoundFlangeTP); C149 for the doubles |
| C151 | Rating a catalogue pipe in floating point | proved | `rated_pipe` (RoundPipeSpec: get_dimensions, calculate_max_stress, calculate_max_pressure) over `Num_R`, `Num_rounded rnd` and `Num_b64`; bores of the table are at least a tenth of the diameter (computed), so the subtraction loses little; C100's bounds with any sign of stress, C118 for the stress; in doubles the cells are computed and the simulation of IeeeP carries the rest (RoundPipeP, IeeePipeP) |
| C152 | Pipe ratings in doubles keep the order of walls and temperatures | proved | `rated_pipe` over `Num_b64`; walls of one size are equal or 0.001 in apart and diameters at most 48 in (computed: PipeOrderP), which is more than C151's error; equal walls make the same rounded call; C111 for the temperatures |
| C153 | Stress limits in doubles keep the order of temperatures and welds | proved | TubeM over `Num_b64`; C149 carries C118's order theorems to the doubles |
| C154 | Flange ratings in doubles keep the order of classes and temperatures | proved | FlangeM over `Num_b64`; classes are 0.1 bar apart in every row (computed: FlangeGapP) and so on every segment; C37 and C149's accuracy |
| C155 | The class of a flange's own rating, in doubles | partial | FlangeM over `Num_b64`; C149: the same class as under rounding; the magnitude is a double, so its conversion to base units is exact and the comparison is of a number with itself; the other classes are 0.1 bar away (FlangeGapP); for class 2500 a witness computed with `vm_compute` (29.6 degC) |

## 4. What the code does that its users may not expect

Each is a theorem about the model (`_refuted`, or the theorem named).

* check_pint_quantity looks only at the first element of an array (C02); a negative
  pressure in second place gives a negative safety factor, a negative pipe diameter a
  negative spiral diameter (C90).
* dynamic_load_factor with an empty array of Poisson ratios answers 4 (C121, example).
* calculate_blockage_ratio accepts blockage diameters between half and all of the tube
  diameter, for which no spiral exists (C06, C08).
* dynamic_load_factor and calculate_max_pressure accept ID > OD (C21).
* Temperatures outside the stress table get the end value instead of an error (C25), and
  the material name "Temp" is accepted (C26).
* The shipped schedule table has a 312 in wall for 28 in schedule 10 (C29).
* The integer 304 passes the material check of Tube and then raises IndexError (C30).
* calculate_max_initial_pressure: with 'cj' the error is measured at the CJ state but the
  update uses the reflected state, so it does not converge to a CJ limit (C34); the unit
  of max_pressure is ignored (C35); the first test compares the load factor with the
  number in max_pressure, so some limits return 1 atm unseen (C80); with
  use_dynamic_load_factor=False the factor returned without an update is the dynamic one
  (C82).
* Flange.get_class raises IndexError for pressures between the largest class's rating at
  the temperature and its highest rating (C39); get_max_temperature can return a
  temperature at which the rating is 0 (C40) and 0 K at the top rating (C41), and never
  returns with scipy >= 1.7 (C40_never_returns_on_new_scipy); "Temperature" passes as a
  class (C42).
* The thread tables spell sizes above 1 in differently and list 2-6 twice (C44), and the
  external major diameter min and max are swapped (C51).
* An engagement above the minimum can still give the shear warning (C48); below 1 atm the
  bolt safety factors are negative (C50).
* cj_curve_fit divides by zero for symmetric abscissae such as -1, 0, 1 (C58).
* max_iterations <= 0 can make cj_state and get_eq_state loop for ever (C65); the warning
  of get_eq_state is not formatted (C63 note).
* cj_speed's convergence test never stops it: always four rounds (C59).
* calculate_run_up can give a negative distance (C88) and one that grows with the
  blockage ratio (C85) for mixtures with a small expansion ratio.
* A material group other than 2.1-2.3 passes the import check if some flange file name
  mentions it, but is never loaded: KeyError later (C94).
* A trailing blank in the header of a stress table passes the import check and gives a
  KeyError later (C93_stray_space).
* A blockage ratio of 2^-55 or less gets a spiral of diameter zero in double precision
  (C99_tiny_ratio_loses_the_spiral).
* With use_multiprocessing, an exception in a job (a misspelt mechanism, a failed
  equilibrium) leaves cj_speed's pool of workers unclosed (C102).
* cj_state given one gas object for both arguments cannot work: its linear system is
  singular (C104).
* If the CJ speed crosses the edge of the resonance band between two trials, the search for
  the initial pressure goes back and forth until the iteration limit and then returns, for
  the default limit of 500, a pressure at which the tube is loaded four times over
  (C109_alternates, C109_safe_refuted).
* The last three rounds of cj_speed look at a window of 0.1 % around the vertex, over which
  the speed changes by only 1e-6 times the curvature. Errors of the wave speeds larger than
  that (cj_state stops at a relative tolerance of 1e-4) can send the vertex anywhere and the
  returned speed with it (C110_errors_not_amplified_refuted).
* **A negative pressure limit.** The wall of 28 in schedule 10 is 312 in in
  pipe_schedules.csv, so rating that pipe gives a negative maximum pressure, without an
  error (C111_negative_limit_refuted).
* **Flange temperature at room-temperature rating.** For every material and class,
  get_max_temperature of the rating at any temperature from -29 to 38 degC is 0 K (or
  ValueError with a newer scipy) (C113_temperature_round_trip_refuted).
* **cj_curve_fit loses its digits in the last window.** The formulas subtract sums that agree
  in all but the last few bits when the abscissae lie within 0.1 % of each other: on 21
  doubles that lie exactly on a parabola the double-precision curvature is 2 % off and R^2 is
  0.9996, below the 0.99999 the loop asks for (C114_double_precision_refuted).
* `calculate_max_initial_pressure` does not check max_pressure: zero ends in a bare
  ZeroDivisionError, a negative limit in an error of the gas object, or, with max_iterations = 0
  or a tolerance above 1, in an answer of 1 atm (C115_refuted).
* The warning of `Reflection.get_eq_state` (sd.py:783-784) formats only its second literal: the
  text reads "... for U = {0:.2f} after 500 iterations" (C116_speed_refuted).
* **nan passes the checks.** check_pint_quantity's test for negative values is false for nan.
  Almost everywhere the answer is then nan (C124), the load factor is 4 (C125). Two places lose
  it: a nan maximum pressure or tolerance makes `calculate_max_initial_pressure` return its
  starting value, 1 atm, as if it were the solution (C127_refuted), and a nan engagement length
  gives an ordinary bolt safety factor without the shear warning (C126_refuted).
* **nan from cantera ends every loop silently.** A breakdown of the CJ iteration gives nan
  without the no-convergence warning (C133_refuted); the initial-pressure search stops at the
  first trial whose pressure is nan and returns that trial as the answer (C134_refuted).
* A larger `max_pressure` can give a smaller initial pressure: on the gas of C109 the search for
  500000 Pa does not converge and ends, silently, at 12500 Pa, the one for 900000 Pa at the right
  5625 Pa (C135_refuted).
* `calculate_run_up` takes an array of diameters, except for blockage ratios between 0.1 and 0.3,
  where np.interp gets a two-dimensional array and raises ValueError (C136_between).
* **False convergence for weak shocks.** `get_eq_state` perturbs the volume by 2 % for its finite
  differences; when the gas is within 2 % of the post-shock density the perturbed state lies on
  the other side of the singularity r = 1, and the iteration can converge, without a warning, to
  something that is not a solution: at Mach 1.003 the reflected pressure is below the
  incident one and the wave runs into the wall (C138_refuted).
* **Pipes no flange fits.** With the default safety_factor of 1, `calculate_max_pressure` rates
  small heavy pipes above class 2500, so `get_class` raises ValueError for a pressure the package
  itself calculated (C139_default_factor_refuted).
* **Maximum of flange classes.** `docs/example.ipynb` takes `.max()` of the strings returned by
  `get_class`; as text "300" > "1500", so a mixture gives the weaker flange (C140_refuted).
* **Limits of doubles.** A blockage of 1.5e308 m in a 1.7e308 m tube has the ratio -inf
  (C144_refuted); a 1e-200 m window of a material of 1e308 Pa has the safety factor nan
  (C145_refuted); a blockage ratio of 1e-17 has the blockage diameter 0 (C142_case).
* **Asking the class of a class-2500 flange's own rating can fail.** In doubles the
  interpolation between two equal ratings can come out a unit in the last place above them, so
  get_class(get_max_pressure("2500", T), T) is "Pressure out of range." at 29.6 degC
  (C155_largest_class_refuted).

## 5. Wrong programs

`seeded/LOG.jsonl` lists edits of the model that a realistic bug would make, each
compiled in a scratch copy: every broken proof was replaced by `Admitted` and
`Print Assumptions` then showed which theorems had rested on it. Where a claim was false
of the edited program and its theorem survived, the theorem was tightened (field
`theorems_tightened`). Edits that do not change what a caller can observe are marked
equivalent.

## 6. Tests

`Tests.v` runs the model on the numbers of /repo/pypbomb/tests (rational arithmetic with
approximate square roots). These are tests, not proofs; they guard the reading of the
code.

## 7. Print Assumptions

Abbreviations: sfd = ClassicalDedekindReals.sig_forall_dec, snd = ClassicalDedekindReals.sig_not_dec, fun = FunctionalExtensionality.functional_extensionality_dep, cl = Classical_Prop.classic. All four are axioms of Coq's standard library.

* **closed under the global context (no axioms)** (64 theorems): C51_refuted, C51_limits_ordered_partial, C52_true_exactly_when_complete, C52_error_names_every_missing_item, C52_no_files, C52_warnings, C52_shipped_data_pass, C53_loaded_table, C53_rejected_only_for_negative_pressure, C123_strings_compare_dimensions, C123_one_reading, C114_numpy_order, C131_frames_kept, C131_history, C92_every_file_is_read, C92_missing_file_is_reported, C93_every_material_has_stress_limits, C93_stray_space, C94_every_material_has_a_flange_table_refuted, C94_flange_table_partial, C94_blank_group_is_refused, C95_shipped_import, C35_unit_ignored, C81_bad_state_name, C84_multiprocessing, C103_only_the_working_gas, C103_cj_state_in_place, C104_initial_may_be_working_partial, C105_fresh_states, C105_states_are_independent, C105_cj_speed_new_state, C130_reads_its_own_files, C130_any_directory, C130_mechanisms, C102_cj_speed_pool_partial, C102_callers_partial, C60_order_independent, C62_keys, C27_available_schedules, C27_integer_sizes, C106_table_is_the_text, C106_shipped_tables, C106_numbers, C106_number_text, C106_names, C106_one_meaning, C71_find_mechanisms, C89_window_safety_factor_elementwise, C89_minimum_thickness_elementwise, C89_bolt_safety_factors_elementwise, C91_window_safety_factor_lengths, C91_minimum_thickness_lengths, C91_bolt_lengths, C120_max_pressure_elementwise, C120_max_stress_elementwise, C120_blockage_diameter_elementwise, C120_max_pressure_lengths, C121_blockage_ratio_refuses_arrays, C121_blockage_ratio_single, C121_load_factor_refuses_arrays, C121_load_factor_single, C116_cj_state_says, C116_get_eq_state_says_partial, C116_speed_refuted

* **fun, sfd** (7 theorems): C43_every_cell_is_a_number, C44_refuted, C44_partial, every_flange_material_is_rated, C36_range_is_covered, C38_smallest_sufficient_class, C23_table_is_filled

* **fun, sfd, snd** (234 theorems): C43_returns_table_entry, C43_bad_class, C43_unknown, C43_ambiguous, C44_usable_threads, C45_screw_area_is_the_weaker, C46_minimum_engagement, C46_laws, C47_plate_twice_as_strong, C47_safety_factors, C48_exact_condition, C48_refuted, C48_no_warning_partial, C49_safety_factors, C49_laws, C50_sign, C50_refuted, C50_not_negative_partial, C49_positive, C54_every_material_works_everywhere, C05_ratio_diameter_ratio, C06_refuted, C06_diameter_ratio_diameter_partial, C06_past_half, C07_blockage_ratio_is_area_fraction, C08_refuted, C08_impossible_blockage_rejected_partial, C09_blockage_diameter_rejects, C09_blockage_diameter_range, C09_zero_diameter, C09_ratio_as_text, C111_pipe_limit_partial, C111_hotter_or_welded_never_higher_partial, C111_thicker_is_stronger_partial, C111_negative_limit_refuted, C112_class_round_trip, C112_ratings_strictly_rise, C113_temperature_round_trip_refuted, C113_temperature_round_trip_partial, C123_wrong_dimension_message, C123_other_messages, C123_refines, C55_least_squares, C55_unique_minimiser, C56_defined, C57_recovers, C57_recovers_nonneg, C58_every_three_distinct_refuted, C58_partial, C114_any_order_of_summation, C114_r_squared_at_most_one_partial, C36_rating_is_straight_line, C36_outside_range, C37_rating_never_rises_with_temperature, C37_rating_rises_with_class, C38_smallest_sufficient_class_exact, C39_outcomes, C39_negative_rejected, C39_refuted, C40_safe_partial, C40_exact_partial, C40_out_of_range, C40_never_returns_on_new_scipy, C40_refuted, C41_refuted, C42_refuted, C42_unknown_class_rejected, C31_meets_tolerance, C32_bounded, C32_bounded_when_raising, C33_one_update, C33_without_load_factor, C34_cj_search, C80_no_update, C81_bad_tube, C82_returned_factor_partial, C83_temperature_unit, C34_refuted, C35_refuted, C80_refuted, C82_refuted, C115_zero, C115_negative_partial, C115_refuted, C124_refused, C124_accepted_window, C124_accepted_thickness, C124_accepted_blockage, C124_accepted_tube, C125_cautious_side, C125_accepted, C125_margin_refused, C126_partial, C126_engagement, C126_refuted, C127_nan_limit_or_tolerance, C127_refuted, C127_partial, C128_ordinary_stays_ordinary, C132_reflect, C134_refuted, C134_partial, C104_cj_state_shared_refuted, C107_cj_state_finds_the_wave_of_a_perfect_gas, C107_cj_state_finds_any_wave_with_default_settings, C151_rating_rounding, C139_flange_for_rated_pipe_partial, C139_default_factor_refuted, C140_largest_class_partial, C140_too_weak_refuted, C140_refuted, C102_missing_mechanism_leaves_pool_refuted, C102_failed_equilibrium_leaves_pool_refuted, C137_one_reflected_state, C137_unwarned_state_is_right, C137_unwarned_reflection_is_right, C138_reflection_compresses_partial, C138_reflection_compresses_refuted, C110_errors_not_amplified_partial, C110_errors_not_amplified_refuted, C96_window_rounding, C97_window_order_rounded, C98_window_rejects_rounded, C99_blockage_rounding, C100_max_pressure_rounding, C101_load_factor_rounding, C117_stress_areas_rounding, C117_safety_factors_rounding, C119_rating_rounding, C119_outside_rounded, C119_class_rounded, C119_class_found_rounded, C150_max_temperature_rounding, C150_safe_rounded, C150_outside_rounded, C150_never_returns_rounded, C147_sound_speed_rounding, C147_run_up_rounding, C129_meets_tolerance, C129_nearly_proportional, C118_stress_rounding, C118_stress_order_rounded, C118_stress_order_between_rows, C63_cj_state_terminates, C63_cj_state_run, C64_temperatures_positive, C64_step_at_most_20_percent, C64_converged_speed_nonnegative, C65_cj_state_refuted, C65_get_eq_state_refuted, C65_partial, C66_settings_physical, C66_get_eq_state_run, C66_terminates, C67_conservation, C67_zero_density, C68_reflected_conservation, C68_reflected_speed, C69_cj_steps, C69_reflected_steps, C72_particle_speed, C73_reflect_well_started, C109_safe_partial, C109_alternates, C109_safe_refuted, C135_partial, C135_refuted, C59_four_rounds, C59_no_other_work, C61_speed_is_vertex_value, C74_exact_on_parabola, C75_state_at_vertex, C23_stress_is_straight_line, C23_range_is_covered, C24_stress_never_rises, C24_welded_below_seamless, C25_refuted, C25_clamped_to_table_ends, C26_refuted, C26_unknown_material_rejected_partial, C28_get_dimensions, C29_refuted, C29_positive_bore_partial, C30_refuted, C30_material_getters_partial, C30_integers_raise, C70_sound_speed, C70_returns, C76_bad_arguments, C77_flame_speed, C78_unit_independent, C79_reflected_shock_state, C18_dynamic_load_factor, C18_no_other_value, C19_dynamic_load_factor_shape, C20_bad_arguments_rejected, C21_refuted, C21_swapped_load_factor, C21_swapped_pressure, C22_hoop_stress_balance, C22_solid_bar, C04_window_safety_factor, C04_window_minimum_thickness, C04_blockage_ratio, C04_blockage_diameter, C04_dynamic_load_factor, C04_max_pressure, C04_bolt_safety_factors, C04_bolt_stress_areas, C146_units_read, C146_units_written, C146_all_units, C122_reflected_shock_state, C122_max_initial_pressure, C122_max_stress, C122_flange_class, C122_flange_pressure, C122_flange_temperature, C01_check_scalar, C01_check_unknown_dimension, C01_check_not_a_quantity, C02_refuted, C02_array_first_element_partial, C03_parse_preserves, C03_parse_magnitude_and_unit, C03_parse_rejects, C90_negative_elements_are_rejected_refuted, C90_blockage_diameter_negative_elements_refuted, C14_window_roundtrip, C15_minimum_thickness_is_minimum, C16_window_laws, C17_safety_factor_argument, C17_minimum_thickness_rejects, C17_safety_factor_rejects

* **cl, fun, sfd, snd** (73 theorems): C114_double_precision_refuted, C155_class_round_trip_partial, C155_largest_class_refuted, C154_ratings_rise_in_doubles, C154_hotter_never_higher_in_doubles, C141_window, C141_blockage, C141_max_pressure, C141_load_factor, C141_window_accuracy, C141_max_pressure_accuracy, C141_load_factor_accuracy, C148_pi, C148_stress_areas, C148_safety_factors, C148_safety_factors_accuracy, C149_max_stress, C149_max_pressure, C149_max_temperature, C149_class, C149_max_stress_accuracy, C149_max_pressure_accuracy, C149_class_accuracy, C142_never_negative, C143_window_order, C143_thickness_order, C144_blockage_bounds_partial, C144_refuted, C145_numbers_partial, C145_refuted, C124_never_an_ordinary_number, C128_with_a_gas, C132_cj_state, C132_nan_gas, C132_ordinary_speed, C132_nan_chemistry, C132_reflected, C132_shock_states, C133_refuted, C133_partial, C151_rating_double, C151_rating_accuracy, C152_thicker_is_stronger_in_doubles, C152_hotter_or_welded_in_doubles, C96_window_double, C99_tiny_ratio_loses_the_spiral, C117_double, C119_rating_double, C150_max_temperature_accuracy, C118_stress_double, C10_range, C10_correlations, C10_returns, C10_between, C11_rough_formula, C11_scaling, C12_continuous, C13_unit, C85_falls_partial, C85_refuted, C86_bad_arguments, C87_viscosity_needed, C87_viscosity_not_needed, C88_sign_partial, C88_refuted, C108_search_converges, C153_stress_order_in_doubles, C153_exact_order_between_rows, C122_run_up, C136_elementwise, C136_between, C136_one_ratio, C136_numbers
