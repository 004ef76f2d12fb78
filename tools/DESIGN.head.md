# Formal model of cartemic/pypbomb in Rocq (Coq 8.16.1)

DESIGN.md is put together by `tools/gen_design.py` from `tools/DESIGN.head.md` and the
output of `Print Assumptions`. `properties.jsonl` has the properties in English,
`MANIFEST.json` maps each to its theorems, `seeded/LOG.jsonl` records the wrong programs
the theorems were tested against.

## 1. Shape of the model

* **Arithmetic.** `Num A` (PyBase.v) is a class of operations (add, sub, mul, div, sqrt,
  comparisons, rational literals, pi). Every model function is polymorphic in it. The
  theorems are about the instance `R` (exact real arithmetic). `Q` instances compute:
  `NumQ.v` for facts about the shipped tables, which are lifted to `R`, and `Tests.v`
  (approximate square roots) for running the model on the numbers of
  /repo/pypbomb/tests. A third instance, `Num_rounded rnd` (RoundM.v), rounds the
  result of every operation, every literal and every unit scale by `rnd`; C96-C101, C117-C119 and C129 hold
  for every rounding with a relative error bound that keeps order, small integers and
  doubling (RoundSpec.v), and double precision (Flocq's FLX format with 53 digits, to
  nearest even; no overflow or underflow) is proved to be one. `x ** 0.25` counts as two
  square roots there. Some theorems (C60, C62, C84, C89, C91) hold for *every*
  `Num A`, floating point included.
* **Exceptions** are values: `result A = Ok a | Err e`, with the Python class of the
  exception. Three `exn` constructors are not exceptions: `NotFinite` (numpy would carry
  on with inf or nan), `OutOfFuel` (the loop has not ended), `Unmodelled` (a part of a
  library the model does not describe). Theorems that say what a call returns exclude
  them by saying `Ok`; theorems that say a call raises name the exception class.
* **pint** (Pint.v): magnitude + unit (dimension, scale to base units, optional offset) +
  registry number, with the operations the code uses and the errors pint raises
  (DimensionalityError, OffsetUnitCalculusError, different registries).
* **CSV files** are embedded verbatim as strings (CsvData.v) and parsed inside Coq
  (Csv.v); table facts are computed from that text.
* **cantera** (Gas.v) is a record of *arbitrary* functions on an abstract gas state. Every
  theorem about code that calls it quantifies over all of them; a theorem that needs
  something of the gas (e.g. an ideal-gas law for `TPX`) has it as a visible hypothesis.
* **Effects.** Functions that drive cantera return the list of what they did (objects
  made, states set, equilibrations, flames, warnings), in order, next to the value or
  exception, so "before any chemistry" and "at most n evaluations" are statements about
  that list.
* **Objects.** Gas states are passed as values in SdM/ThermoM; HeapM.v repeats those
  programs on a heap of gas objects changed in place, where a failed cantera call may
  leave any state behind, and C103-C105 prove the two agree and say what is touched.
* **Doubles.** C141-C145, C148 and C149 (and corollaries in C150-C155) are about `Num_b64`, Flocq's IEEE-754 binary64. `x ** 2` is `x * x` and
  `x ** 0.25` is two square roots there; the C library's `pow` may differ in the last digit.
* **Loops** recurse on explicit fuel; running out is an event (`EvStuck`) and the
  termination theorems say it does not occur.

Files (rocq/theories):

| group | files |
|---|---|
| model | PyBase Pint UnitsM DimTextM Csv CsvData Tables Interp WindowM DdtM BoltM TubeM FlangeM Gas FitM SdM ThermoM InitPressureM RunUpM VectorM VectorTubeM VectorRunUpM ImportM RoundM HeapM Show NanM PathM FrameM IeeeM |
| specification vocabulary (no model functions) | Spec TableSpec BoltSpec DataSpec FitSpec SdSpec SpeedSpec ThermoSpec InitPressureSpec RunUpSpec VectorSpec VectorTubeSpec ImportSpec RoundSpec RoundPipeSpec PoolSpec ObjectSpec TextSpec PerfectSpec SearchSpec RoundSearchSpec RoundTempSpec UnitRestSpec DimTextSpec NanSpec PathSpec FrameSpec NanSdSpec ReflectSpec TextOrderSpec IeeeSpec UnitSpec RoundRunUpSpec IeeeBoltSpec |
| lemmas | QLemmas NumQ StrLemmas UnitIndep UnitRest ExampleGas VariableGas BumpGas GasP RunUpAnalysis FlangeT and *P.v (DesignP: the script of C111; FlangeRoundP; DoubleQ: double precision computed on rationals), NanLift, NanAccept, NanGas, NanBlank, IdealGas (a perfect gas), FixInterval (interval arithmetic on integers) |
| properties (theorem, Print Assumptions, example) | Properties_*.v |
| tests | Tests |

## 2. Trusted base

* Coq 8.16.1's kernel (and `vm_compute`, used for table facts). Flocq is used for the
  definition of double precision; its lemmas rest on the standard library's axioms only.
* The axioms `Print Assumptions` lists, all of the standard library's real numbers and
  logic: see section 7. No axiom, parameter, functor or module type of our own; no
  `Admitted`; no kernel check switched off.
* vcheck additionally lists the fields of the module types `Rdefinitions.RbaseSymbolsSig`,
  `RinvSig` (sealed inside the standard library's Reals) and `ssrunder.Under_rel`: they
  belong to the loaded standard library, are implemented there, and no theorem here
  depends on them as axioms.
* That the model is a faithful reading of /repo. The code was not run. Every definition
  cites file and lines.

### Assumed behaviour of libraries (not in /repo)

| library | assumption |
|---|---|
| Python/numpy floats | replaced by real numbers; except in C96-C101, C114, C117-C119, C129, C141-C145 and C147-C155 (see below) no rounding, except in C141-C145 and C148-C155 no overflow or underflow, and except in C124-C128 and C132-C134 no nan: those are proved over the reals with a nan added (NanM). What scipy and pandas do with a nan in the flange tables' index is not claimed. Where numpy yields inf/nan the model stops with `NotFinite` (so a value that numpy would let recover from inf, e.g. 1/inf = 0, is not modelled). |
| pint | as in Pint.v. `q.units.format_babel()` names the same unit in the new registry. Comparison of quantities is done in base units. Addition converts the right operand to the left unit. Offset units raise in products and sums. `str` of a dimensionality as in DimTextM.v (integer exponents). Wrapping a pandas Series raises TypeError. |
| pandas | `read_csv` on well-formed files; `df.interpolate(method="slinear")` as in Interp.v; label lookup by first match; a duplicated index label gives a Series. Selecting columns, applymap, concat and set_index give new frames; setting `columns`, assigning a column and `interpolate(inplace=True)` change the frame (C131). |
| scipy | order-1 spline through the stably sorted points. Releases from 1.7 reject repeated abscissae (`strict = true`), older ones do not (`strict = false`): theorems about flanges quantify over both. |
| numpy | `np.interp` constant beyond both ends; `np.linspace` start + i*step with the last point exact; `np.sum` in any order (exact arithmetic); `np.power`, `np.log`, `np.sqrt` real functions on their domain. |
| multiprocessing | `pool.starmap` runs every job once; the model lets the results arrive in any order (stronger than the library's promise). Making and closing the pool are events of the trace (C102); what an unclosed pool does to the operating system is not modelled. |
| os.path | posixpath of CPython as in PathM.v; no symbolic links (C130). |
| cantera | gas objects are deterministic functions of their state; setters, equilibrate, viscosity and the flame solver may raise. |

### Modelled

Every function of /repo/pypbomb/units.py, tube.py, sd.py and thermochem.py, for scalar
arguments: both functions of units.py; class Bolt; class DDT (blockage functions and
calculate_run_up); class Window; class Tube; class Flange; the import-time loaders and
checks of tube.py; cj_curve_fit; Detonation (cj_state, _calculate_over_ratio_range,
cj_speed); Properties; GetError; Reflection (reflect, get_eq_state);
calculate_laminar_flame_speed, get_eq_sound_speed, calculate_reflected_shock_state,
find_mechanisms. Array-valued quantities: in check_pint_quantity (all), and elementwise
in VectorM.v and VectorTubeM.v for the functions of Window, Bolt, Tube and DDT that take arrays
(Flange is modelled for single values).

### Not modelled

Rounding outside C96-C101, C114, C117-C119, C129, C141-C145 and C147-C155, overflow and underflow outside C141-C145 and C148-C155; progress of real time; the contents of messages where the definition says
"simplified" (pypbomb's own texts are kept where they are simple); the pool object
(start method, termination); logging/printing; `Solution` file lookup (an unknown mechanism
is an arbitrary error of `ct_new`); tests/, docs/, setup.py, _version.py (constants only).

