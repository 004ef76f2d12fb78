"""Writes DESIGN.md.  Usage: gen_design.py [ASSUMPTIONS.md]
ASSUMPTIONS.md is the output of gen_assumptions.py (kept in tools/assumptions.md)."""
import json, os, sys
HERE = os.path.dirname(os.path.abspath(__file__)); ROOT = os.path.dirname(HERE)
HOW = {
"C01": ("check_pint_quantity on scalars, non-quantities, non-numbers (UnitsM)", "case analysis; accepted iff dimension and sign in base units are right"),
"C02": ("the ndarray branch of check_pint_quantity", "witness for the refutation; first element decides, by case analysis"),
"C03": ("parse_quant_input on quantities, pairs and other values", "case analysis; physical value preserved by field algebra"),
"C04": ("all Window, DDT, Tube, Bolt functions", "UnitIndep: a closed form in SI values for each function"),
"C05": ("calculate_blockage_diameter, calculate_blockage_ratio", "closed forms, sqrt algebra"),
"C06": ("the same", "closed forms; exact value past half the diameter; witness"),
"C07": ("calculate_blockage_ratio", "closed form equals the area ratio"),
"C08": ("calculate_blockage_ratio", "case analysis; witness (diameter between half and all of the tube)"),
"C09": ("calculate_blockage_diameter, its float() conversion", "case analysis over argument kinds; range by sqrt bounds"),
"C10": ("calculate_run_up with the cantera record", "trace and value computed for each range of BR"),
"C11": ("eq4_4", "closed form in SI values; scaling laws by field"),
"C12": ("calculate_run_up as a function of BR", "continuity of ln, Rpower and quotients on (0,0.75], hand-over points by limits (RunUpAnalysis)"),
"C13": ("the unit of the result", "inversion of the run"),
"C14": ("Window.minimum_thickness and safety_factor", "closed forms, sqrt algebra"),
"C15": ("the same", "monotonicity of the closed form"),
"C16": ("Window.safety_factor", "closed form; laws by field"),
"C17": ("argument checks of both", "case analysis over all dimensions and signs"),
"C18": ("Tube.dynamic_load_factor", "closed form of the critical velocity with the fourth root; three ranges"),
"C19": ("the same", "closed form is homogeneous of degree 0 in (ID, OD)"),
"C20": ("the same", "case analysis"),
"C21": ("dynamic_load_factor, calculate_max_pressure", "witness; what is returned for swapped diameters by algebra"),
"C22": ("Tube.calculate_max_pressure", "closed form; monotonicity in each argument"),
"C23": ("Tube.calculate_max_stress, get_pipe_stress_limits, np.interp, the two stress CSVs", "np.interp is the straight line on each bracketing interval (induction); table facts by computation in Q, lifted to R"),
"C24": ("the same", "monotone table => monotone interpolant, by induction; columnwise domination by computation"),
"C25": ("the same", "end values by induction; witness"),
"C26": ("column lookup", "membership in the header for all strings; witness"),
"C27": ("get_available_pipe_schedules and the schedule CSV", "for all strings: membership in the table index, list reasoning"),
"C28": ("Tube.get_dimensions", "table computation lifted to all strings, ID + 2w = OD by field"),
"C29": ("the same", "table computation in Q lifted to R; witness"),
"C30": ("get_elastic_modulus, get_density, get_poisson", "for all strings, integers; values are the table's cells with their unit"),
"C31": ("calculate_max_initial_pressure", "loop invariant by induction on the remaining iterations"),
"C32": ("the same, with the list of effects", "counting evaluations by induction, whether it returns or raises"),
"C33": ("the same, chemistry proportional to initial pressure", "one update is exact: algebra on the loop"),
"C34": ("max_pressure_state='cj'", "for proportional chemistry the loop is solved exactly; witness gas (ExampleGas)"),
"C35": ("the same", "two runs compared; witness"),
"C36": ("Flange.get_max_pressure, flange CSVs, scipy order-1 spline", "sorted-spline lemma by induction; table facts lifted"),
"C37": ("the same", "monotone tables, by computation, => monotone interpolants"),
"C38": ("Flange.get_class", "filter/first reasoning; classes sorted by computation"),
"C39": ("the same", "outcome for every pressure and temperature; witness"),
"C40": ("Flange.get_max_temperature", "inverse interpolation on tables whose columns fall; witnesses"),
"C41": ("the same", "what the spline gives on the zero-length last interval"),
"C42": ("Flange._check_flange_class", "for all strings; witness"),
"C43": ("Bolt.get_thread_property and thread CSVs", "for all strings; every cell parsed by computation"),
"C44": ("index of both thread files", "table computation lifted to all strings; witness"),
"C45": ("Bolt.calculate_stress_areas", "closed forms for every usable thread"),
"C46": ("the same", "closed form does not contain the engagement"),
"C47": ("calculate_stress_areas and calculate_safety_factors", "closed forms, field"),
"C48": ("the same", "exact condition by algebra; witness"),
"C49": ("Bolt.calculate_safety_factors", "closed form; laws by field"),
"C50": ("the same", "sign of the closed form; witness below 1 atm"),
"C51": ("thread CSVs", "computation over every row; witness"),
"C52": ("_check_materials_list over an arbitrary directory and material list", "list and string reasoning, no computation on the shipped data except one corollary"),
"C53": ("_get_flange_limits_from_csv over an arbitrary frame", "list induction"),
"C54": ("all lookups that take a material", "finite product of tables lifted to all temperatures"),
"C55": ("cj_curve_fit over lists of any length", "normal equations by induction on the list; uniqueness of the minimiser"),
"C56": ("the same", "denominators non-zero by Cauchy-Schwarz-type sums, induction"),
"C57": ("the same", "uniqueness of the least-squares parabola"),
"C58": ("the same", "witness; exact condition"),
"C59": ("Detonation.cj_speed loop", "unrolled on an arbitrary gas: the never-updated delta forces four rounds"),
"C60": ("the same with arbitrary worker schedules", "sorting a permutation with distinct indices restores the order"),
"C61": ("cj_speed result", "inversion of the run"),
"C62": ("cj_speed result keys", "case analysis on flags"),
"C63": ("Detonation.cj_state", "fuel induction; the run as a relation"),
"C64": ("the same", "invariant 0 < T, |dT| <= 0.2 T by induction"),
"C65": ("cj_state, get_eq_state", "fuel induction; witness gas for max_iterations <= 0"),
"C66": ("Reflection.get_eq_state", "invariant on volume and temperature by induction"),
"C67": ("GetError.equilibrium", "equivalence with the conservation laws, algebra"),
"C68": ("GetError.reflected_shock_frozen, reflect", "equivalence with the jump conditions, algebra"),
"C69": ("the 2x2 solves", "field"),
"C70": ("thermochem.get_eq_sound_speed", "inversion of the run on an arbitrary gas"),
"C71": ("find_mechanisms", "filter membership"),
"C72": ("Reflection.reflect", "inversion plus algebra with the wave-frame conservation laws"),
"C73": ("the same", "invariant from C66 applied to the computed start"),
"C74": ("cj_speed", "C57 applied in every round"),
"C75": ("cj_speed with return_state", "inversion of the run"),
"C76": ("argument checks of thermochem.py, with effects", "computation of the trace"),
"C77": ("calculate_laminar_flame_speed", "inversion, equivalence"),
"C78": ("thermochem.py", "equal traces and values for equal SI arguments"),
"C79": ("calculate_reflected_shock_state", "composition of C61, C75 and the reflect algebra"),
"C80": ("calculate_max_initial_pressure", "exact stopping condition; witness"),
"C81": ("the same, with effects", "trace computation"),
"C82": ("the same", "loop invariant; witness"),
"C83": ("the same", "equal runs by induction"),
"C84": ("the same with arbitrary schedules", "C60 lifted through the loop"),
"C85": ("calculate_run_up", "monotonicity within each correlation; exact sufficient condition for the blend; witness gas"),
"C86": ("the same, with effects", "trace computation"),
"C87": ("the same", "trace and value when viscosity raises"),
"C88": ("the same", "exact sign condition; witness"),
"C89": ("VectorM: numpy broadcasting in Window and Bolt", "simulation relation between one array run and n scalar runs, through every operation"),
"C90": ("the same", "witness family"),
"C91": ("the same", "the length of a result determines the lengths of the operands, backwards through every operation"),
}
exec(open(os.path.join(HERE, "how_extra.py")).read()) if os.path.exists(os.path.join(HERE, "how_extra.py")) else None
props = [json.loads(l) for l in open(os.path.join(ROOT, "properties.jsonl"))]
man = {c["property"]: c for c in json.load(open(os.path.join(ROOT, "MANIFEST.json")))["claims"]}
out = [open(os.path.join(HERE, "DESIGN.head.md")).read().rstrip(), "",
 "## 3. Properties", "",
 "All are expressible in the model. *partial* means the full statement is false of the code: it is refuted by a witness (`_refuted`) and what does hold is proved. The last column is what is modelled; how it is proved.", "",
 "| id | property | status | modelled; proof |", "|---|---|---|---|"]
for p in props:
    a, b = HOW.get(p["id"], ("", ""))
    assert a, p["id"]
    out.append(f"| {p['id']} | {p['title']} | {man[p['id']]['status']} | {a}; {b} |")
out += ["", open(os.path.join(HERE, "DESIGN.findings.md")).read().rstrip(), "",
 "## 7. Print Assumptions", "",
 "Abbreviations: sfd = ClassicalDedekindReals.sig_forall_dec, snd = ClassicalDedekindReals.sig_not_dec, fun = FunctionalExtensionality.functional_extensionality_dep, cl = Classical_Prop.classic. All four are axioms of Coq's standard library.", "",
 open(sys.argv[1] if len(sys.argv) > 1 else os.path.join(HERE, "assumptions.md")).read().rstrip(), ""]
open(os.path.join(ROOT, "DESIGN.md"), "w").write("\n".join(out))
