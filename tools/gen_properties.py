#!/usr/bin/env python3
"""Writes /verif/properties.jsonl (one JSON object per line)."""
import json, os
P = []
def p(id, title, statement, quantifier, why, *anchors):
    P.append(dict(id=id, title=title, statement=statement, quantifier=quantifier,
                  why_tests_cant=why, anchors=list(anchors)))

U = "pypbomb/units.py"; T = "pypbomb/tube.py"; S = "pypbomb/sd.py"; H = "pypbomb/thermochem.py"
D = "pypbomb/lookup_data/"

# ---------------------------------------------------------------- units
p("C01", "check_pint_quantity accepts exactly the right quantities",
  "For a scalar pint quantity and one of the seven documented dimension names, check_pint_quantity returns True exactly when the quantity has that dimension and, if ensure_positive is set, its value in base units is not negative; in every other case it raises (never returns False), and an undocumented dimension name always raises ValueError.",
  "every scalar quantity (any magnitude, any unit incl. offset temperature units), every dimension name string, both flag values",
  "Magnitudes, unit scales and offsets are unbounded; tests try a handful of inches and degrees.",
  U+":check_pint_quantity")
p("C02", "check_pint_quantity validates every element of an array quantity",
  "When ensure_positive is set and the quantity holds an array, the call raises if any element is negative in base units.",
  "every array length and every element",
  "Array length and the position of the bad element are unbounded. (Code inspects only element 0: refuted.)",
  U+":check_pint_quantity")
p("C03", "parse_quant_input preserves the physical value and moves it to the requested registry",
  "For a quantity, or a two-item (magnitude, unit) sequence with a known unit, the result has the same magnitude and unit and belongs to the requested registry; parsing twice equals parsing once; a sequence of another length or a non-iterable non-quantity raises ValueError.",
  "every input object, every registry",
  "Ranges over every magnitude, unit and registry.",
  U+":parse_quant_input")
p("C04", "Results do not depend on the units or registry used to express the inputs",
  "Window.safety_factor, Window.minimum_thickness, DDT.calculate_blockage_ratio, DDT.calculate_blockage_diameter, Tube.dynamic_load_factor, Tube.calculate_max_pressure and Bolt.calculate_safety_factors: two calls whose arguments denote the same physical values (in any multiplicative units, as quantities or tuples) give physically equal results.",
  "every pair of representations of the same physical inputs",
  "All unit systems and scale factors cannot be enumerated.",
  T+":Window.safety_factor", T+":Window.minimum_thickness", T+":DDT.calculate_blockage_ratio", T+":DDT.calculate_blockage_diameter", T+":Tube.dynamic_load_factor", T+":Tube.calculate_max_pressure", T+":Bolt.calculate_safety_factors")
# ---------------------------------------------------------------- DDT
p("C05", "Blockage ratio -> spiral diameter -> blockage ratio round trip",
  "For every inner diameter D>0 and 0<BR<1, calculate_blockage_diameter succeeds and calculate_blockage_ratio of its result is BR.",
  "all D>0 in any length unit, all BR in (0,1)",
  "Continuous domain; the test checks one BR against the same formula.",
  T+":DDT.calculate_blockage_diameter", T+":DDT.calculate_blockage_ratio")
p("C06", "Spiral diameter -> blockage ratio -> spiral diameter round trip",
  "For every tube diameter D>0 and every blockage diameter d accepted by calculate_blockage_ratio with a ratio strictly inside (0,1), calculate_blockage_diameter of that ratio returns d.",
  "all D>0 and 0<d<D",
  "Continuous domain. (True for 0<d<D/2; refuted for d>D/2, where D-d comes back.)",
  T+":DDT.calculate_blockage_diameter", T+":DDT.calculate_blockage_ratio")
p("C07", "Blockage ratio is the blocked area fraction",
  "For 0<=d<=D/2 calculate_blockage_ratio returns (area of tube - area of the open core of diameter D-2d)/(area of tube); the value is in [0,1], 0 only at d=0, and strictly increases with d on this range; for every accepted d the value is in [0,1].",
  "all D>0 and all accepted d",
  "Monotonicity and bounds over a continuum.",
  T+":DDT.calculate_blockage_ratio")
p("C08", "Geometrically impossible blockages are rejected",
  "calculate_blockage_ratio raises ValueError when the blockage cannot fit (tube diameter 0, negative sizes, or twice the blockage diameter exceeding the tube diameter).",
  "all pairs of lengths",
  "Continuous domain. (Only d>=D is rejected: refuted for D/2<d<D.)",
  T+":DDT.calculate_blockage_ratio")
p("C09", "Blockage diameter input validation",
  "calculate_blockage_diameter raises ValueError for every numeric blockage ratio outside the open interval (0,1) and for every non-numeric string, whatever the pipe diameter is; for BR in (0,1) and D>=0 the spiral diameter is in the unit of the input, lies in [0, D/2) when D>0 (0 when D=0), and for D>0 strictly increases with BR.",
  "all blockage ratio arguments, all pipe diameters",
  "Continuous domain.",
  T+":DDT.calculate_blockage_diameter")
p("C10", "Run-up distance: range check and correlation selection",
  "calculate_run_up raises ValueError before doing any chemistry for every BR<=0 or BR>0.75; otherwise BR<=0.1 uses the smooth-tube correlation alone, BR>=0.3 the rough-tube correlation alone, and between them the result is the convex blend of both, so it always lies between the two correlation values, and meets each of them at the ends of the interval.",
  "all BR, all mixtures (any flame speed, sound speed, density ratio, viscosity)",
  "Mixture properties come from Cantera and are unbounded; tests use one mixture and four ratios.",
  T+":DDT.calculate_run_up")
p("C11", "Run-up distance for 0.3<=BR<=0.75",
  "For a positive flame speed and a density ratio above 1 the rough-tube run-up distance is positive, proportional to the tube diameter, strictly decreasing in BR, inversely proportional to flame speed, and equal to a(1-BR)/(1+b BR) * c D / (20 S (sigma-1)) with a=2, b=1.5.",
  "all positive mixtures, diameters and BR in [0.3,0.75]",
  "Continuous domain with oracle chemistry.",
  T+":DDT.calculate_run_up")
p("C12", "Run-up distance is continuous across the correlation hand-over",
  "With the mixture fixed, the run-up distance as a function of BR has no jump at 0.1 or 0.3 and is continuous on the whole open range (0,0.75).",
  "all BR in (0,0.75), all mixtures with positive properties",
  "Continuity is a limit statement.",
  T+":DDT.calculate_run_up")
p("C13", "Run-up distance output unit",
  "The run-up distance is returned in the unit the tube diameter was given in and in the requested registry.",
  "all units, registries, mixtures and BR in range",
  "Unbounded unit systems; three code paths.",
  T+":DDT.calculate_run_up")
# ---------------------------------------------------------------- Window
p("C14", "Window thickness/safety factor round trip",
  "For positive length, width, pressure and rupture modulus and any safety factor >= 1, Window.safety_factor of the thickness returned by Window.minimum_thickness is that safety factor.",
  "all positive inputs in any units",
  "Continuous 5-dimensional domain; tests check one point within 1%.",
  T+":Window.safety_factor", T+":Window.minimum_thickness")
p("C15", "minimum_thickness is the minimum",
  "A window of thickness t has safety factor at least s if and only if t is at least minimum_thickness for s.",
  "all positive window geometries, pressures, moduli, thicknesses and s>=1",
  "Bi-implication over a continuum.",
  T+":Window.safety_factor", T+":Window.minimum_thickness")
p("C16", "Window safety factor laws",
  "The safety factor is symmetric in length and width, scales with the square of thickness, linearly with rupture modulus and inversely with pressure; it equals (t/L)^2 * 2 M (1+(L/W)^2)/(0.75 P).",
  "all positive inputs",
  "Algebraic laws over a continuum.",
  T+":Window.safety_factor")
p("C17", "minimum_thickness rejects bad safety factors and inputs",
  "minimum_thickness raises ValueError for every safety factor < 1 and TypeError for a non-numeric one, given otherwise valid inputs; any negative length, width, pressure or modulus, or a quantity of the wrong dimension, raises ValueError.",
  "all inputs",
  "Unbounded invalid domain.",
  T+":Window.minimum_thickness")
# ---------------------------------------------------------------- Tube
p("C18", "Dynamic load factor classification",
  "dynamic_load_factor returns 1 when the wave is slower than (1-f)Vcrit, 2 when faster than (1+f)Vcrit, 4 otherwise, and nothing else, where Vcrit is the positive fourth root of E^2 h^2 /(3 rho^2 r^2 (1-nu^2)) with r the mean radius and h the wall thickness.",
  "all tubes with 0<=ID, OD>0, all positive E, rho, |nu|<1, all wave speeds, all f in (0,1)",
  "Boundary behaviour over a continuum; tests sample seven speeds on one tube.",
  T+":Tube.dynamic_load_factor")
p("C19", "Dynamic load factor depends on geometry only through shape",
  "Scaling ID and OD by the same positive factor, or E and rho by the same positive factor, does not change the dynamic load factor.",
  "all scale factors and valid inputs",
  "Invariance over a continuum.",
  T+":Tube.dynamic_load_factor")
p("C20", "Band width outside (0,1) is rejected",
  "dynamic_load_factor raises ValueError for every plus_or_minus outside the open interval (0,1) and for negative or dimensionally wrong tube inputs.",
  "all inputs", "Unbounded invalid domain.", T+":Tube.dynamic_load_factor")
p("C21", "Impossible tubes (ID > OD) are rejected",
  "dynamic_load_factor and calculate_max_pressure raise an error when the inner diameter exceeds the outer diameter.",
  "all ID>OD", "Continuous domain. (Refuted: DLF is symmetric in ID/OD; max pressure comes back negative.)",
  T+":Tube.dynamic_load_factor", T+":Tube.calculate_max_pressure")
p("C22", "Maximum pressure satisfies the hoop-stress balance",
  "For 0<=ID<OD and positive safety factor, the pressure p returned by calculate_max_pressure satisfies p * mean diameter * safety factor = allowable stress * 2 * wall thickness, is positive for positive stress, is proportional to stress, inversely proportional to the safety factor, strictly decreases with ID, and for ID>0 strictly increases with OD (for ID=0 it does not depend on OD).",
  "all tubes, stresses and safety factors", "Continuous domain.", T+":Tube.calculate_max_pressure")
p("C23", "Allowable stress interpolates the ASME B31.1 table",
  "For every listed material, welded or seamless, calculate_max_stress equals the tabulated stress at each tabulated temperature and the straight line between neighbouring rows in between, in ksi and in the requested registry.",
  "all materials, both pipe kinds, all temperatures from -20 to 1200 degF, in any temperature unit",
  "Continuous temperature domain.", T+":Tube.calculate_max_stress", D+"ASME_B31_1_stress_limits_welded.csv", D+"ASME_B31_1_stress_limits_seamless.csv")
p("C24", "Allowable stress never rises with temperature; welded never exceeds seamless",
  "For every listed material the allowable stress is non-increasing in temperature, never negative, and at every temperature the welded value does not exceed the seamless value.",
  "all pairs of temperatures, all materials", "Continuous domain.", T+":Tube.calculate_max_stress")
p("C25", "Temperatures outside the stress table are rejected",
  "calculate_max_stress raises when the temperature is outside the tabulated range.",
  "all temperatures outside [-20,1200] degF", "Unbounded domain. (Refuted: values are clamped to the end rows.)", T+":Tube.calculate_max_stress")
p("C26", "Unknown materials are rejected by the stress lookup",
  "calculate_max_stress raises for every material name that is not one of Tube.available_materials.",
  "all strings", "Unbounded strings. (Refuted by the name 'Temp'; every other unlisted name raises KeyError.)", T+":Tube._get_pipe_stress_limits", T+":Tube.calculate_max_stress")
p("C27", "Schedules offered for a pipe size are exactly those with a wall thickness",
  "get_available_pipe_schedules returns, in table order, exactly the schedules for which the table has a wall thickness for that size, never 'OD'; it raises ValueError for every string that is not an available size, and for every integer.",
  "all strings and integers", "Unbounded strings and integers; whole table.", T+":Tube.get_available_pipe_schedules", D+"pipe_schedules.csv")
p("C28", "get_dimensions succeeds exactly on offered schedules and is self-consistent",
  "For every size and schedule string, get_dimensions returns dimensions if and only if the schedule is offered for the size, otherwise ValueError; returned values satisfy OD = ID + 2*wall, wall > 0, all in inches in the requested registry.",
  "all pairs of strings", "Unbounded strings; whole table.", T+":Tube.get_dimensions")
p("C29", "Every offered pipe has a positive bore",
  "Whenever get_dimensions returns, 0 < ID < OD.",
  "all offered (size, schedule) pairs", "Whole table. (Refuted by size 28 schedule 10, wall 312 in; true for all other pairs.)", T+":Tube.get_dimensions", D+"pipe_schedules.csv")
p("C30", "Material property getters accept exactly the listed materials",
  "get_elastic_modulus, get_density and get_poisson return a positive value for every material in Tube.available_materials and raise ValueError for every other argument.",
  "all material arguments (strings and integers)", "Unbounded. (True for strings; refuted for the integer 304, which passes the check and then raises IndexError.)",
  T+":Tube.get_elastic_modulus", T+":Tube.get_density", T+":Tube.get_poisson", T+":Tube._check_material")
p("C31", "Maximum initial pressure meets the tolerance when the iteration stops early",
  "If calculate_max_initial_pressure performs at least one update and stops before the iteration limit, the peak pressure of the selected state at the returned initial pressure, times the dynamic load factor, is within the relative tolerance of max_pressure.",
  "all thermochemistry (any function from initial pressure to states), all tolerances, all limits", "Oracle behaviour and iteration histories are unbounded.", T+":Tube.calculate_max_initial_pressure")
p("C32", "Maximum initial pressure always terminates within max_iterations updates",
  "The search performs at most max_iterations updates and exactly one more chemistry evaluation than updates, whatever the chemistry returns.",
  "all chemistry oracles, all limits", "Histories unbounded.", T+":Tube.calculate_max_initial_pressure")
p("C33", "Maximum initial pressure for proportional chemistry",
  "If the reflected pressure is proportional to the initial pressure and the load factor is constant, one update reaches max_pressure/(dlf*ratio) exactly and the search stops there.",
  "all positive ratios, load factors, max pressures", "Continuous domain.", T+":Tube.calculate_max_initial_pressure")
p("C34", "max_pressure_state='cj' limits the CJ pressure",
  "With max_pressure_state='cj', the returned initial pressure makes the CJ pressure times the load factor match max_pressure.",
  "all chemistries", "Oracle behaviour. (Refuted: the update always uses the reflected pressure, so the search exhausts its iterations and returns the reflected-shock answer.)", T+":Tube.calculate_max_initial_pressure")
p("C35", "Maximum initial pressure does not depend on the unit of max_pressure",
  "Calling with max_pressure expressed in Pa, MPa or psi for the same physical pressure gives the same initial pressure.",
  "all units", "Unbounded. (Refuted: the raw magnitude is compared with Pa.)", T+":Tube.calculate_max_initial_pressure")
# ---------------------------------------------------------------- Flange
p("C36", "Flange pressure rating interpolates ASME B16.5",
  "For every material, class and temperature in the table range, get_max_pressure equals the tabulated rating at tabulated temperatures and the straight line between neighbouring rows, in Pa; outside the range it raises ValueError.",
  "all materials, classes, temperatures", "Continuous domain.", T+":Flange.get_max_pressure", D+"ASME_B16_5_flange_ratings_group_2_1.csv")
p("C37", "Flange rating never rises with temperature and rises with class",
  "For fixed class the rating is non-increasing in temperature; at fixed temperature a higher class has a rating at least as high.",
  "all temperatures, all class pairs", "Continuous domain.", T+":Flange.get_max_pressure")
p("C38", "get_class returns the smallest sufficient class",
  "When get_class returns a class, that class's get_max_pressure at the temperature is at least the given pressure and every smaller class's is below it - in exact and in floating-point arithmetic.",
  "all pressures, temperatures, materials, any arithmetic", "Continuous domain; agreement between two functions.", T+":Flange.get_class", T+":Flange.get_max_pressure")
p("C39", "get_class succeeds or raises ValueError",
  "For every non-negative pressure and every temperature, get_class on a listed material returns a class or raises ValueError.",
  "all pressures and temperatures", "Continuous domain. (Refuted: IndexError when the pressure is below the overall maximum but above every class at that temperature.)", T+":Flange.get_class")
p("C40", "get_max_temperature is safe",
  "A flange operated at the temperature returned by get_max_temperature for a pressure has a rating of at least that pressure.",
  "all materials, classes and pressures in range", "Continuous domain. (Refuted for class 150 below 1.4 bar; proved for pressures between the lowest positive rating and the top rating.)", T+":Flange.get_max_temperature", T+":Flange.get_max_pressure")
p("C41", "get_max_temperature at the top rating returns the highest temperature carrying it",
  "At exactly the maximum pressure of the class the function returns a temperature at which the class carries that pressure.",
  "all classes and materials", "Depends on duplicate abscissae. (Refuted: evaluates a zero-length spline interval and returns 0 K, or raises on newer scipy.)", T+":Flange.get_max_temperature")
p("C42", "Flange class validation",
  "get_max_pressure and get_max_temperature raise ValueError for every class string that is not a pressure class of the material group.",
  "all strings", "Unbounded strings. (True for all strings but 'Temperature', refuted there.)", T+":Flange._check_flange_class")
# ---------------------------------------------------------------- Bolt
p("C43", "get_thread_property returns the table entry or raises",
  "For every property, size and class string the call returns the tabulated inch value when the class is an A/B class of grade 2 or 3 and the table has exactly one such row; a class without A/B or without 2/3 raises ValueError, an unknown property or size raises KeyError.",
  "all strings", "Unbounded strings.", T+":Bolt.get_thread_property", D+"ANSI_inch_internal_thread.csv", D+"ANSI_inch_external_thread.csv")
p("C44", "Every listed thread size can be used in a bolt calculation",
  "For every size present in the thread tables some thread class works in calculate_stress_areas.",
  "all listed sizes", "Whole table. (Refuted: sizes above 1 inch are spelled differently in the two files, and 2-6 is duplicated.)", T+":Bolt.calculate_stress_areas")
p("C45", "Screw stress area is the weaker of tension and shear, and the warning tells which",
  "The screw area returned is the minimum of tensile and shear area, and the shear warning is issued exactly when the shear area is smaller.",
  "all usable threads, strengths, engagement lengths", "Continuous domain.", T+":Bolt.calculate_stress_areas")
p("C46", "Minimum engagement does not depend on the engagement given",
  "The minimum engagement returned is the same for every positive engagement length, is proportional to bolt strength (within a strength band) and inversely proportional to plate strength.",
  "all positive engagement lengths and strengths", "Continuous domain.", T+":Bolt.calculate_stress_areas")
p("C47", "At the minimum engagement the plate is twice as strong as the bolt",
  "If the engagement is at least the returned minimum engagement, plate area * plate strength is at least twice tensile area * bolt strength, so the plate safety factor is at least twice the bolt safety factor.",
  "all usable threads, strengths and engagement lengths", "Continuous domain.", T+":Bolt.calculate_stress_areas", T+":Bolt.calculate_safety_factors")
p("C48", "Engagement at or above the minimum never triggers the shear warning",
  "If engagement_length is at least the 'minimum engagement' returned, the screws fail in tension: no warning.",
  "all threads and strengths", "Continuous domain. (Refuted when the plate is much stronger than the bolt; proved when the strength-area ratio is at least 1/2.)", T+":Bolt.calculate_stress_areas")
p("C49", "Bolt safety factor laws",
  "For absolute pressure above 1 atm both safety factors are positive, proportional to the number of bolts, and inversely proportional to window area and to the gauge pressure; plate safety factor is proportional to engagement length.",
  "all inputs", "Continuous domain.", T+":Bolt.calculate_safety_factors")
p("C50", "Safety factors are never negative",
  "calculate_safety_factors returns non-negative safety factors for every accepted input.",
  "all accepted inputs", "Continuous domain. (Refuted for pressures below 1 atm absolute.)", T+":Bolt.calculate_safety_factors")
p("C51", "Thread limits are ordered",
  "For every thread the tabulated minimum of a diameter does not exceed its maximum.",
  "every row of both tables", "Whole table. (Refuted: external major diameter min/max columns are swapped in every row.)", D+"ANSI_inch_external_thread.csv")
# ---------------------------------------------------------------- data integrity
p("C52", "Import-time materials check is complete",
  "_check_materials_list returns True exactly when every grade appears in every stress-limit header and every group appears in some flange file name past position 0; otherwise it raises an error naming every missing item.",
  "all directory listings, file headers and material lists", "Unbounded.", T+":_check_materials_list")
p("C53", "Flange tables contain no negative or missing pressure after loading",
  "Loading a flange CSV either raises or yields a table of the same shape whose pressures are all non-negative numbers, unreadable cells being 0 (the temperature column may be negative).",
  "all CSV contents", "Unbounded.", T+":_get_flange_limits_from_csv")
p("C54", "Every listed material works in every tube and flange function",
  "For every listed material: stress limits exist for both pipe kinds, elastic modulus, density and Poisson ratio exist, and the flange group table exists.",
  "all listed materials", "Joint property of five files and six functions.", T+":Tube", T+":Flange", D+"materials_list.csv")
# ---------------------------------------------------------------- sd
p("C55", "cj_curve_fit is the least-squares parabola",
  "Whenever the fit is defined, no other parabola has a smaller sum of squared residuals on the data, and R^2 <= 1.",
  "all data lists of any length with a non-degenerate fit", "All data sizes and values.", S+":cj_curve_fit")
p("C56", "cj_curve_fit is defined for positive abscissae with three distinct values",
  "For non-negative x with at least three distinct values neither denominator vanishes, so the coefficients are finite.",
  "all such lists, all y", "All data sizes and values.", S+":cj_curve_fit")
p("C57", "cj_curve_fit recovers exact parabolas",
  "On data lying exactly on a parabola the fit returns its coefficients.",
  "all parabolas and all non-degenerate abscissae", "Unbounded.", S+":cj_curve_fit")
p("C58", "cj_curve_fit works on every data set with three distinct x",
  "The fit is finite for every data set with at least three distinct abscissae.",
  "all data", "Unbounded. (Refuted: symmetric abscissae such as -1,0,1 give a zero denominator.)", S+":cj_curve_fit")
p("C59", "cj_speed refines exactly four times",
  "cj_speed performs exactly four fit rounds of 21 density ratios whatever the fit quality; the first round spans 1.5 to 2.0 and each later one spans the previous vertex +-0.1%.",
  "all chemistry oracles", "Control flow under arbitrary data.", S+":Detonation.cj_speed")
p("C60", "cj_speed does not depend on multiprocessing or on worker completion order",
  "With use_multiprocessing the result equals the serial result for every order in which worker results arrive.",
  "all schedules (permutations of results)", "Schedules cannot be enumerated by tests.", S+":Detonation.cj_speed")
p("C61", "cj_speed returns the vertex value of the last fit",
  "The returned speed is the value of the last fitted parabola at its vertex: a lower bound of the parabola when it opens upward.",
  "all chemistry oracles", "Continuous domain.", S+":Detonation.cj_speed")
p("C62", "cj_speed result keys follow the flags",
  "The result has key 'cj speed' always, 'R^2' iff return_r_squared, 'cj state' iff return_state, and nothing else.",
  "all flag combinations and oracles", "All executions.", S+":Detonation.cj_speed")
p("C63", "CJ state iteration terminates and warns exactly on non-convergence",
  "For max_iterations>=1 cj_state stops after at most max_iterations-1 Newton updates; it warns exactly when stopped by the limit, otherwise the last temperature and velocity steps are within tolerance.",
  "all gas oracles, tolerances, limits", "Histories unbounded.", S+":Detonation.cj_state")
p("C64", "CJ state temperature stays physical",
  "Every temperature at which cj_state sets the gas is positive, and each update changes it by at most 20%; a converged velocity is non-negative.",
  "all gas oracles", "Histories unbounded.", S+":Detonation.cj_state")
p("C65", "max_iterations bounds the CJ iteration",
  "cj_state and get_eq_state terminate for every integer max_iterations.",
  "all integers", "Non-termination cannot be observed. (Refuted for max_iterations<=0: the equality test never fires.)", S+":Detonation.cj_state", S+":Reflection.get_eq_state")
p("C66", "Reflected-shock iteration keeps volume compressed and temperature positive",
  "Starting from a positive guess volume below the post-shock volume, every iterate of get_eq_state has positive temperature and 0 < volume <= post-shock volume; it terminates within the limit, warning exactly on non-convergence.",
  "all gas oracles", "Histories unbounded.", S+":Reflection.get_eq_state")
p("C67", "CJ error functions vanish exactly on conservation",
  "GetError.equilibrium returns (0,0) iff the two states satisfy conservation of mass, momentum and energy for the given wave speed.",
  "all states and speeds", "Continuous domain.", S+":GetError.equilibrium")
p("C68", "Reflected error functions vanish exactly on the reflected jump conditions, and the reported speed is the shock speed",
  "GetError.reflected_shock_frozen returns (0,0) iff the states satisfy the normal-shock conservation laws in the frame of a reflected shock bringing the gas to rest, and then Reflection.reflect reports exactly that shock's speed.",
  "all states with distinct densities and non-zero particle speed", "Continuous domain.", S+":GetError.reflected_shock_frozen", S+":Reflection.reflect")
p("C69", "Newton updates solve the linearised system",
  "Before limiting, the temperature/velocity (or volume) step computed by cj_state and get_eq_state is the unique solution of the 2x2 linear system with the finite-difference Jacobian.",
  "all oracle values with non-singular Jacobian", "Continuous domain.", S+":Detonation.cj_state", S+":Reflection.get_eq_state")
# ---------------------------------------------------------------- thermochem
p("C70", "Equilibrium sound speed is the isentropic slope",
  "get_eq_sound_speed returns the non-negative c with c^2 * (rho' - rho) = 0.0001 * P whenever the density rises with pressure, for the requested registry, in m/s.",
  "all gas oracles", "Oracle.", H+":get_eq_sound_speed")
p("C71", "find_mechanisms returns exactly the mechanism files",
  "find_mechanisms returns exactly the directory entries whose name contains .cti or .xml; with return_directory the same set is paired with the directory.",
  "all directory listings", "Unbounded.", H+":find_mechanisms")
p("C72", "Reflection.reflect uses the particle speed behind the incident wave",
  "If the incident wave at speed U conserves mass, momentum and energy and leaves gas flowing out at w in the wave frame, the speed reflect returns is that of the shock that brings gas moving at U-w to rest and conserves mass and momentum with the returned pressure.",
  "all initial and post-shock states, all gas oracles", "Continuous domain, oracle.", S+":Reflection.reflect")
p("C73", "Reflection.reflect always starts from a compressed, hot state and ends",
  "For a gas that obeys the ideal-gas law when its temperature, pressure and composition are set, reflect ends, every temperature it sets is positive and every density is at least the post-shock density divided by 1.02, whatever equilibration does.",
  "all equilibration oracles, all shock speeds", "Histories unbounded.", S+":Reflection.reflect", S+":Reflection.get_eq_state")
p("C74", "cj_speed is exact when the speeds lie on a parabola",
  "If the CJ speeds computed at each density ratio lie on a parabola with its vertex at a positive ratio, cj_speed returns the parabola's extremal value exactly and R^2 = 1, with or without multiprocessing.",
  "all gas oracles with that property, all parabolas, all schedules", "Continuous domain, oracle.", S+":Detonation.cj_speed", S+":cj_curve_fit")
p("C75", "cj_speed returns the state at the vertex",
  "With return_state the gas returned under 'cj state' is the one cj_state computes from fresh gases at the density ratio of the vertex of the last fit.",
  "all gas oracles, all schedules", "Oracle, schedules.", S+":Detonation.cj_speed")
p("C76", "Thermochemistry functions reject bad arguments before touching a gas",
  "get_eq_sound_speed and calculate_laminar_flame_speed raise ValueError for every temperature or pressure of the wrong dimension or below zero, before the state of any gas object is set; get_eq_sound_speed before one is even created.",
  "all arguments, units, gas oracles", "Unbounded; oracle.", H+":get_eq_sound_speed", H+":calculate_laminar_flame_speed")
p("C77", "Laminar flame speed is the solved flame's speed in m/s",
  "calculate_laminar_flame_speed returns q exactly when cantera solves the flame of the mixture set to the given temperature in kelvin and pressure in pascal; q is that speed in m/s in the requested registry.",
  "all arguments, units, gas oracles", "Unbounded; oracle.", H+":calculate_laminar_flame_speed")
p("C78", "Thermochemistry does not depend on the units of its arguments",
  "get_eq_sound_speed and calculate_laminar_flame_speed make the same cantera calls and return the same result for any two ways of writing the same temperature and pressure (units, quantity or pair).",
  "all pairs of equal arguments", "Unbounded unit systems.", H+":get_eq_sound_speed", H+":calculate_laminar_flame_speed")
p("C79", "calculate_reflected_shock_state conserves mass and momentum",
  "Whenever it returns, the CJ speed and state are those of cj_speed at the given temperature in kelvin and pressure in pascal, and the reflected speed W satisfies P3 - P2 = rho2 u (u + W) with u the particle speed behind the CJ wave; speeds are in m/s in the requested registry.",
  "all gas oracles, all temperatures and pressures in any units, all schedules", "Oracle, schedules.", H+":calculate_reflected_shock_state")
p("C80", "A search that stops early has met the tolerance",
  "Whenever calculate_max_initial_pressure stops before the iteration limit, the reflected pressure times the load factor at the returned pressure is within the tolerance of max_pressure. (Refuted: the first test compares the load factor with the number in max_pressure, so a limit of 2 MPa for a tube with load factor 2 returns 1 atm unseen.)",
  "all chemistries, limits, tolerances", "Oracle; depends on the unit of an argument.", T+":Tube.calculate_max_initial_pressure")
p("C81", "calculate_max_initial_pressure rejects bad arguments",
  "Every max_pressure_state other than 'reflected' and 'cj' raises ValueError before any chemistry is done; tube arguments that dynamic_load_factor rejects raise ValueError after one chemistry evaluation.",
  "all strings, all arguments", "Unbounded.", T+":Tube.calculate_max_initial_pressure")
p("C82", "The returned load factor belongs to the returned pressure",
  "With return_dlf the second item is the dynamic load factor for the CJ speed at the returned initial pressure, or 1 when use_dynamic_load_factor is False. (Refuted for use_dynamic_load_factor=False when no update is made.)",
  "all chemistries, limits, tolerances", "Oracle; histories.", T+":Tube.calculate_max_initial_pressure")
p("C83", "Maximum initial pressure does not depend on the unit of the temperature",
  "calculate_max_initial_pressure makes the same cantera calls and returns the same result for any two ways of writing the same initial temperature.",
  "all temperature units, chemistries", "Unbounded unit systems; histories.", T+":Tube.calculate_max_initial_pressure", H+":calculate_reflected_shock_state")
p("C84", "Multiprocessing does not change the maximum initial pressure",
  "Whatever order the workers finish in, in every round of every evaluation, calculate_max_initial_pressure returns exactly what it returns without multiprocessing.",
  "all schedules, chemistries", "Schedules cannot be enumerated.", T+":Tube.calculate_max_initial_pressure", S+":Detonation.cj_speed")
p("C85", "More blockage never lengthens the run-up",
  "For positive mixture properties and an expansion ratio above 1, calculate_run_up returns a strictly smaller distance for a larger blockage ratio.",
  "all pairs of blockage ratios in (0,0.75], all mixtures, diameters and units", "Continuous domain with oracle chemistry.",
  T+":DDT.calculate_run_up")
p("C86", "calculate_run_up rejects bad arguments before any chemistry",
  "A tube diameter, temperature or pressure of the wrong dimension or below zero makes calculate_run_up raise ValueError, and cantera has not been called.",
  "all arguments, units, gas oracles", "Unbounded; oracle.", T+":DDT.calculate_run_up")
p("C87", "Viscosity is needed exactly below a blockage ratio of 0.3",
  "If cantera cannot give the viscosity, calculate_run_up raises cantera's error for every blockage ratio below 0.3, and does and returns exactly the same as with any other viscosity for every ratio from 0.3 on.",
  "all blockage ratios, mixtures, viscosity failures", "Oracle.", T+":DDT.calculate_run_up")
p("C88", "The run-up distance is positive",
  "For positive mixture properties calculate_run_up never returns a negative distance.",
  "all blockage ratios in (0,0.75], all mixtures", "Continuous domain with oracle chemistry.", T+":DDT.calculate_run_up")
p("C89", "Array arguments are handled element by element",
  "Window.safety_factor, Window.minimum_thickness and Bolt.calculate_safety_factors called with arrays return, at each position, what they return when called with that position's elements; they return whenever all those calls return. (A later element that a single call would reject as negative is let through, see C90.)",
  "all arrays of all lengths, with broadcasting of numbers and one-element arrays, all units", "Unbounded lengths.",
  T+":Window.safety_factor", T+":Window.minimum_thickness", T+":Bolt.calculate_safety_factors", T+":Bolt.calculate_stress_areas", U+":check_pint_quantity")
p("C90", "Negative elements of array arguments are rejected",
  "An array argument with a negative element is rejected by Window.safety_factor and DDT.calculate_blockage_diameter. (Refuted: only the first element is looked at; a negative pressure in second place gives a negative safety factor, a negative pipe diameter a negative spiral diameter.)",
  "all arrays", "Unbounded lengths.", T+":Window.safety_factor", U+":check_pint_quantity")
p("C91", "Arrays that do not fit together are refused",
  "When a call with arrays returns, all arrays have one common length, or length one, and none is empty; minimum_thickness has at most one safety factor, calculate_safety_factors one bolt strength and one engagement length.",
  "all arrays of all lengths", "Unbounded lengths.", T+":Window.safety_factor", T+":Window.minimum_thickness", T+":Bolt.calculate_safety_factors")
p("C92", "Import stops unless every data file is there",
  "Importing the package over any lookup_data directory either reads all nine data files (none of them empty) and serves exactly their contents, or raises; if just one file is missing the import raises FileNotFoundError or ValueError, and for materials_list.csv a ValueError that names it.",
  "all directories (any number of files, any contents)", "Unbounded set of directories; the tests patch one file at a time.",
  T+":_collect_tube_materials", T+":_get_flange_limits_from_csv", T+":_import_thread_specs", T+":_check_materials_list")
p("C93", "After import every listed material has stress limits",
  "If the import succeeds, then every grade in materials_list.csv has a column in both stress tables (provided their header lines have no stray white space at the ends), so looking up its stress limits cannot raise KeyError.",
  "all directories, all listed grades", "Unbounded set of directories.",
  T+":_check_materials_list", T+":Tube._get_pipe_stress_limits")
p("C94", "After import every listed material has a flange table",
  "If the import succeeds, then every grade in materials_list.csv has a flange rating table, with a Temperature column and no negative pressure. (Refuted: the check accepts any group that some flange file name mentions, but only groups 2.1-2.3 are loaded.)",
  "all directories, all listed grades", "Unbounded set of directories.",
  T+":_check_materials_list", T+":_get_flange_limits_from_csv", T+":Flange.get_max_pressure")
p("C95", "The shipped data import cleanly",
  "Importing the package with the shipped lookup_data gives no warning and no error, and every table served is the shipped file's content.",
  "the shipped directory, whatever path it is reached by", "Path independence ranges over all paths.",
  T+":_check_materials_list", T+":_collect_tube_materials")
p("C96", "Rounding moves window results only in the last digits",
  "With every arithmetic step rounded with relative error at most u, safety_factor, minimum_thickness and the round trip safety_factor(minimum_thickness(s)) stay within 280u, 220u and 680u (relative) of the exact values, whatever the sizes and units; in double precision within 1e-13.",
  "all window sizes, loads, moduli, units and safety factors; all roundings", "Error bounds range over all inputs.",
  T+":Window.safety_factor", T+":Window.minimum_thickness")
p("C97", "Rounding never reverses the order of windows",
  "In rounded arithmetic too, a thicker window or a larger modulus of rupture never has a smaller safety factor, and a larger pressure never a larger one.",
  "all pairs of thicknesses, moduli, pressures in the same unit; all roundings", "Order of all pairs of inputs.",
  T+":Window.safety_factor")
p("C98", "Rounding lets no bad window argument through",
  "In rounded arithmetic safety_factor and minimum_thickness still raise ValueError for every argument of the wrong dimension, every negative one (however small) and every safety factor below 1.",
  "all arguments; all roundings", "Includes arguments arbitrarily close to zero.",
  T+":Window.safety_factor", T+":Window.minimum_thickness")
p("C99", "Rounding and blockages",
  "In rounded arithmetic the blockage diameter is off by at most 15u tube diameters, non-negative, and non-decreasing in the ratio; the blockage ratio is always in [0, 1], off by at most 220u, and raised as an error exactly when the blockage reaches the tube diameter except within a relative 30u of it; ratio -> diameter -> ratio returns within 130u. (In double precision a ratio of 2^-55 or less gives a diameter of zero.)",
  "all tube and blockage diameters, ratios and units; all roundings", "Error bounds range over all inputs.",
  T+":DDT.calculate_blockage_diameter", T+":DDT.calculate_blockage_ratio")
p("C100", "Rounding and the maximum pressure",
  "In rounded arithmetic calculate_max_pressure is off by at most 100u times stress / safety factor, however thin the wall.",
  "all tubes, stresses, safety factors and units; all roundings", "Error bounds range over all inputs.",
  T+":Tube.calculate_max_pressure")
p("C101", "Rounding and the dynamic load factor",
  "In rounded arithmetic dynamic_load_factor returns 1, 2 or 4, and the same one as the exact formula unless the velocity is within a relative margin (24T+40)u of an edge of the resonance band, T being (OD+ID)/(OD-ID) rounded up.",
  "all tubes with ID < OD, Poisson ratio in [0, 1/2], velocities and units; all roundings", "The margin must cover all inputs.",
  T+":Tube.dynamic_load_factor")
p("C102", "Worker pools are closed",
  "With use_multiprocessing every pool of worker processes made by cj_speed, calculate_reflected_shock_state or calculate_max_initial_pressure is closed before the call ends, normally or by an exception, and before the next one is made; without it no pool is made.",
  "all gases, mechanisms, pressures, tolerances, job orders and failures of the chemistry library", "A failure can come from any job of any round.",
  S+":Detonation.cj_speed", H+":calculate_reflected_shock_state", T+":Tube.calculate_max_initial_pressure")
p("C103", "Only the working gas is changed",
  "cj_state, get_eq_state and reflect change no gas object other than the working gas they are given, whether they return or raise, and return that same object; with separate objects for the arguments they leave it in the computed state.",
  "all gas objects (shared or not), gas behaviours, tolerances, iteration limits and failures", "Every failure point and every sharing of arguments would have to be tried.",
  S+":Detonation.cj_state", S+":Reflection.get_eq_state", S+":Reflection.reflect")
p("C104", "One gas object for two arguments",
  "Passing one gas object for two arguments of cj_state or reflect gives the same result as passing two gas objects in the same state.",
  "all gases, states, tolerances and ratios", "The result depends on when each object is read.",
  S+":Detonation.cj_state", S+":Reflection.reflect")
p("C105", "Returned gas states are new objects",
  "cj_speed and calculate_reflected_shock_state change no existing gas object, even when they raise; the gas states they return are new objects, the CJ and the reflected one different, so changing one later changes nothing else.",
  "all heaps of gas objects, gases, mechanisms, inputs, failures and job orders", "Needs every history of objects the caller may hold.",
  S+":Detonation.cj_speed", H+":calculate_reflected_shock_state")
p("C106", "The lookup tables hold exactly what the CSV files say",
  "The tables behind every lookup are the header and rows of the CSV text: lines split at line ends with empty lines dropped, fields split at every comma, a looked-up value taken from the first column with that heading; a cell counts as a number exactly when it is a decimal (digits, perhaps one point, perhaps a minus sign) and then it has that decimal's value, never two values; names are compared with white space at the ends removed where the code strips it, dots replaced character by character, and capitals ignored where the code lowers them.",
  "all CSV texts, cells, headings, separators and names",
  "Tests read the nine shipped files; the rule is about every text.",
  T + " PIPE_SCHEDULES, MATERIAL_LIMITS, TUBE_MATERIALS, _check_materials_list, _get_flange_limits_from_csv, _import_thread_specs", D)
p("C107", "cj_state finds the wave of a perfect gas",
  "If the burnt gas at the requested density ratio is calorically perfect and a wave of that density ratio into the initial gas exists, cj_state returns without an exception and without a warning; the returned gas has exactly the temperature behind that wave and the returned speed is the wave's to within tol*(1/50 + 2 tol). With the default tolerances and iteration limit this covers every wave with temperature and speed between 1e-30 and 1e30.",
  "all perfect gases, initial states, density ratios, tolerances, iteration limits, wave temperatures and speeds",
  "Convergence from the fixed starting guess has to hold for every gas; tests run a few mixtures.",
  S+":Detonation.cj_state", S+":Properties.equilibrium", S+":GetError.equilibrium")
p("C108", "The initial-pressure search converges",
  "If, over the pressures the search can reach, the ratio of reflected to initial pressure varies by no more than the eps-th power of the initial pressure (eps < 1) and the load factor is the same, calculate_max_initial_pressure stops after at most N + 1 updates, where eps^N times the error left by the first update is within the tolerance; load factor times reflected pressure at the returned pressure meets max_pressure to the tolerance, and the returned pressure is within -ln(1 - tol)/(1 - eps), in logarithm, of the one right answer.",
  "all gases with such chemistry, tubes, limits, tolerances, iteration limits, with and without dynamic load factor",
  "Convergence is about every mixture and every limit; a test sees one search.",
  T+":Tube.calculate_max_initial_pressure")
p("C109", "A returned initial pressure is safe",
  "At the initial pressure returned by calculate_max_initial_pressure (with the dynamic load factor) the reflected pressure times the load factor exceeds max_pressure by no more than the tolerance.",
  "all gases, tubes, limits, tolerances and iteration limits",
  "It depends on the whole series of trials; the load factor may jump between them.",
  T+":Tube.calculate_max_initial_pressure", T+":Tube.dynamic_load_factor")

p("C110", "cj_speed does not amplify errors of the wave speeds",
  "If the wave speeds found by cj_state differ from a parabola in the density ratio by at most some error, cj_speed returns a speed that differs from the parabola's minimum by at most twice that error.",
  "all gases, parabolas and errors, serial or with any worker order",
  "The error of each of the 84 wave speeds is arbitrary and the windows of three rounds depend on it.",
  S+":Detonation.cj_speed", S+":cj_curve_fit")

p("C111", "Rating a catalogue pipe is safe and ordered",
  "For every offered pipe, listed material, temperature, joint type and positive safety factor, looking up the dimensions and the allowable stress and passing both to calculate_max_pressure returns a pressure that is not negative, satisfies the hoop-stress balance with the tabulated diameter and wall, never rises with temperature, is never higher for a welded than for a seamless pipe, and rises with the wall thickness of the schedule.",
  "all offered pipes, listed materials, temperatures, units and safety factors",
  "Hundreds of pipes times materials times a continuum of temperatures and units; three functions composed.",
  T+":Tube.get_dimensions", T+":Tube.calculate_max_stress", T+":Tube.calculate_max_pressure", D+"/pipe_schedules.csv")
p("C112", "Flange class round trip",
  "For every material, class and temperature at which Flange.get_max_pressure returns a rating, Flange.get_class for that rating and temperature returns that class; so ratings strictly rise with the class at every temperature.",
  "all listed materials, classes and temperatures in any unit",
  "A continuum of temperatures, including those where class 150 has no tabulated rating.",
  T+":Flange.get_max_pressure", T+":Flange.get_class")
p("C113", "Flange temperature round trip",
  "For every material, class and temperature at which Flange.get_max_pressure returns a rating, Flange.get_max_temperature for that rating returns a temperature that is at least the given one and at which the rating is the same.",
  "all listed materials, classes and temperatures in any unit, old and new scipy",
  "A continuum of temperatures, with plateaus in the tables.",
  T+":Flange.get_max_pressure", T+":Flange.get_max_temperature")

p("C114", "cj_curve_fit: order of summation and rounding",
  "The fit does not depend on the order in which numpy adds; and in double precision the R^2 reported for points that lie exactly on a parabola is one up to the 1e-5 that cj_speed tests, and never above one.",
  "all data, all orders of summation, all roundings",
  "The order of summation is numpy's and changes with the array size; rounding errors depend on every bit of the data.",
  S+":cj_curve_fit", S+":Detonation.cj_speed")

p("C115", "A limit that is not positive is not answered",
  "calculate_max_initial_pressure called with a max_pressure that is zero or negative raises instead of returning an initial pressure: ZeroDivisionError for zero, the gas object's refusal of the negative trial pressure for a negative limit.",
  "all tubes, mixtures, chemistry, temperatures, tolerances and iteration limits",
  "the argument is not validated; whether an answer comes out depends on tolerance, iteration limit and chemistry together",
  T+":Tube.calculate_max_initial_pressure", H+":calculate_reflected_shock_state")
p("C116", "Non-convergence warnings are accurate",
  "A warning about non-convergence from Detonation.cj_state states the iteration limit that was in force; the one from Reflection.get_eq_state states the particle speed and the number of iterations.",
  "all gases, guesses, tolerances, speeds and iteration limits",
  "the warning in get_eq_state is excluded from test coverage (pragma: no cover); the text must be right for every limit and speed",
  S+":Detonation.cj_state", S+":Reflection.get_eq_state")

p("C117", "Rounding and bolts",
  "In floating-point arithmetic every listed thread's stress areas, minimum engagement and safety factors agree with the handbook formulas to about twelve (factors: eleven) digits, although thread dimensions are subtracted from each other; the shear warning is right unless the two areas agree to eleven digits.",
  "all listed threads, strengths, engagements, pressures at least 0.01 atm above ambient, and every rounding with unit at most 1e-6 (double precision included)",
  "cancellation depends on the thread; tests compare a few cases to a tolerance",
  T+":Bolt.calculate_stress_areas", T+":Bolt.calculate_safety_factors")

p("C118", "Rounding and the allowable stress",
  "In floating-point arithmetic the allowable stress agrees with the exactly interpolated one to 4000 rounding units of 1 ksi (double precision: 1e-12 ksi) at every temperature in every temperature unit; a hotter or welded pipe gets no more stress but for 8000 such units, and between two table rows a hotter pipe never gets more at all.",
  "all listed materials, welded or seamless, temperatures of any size written in any temperature unit, registries, and every rounding (double precision included)",
  "near a table row a rounded temperature may fall into the wrong interval; tests compare a few temperatures to a tolerance",
  T+":Tube.calculate_max_stress")
p("C119", "Rounding and flange ratings",
  "In floating-point arithmetic the rating of a flange class agrees with the exactly interpolated one to 3e9 rounding units of 1 Pa (double precision: 1e-6 Pa); temperatures inside the table are accepted and those outside rejected unless within 20000 rounding units of 1 degC of an end; the class chosen for a pressure covers it, and no smaller class does, but for 4e9 rounding units of 1 Pa; a class is found whenever class 2500 exceeds the pressure by that much.",
  "all listed materials, classes, temperatures written in any temperature unit, pressures, registries, and every rounding with unit at most 1e-6 (double precision included)",
  "near a table row a rounded temperature may fall into the wrong interval and at the ends of the table an accepted temperature might be refused; tests compare a few temperatures to a tolerance",
  T+":Flange.get_max_pressure", T+":Flange.get_class")

p("C120", "Tube and blockage functions handle arrays element by element",
  "Tube.calculate_max_pressure and Tube.calculate_max_stress called with arrays return exactly when each position's single call returns, and then the same values; DDT.calculate_blockage_diameter likewise, except that a negative element after the first is let through (C90); arrays of different lengths are refused by calculate_max_pressure.",
  "all arrays of all lengths, with broadcasting of numbers and one-element arrays, all units, materials and registries",
  "unbounded lengths and combinations of shapes",
  T+":Tube.calculate_max_pressure", T+":Tube.calculate_max_stress", T+":DDT.calculate_blockage_diameter", U+":check_pint_quantity")
p("C121", "Functions that decide on a value refuse arrays",
  "DDT.calculate_blockage_ratio and Tube.dynamic_load_factor never answer a call in which an argument is an array of several elements (or, Poisson ratios aside, an empty one); with single values in one-element arrays they answer exactly as with numbers.",
  "all arrays of all lengths in any position, all units and registries",
  "an array of the wrong shape could be answered for its first element only; unbounded lengths",
  T+":DDT.calculate_blockage_ratio", T+":Tube.dynamic_load_factor", U+":check_pint_quantity")

p("C122", "Unit independence of the remaining functions",
  "DDT.calculate_run_up, calculate_reflected_shock_state, Tube.calculate_max_initial_pressure (except for the unit of max_pressure), Tube.calculate_max_stress, Flange.get_class, get_max_pressure and get_max_temperature: expressing an argument in another unit, as another kind of argument or in another registry changes neither the answer, nor the exception, nor the sequence of calls to cantera.",
  "all arguments of right or wrong dimension and any sign, all units including the offset temperature scales, all behaviours of cantera, all numbers of iterations",
  "unbounded units, magnitudes and chemistries; the search iterates", T+":DDT.calculate_run_up", T+":Tube.calculate_max_initial_pressure", T+":Tube.calculate_max_stress", T+":Flange", H+":calculate_reflected_shock_state")

p("C123", "Comparing dimensionality strings is sound, and the messages say what is wrong",
  "check_pint_quantity compares texts, yet accepts exactly the quantities of the wanted dimension: two dimensionality strings are equal only for equal dimensions. A refusal for the dimension says '<actual> is not <expected>', and each side can be read back as one dimension only; the other refusals carry the documented texts, in the documented order.",
  "all dimensions (any integer exponents), all seven dimension types, all unknown types, all objects",
  "exponents are unbounded, so the texts are infinitely many", U+":check_pint_quantity")

p("C124", "nan in, nan out",
  "A nan length, pressure, modulus, temperature, diameter, safety factor or blockage ratio never turns into an ordinary number: Window.safety_factor, Window.minimum_thickness, the blockage functions, Tube.calculate_max_pressure, calculate_max_stress and DDT.calculate_run_up then give nan or raise. None of the checks except 0 < BR < 1 and the flange class search stops a nan: a call that works keeps working, with the answer nan in the same unit, when any of its numbers becomes nan.",
  "all arguments, with nan in any non-empty set of places, as quantity or pair, in any unit",
  "every comparison with nan is false, so each branch of each function is a separate way for nan to be lost", S+":Window.safety_factor", S+":DDT.calculate_blockage_diameter", T+":Tube.calculate_max_pressure", U+":check_pint_quantity")
p("C125", "The dynamic load factor of an unknown tube is the cautious one",
  "With a nan diameter, wave speed, elastic modulus, density or Poisson ratio, Tube.dynamic_load_factor gives 4, the largest factor, wherever it gave a factor for ordinary numbers; a nan plus_or_minus is refused.",
  "all arguments, with nan in any non-empty set of places",
  "it rests on both comparisons being false for nan, in every unit", T+":Tube.dynamic_load_factor")
p("C126", "nan reaches both safety factors of a bolt",
  "If any argument of Bolt.calculate_safety_factors is nan, neither factor it gives is an ordinary number.",
  "all arguments and all threads of the tables, with nan in any place",
  "the factors are computed from different arguments, and the choice between tension and shear area is a comparison", T+":Bolt.calculate_safety_factors", T+":Bolt.calculate_stress_areas")
p("C127", "A nan limit or tolerance is not taken for a solved search",
  "Tube.calculate_max_initial_pressure with a nan maximum pressure or a nan error tolerance raises or gives nan; with ordinary numbers it never does anything because of nan.",
  "all gases, tubes, limits, tolerances, iteration limits, pools",
  "the outcome is decided by the loop condition being false for nan before the first step", T+":Tube.calculate_max_initial_pressure")
p("C128", "Ordinary numbers stay ordinary numbers",
  "No function makes a nan (or behaves as with one) from ordinary numbers: each does exactly what it does over numbers without nan, and asks cantera the same questions in the same order, as long as cantera answers with ordinary numbers. (numpy's own inf/nan from a zero divisor or a negative radicand is a separate outcome in both.)",
  "all arguments of all calculations of the package, all cantera behaviours, all worker schedules",
  "it is a statement about every branch and loop iteration at once", S+":Window", T+":Tube", T+":Bolt", T+":Flange")

p("C129", "The initial-pressure search under rounding",
  "Tube.calculate_max_initial_pressure computed with rounding at every operation: each trial is the previous one scaled by limit / (pressure * factor) up to rounding, and if the search stops before the iteration limit the pressure times the load factor is within (1+4u)|tol| + 2u of the limit, relatively. Where the reflected pressure is proportional to the initial one up to a fraction eta and the load factor constant, the search always returns, and unless it stayed at 1 atm its answer is within 2 eta + 6 u of the pressure that loads the tube to the limit.",
  "every rounding with relative error u that keeps order and small integers (double precision is one), all gases, tubes, limits, tolerances, iteration limits, pools",
  "the loop is run by rounded errors; a test sees one number format and a few gases", T+":Tube.calculate_max_initial_pressure")

p("C130", "The files that are read do not depend on the current directory",
  "Wherever Python is started from, importing the package opens the data files of the directory lookup_data beside its own module and no others, although the paths it makes are relative; find_mechanisms lists the directory data beside cantera's module and returns an absolute path, which names that directory from everywhere.",
  "all current directories, all places the package can be installed (POSIX paths, no symbolic links), absolute or relative __file__",
  "a test run has one current directory and one installation", T+":_DIR_LOOKUP_DATA", T+":_collect_tube_materials", T+":_check_materials_list", T+":_get_flange_limits_from_csv", T+":_import_thread_specs", H+":find_mechanisms")

p("C131", "Looking things up does not change the tables",
  "Tube.calculate_max_stress and the Flange functions make and change pandas frames on the way, but never one of the module's tables (nor any other frame that existed before the call), also when they raise. So in every history of calls each gets the answer it gets alone.",
  "all histories of calls with all arguments, all contents of the tables for the first part; any number type; both scipy behaviours",
  "a changed table shows up only in a later call, and there are unboundedly many histories", T+":Tube._get_pipe_stress_limits", T+":Tube.calculate_max_stress", T+":Flange.get_class", T+":Flange.get_max_pressure", T+":Flange.get_max_temperature")

p("C132", "nan from the chemistry is not turned into a number",
  "calculate_cj_state gives nan exactly when its last, and only its last, temperature was nan; otherwise no temperature was. An ordinary CJ speed from cj_speed means the initial gas had no nan, some equilibrium gas had none, and cantera was never asked for a nan; chemistry that gives nan gives the speed nan. An ordinary reflected wave speed means the pressures and densities behind it are ordinary.",
  "all behaviours of cantera, with nan in any property of any gas; all initial conditions, tolerances, iteration limits, worker schedules",
  "nan can come up in any of 84 iterations of any length, and every loop condition is false for it", D+":Detonation.calculate_cj_state", D+":Detonation.cj_speed", D+":Reflection.get_eq_state", D+":Reflection.reflect", H+":calculate_reflected_shock_state")
p("C133", "A result that is not converged comes with a warning",
  "If calculate_cj_state returns without a warning, its iteration had converged: the last two temperatures are within the tolerance.",
  "all behaviours of cantera, all tolerances and iteration limits, nan included",
  "the iteration can break down at any step", D+":Detonation.calculate_cj_state")
p("C134", "The initial pressure returned was checked against the limit",
  "Unless its iteration limit is used up, Tube.calculate_max_initial_pressure returns a pressure at which the chosen final pressure times the load factor is within the tolerance of the limit.",
  "all behaviours of cantera, nan included; all tubes, limits, tolerances, iteration limits",
  "the loop ends on a comparison that nan makes false, at any trial", T+":Tube.calculate_max_initial_pressure")

p("C135", "A higher limit allows a higher initial pressure",
  "If the load on the tube (reflected pressure times load factor) does not fall when the tube is filled to a higher pressure, raising max_pressure does not lower the initial pressure that Tube.calculate_max_initial_pressure returns.",
  "all chemistry whose load is monotone, all tubes, pairs of limits, tolerances and iteration limits",
  "two runs of an adaptive search with different step sequences are compared", T+":Tube.calculate_max_initial_pressure")

p("C136", "Run-up distances for several tubes in one call",
  "DDT.calculate_run_up with an array of diameters returns, element by element, what the single calls return, doing the chemistry once, for blockage ratios up to 0.1 or from 0.3 to 0.75; between 0.1 and 0.3 it raises for an array (a ValueError where the single calls all return), and several blockage ratios in one call are always refused.",
  "all arrays of diameters, blockage ratios, units and gases",
  "unbounded arrays, and three correlations with different array behaviour", T+":DDT.calculate_run_up")

p("C137", "A reflection given without a warning is right",
  "For a calorically perfect gas there is exactly one state behind a reflected shock, and if Reflection.reflect (or get_eq_state) returns without a warning a gas at least one and a half times as dense as the gas behind the incident shock, then the pressure rise, temperature rise and wave speed are those of that state to about one part in 10000 (within the tolerance asked for, in general).",
  "all perfect gases, all incident waves that conserve mass, momentum and energy, all starting states and tolerances up to 1 percent",
  "the iteration stops on the size of its last step, which says nothing by itself about the error; all gases and waves, any number of passes", D+":Reflection.reflect", D+":Reflection.get_eq_state")
p("C138", "A reflected shock compresses the gas",
  "For a calorically perfect gas, if Reflection.reflect returns without a warning, the reflected state has a higher pressure and temperature than the gas behind the incident shock.",
  "all perfect gases, all incident waves that conserve mass, momentum and energy",
  "the failure is a false convergence after many passes, for weak shocks only", D+":Reflection.reflect", D+":Reflection.get_eq_state")

p("C139", "A flange can be found for every rated pipe",
  "Whenever the tables give a pipe's maximum pressure, with the stress limit of its material and any safety factor of at least one, Flange.get_class returns a class for that pressure, material and temperature, so the pipe can be closed with a flange of the package's own tables.",
  "all offered pipes, materials, safety factors of at least one, and temperatures inside the flange tables",
  "joint property of the pipe schedule, the stress tables and the flange tables through three functions; real-valued temperature and safety factor. (Refuted with the default factor of 1; true from 4 up to 550 degC and from 24 everywhere.)",
  T+":Flange.get_class", T+":Tube.calculate_max_pressure", T+":Tube.calculate_max_stress", "docs/example.ipynb")
p("C140", "The largest of several flange classes",
  "The largest, as the documentation takes it, of the classes get_class returns for several tubes (a maximum of strings) is rated for every pressure the classes were found for.",
  "all non-empty collections of get_class results for one material and temperature",
  "all collections; the order of texts and the order of the ratings are different orders. (True for classes up to 900 or from 1500; refuted for every mixture of 300...900 with 1500 or 2500.)",
  T+":Flange.get_class", "docs/example.ipynb")

p("C141", "The same results in IEEE-754 doubles",
  "Computed in binary64 with its infinities, subnormals and signed zeros, and given numbers that are 0 or between 1e-18 and 1e18 in size (1e-10 and 1e10 for the load factor), the window, blockage, maximum-pressure and load-factor calculations end exactly as in rounding with unbounded exponents: the same exception, or the same number; so the accuracies of C96, C100 and C101 hold of the floats returned.",
  "all arguments read in any unit of the table whose numbers are in the range; all registries",
  "Overflow and loss of digits are possible somewhere in every product; absence ranges over all doubles in the range, in every unit.",
  T+":Window.safety_factor", T+":Window.minimum_thickness", T+":DDT.calculate_blockage_diameter", T+":DDT.calculate_blockage_ratio", T+":Tube.calculate_max_pressure", T+":Tube.dynamic_load_factor")

p("C142", "Window results are never negative in doubles",
  "Whatever floats are given (infinities, nan, subnormal numbers, signed zeros), a safety factor and a minimum thickness that are returned are not below zero.",
  "all arguments, all doubles, all registries", "Signs through overflow and underflow, for all doubles.",
  T+":Window.safety_factor", T+":Window.minimum_thickness")
p("C143", "The order of windows in doubles",
  "For all floats given in one unit, however large or small: a thicker window or a stronger material never has a smaller safety factor and a larger pressure never a larger one; a larger required factor or pressure never has a thinner window and a stronger material never a thicker one - unless a result is nan.",
  "all pairs of doubles, all other arguments, all units", "Order of all pairs of doubles, overflow and underflow included.",
  T+":Window.safety_factor", T+":Window.minimum_thickness")
p("C144", "Blockages in doubles stay within their bounds",
  "For all finite floats: a blockage ratio is between 0 and 1, and a blockage diameter between 0 and half of the pipe's diameter.",
  "all finite doubles and units", "Bounds over all doubles. (True of diameters up to 1e290; a 1.5e308 m blockage in a 1.7e308 m tube has the ratio -inf.)",
  T+":DDT.calculate_blockage_ratio", T+":DDT.calculate_blockage_diameter")
p("C145", "Finite numbers give finite numbers",
  "Given finite floats, the window and blockage functions return finite floats.",
  "all finite doubles and units", "All doubles. (True of numbers between 1e-18 and 1e18; refuted: 1e-200 m of a material of 1e308 Pa has the safety factor nan.)",
  T+":Window.safety_factor", T+":Window.minimum_thickness", T+":DDT.calculate_blockage_ratio", T+":DDT.calculate_blockage_diameter")

p("C146", "Units mean what they are defined to mean",
  "A magnitude with the name of a unit is read as the value its legal definition gives: the international inch of 25.4 mm, foot and mile, the pound-force per square inch from the pound of 0.45359237 kg and standard gravity, the atmosphere of 101325 Pa, the bar, degrees Celsius and Fahrenheit with their zeros; and a result converted to a unit is the number that means the same value in it. Each name of the model is in the list once.",
  "all listed unit names, all real magnitudes, all registries",
  "All real magnitudes in every unit, both directions; the definitions are stated apart from the unit table.",
  U+":parse_quant_input")

p("C147", "Sound speed and run-up distance under rounding",
  "With every operation rounded by at most the fraction u, get_eq_sound_speed is right up to 45000 u (the pressure rise of 0.01 % loses four digits), and calculate_run_up, for blockage ratios 0.3 to 0.75, is right up to 50000 u plus 10 K u where the density ratio is at least 1 + 1/K; in double precision that is 7e-12 for a density ratio of 2.",
  "all roundings, all mixtures that can be compressed, all diameters, temperatures and pressures in any unit",
  "All inputs and all roundings. The chemistry is any function from states to states; what is bounded is the arithmetic around it.",
  T+":DDT.calculate_run_up", H+":get_eq_sound_speed")

p("C148", "Bolts in double precision",
  "With arguments that are 0 or between 1e-18 and 1e18, calculate_stress_areas and calculate_safety_factors in IEEE doubles end as they do with unbounded rounding: the same error or the same numbers, nothing overflowing and no digits lost to underflow, for every thread size and class; so the safety factors are right to 1e-11. Python's pi is the double nearest to pi.",
  "all double-precision arguments of that size, all thread sizes and classes",
  "All doubles of that size, and every row of the thread tables.",
  T+":Bolt.calculate_stress_areas", T+":Bolt.calculate_safety_factors", D+"ANSI_inch_internal_thread.csv", D+"ANSI_inch_external_thread.csv")

p("C149", "Stress tables and flange ratings in double precision",
  "With a temperature and pressure whose numbers are 0 or between 1e-18 and 1e18, in any unit, calculate_max_stress, Flange.get_max_pressure and Flange.get_max_temperature in IEEE doubles end as they do with unbounded rounding: the same error or the same number; Flange.get_class gives the same class. So the stress is right to 1e-12 ksi, the rating to 1e-6 Pa, and the class covers the pressure, and no smaller one does, but for 1e-6 Pa.",
  "all double-precision temperatures and pressures of that size in all units, all materials, classes and both interpolation libraries",
  "All doubles of that size, and every cell of the stress and rating tables.",
  T+":Tube.calculate_max_stress", T+":Flange.get_class", T+":Flange.get_max_pressure", T+":Flange.get_max_temperature")

p("C150", "The temperature limit of a flange class under rounding",
  "Flange.get_max_temperature, with every operation, literal and unit factor rounded, still sorts the ratings as in exact arithmetic and keeps equal ones equal: for a pressure a rounding margin above some positive rating of the class and below another, it returns the exact temperature but for a few rounding units (in doubles within 1e-7 K, without overflow), and the exact rating there covers the pressure but for a rounding error; out of the ratings by a margin it raises ValueError; with an interpolation library that rejects repeated abscissae it never returns.",
  "all roundings to at least six digits (doubles among them), all pressures and units, all materials and classes",
  "All pressures and all roundings: the order of equal and nearly equal ratings decides which temperature is found.",
  T+":Flange.get_max_temperature")

p("C151", "Rating a catalogue pipe in floating point",
  "Looking a pipe's dimensions up, its material's stress limit at a temperature, and asking for the maximum pressure: with every operation, literal and unit factor rounded by a fraction u, the rating is within 1e11 u / safety factor pascals of the exact one; in IEEE-754 doubles nothing overflows or underflows, every call raises what the rounded one raises, and a rating is within 2e-5 Pa / safety factor of the exact one (28/10 apart, whose table entry is a misprint).",
  "all sizes, schedules, materials, temperatures in all units, safety factors and all roundings to at least six digits (doubles among them)",
  "Subtractions and an interpolation near steps of the table, for every cell and every temperature.",
  T+":Tube.get_dimensions")

p("C152", "Pipe ratings in doubles keep the order of walls and temperatures",
  "Of two schedules of one pipe size the one with the thicker wall is rated strictly higher by doubles wherever the material carries at least 1 Pa, and schedules with the same wall get exactly the same rating; a hotter or a welded pipe is never rated higher than a cooler or seamless one by more than 4e-5 Pa / safety factor, and no rating is below zero by more than 2e-5 Pa / safety factor (28/10 apart).",
  "all sizes, pairs of schedules, materials, temperatures in all units and safety factors",
  "The order must survive every rounding for every pair of cells and every pair of temperatures.",
  T+":Tube.calculate_max_pressure")
p("C153", "Stress limits in doubles keep the order of temperatures and welds",
  "Computed with doubles, the allowable stress of a hotter pipe is never above that of a cooler one, nor a welded pipe's above a seamless one's, by more than 1e-12 ksi, whatever the temperatures and units; between two rows of the table, in one unit, it does not rise by even the last bit.",
  "all materials, welded or not, all pairs of temperatures, in and out of the table",
  "Interpolation rounds differently at every temperature; the order is a statement about all pairs.",
  T+":Tube.calculate_max_stress")
p("C154", "Flange ratings in doubles keep the order of classes and temperatures",
  "Computed with doubles, a larger class is rated at least 9999 Pa higher than a smaller one at the same temperature, and a hotter flange is never rated higher than a cooler one by more than 2e-6 Pa, nor any rating below zero by more.",
  "all materials, pairs of classes, pairs of temperatures of the table, in all units",
  "The order is a statement about all pairs of temperatures and all roundings.",
  T+":Flange.get_max_pressure")

p("C155", "The class of a flange's own rating, in doubles",
  "Computed with doubles, get_class asked for the pressure that get_max_pressure has just returned for a class, at the same temperature, returns that class.",
  "all materials, classes and temperatures of the table, in all units",
  "Whether the comparison of a rating with itself survives the rounding is a question about every temperature; at most of them it does.",
  T+":Flange.get_class", T+":Flange.get_max_pressure")

out = os.path.join(os.path.dirname(os.path.dirname(os.path.abspath(__file__))), "properties.jsonl")
with open(out, "w") as f:
    for x in P: f.write(json.dumps(x) + "\n")
print(len(P))
