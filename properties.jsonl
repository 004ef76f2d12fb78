{"id": "C01", "title": "check_pint_quantity accepts exactly the right quantities", "statement": "For a scalar pint quantity and one of the seven documented dimension names, check_pint_quantity returns True exactly when the quantity has that dimension and, if ensure_positive is set, its value in base units is not negative; in every other case it raises (never returns False), and an undocumented dimension name always raises ValueError.", "quantifier": "every scalar quantity (any magnitude, any unit incl. offset temperature units), every dimension name string, both flag values", "why_tests_cant": "Magnitudes, unit scales and offsets are unbounded; tests try a handful of inches and degrees.", "anchors": ["pypbomb/units.py:check_pint_quantity"]}
{"id": "C02", "title": "check_pint_quantity validates every element of an array quantity", "statement": "When ensure_positive is set and the quantity holds an array, the call raises if any element is negative in base units.", "quantifier": "every array length and every element", "why_tests_cant": "Array length and the position of the bad element are unbounded. (Code inspects only element 0: refuted.)", "anchors": ["pypbomb/units.py:check_pint_quantity"]}
{"id": "C03", "title": "parse_quant_input preserves the physical value and moves it to the requested registry", "statement": "For a quantity, or a two-item (magnitude, unit) sequence with a known unit, the result has the same magnitude and unit and belongs to the requested registry; parsing twice equals parsing once; a sequence of another length or a non-iterable non-quantity raises ValueError.", "quantifier": "every input object, every registry", "why_tests_cant": "Ranges over every magnitude, unit and registry.", "anchors": ["pypbomb/units.py:parse_quant_input"]}
{"id": "C04", "title": "Results do not depend on the units or registry used to express the inputs", "statement": "Window.safety_factor, Window.minimum_thickness, DDT.calculate_blockage_ratio, DDT.calculate_blockage_diameter, Tube.dynamic_load_factor, Tube.calculate_max_pressure and Bolt.calculate_safety_factors: two calls whose arguments denote the same physical values (in any multiplicative units, as quantities or tuples) give physically equal results.", "quantifier": "every pair of representations of the same physical inputs", "why_tests_cant": "All unit systems and scale factors cannot be enumerated.", "anchors": ["pypbomb/tube.py:Window.safety_factor", "pypbomb/tube.py:Window.minimum_thickness", "pypbomb/tube.py:DDT.calculate_blockage_ratio", "pypbomb/tube.py:DDT.calculate_blockage_diameter", "pypbomb/tube.py:Tube.dynamic_load_factor", "pypbomb/tube.py:Tube.calculate_max_pressure", "pypbomb/tube.py:Bolt.calculate_safety_factors"]}
{"id": "C05", "title": "Blockage ratio -> spiral diameter -> blockage ratio round trip", "statement": "For every inner diameter D>0 and 0<BR<1, calculate_blockage_diameter succeeds and calculate_blockage_ratio of its result is BR.", "quantifier": "all D>0 in any length unit, all BR in (0,1)", "why_tests_cant": "Continuous domain; the test checks one BR against the same formula.", "anchors": ["pypbomb/tube.py:DDT.calculate_blockage_diameter", "pypbomb/tube.py:DDT.calculate_blockage_ratio"]}
{"id": "C06", "title": "Spiral diameter -> blockage ratio -> spiral diameter round trip", "statement": "For every tube diameter D>0 and every blockage diameter d accepted by calculate_blockage_ratio with a ratio strictly inside (0,1), calculate_blockage_diameter of that ratio returns d.", "quantifier": "all D>0 and 0<d<D", "why_tests_cant": "Continuous domain. (True for 0<d<D/2; refuted for d>D/2, where D-d comes back.)", "anchors": ["pypbomb/tube.py:DDT.calculate_blockage_diameter", "pypbomb/tube.py:DDT.calculate_blockage_ratio"]}
{"id": "C07", "title": "Blockage ratio is the blocked area fraction", "statement": "For 0<=d<=D/2 calculate_blockage_ratio returns (area of tube - area of the open core of diameter D-2d)/(area of tube); the value is in [0,1], 0 only at d=0, and strictly increases with d on this range; for every accepted d the value is in [0,1].", "quantifier": "all D>0 and all accepted d", "why_tests_cant": "Monotonicity and bounds over a continuum.", "anchors": ["pypbomb/tube.py:DDT.calculate_blockage_ratio"]}
{"id": "C08", "title": "Geometrically impossible blockages are rejected", "statement": "calculate_blockage_ratio raises ValueError when the blockage cannot fit (tube diameter 0, negative sizes, or twice the blockage diameter exceeding the tube diameter).", "quantifier": "all pairs of lengths", "why_tests_cant": "Continuous domain. (Only d>=D is rejected: refuted for D/2<d<D.)", "anchors": ["pypbomb/tube.py:DDT.calculate_blockage_ratio"]}
{"id": "C09", "title": "Blockage diameter input validation", "statement": "calculate_blockage_diameter raises ValueError for every numeric blockage ratio outside the open interval (0,1) and for every non-numeric string, whatever the pipe diameter is; for BR in (0,1) and D>=0 the spiral diameter is in the unit of the input, lies in [0, D/2) when D>0 (0 when D=0), and for D>0 strictly increases with BR.", "quantifier": "all blockage ratio arguments, all pipe diameters", "why_tests_cant": "Continuous domain.", "anchors": ["pypbomb/tube.py:DDT.calculate_blockage_diameter"]}
{"id": "C10", "title": "Run-up distance: range check and correlation selection", "statement": "calculate_run_up raises ValueError before doing any chemistry for every BR<=0 or BR>0.75; otherwise BR<=0.1 uses the smooth-tube correlation alone, BR>=0.3 the rough-tube correlation alone, and between them the result is the convex blend of both, so it always lies between the two correlation values, and meets each of them at the ends of the interval.", "quantifier": "all BR, all mixtures (any flame speed, sound speed, density ratio, viscosity)", "why_tests_cant": "Mixture properties come from Cantera and are unbounded; tests use one mixture and four ratios.", "anchors": ["pypbomb/tube.py:DDT.calculate_run_up"]}
{"id": "C11", "title": "Run-up distance for 0.3<=BR<=0.75", "statement": "For a positive flame speed and a density ratio above 1 the rough-tube run-up distance is positive, proportional to the tube diameter, strictly decreasing in BR, inversely proportional to flame speed, and equal to a(1-BR)/(1+b BR) * c D / (20 S (sigma-1)) with a=2, b=1.5.", "quantifier": "all positive mixtures, diameters and BR in [0.3,0.75]", "why_tests_cant": "Continuous domain with oracle chemistry.", "anchors": ["pypbomb/tube.py:DDT.calculate_run_up"]}
{"id": "C12", "title": "Run-up distance is continuous across the correlation hand-over", "statement": "With the mixture fixed, the run-up distance as a function of BR has no jump at 0.1 or 0.3 and is continuous on the whole open range (0,0.75).", "quantifier": "all BR in (0,0.75), all mixtures with positive properties", "why_tests_cant": "Continuity is a limit statement.", "anchors": ["pypbomb/tube.py:DDT.calculate_run_up"]}
{"id": "C13", "title": "Run-up distance output unit", "statement": "The run-up distance is returned in the unit the tube diameter was given in and in the requested registry.", "quantifier": "all units, registries, mixtures and BR in range", "why_tests_cant": "Unbounded unit systems; three code paths.", "anchors": ["pypbomb/tube.py:DDT.calculate_run_up"]}
{"id": "C14", "title": "Window thickness/safety factor round trip", "statement": "For positive length, width, pressure and rupture modulus and any safety factor >= 1, Window.safety_factor of the thickness returned by Window.minimum_thickness is that safety factor.", "quantifier": "all positive inputs in any units", "why_tests_cant": "Continuous 5-dimensional domain; tests check one point within 1%.", "anchors": ["pypbomb/tube.py:Window.safety_factor", "pypbomb/tube.py:Window.minimum_thickness"]}
{"id": "C15", "title": "minimum_thickness is the minimum", "statement": "A window of thickness t has safety factor at least s if and only if t is at least minimum_thickness for s.", "quantifier": "all positive window geometries, pressures, moduli, thicknesses and s>=1", "why_tests_cant": "Bi-implication over a continuum.", "anchors": ["pypbomb/tube.py:Window.safety_factor", "pypbomb/tube.py:Window.minimum_thickness"]}
{"id": "C16", "title": "Window safety factor laws", "statement": "The safety factor is symmetric in length and width, scales with the square of thickness, linearly with rupture modulus and inversely with pressure; it equals (t/L)^2 * 2 M (1+(L/W)^2)/(0.75 P).", "quantifier": "all positive inputs", "why_tests_cant": "Algebraic laws over a continuum.", "anchors": ["pypbomb/tube.py:Window.safety_factor"]}
{"id": "C17", "title": "minimum_thickness rejects bad safety factors and inputs", "statement": "minimum_thickness raises ValueError for every safety factor < 1 and TypeError for a non-numeric one, given otherwise valid inputs; any negative length, width, pressure or modulus, or a quantity of the wrong dimension, raises ValueError.", "quantifier": "all inputs", "why_tests_cant": "Unbounded invalid domain.", "anchors": ["pypbomb/tube.py:Window.minimum_thickness"]}
{"id": "C18", "title": "Dynamic load factor classification", "statement": "dynamic_load_factor returns 1 when the wave is slower than (1-f)Vcrit, 2 when faster than (1+f)Vcrit, 4 otherwise, and nothing else, where Vcrit is the positive fourth root of E^2 h^2 /(3 rho^2 r^2 (1-nu^2)) with r the mean radius and h the wall thickness.", "quantifier": "all tubes with 0<=ID, OD>0, all positive E, rho, |nu|<1, all wave speeds, all f in (0,1)", "why_tests_cant": "Boundary behaviour over a continuum; tests sample seven speeds on one tube.", "anchors": ["pypbomb/tube.py:Tube.dynamic_load_factor"]}
{"id": "C19", "title": "Dynamic load factor depends on geometry only through shape", "statement": "Scaling ID and OD by the same positive factor, or E and rho by the same positive factor, does not change the dynamic load factor.", "quantifier": "all scale factors and valid inputs", "why_tests_cant": "Invariance over a continuum.", "anchors": ["pypbomb/tube.py:Tube.dynamic_load_factor"]}
{"id": "C20", "title": "Band width outside (0,1) is rejected", "statement": "dynamic_load_factor raises ValueError for every plus_or_minus outside the open interval (0,1) and for negative or dimensionally wrong tube inputs.", "quantifier": "all inputs", "why_tests_cant": "Unbounded invalid domain.", "anchors": ["pypbomb/tube.py:Tube.dynamic_load_factor"]}
{"id": "C21", "title": "Impossible tubes (ID > OD) are rejected", "statement": "dynamic_load_factor and calculate_max_pressure raise an error when the inner diameter exceeds the outer diameter.", "quantifier": "all ID>OD", "why_tests_cant": "Continuous domain. (Refuted: DLF is symmetric in ID/OD; max pressure comes back negative.)", "anchors": ["pypbomb/tube.py:Tube.dynamic_load_factor", "pypbomb/tube.py:Tube.calculate_max_pressure"]}
{"id": "C22", "title": "Maximum pressure satisfies the hoop-stress balance", "statement": "For 0<=ID<OD and positive safety factor, the pressure p returned by calculate_max_pressure satisfies p * mean diameter * safety factor = allowable stress * 2 * wall thickness, is positive for positive stress, is proportional to stress, inversely proportional to the safety factor, strictly decreases with ID, and for ID>0 strictly increases with OD (for ID=0 it does not depend on OD).", "quantifier": "all tubes, stresses and safety factors", "why_tests_cant": "Continuous domain.", "anchors": ["pypbomb/tube.py:Tube.calculate_max_pressure"]}
{"id": "C23", "title": "Allowable stress interpolates the ASME B31.1 table", "statement": "For every listed material, welded or seamless, calculate_max_stress equals the tabulated stress at each tabulated temperature and the straight line between neighbouring rows in between, in ksi and in the requested registry.", "quantifier": "all materials, both pipe kinds, all temperatures from -20 to 1200 degF, in any temperature unit", "why_tests_cant": "Continuous temperature domain.", "anchors": ["pypbomb/tube.py:Tube.calculate_max_stress", "pypbomb/lookup_data/ASME_B31_1_stress_limits_welded.csv", "pypbomb/lookup_data/ASME_B31_1_stress_limits_seamless.csv"]}
{"id": "C24", "title": "Allowable stress never rises with temperature; welded never exceeds seamless", "statement": "For every listed material the allowable stress is non-increasing in temperature, never negative, and at every temperature the welded value does not exceed the seamless value.", "quantifier": "all pairs of temperatures, all materials", "why_tests_cant": "Continuous domain.", "anchors": ["pypbomb/tube.py:Tube.calculate_max_stress"]}
{"id": "C25", "title": "Temperatures outside the stress table are rejected", "statement": "calculate_max_stress raises when the temperature is outside the tabulated range.", "quantifier": "all temperatures outside [-20,1200] degF", "why_tests_cant": "Unbounded domain. (Refuted: values are clamped to the end rows.)", "anchors": ["pypbomb/tube.py:Tube.calculate_max_stress"]}
{"id": "C26", "title": "Unknown materials are rejected by the stress lookup", "statement": "calculate_max_stress raises for every material name that is not one of Tube.available_materials.", "quantifier": "all strings", "why_tests_cant": "Unbounded strings. (Refuted by the name 'Temp'; every other unlisted name raises KeyError.)", "anchors": ["pypbomb/tube.py:Tube._get_pipe_stress_limits", "pypbomb/tube.py:Tube.calculate_max_stress"]}
{"id": "C27", "title": "Schedules offered for a pipe size are exactly those with a wall thickness", "statement": "get_available_pipe_schedules returns, in table order, exactly the schedules for which the table has a wall thickness for that size, never 'OD'; it raises ValueError for every string that is not an available size, and for every integer.", "quantifier": "all strings and integers", "why_tests_cant": "Unbounded strings and integers; whole table.", "anchors": ["pypbomb/tube.py:Tube.get_available_pipe_schedules", "pypbomb/lookup_data/pipe_schedules.csv"]}
{"id": "C28", "title": "get_dimensions succeeds exactly on offered schedules and is self-consistent", "statement": "For every size and schedule string, get_dimensions returns dimensions if and only if the schedule is offered for the size, otherwise ValueError; returned values satisfy OD = ID + 2*wall, wall > 0, all in inches in the requested registry.", "quantifier": "all pairs of strings", "why_tests_cant": "Unbounded strings; whole table.", "anchors": ["pypbomb/tube.py:Tube.get_dimensions"]}
{"id": "C29", "title": "Every offered pipe has a positive bore", "statement": "Whenever get_dimensions returns, 0 < ID < OD.", "quantifier": "all offered (size, schedule) pairs", "why_tests_cant": "Whole table. (Refuted by size 28 schedule 10, wall 312 in; true for all other pairs.)", "anchors": ["pypbomb/tube.py:Tube.get_dimensions", "pypbomb/lookup_data/pipe_schedules.csv"]}
{"id": "C30", "title": "Material property getters accept exactly the listed materials", "statement": "get_elastic_modulus, get_density and get_poisson return a positive value for every material in Tube.available_materials and raise ValueError for every other argument.", "quantifier": "all material arguments (strings and integers)", "why_tests_cant": "Unbounded. (True for strings; refuted for the integer 304, which passes the check and then raises IndexError.)", "anchors": ["pypbomb/tube.py:Tube.get_elastic_modulus", "pypbomb/tube.py:Tube.get_density", "pypbomb/tube.py:Tube.get_poisson", "pypbomb/tube.py:Tube._check_material"]}
{"id": "C31", "title": "Maximum initial pressure meets the tolerance when the iteration stops early", "statement": "If calculate_max_initial_pressure performs at least one update and stops before the iteration limit, the peak pressure of the selected state at the returned initial pressure, times the dynamic load factor, is within the relative tolerance of max_pressure.", "quantifier": "all thermochemistry (any function from initial pressure to states), all tolerances, all limits", "why_tests_cant": "Oracle behaviour and iteration histories are unbounded.", "anchors": ["pypbomb/tube.py:Tube.calculate_max_initial_pressure"]}
{"id": "C32", "title": "Maximum initial pressure always terminates within max_iterations updates", "statement": "The search performs at most max_iterations updates and exactly one more chemistry evaluation than updates, whatever the chemistry returns.", "quantifier": "all chemistry oracles, all limits", "why_tests_cant": "Histories unbounded.", "anchors": ["pypbomb/tube.py:Tube.calculate_max_initial_pressure"]}
{"id": "C33", "title": "Maximum initial pressure for proportional chemistry", "statement": "If the reflected pressure is proportional to the initial pressure and the load factor is constant, one update reaches max_pressure/(dlf*ratio) exactly and the search stops there.", "quantifier": "all positive ratios, load factors, max pressures", "why_tests_cant": "Continuous domain.", "anchors": ["pypbomb/tube.py:Tube.calculate_max_initial_pressure"]}
{"id": "C34", "title": "max_pressure_state='cj' limits the CJ pressure", "statement": "With max_pressure_state='cj', the returned initial pressure makes the CJ pressure times the load factor match max_pressure.", "quantifier": "all chemistries", "why_tests_cant": "Oracle behaviour. (Refuted: the update always uses the reflected pressure, so the search exhausts its iterations and returns the reflected-shock answer.)", "anchors": ["pypbomb/tube.py:Tube.calculate_max_initial_pressure"]}
{"id": "C35", "title": "Maximum initial pressure does not depend on the unit of max_pressure", "statement": "Calling with max_pressure expressed in Pa, MPa or psi for the same physical pressure gives the same initial pressure.", "quantifier": "all units", "why_tests_cant": "Unbounded. (Refuted: the raw magnitude is compared with Pa.)", "anchors": ["pypbomb/tube.py:Tube.calculate_max_initial_pressure"]}
{"id": "C36", "title": "Flange pressure rating interpolates ASME B16.5", "statement": "For every material, class and temperature in the table range, get_max_pressure equals the tabulated rating at tabulated temperatures and the straight line between neighbouring rows, in Pa; outside the range it raises ValueError.", "quantifier": "all materials, classes, temperatures", "why_tests_cant": "Continuous domain.", "anchors": ["pypbomb/tube.py:Flange.get_max_pressure", "pypbomb/lookup_data/ASME_B16_5_flange_ratings_group_2_1.csv"]}
{"id": "C37", "title": "Flange rating never rises with temperature and rises with class", "statement": "For fixed class the rating is non-increasing in temperature; at fixed temperature a higher class has a rating at least as high.", "quantifier": "all temperatures, all class pairs", "why_tests_cant": "Continuous domain.", "anchors": ["pypbomb/tube.py:Flange.get_max_pressure"]}
{"id": "C38", "title": "get_class returns the smallest sufficient class", "statement": "When get_class returns a class, that class's get_max_pressure at the temperature is at least the given pressure and every smaller class's is below it - in exact and in floating-point arithmetic.", "quantifier": "all pressures, temperatures, materials, any arithmetic", "why_tests_cant": "Continuous domain; agreement between two functions.", "anchors": ["pypbomb/tube.py:Flange.get_class", "pypbomb/tube.py:Flange.get_max_pressure"]}
{"id": "C39", "title": "get_class succeeds or raises ValueError", "statement": "For every non-negative pressure and every temperature, get_class on a listed material returns a class or raises ValueError.", "quantifier": "all pressures and temperatures", "why_tests_cant": "Continuous domain. (Refuted: IndexError when the pressure is below the overall maximum but above every class at that temperature.)", "anchors": ["pypbomb/tube.py:Flange.get_class"]}
{"id": "C40", "title": "get_max_temperature is safe", "statement": "A flange operated at the temperature returned by get_max_temperature for a pressure has a rating of at least that pressure.", "quantifier": "all materials, classes and pressures in range", "why_tests_cant": "Continuous domain. (Refuted for class 150 below 1.4 bar; proved for pressures between the lowest positive rating and the top rating.)", "anchors": ["pypbomb/tube.py:Flange.get_max_temperature", "pypbomb/tube.py:Flange.get_max_pressure"]}
{"id": "C41", "title": "get_max_temperature at the top rating returns the highest temperature carrying it", "statement": "At exactly the maximum pressure of the class the function returns a temperature at which the class carries that pressure.", "quantifier": "all classes and materials", "why_tests_cant": "Depends on duplicate abscissae. (Refuted: evaluates a zero-length spline interval and returns 0 K, or raises on newer scipy.)", "anchors": ["pypbomb/tube.py:Flange.get_max_temperature"]}
{"id": "C42", "title": "Flange class validation", "statement": "get_max_pressure and get_max_temperature raise ValueError for every class string that is not a pressure class of the material group.", "quantifier": "all strings", "why_tests_cant": "Unbounded strings. (True for all strings but 'Temperature', refuted there.)", "anchors": ["pypbomb/tube.py:Flange._check_flange_class"]}
{"id": "C43", "title": "get_thread_property returns the table entry or raises", "statement": "For every property, size and class string the call returns the tabulated inch value when the class is an A/B class of grade 2 or 3 and the table has exactly one such row; a class without A/B or without 2/3 raises ValueError, an unknown property or size raises KeyError.", "quantifier": "all strings", "why_tests_cant": "Unbounded strings.", "anchors": ["pypbomb/tube.py:Bolt.get_thread_property", "pypbomb/lookup_data/ANSI_inch_internal_thread.csv", "pypbomb/lookup_data/ANSI_inch_external_thread.csv"]}
{"id": "C44", "title": "Every listed thread size can be used in a bolt calculation", "statement": "For every size present in the thread tables some thread class works in calculate_stress_areas.", "quantifier": "all listed sizes", "why_tests_cant": "Whole table. (Refuted: sizes above 1 inch are spelled differently in the two files, and 2-6 is duplicated.)", "anchors": ["pypbomb/tube.py:Bolt.calculate_stress_areas"]}
{"id": "C45", "title": "Screw stress area is the weaker of tension and shear, and the warning tells which", "statement": "The screw area returned is the minimum of tensile and shear area, and the shear warning is issued exactly when the shear area is smaller.", "quantifier": "all usable threads, strengths, engagement lengths", "why_tests_cant": "Continuous domain.", "anchors": ["pypbomb/tube.py:Bolt.calculate_stress_areas"]}
{"id": "C46", "title": "Minimum engagement does not depend on the engagement given", "statement": "The minimum engagement returned is the same for every positive engagement length, is proportional to bolt strength (within a strength band) and inversely proportional to plate strength.", "quantifier": "all positive engagement lengths and strengths", "why_tests_cant": "Continuous domain.", "anchors": ["pypbomb/tube.py:Bolt.calculate_stress_areas"]}
{"id": "C47", "title": "At the minimum engagement the plate is twice as strong as the bolt", "statement": "If the engagement is at least the returned minimum engagement, plate area * plate strength is at least twice tensile area * bolt strength, so the plate safety factor is at least twice the bolt safety factor.", "quantifier": "all usable threads, strengths and engagement lengths", "why_tests_cant": "Continuous domain.", "anchors": ["pypbomb/tube.py:Bolt.calculate_stress_areas", "pypbomb/tube.py:Bolt.calculate_safety_factors"]}
{"id": "C48", "title": "Engagement at or above the minimum never triggers the shear warning", "statement": "If engagement_length is at least the 'minimum engagement' returned, the screws fail in tension: no warning.", "quantifier": "all threads and strengths", "why_tests_cant": "Continuous domain. (Refuted when the plate is much stronger than the bolt; proved when the strength-area ratio is at least 1/2.)", "anchors": ["pypbomb/tube.py:Bolt.calculate_stress_areas"]}
{"id": "C49", "title": "Bolt safety factor laws", "statement": "For absolute pressure above 1 atm both safety factors are positive, proportional to the number of bolts, and inversely proportional to window area and to the gauge pressure; plate safety factor is proportional to engagement length.", "quantifier": "all inputs", "why_tests_cant": "Continuous domain.", "anchors": ["pypbomb/tube.py:Bolt.calculate_safety_factors"]}
{"id": "C50", "title": "Safety factors are never negative", "statement": "calculate_safety_factors returns non-negative safety factors for every accepted input.", "quantifier": "all accepted inputs", "why_tests_cant": "Continuous domain. (Refuted for pressures below 1 atm absolute.)", "anchors": ["pypbomb/tube.py:Bolt.calculate_safety_factors"]}
{"id": "C51", "title": "Thread limits are ordered", "statement": "For every thread the tabulated minimum of a diameter does not exceed its maximum.", "quantifier": "every row of both tables", "why_tests_cant": "Whole table. (Refuted: external major diameter min/max columns are swapped in every row.)", "anchors": ["pypbomb/lookup_data/ANSI_inch_external_thread.csv"]}
{"id": "C52", "title": "Import-time materials check is complete", "statement": "_check_materials_list returns True exactly when every grade appears in every stress-limit header and every group appears in some flange file name past position 0; otherwise it raises an error naming every missing item.", "quantifier": "all directory listings, file headers and material lists", "why_tests_cant": "Unbounded.", "anchors": ["pypbomb/tube.py:_check_materials_list"]}
{"id": "C53", "title": "Flange tables contain no negative or missing pressure after loading", "statement": "Loading a flange CSV either raises or yields a table of the same shape whose pressures are all non-negative numbers, unreadable cells being 0 (the temperature column may be negative).", "quantifier": "all CSV contents", "why_tests_cant": "Unbounded.", "anchors": ["pypbomb/tube.py:_get_flange_limits_from_csv"]}
{"id": "C54", "title": "Every listed material works in every tube and flange function", "statement": "For every listed material: stress limits exist for both pipe kinds, elastic modulus, density and Poisson ratio exist, and the flange group table exists.", "quantifier": "all listed materials", "why_tests_cant": "Joint property of five files and six functions.", "anchors": ["pypbomb/tube.py:Tube", "pypbomb/tube.py:Flange", "pypbomb/lookup_data/materials_list.csv"]}
{"id": "C55", "title": "cj_curve_fit is the least-squares parabola", "statement": "Whenever the fit is defined, no other parabola has a smaller sum of squared residuals on the data, and R^2 <= 1.", "quantifier": "all data lists of any length with a non-degenerate fit", "why_tests_cant": "All data sizes and values.", "anchors": ["pypbomb/sd.py:cj_curve_fit"]}
{"id": "C56", "title": "cj_curve_fit is defined for positive abscissae with three distinct values", "statement": "For non-negative x with at least three distinct values neither denominator vanishes, so the coefficients are finite.", "quantifier": "all such lists, all y", "why_tests_cant": "All data sizes and values.", "anchors": ["pypbomb/sd.py:cj_curve_fit"]}
{"id": "C57", "title": "cj_curve_fit recovers exact parabolas", "statement": "On data lying exactly on a parabola the fit returns its coefficients.", "quantifier": "all parabolas and all non-degenerate abscissae", "why_tests_cant": "Unbounded.", "anchors": ["pypbomb/sd.py:cj_curve_fit"]}
{"id": "C58", "title": "cj_curve_fit works on every data set with three distinct x", "statement": "The fit is finite for every data set with at least three distinct abscissae.", "quantifier": "all data", "why_tests_cant": "Unbounded. (Refuted: symmetric abscissae such as -1,0,1 give a zero denominator.)", "anchors": ["pypbomb/sd.py:cj_curve_fit"]}
{"id": "C59", "title": "cj_speed refines exactly four times", "statement": "cj_speed performs exactly four fit rounds of 21 density ratios whatever the fit quality; the first round spans 1.5 to 2.0 and each later one spans the previous vertex +-0.1%.", "quantifier": "all chemistry oracles", "why_tests_cant": "Control flow under arbitrary data.", "anchors": ["pypbomb/sd.py:Detonation.cj_speed"]}
{"id": "C60", "title": "cj_speed does not depend on multiprocessing or on worker completion order", "statement": "With use_multiprocessing the result equals the serial result for every order in which worker results arrive.", "quantifier": "all schedules (permutations of results)", "why_tests_cant": "Schedules cannot be enumerated by tests.", "anchors": ["pypbomb/sd.py:Detonation.cj_speed"]}
{"id": "C61", "title": "cj_speed returns the vertex value of the last fit", "statement": "The returned speed is the value of the last fitted parabola at its vertex: a lower bound of the parabola when it opens upward.", "quantifier": "all chemistry oracles", "why_tests_cant": "Continuous domain.", "anchors": ["pypbomb/sd.py:Detonation.cj_speed"]}
{"id": "C62", "title": "cj_speed result keys follow the flags", "statement": "The result has key 'cj speed' always, 'R^2' iff return_r_squared, 'cj state' iff return_state, and nothing else.", "quantifier": "all flag combinations and oracles", "why_tests_cant": "All executions.", "anchors": ["pypbomb/sd.py:Detonation.cj_speed"]}
{"id": "C63", "title": "CJ state iteration terminates and warns exactly on non-convergence", "statement": "For max_iterations>=1 cj_state stops after at most max_iterations-1 Newton updates; it warns exactly when stopped by the limit, otherwise the last temperature and velocity steps are within tolerance.", "quantifier": "all gas oracles, tolerances, limits", "why_tests_cant": "Histories unbounded.", "anchors": ["pypbomb/sd.py:Detonation.cj_state"]}
{"id": "C64", "title": "CJ state temperature stays physical", "statement": "Every temperature at which cj_state sets the gas is positive, and each update changes it by at most 20%; a converged velocity is non-negative.", "quantifier": "all gas oracles", "why_tests_cant": "Histories unbounded.", "anchors": ["pypbomb/sd.py:Detonation.cj_state"]}
{"id": "C65", "title": "max_iterations bounds the CJ iteration", "statement": "cj_state and get_eq_state terminate for every integer max_iterations.", "quantifier": "all integers", "why_tests_cant": "Non-termination cannot be observed. (Refuted for max_iterations<=0: the equality test never fires.)", "anchors": ["pypbomb/sd.py:Detonation.cj_state", "pypbomb/sd.py:Reflection.get_eq_state"]}
{"id": "C66", "title": "Reflected-shock iteration keeps volume compressed and temperature positive", "statement": "Starting from a positive guess volume below the post-shock volume, every iterate of get_eq_state has positive temperature and 0 < volume <= post-shock volume; it terminates within the limit, warning exactly on non-convergence.", "quantifier": "all gas oracles", "why_tests_cant": "Histories unbounded.", "anchors": ["pypbomb/sd.py:Reflection.get_eq_state"]}
{"id": "C67", "title": "CJ error functions vanish exactly on conservation", "statement": "GetError.equilibrium returns (0,0) iff the two states satisfy conservation of mass, momentum and energy for the given wave speed.", "quantifier": "all states and speeds", "why_tests_cant": "Continuous domain.", "anchors": ["pypbomb/sd.py:GetError.equilibrium"]}
{"id": "C68", "title": "Reflected error functions vanish exactly on the reflected jump conditions, and the reported speed is the shock speed", "statement": "GetError.reflected_shock_frozen returns (0,0) iff the states satisfy the normal-shock conservation laws in the frame of a reflected shock bringing the gas to rest, and then Reflection.reflect reports exactly that shock's speed.", "quantifier": "all states with distinct densities and non-zero particle speed", "why_tests_cant": "Continuous domain.", "anchors": ["pypbomb/sd.py:GetError.reflected_shock_frozen", "pypbomb/sd.py:Reflection.reflect"]}
{"id": "C69", "title": "Newton updates solve the linearised system", "statement": "Before limiting, the temperature/velocity (or volume) step computed by cj_state and get_eq_state is the unique solution of the 2x2 linear system with the finite-difference Jacobian.", "quantifier": "all oracle values with non-singular Jacobian", "why_tests_cant": "Continuous domain.", "anchors": ["pypbomb/sd.py:Detonation.cj_state", "pypbomb/sd.py:Reflection.get_eq_state"]}
{"id": "C70", "title": "Equilibrium sound speed is the isentropic slope", "statement": "get_eq_sound_speed returns the non-negative c with c^2 * (rho' - rho) = 0.0001 * P whenever the density rises with pressure, for the requested registry, in m/s.", "quantifier": "all gas oracles", "why_tests_cant": "Oracle.", "anchors": ["pypbomb/thermochem.py:get_eq_sound_speed"]}
{"id": "C71", "title": "find_mechanisms returns exactly the mechanism files", "statement": "find_mechanisms returns exactly the directory entries whose name contains .cti or .xml; with return_directory the same set is paired with the directory.", "quantifier": "all directory listings", "why_tests_cant": "Unbounded.", "anchors": ["pypbomb/thermochem.py:find_mechanisms"]}
{"id": "C72", "title": "Reflection.reflect uses the particle speed behind the incident wave", "statement": "If the incident wave at speed U conserves mass, momentum and energy and leaves gas flowing out at w in the wave frame, the speed reflect returns is that of the shock that brings gas moving at U-w to rest and conserves mass and momentum with the returned pressure.", "quantifier": "all initial and post-shock states, all gas oracles", "why_tests_cant": "Continuous domain, oracle.", "anchors": ["pypbomb/sd.py:Reflection.reflect"]}
{"id": "C73", "title": "Reflection.reflect always starts from a compressed, hot state and ends", "statement": "For a gas that obeys the ideal-gas law when its temperature, pressure and composition are set, reflect ends, every temperature it sets is positive and every density is at least the post-shock density divided by 1.02, whatever equilibration does.", "quantifier": "all equilibration oracles, all shock speeds", "why_tests_cant": "Histories unbounded.", "anchors": ["pypbomb/sd.py:Reflection.reflect", "pypbomb/sd.py:Reflection.get_eq_state"]}
{"id": "C74", "title": "cj_speed is exact when the speeds lie on a parabola", "statement": "If the CJ speeds computed at each density ratio lie on a parabola with its vertex at a positive ratio, cj_speed returns the parabola's extremal value exactly and R^2 = 1, with or without multiprocessing.", "quantifier": "all gas oracles with that property, all parabolas, all schedules", "why_tests_cant": "Continuous domain, oracle.", "anchors": ["pypbomb/sd.py:Detonation.cj_speed", "pypbomb/sd.py:cj_curve_fit"]}
{"id": "C75", "title": "cj_speed returns the state at the vertex", "statement": "With return_state the gas returned under 'cj state' is the one cj_state computes from fresh gases at the density ratio of the vertex of the last fit.", "quantifier": "all gas oracles, all schedules", "why_tests_cant": "Oracle, schedules.", "anchors": ["pypbomb/sd.py:Detonation.cj_speed"]}
{"id": "C76", "title": "Thermochemistry functions reject bad arguments before touching a gas", "statement": "get_eq_sound_speed and calculate_laminar_flame_speed raise ValueError for every temperature or pressure of the wrong dimension or below zero, before the state of any gas object is set; get_eq_sound_speed before one is even created.", "quantifier": "all arguments, units, gas oracles", "why_tests_cant": "Unbounded; oracle.", "anchors": ["pypbomb/thermochem.py:get_eq_sound_speed", "pypbomb/thermochem.py:calculate_laminar_flame_speed"]}
{"id": "C77", "title": "Laminar flame speed is the solved flame's speed in m/s", "statement": "calculate_laminar_flame_speed returns q exactly when cantera solves the flame of the mixture set to the given temperature in kelvin and pressure in pascal; q is that speed in m/s in the requested registry.", "quantifier": "all arguments, units, gas oracles", "why_tests_cant": "Unbounded; oracle.", "anchors": ["pypbomb/thermochem.py:calculate_laminar_flame_speed"]}
{"id": "C78", "title": "Thermochemistry does not depend on the units of its arguments", "statement": "get_eq_sound_speed and calculate_laminar_flame_speed make the same cantera calls and return the same result for any two ways of writing the same temperature and pressure (units, quantity or pair).", "quantifier": "all pairs of equal arguments", "why_tests_cant": "Unbounded unit systems.", "anchors": ["pypbomb/thermochem.py:get_eq_sound_speed", "pypbomb/thermochem.py:calculate_laminar_flame_speed"]}
{"id": "C79", "title": "calculate_reflected_shock_state conserves mass and momentum", "statement": "Whenever it returns, the CJ speed and state are those of cj_speed at the given temperature in kelvin and pressure in pascal, and the reflected speed W satisfies P3 - P2 = rho2 u (u + W) with u the particle speed behind the CJ wave; speeds are in m/s in the requested registry.", "quantifier": "all gas oracles, all temperatures and pressures in any units, all schedules", "why_tests_cant": "Oracle, schedules.", "anchors": ["pypbomb/thermochem.py:calculate_reflected_shock_state"]}
{"id": "C80", "title": "A search that stops early has met the tolerance", "statement": "Whenever calculate_max_initial_pressure stops before the iteration limit, the reflected pressure times the load factor at the returned pressure is within the tolerance of max_pressure. (Refuted: the first test compares the load factor with the number in max_pressure, so a limit of 2 MPa for a tube with load factor 2 returns 1 atm unseen.)", "quantifier": "all chemistries, limits, tolerances", "why_tests_cant": "Oracle; depends on the unit of an argument.", "anchors": ["pypbomb/tube.py:Tube.calculate_max_initial_pressure"]}
{"id": "C81", "title": "calculate_max_initial_pressure rejects bad arguments", "statement": "Every max_pressure_state other than 'reflected' and 'cj' raises ValueError before any chemistry is done; tube arguments that dynamic_load_factor rejects raise ValueError after one chemistry evaluation.", "quantifier": "all strings, all arguments", "why_tests_cant": "Unbounded.", "anchors": ["pypbomb/tube.py:Tube.calculate_max_initial_pressure"]}
{"id": "C82", "title": "The returned load factor belongs to the returned pressure", "statement": "With return_dlf the second item is the dynamic load factor for the CJ speed at the returned initial pressure, or 1 when use_dynamic_load_factor is False. (Refuted for use_dynamic_load_factor=False when no update is made.)", "quantifier": "all chemistries, limits, tolerances", "why_tests_cant": "Oracle; histories.", "anchors": ["pypbomb/tube.py:Tube.calculate_max_initial_pressure"]}
{"id": "C83", "title": "Maximum initial pressure does not depend on the unit of the temperature", "statement": "calculate_max_initial_pressure makes the same cantera calls and returns the same result for any two ways of writing the same initial temperature.", "quantifier": "all temperature units, chemistries", "why_tests_cant": "Unbounded unit systems; histories.", "anchors": ["pypbomb/tube.py:Tube.calculate_max_initial_pressure", "pypbomb/thermochem.py:calculate_reflected_shock_state"]}
{"id": "C84", "title": "Multiprocessing does not change the maximum initial pressure", "statement": "Whatever order the workers finish in, in every round of every evaluation, calculate_max_initial_pressure returns exactly what it returns without multiprocessing.", "quantifier": "all schedules, chemistries", "why_tests_cant": "Schedules cannot be enumerated.", "anchors": ["pypbomb/tube.py:Tube.calculate_max_initial_pressure", "pypbomb/sd.py:Detonation.cj_speed"]}
{"id": "C85", "title": "More blockage never lengthens the run-up", "statement": "For positive mixture properties and an expansion ratio above 1, calculate_run_up returns a strictly smaller distance for a larger blockage ratio.", "quantifier": "all pairs of blockage ratios in (0,0.75], all mixtures, diameters and units", "why_tests_cant": "Continuous domain with oracle chemistry.", "anchors": ["pypbomb/tube.py:DDT.calculate_run_up"]}
{"id": "C86", "title": "calculate_run_up rejects bad arguments before any chemistry", "statement": "A tube diameter, temperature or pressure of the wrong dimension or below zero makes calculate_run_up raise ValueError, and cantera has not been called.", "quantifier": "all arguments, units, gas oracles", "why_tests_cant": "Unbounded; oracle.", "anchors": ["pypbomb/tube.py:DDT.calculate_run_up"]}
{"id": "C87", "title": "Viscosity is needed exactly below a blockage ratio of 0.3", "statement": "If cantera cannot give the viscosity, calculate_run_up raises cantera's error for every blockage ratio below 0.3, and does and returns exactly the same as with any other viscosity for every ratio from 0.3 on.", "quantifier": "all blockage ratios, mixtures, viscosity failures", "why_tests_cant": "Oracle.", "anchors": ["pypbomb/tube.py:DDT.calculate_run_up"]}
{"id": "C88", "title": "The run-up distance is positive", "statement": "For positive mixture properties calculate_run_up never returns a negative distance.", "quantifier": "all blockage ratios in (0,0.75], all mixtures", "why_tests_cant": "Continuous domain with oracle chemistry.", "anchors": ["pypbomb/tube.py:DDT.calculate_run_up"]}
{"id": "C89", "title": "Array arguments are handled element by element", "statement": "Window.safety_factor, Window.minimum_thickness and Bolt.calculate_safety_factors called with arrays return, at each position, what they return when called with that position's elements; they return whenever all those calls return. (A later element that a single call would reject as negative is let through, see C90.)", "quantifier": "all arrays of all lengths, with broadcasting of numbers and one-element arrays, all units", "why_tests_cant": "Unbounded lengths.", "anchors": ["pypbomb/tube.py:Window.safety_factor", "pypbomb/tube.py:Window.minimum_thickness", "pypbomb/tube.py:Bolt.calculate_safety_factors", "pypbomb/tube.py:Bolt.calculate_stress_areas", "pypbomb/units.py:check_pint_quantity"]}
{"id": "C90", "title": "Negative elements of array arguments are rejected", "statement": "An array argument with a negative element is rejected by Window.safety_factor and DDT.calculate_blockage_diameter. (Refuted: only the first element is looked at; a negative pressure in second place gives a negative safety factor, a negative pipe diameter a negative spiral diameter.)", "quantifier": "all arrays", "why_tests_cant": "Unbounded lengths.", "anchors": ["pypbomb/tube.py:Window.safety_factor", "pypbomb/units.py:check_pint_quantity"]}
{"id": "C91", "title": "Arrays that do not fit together are refused", "statement": "When a call with arrays returns, all arrays have one common length, or length one, and none is empty; minimum_thickness has at most one safety factor, calculate_safety_factors one bolt strength and one engagement length.", "quantifier": "all arrays of all lengths", "why_tests_cant": "Unbounded lengths.", "anchors": ["pypbomb/tube.py:Window.safety_factor", "pypbomb/tube.py:Window.minimum_thickness", "pypbomb/tube.py:Bolt.calculate_safety_factors"]}
{"id": "C92", "title": "Import stops unless every data file is there", "statement": "Importing the package over any lookup_data directory either reads all nine data files (none of them empty) and serves exactly their contents, or raises; if just one file is missing the import raises FileNotFoundError or ValueError, and for materials_list.csv a ValueError that names it.", "quantifier": "all directories (any number of files, any contents)", "why_tests_cant": "Unbounded set of directories; the tests patch one file at a time.", "anchors": ["pypbomb/tube.py:_collect_tube_materials", "pypbomb/tube.py:_get_flange_limits_from_csv", "pypbomb/tube.py:_import_thread_specs", "pypbomb/tube.py:_check_materials_list"]}
{"id": "C93", "title": "After import every listed material has stress limits", "statement": "If the import succeeds, then every grade in materials_list.csv has a column in both stress tables (provided their header lines have no stray white space at the ends), so looking up its stress limits cannot raise KeyError.", "quantifier": "all directories, all listed grades", "why_tests_cant": "Unbounded set of directories.", "anchors": ["pypbomb/tube.py:_check_materials_list", "pypbomb/tube.py:Tube._get_pipe_stress_limits"]}
{"id": "C94", "title": "After import every listed material has a flange table", "statement": "If the import succeeds, then every grade in materials_list.csv has a flange rating table, with a Temperature column and no negative pressure. (Refuted: the check accepts any group that some flange file name mentions, but only groups 2.1-2.3 are loaded.)", "quantifier": "all directories, all listed grades", "why_tests_cant": "Unbounded set of directories.", "anchors": ["pypbomb/tube.py:_check_materials_list", "pypbomb/tube.py:_get_flange_limits_from_csv", "pypbomb/tube.py:Flange.get_max_pressure"]}
{"id": "C95", "title": "The shipped data import cleanly", "statement": "Importing the package with the shipped lookup_data gives no warning and no error, and every table served is the shipped file's content.", "quantifier": "the shipped directory, whatever path it is reached by", "why_tests_cant": "Path independence ranges over all paths.", "anchors": ["pypbomb/tube.py:_check_materials_list", "pypbomb/tube.py:_collect_tube_materials"]}
{"id": "C96", "title": "Rounding moves window results only in the last digits", "statement": "With every arithmetic step rounded with relative error at most u, safety_factor, minimum_thickness and the round trip safety_factor(minimum_thickness(s)) stay within 280u, 220u and 680u (relative) of the exact values, whatever the sizes and units; in double precision within 1e-13.", "quantifier": "all window sizes, loads, moduli, units and safety factors; all roundings", "why_tests_cant": "Error bounds range over all inputs.", "anchors": ["pypbomb/tube.py:Window.safety_factor", "pypbomb/tube.py:Window.minimum_thickness"]}
{"id": "C97", "title": "Rounding never reverses the order of windows", "statement": "In rounded arithmetic too, a thicker window or a larger modulus of rupture never has a smaller safety factor, and a larger pressure never a larger one.", "quantifier": "all pairs of thicknesses, moduli, pressures in the same unit; all roundings", "why_tests_cant": "Order of all pairs of inputs.", "anchors": ["pypbomb/tube.py:Window.safety_factor"]}
{"id": "C98", "title": "Rounding lets no bad window argument through", "statement": "In rounded arithmetic safety_factor and minimum_thickness still raise ValueError for every argument of the wrong dimension, every negative one (however small) and every safety factor below 1.", "quantifier": "all arguments; all roundings", "why_tests_cant": "Includes arguments arbitrarily close to zero.", "anchors": ["pypbomb/tube.py:Window.safety_factor", "pypbomb/tube.py:Window.minimum_thickness"]}
{"id": "C99", "title": "Rounding and blockages", "statement": "In rounded arithmetic the blockage diameter is off by at most 15u tube diameters, non-negative, and non-decreasing in the ratio; the blockage ratio is always in [0, 1], off by at most 220u, and raised as an error exactly when the blockage reaches the tube diameter except within a relative 30u of it; ratio -> diameter -> ratio returns within 130u. (In double precision a ratio of 2^-55 or less gives a diameter of zero.)", "quantifier": "all tube and blockage diameters, ratios and units; all roundings", "why_tests_cant": "Error bounds range over all inputs.", "anchors": ["pypbomb/tube.py:DDT.calculate_blockage_diameter", "pypbomb/tube.py:DDT.calculate_blockage_ratio"]}
{"id": "C100", "title": "Rounding and the maximum pressure", "statement": "In rounded arithmetic calculate_max_pressure is off by at most 100u times stress / safety factor, however thin the wall.", "quantifier": "all tubes, stresses, safety factors and units; all roundings", "why_tests_cant": "Error bounds range over all inputs.", "anchors": ["pypbomb/tube.py:Tube.calculate_max_pressure"]}
{"id": "C101", "title": "Rounding and the dynamic load factor", "statement": "In rounded arithmetic dynamic_load_factor returns 1, 2 or 4, and the same one as the exact formula unless the velocity is within a relative margin (24T+40)u of an edge of the resonance band, T being (OD+ID)/(OD-ID) rounded up.", "quantifier": "all tubes with ID < OD, Poisson ratio in [0, 1/2], velocities and units; all roundings", "why_tests_cant": "The margin must cover all inputs.", "anchors": ["pypbomb/tube.py:Tube.dynamic_load_factor"]}
{"id": "C102", "title": "Worker pools are closed", "statement": "With use_multiprocessing every pool of worker processes made by cj_speed, calculate_reflected_shock_state or calculate_max_initial_pressure is closed before the call ends, normally or by an exception, and before the next one is made; without it no pool is made.", "quantifier": "all gases, mechanisms, pressures, tolerances, job orders and failures of the chemistry library", "why_tests_cant": "A failure can come from any job of any round.", "anchors": ["pypbomb/sd.py:Detonation.cj_speed", "pypbomb/thermochem.py:calculate_reflected_shock_state", "pypbomb/tube.py:Tube.calculate_max_initial_pressure"]}
{"id": "C103", "title": "Only the working gas is changed", "statement": "cj_state, get_eq_state and reflect change no gas object other than the working gas they are given, whether they return or raise, and return that same object; with separate objects for the arguments they leave it in the computed state.", "quantifier": "all gas objects (shared or not), gas behaviours, tolerances, iteration limits and failures", "why_tests_cant": "Every failure point and every sharing of arguments would have to be tried.", "anchors": ["pypbomb/sd.py:Detonation.cj_state", "pypbomb/sd.py:Reflection.get_eq_state", "pypbomb/sd.py:Reflection.reflect"]}
{"id": "C104", "title": "One gas object for two arguments", "statement": "Passing one gas object for two arguments of cj_state or reflect gives the same result as passing two gas objects in the same state.", "quantifier": "all gases, states, tolerances and ratios", "why_tests_cant": "The result depends on when each object is read.", "anchors": ["pypbomb/sd.py:Detonation.cj_state", "pypbomb/sd.py:Reflection.reflect"]}
{"id": "C105", "title": "Returned gas states are new objects", "statement": "cj_speed and calculate_reflected_shock_state change no existing gas object, even when they raise; the gas states they return are new objects, the CJ and the reflected one different, so changing one later changes nothing else.", "quantifier": "all heaps of gas objects, gases, mechanisms, inputs, failures and job orders", "why_tests_cant": "Needs every history of objects the caller may hold.", "anchors": ["pypbomb/sd.py:Detonation.cj_speed", "pypbomb/thermochem.py:calculate_reflected_shock_state"]}
{"id": "C106", "title": "The lookup tables hold exactly what the CSV files say", "statement": "The tables behind every lookup are the header and rows of the CSV text: lines split at line ends with empty lines dropped, fields split at every comma, a looked-up value taken from the first column with that heading; a cell counts as a number exactly when it is a decimal (digits, perhaps one point, perhaps a minus sign) and then it has that decimal's value, never two values; names are compared with white space at the ends removed where the code strips it, dots replaced character by character, and capitals ignored where the code lowers them.", "quantifier": "all CSV texts, cells, headings, separators and names", "why_tests_cant": "Tests read the nine shipped files; the rule is about every text.", "anchors": ["pypbomb/tube.py PIPE_SCHEDULES, MATERIAL_LIMITS, TUBE_MATERIALS, _check_materials_list, _get_flange_limits_from_csv, _import_thread_specs", "pypbomb/lookup_data/"]}
{"id": "C107", "title": "cj_state finds the wave of a perfect gas", "statement": "If the burnt gas at the requested density ratio is calorically perfect and a wave of that density ratio into the initial gas exists, cj_state returns without an exception and without a warning; the returned gas has exactly the temperature behind that wave and the returned speed is the wave's to within tol*(1/50 + 2 tol). With the default tolerances and iteration limit this covers every wave with temperature and speed between 1e-30 and 1e30.", "quantifier": "all perfect gases, initial states, density ratios, tolerances, iteration limits, wave temperatures and speeds", "why_tests_cant": "Convergence from the fixed starting guess has to hold for every gas; tests run a few mixtures.", "anchors": ["pypbomb/sd.py:Detonation.cj_state", "pypbomb/sd.py:Properties.equilibrium", "pypbomb/sd.py:GetError.equilibrium"]}
{"id": "C108", "title": "The initial-pressure search converges", "statement": "If, over the pressures the search can reach, the ratio of reflected to initial pressure varies by no more than the eps-th power of the initial pressure (eps < 1) and the load factor is the same, calculate_max_initial_pressure stops after at most N + 1 updates, where eps^N times the error left by the first update is within the tolerance; load factor times reflected pressure at the returned pressure meets max_pressure to the tolerance, and the returned pressure is within -ln(1 - tol)/(1 - eps), in logarithm, of the one right answer.", "quantifier": "all gases with such chemistry, tubes, limits, tolerances, iteration limits, with and without dynamic load factor", "why_tests_cant": "Convergence is about every mixture and every limit; a test sees one search.", "anchors": ["pypbomb/tube.py:Tube.calculate_max_initial_pressure"]}
{"id": "C109", "title": "A returned initial pressure is safe", "statement": "At the initial pressure returned by calculate_max_initial_pressure (with the dynamic load factor) the reflected pressure times the load factor exceeds max_pressure by no more than the tolerance.", "quantifier": "all gases, tubes, limits, tolerances and iteration limits", "why_tests_cant": "It depends on the whole series of trials; the load factor may jump between them.", "anchors": ["pypbomb/tube.py:Tube.calculate_max_initial_pressure", "pypbomb/tube.py:Tube.dynamic_load_factor"]}
{"id": "C110", "title": "cj_speed does not amplify errors of the wave speeds", "statement": "If the wave speeds found by cj_state differ from a parabola in the density ratio by at most some error, cj_speed returns a speed that differs from the parabola's minimum by at most twice that error.", "quantifier": "all gases, parabolas and errors, serial or with any worker order", "why_tests_cant": "The error of each of the 84 wave speeds is arbitrary and the windows of three rounds depend on it.", "anchors": ["pypbomb/sd.py:Detonation.cj_speed", "pypbomb/sd.py:cj_curve_fit"]}
{"id": "C111", "title": "Rating a catalogue pipe is safe and ordered", "statement": "For every offered pipe, listed material, temperature, joint type and positive safety factor, looking up the dimensions and the allowable stress and passing both to calculate_max_pressure returns a pressure that is not negative, satisfies the hoop-stress balance with the tabulated diameter and wall, never rises with temperature, is never higher for a welded than for a seamless pipe, and rises with the wall thickness of the schedule.", "quantifier": "all offered pipes, listed materials, temperatures, units and safety factors", "why_tests_cant": "Hundreds of pipes times materials times a continuum of temperatures and units; three functions composed.", "anchors": ["pypbomb/tube.py:Tube.get_dimensions", "pypbomb/tube.py:Tube.calculate_max_stress", "pypbomb/tube.py:Tube.calculate_max_pressure", "pypbomb/lookup_data//pipe_schedules.csv"]}
{"id": "C112", "title": "Flange class round trip", "statement": "For every material, class and temperature at which Flange.get_max_pressure returns a rating, Flange.get_class for that rating and temperature returns that class; so ratings strictly rise with the class at every temperature.", "quantifier": "all listed materials, classes and temperatures in any unit", "why_tests_cant": "A continuum of temperatures, including those where class 150 has no tabulated rating.", "anchors": ["pypbomb/tube.py:Flange.get_max_pressure", "pypbomb/tube.py:Flange.get_class"]}
{"id": "C113", "title": "Flange temperature round trip", "statement": "For every material, class and temperature at which Flange.get_max_pressure returns a rating, Flange.get_max_temperature for that rating returns a temperature that is at least the given one and at which the rating is the same.", "quantifier": "all listed materials, classes and temperatures in any unit, old and new scipy", "why_tests_cant": "A continuum of temperatures, with plateaus in the tables.", "anchors": ["pypbomb/tube.py:Flange.get_max_pressure", "pypbomb/tube.py:Flange.get_max_temperature"]}
{"id": "C114", "title": "cj_curve_fit: order of summation and rounding", "statement": "The fit does not depend on the order in which numpy adds; and in double precision the R^2 reported for points that lie exactly on a parabola is one up to the 1e-5 that cj_speed tests, and never above one.", "quantifier": "all data, all orders of summation, all roundings", "why_tests_cant": "The order of summation is numpy's and changes with the array size; rounding errors depend on every bit of the data.", "anchors": ["pypbomb/sd.py:cj_curve_fit", "pypbomb/sd.py:Detonation.cj_speed"]}
{"id": "C115", "title": "A limit that is not positive is not answered", "statement": "calculate_max_initial_pressure called with a max_pressure that is zero or negative raises instead of returning an initial pressure: ZeroDivisionError for zero, the gas object's refusal of the negative trial pressure for a negative limit.", "quantifier": "all tubes, mixtures, chemistry, temperatures, tolerances and iteration limits", "why_tests_cant": "the argument is not validated; whether an answer comes out depends on tolerance, iteration limit and chemistry together", "anchors": ["pypbomb/tube.py:Tube.calculate_max_initial_pressure", "pypbomb/thermochem.py:calculate_reflected_shock_state"]}
{"id": "C116", "title": "Non-convergence warnings are accurate", "statement": "A warning about non-convergence from Detonation.cj_state states the iteration limit that was in force; the one from Reflection.get_eq_state states the particle speed and the number of iterations.", "quantifier": "all gases, guesses, tolerances, speeds and iteration limits", "why_tests_cant": "the warning in get_eq_state is excluded from test coverage (pragma: no cover); the text must be right for every limit and speed", "anchors": ["pypbomb/sd.py:Detonation.cj_state", "pypbomb/sd.py:Reflection.get_eq_state"]}
{"id": "C117", "title": "Rounding and bolts", "statement": "In floating-point arithmetic every listed thread's stress areas, minimum engagement and safety factors agree with the handbook formulas to about twelve (factors: eleven) digits, although thread dimensions are subtracted from each other; the shear warning is right unless the two areas agree to eleven digits.", "quantifier": "all listed threads, strengths, engagements, pressures at least 0.01 atm above ambient, and every rounding with unit at most 1e-6 (double precision included)", "why_tests_cant": "cancellation depends on the thread; tests compare a few cases to a tolerance", "anchors": ["pypbomb/tube.py:Bolt.calculate_stress_areas", "pypbomb/tube.py:Bolt.calculate_safety_factors"]}
{"id": "C118", "title": "Rounding and the allowable stress", "statement": "In floating-point arithmetic the allowable stress agrees with the exactly interpolated one to 4000 rounding units of 1 ksi (double precision: 1e-12 ksi) at every temperature in every temperature unit; a hotter or welded pipe gets no more stress but for 8000 such units, and between two table rows a hotter pipe never gets more at all.", "quantifier": "all listed materials, welded or seamless, temperatures of any size written in any temperature unit, registries, and every rounding (double precision included)", "why_tests_cant": "near a table row a rounded temperature may fall into the wrong interval; tests compare a few temperatures to a tolerance", "anchors": ["pypbomb/tube.py:Tube.calculate_max_stress"]}
{"id": "C119", "title": "Rounding and flange ratings", "statement": "In floating-point arithmetic the rating of a flange class agrees with the exactly interpolated one to 3e9 rounding units of 1 Pa (double precision: 1e-6 Pa); temperatures inside the table are accepted and those outside rejected unless within 20000 rounding units of 1 degC of an end; the class chosen for a pressure covers it, and no smaller class does, but for 4e9 rounding units of 1 Pa; a class is found whenever class 2500 exceeds the pressure by that much.", "quantifier": "all listed materials, classes, temperatures written in any temperature unit, pressures, registries, and every rounding with unit at most 1e-6 (double precision included)", "why_tests_cant": "near a table row a rounded temperature may fall into the wrong interval and at the ends of the table an accepted temperature might be refused; tests compare a few temperatures to a tolerance", "anchors": ["pypbomb/tube.py:Flange.get_max_pressure", "pypbomb/tube.py:Flange.get_class"]}
{"id": "C120", "title": "Tube and blockage functions handle arrays element by element", "statement": "Tube.calculate_max_pressure and Tube.calculate_max_stress called with arrays return exactly when each position's single call returns, and then the same values; DDT.calculate_blockage_diameter likewise, except that a negative element after the first is let through (C90); arrays of different lengths are refused by calculate_max_pressure.", "quantifier": "all arrays of all lengths, with broadcasting of numbers and one-element arrays, all units, materials and registries", "why_tests_cant": "unbounded lengths and combinations of shapes", "anchors": ["pypbomb/tube.py:Tube.calculate_max_pressure", "pypbomb/tube.py:Tube.calculate_max_stress", "pypbomb/tube.py:DDT.calculate_blockage_diameter", "pypbomb/units.py:check_pint_quantity"]}
{"id": "C121", "title": "Functions that decide on a value refuse arrays", "statement": "DDT.calculate_blockage_ratio and Tube.dynamic_load_factor never answer a call in which an argument is an array of several elements (or, Poisson ratios aside, an empty one); with single values in one-element arrays they answer exactly as with numbers.", "quantifier": "all arrays of all lengths in any position, all units and registries", "why_tests_cant": "an array of the wrong shape could be answered for its first element only; unbounded lengths", "anchors": ["pypbomb/tube.py:DDT.calculate_blockage_ratio", "pypbomb/tube.py:Tube.dynamic_load_factor", "pypbomb/units.py:check_pint_quantity"]}
{"id": "C122", "title": "Unit independence of the remaining functions", "statement": "DDT.calculate_run_up, calculate_reflected_shock_state, Tube.calculate_max_initial_pressure (except for the unit of max_pressure), Tube.calculate_max_stress, Flange.get_class, get_max_pressure and get_max_temperature: expressing an argument in another unit, as another kind of argument or in another registry changes neither the answer, nor the exception, nor the sequence of calls to cantera.", "quantifier": "all arguments of right or wrong dimension and any sign, all units including the offset temperature scales, all behaviours of cantera, all numbers of iterations", "why_tests_cant": "unbounded units, magnitudes and chemistries; the search iterates", "anchors": ["pypbomb/tube.py:DDT.calculate_run_up", "pypbomb/tube.py:Tube.calculate_max_initial_pressure", "pypbomb/tube.py:Tube.calculate_max_stress", "pypbomb/tube.py:Flange", "pypbomb/thermochem.py:calculate_reflected_shock_state"]}
{"id": "C123", "title": "Comparing dimensionality strings is sound, and the messages say what is wrong", "statement": "check_pint_quantity compares texts, yet accepts exactly the quantities of the wanted dimension: two dimensionality strings are equal only for equal dimensions. A refusal for the dimension says '<actual> is not <expected>', and each side can be read back as one dimension only; the other refusals carry the documented texts, in the documented order.", "quantifier": "all dimensions (any integer exponents), all seven dimension types, all unknown types, all objects", "why_tests_cant": "exponents are unbounded, so the texts are infinitely many", "anchors": ["pypbomb/units.py:check_pint_quantity"]}
{"id": "C124", "title": "nan in, nan out", "statement": "A nan length, pressure, modulus, temperature, diameter, safety factor or blockage ratio never turns into an ordinary number: Window.safety_factor, Window.minimum_thickness, the blockage functions, Tube.calculate_max_pressure, calculate_max_stress and DDT.calculate_run_up then give nan or raise. None of the checks except 0 < BR < 1 and the flange class search stops a nan: a call that works keeps working, with the answer nan in the same unit, when any of its numbers becomes nan.", "quantifier": "all arguments, with nan in any non-empty set of places, as quantity or pair, in any unit", "why_tests_cant": "every comparison with nan is false, so each branch of each function is a separate way for nan to be lost", "anchors": ["pypbomb/sd.py:Window.safety_factor", "pypbomb/sd.py:DDT.calculate_blockage_diameter", "pypbomb/tube.py:Tube.calculate_max_pressure", "pypbomb/units.py:check_pint_quantity"]}
{"id": "C125", "title": "The dynamic load factor of an unknown tube is the cautious one", "statement": "With a nan diameter, wave speed, elastic modulus, density or Poisson ratio, Tube.dynamic_load_factor gives 4, the largest factor, wherever it gave a factor for ordinary numbers; a nan plus_or_minus is refused.", "quantifier": "all arguments, with nan in any non-empty set of places", "why_tests_cant": "it rests on both comparisons being false for nan, in every unit", "anchors": ["pypbomb/tube.py:Tube.dynamic_load_factor"]}
{"id": "C126", "title": "nan reaches both safety factors of a bolt", "statement": "If any argument of Bolt.calculate_safety_factors is nan, neither factor it gives is an ordinary number.", "quantifier": "all arguments and all threads of the tables, with nan in any place", "why_tests_cant": "the factors are computed from different arguments, and the choice between tension and shear area is a comparison", "anchors": ["pypbomb/tube.py:Bolt.calculate_safety_factors", "pypbomb/tube.py:Bolt.calculate_stress_areas"]}
{"id": "C127", "title": "A nan limit or tolerance is not taken for a solved search", "statement": "Tube.calculate_max_initial_pressure with a nan maximum pressure or a nan error tolerance raises or gives nan; with ordinary numbers it never does anything because of nan.", "quantifier": "all gases, tubes, limits, tolerances, iteration limits, pools", "why_tests_cant": "the outcome is decided by the loop condition being false for nan before the first step", "anchors": ["pypbomb/tube.py:Tube.calculate_max_initial_pressure"]}
{"id": "C128", "title": "Ordinary numbers stay ordinary numbers", "statement": "No function makes a nan (or behaves as with one) from ordinary numbers: each does exactly what it does over numbers without nan, and asks cantera the same questions in the same order, as long as cantera answers with ordinary numbers. (numpy's own inf/nan from a zero divisor or a negative radicand is a separate outcome in both.)", "quantifier": "all arguments of all calculations of the package, all cantera behaviours, all worker schedules", "why_tests_cant": "it is a statement about every branch and loop iteration at once", "anchors": ["pypbomb/sd.py:Window", "pypbomb/tube.py:Tube", "pypbomb/tube.py:Bolt", "pypbomb/tube.py:Flange"]}
{"id": "C129", "title": "The initial-pressure search under rounding", "statement": "Tube.calculate_max_initial_pressure computed with rounding at every operation: each trial is the previous one scaled by limit / (pressure * factor) up to rounding, and if the search stops before the iteration limit the pressure times the load factor is within (1+4u)|tol| + 2u of the limit, relatively. Where the reflected pressure is proportional to the initial one up to a fraction eta and the load factor constant, the search always returns, and unless it stayed at 1 atm its answer is within 2 eta + 6 u of the pressure that loads the tube to the limit.", "quantifier": "every rounding with relative error u that keeps order and small integers (double precision is one), all gases, tubes, limits, tolerances, iteration limits, pools", "why_tests_cant": "the loop is run by rounded errors; a test sees one number format and a few gases", "anchors": ["pypbomb/tube.py:Tube.calculate_max_initial_pressure"]}
{"id": "C130", "title": "The files that are read do not depend on the current directory", "statement": "Wherever Python is started from, importing the package opens the data files of the directory lookup_data beside its own module and no others, although the paths it makes are relative; find_mechanisms lists the directory data beside cantera's module and returns an absolute path, which names that directory from everywhere.", "quantifier": "all current directories, all places the package can be installed (POSIX paths, no symbolic links), absolute or relative __file__", "why_tests_cant": "a test run has one current directory and one installation", "anchors": ["pypbomb/tube.py:_DIR_LOOKUP_DATA", "pypbomb/tube.py:_collect_tube_materials", "pypbomb/tube.py:_check_materials_list", "pypbomb/tube.py:_get_flange_limits_from_csv", "pypbomb/tube.py:_import_thread_specs", "pypbomb/thermochem.py:find_mechanisms"]}
{"id": "C131", "title": "Looking things up does not change the tables", "statement": "Tube.calculate_max_stress and the Flange functions make and change pandas frames on the way, but never one of the module's tables (nor any other frame that existed before the call), also when they raise. So in every history of calls each gets the answer it gets alone.", "quantifier": "all histories of calls with all arguments, all contents of the tables for the first part; any number type; both scipy behaviours", "why_tests_cant": "a changed table shows up only in a later call, and there are unboundedly many histories", "anchors": ["pypbomb/tube.py:Tube._get_pipe_stress_limits", "pypbomb/tube.py:Tube.calculate_max_stress", "pypbomb/tube.py:Flange.get_class", "pypbomb/tube.py:Flange.get_max_pressure", "pypbomb/tube.py:Flange.get_max_temperature"]}
{"id": "C132", "title": "nan from the chemistry is not turned into a number", "statement": "calculate_cj_state gives nan exactly when its last, and only its last, temperature was nan; otherwise no temperature was. An ordinary CJ speed from cj_speed means the initial gas had no nan, some equilibrium gas had none, and cantera was never asked for a nan; chemistry that gives nan gives the speed nan. An ordinary reflected wave speed means the pressures and densities behind it are ordinary.", "quantifier": "all behaviours of cantera, with nan in any property of any gas; all initial conditions, tolerances, iteration limits, worker schedules", "why_tests_cant": "nan can come up in any of 84 iterations of any length, and every loop condition is false for it", "anchors": ["pypbomb/lookup_data/:Detonation.calculate_cj_state", "pypbomb/lookup_data/:Detonation.cj_speed", "pypbomb/lookup_data/:Reflection.get_eq_state", "pypbomb/lookup_data/:Reflection.reflect", "pypbomb/thermochem.py:calculate_reflected_shock_state"]}
{"id": "C133", "title": "A result that is not converged comes with a warning", "statement": "If calculate_cj_state returns without a warning, its iteration had converged: the last two temperatures are within the tolerance.", "quantifier": "all behaviours of cantera, all tolerances and iteration limits, nan included", "why_tests_cant": "the iteration can break down at any step", "anchors": ["pypbomb/lookup_data/:Detonation.calculate_cj_state"]}
{"id": "C134", "title": "The initial pressure returned was checked against the limit", "statement": "Unless its iteration limit is used up, Tube.calculate_max_initial_pressure returns a pressure at which the chosen final pressure times the load factor is within the tolerance of the limit.", "quantifier": "all behaviours of cantera, nan included; all tubes, limits, tolerances, iteration limits", "why_tests_cant": "the loop ends on a comparison that nan makes false, at any trial", "anchors": ["pypbomb/tube.py:Tube.calculate_max_initial_pressure"]}
{"id": "C135", "title": "A higher limit allows a higher initial pressure", "statement": "If the load on the tube (reflected pressure times load factor) does not fall when the tube is filled to a higher pressure, raising max_pressure does not lower the initial pressure that Tube.calculate_max_initial_pressure returns.", "quantifier": "all chemistry whose load is monotone, all tubes, pairs of limits, tolerances and iteration limits", "why_tests_cant": "two runs of an adaptive search with different step sequences are compared", "anchors": ["pypbomb/tube.py:Tube.calculate_max_initial_pressure"]}
{"id": "C136", "title": "Run-up distances for several tubes in one call", "statement": "DDT.calculate_run_up with an array of diameters returns, element by element, what the single calls return, doing the chemistry once, for blockage ratios up to 0.1 or from 0.3 to 0.75; between 0.1 and 0.3 it raises for an array (a ValueError where the single calls all return), and several blockage ratios in one call are always refused.", "quantifier": "all arrays of diameters, blockage ratios, units and gases", "why_tests_cant": "unbounded arrays, and three correlations with different array behaviour", "anchors": ["pypbomb/tube.py:DDT.calculate_run_up"]}
{"id": "C137", "title": "A reflection given without a warning is right", "statement": "For a calorically perfect gas there is exactly one state behind a reflected shock, and if Reflection.reflect (or get_eq_state) returns without a warning a gas at least one and a half times as dense as the gas behind the incident shock, then the pressure rise, temperature rise and wave speed are those of that state to about one part in 10000 (within the tolerance asked for, in general).", "quantifier": "all perfect gases, all incident waves that conserve mass, momentum and energy, all starting states and tolerances up to 1 percent", "why_tests_cant": "the iteration stops on the size of its last step, which says nothing by itself about the error; all gases and waves, any number of passes", "anchors": ["pypbomb/lookup_data/:Reflection.reflect", "pypbomb/lookup_data/:Reflection.get_eq_state"]}
{"id": "C138", "title": "A reflected shock compresses the gas", "statement": "For a calorically perfect gas, if Reflection.reflect returns without a warning, the reflected state has a higher pressure and temperature than the gas behind the incident shock.", "quantifier": "all perfect gases, all incident waves that conserve mass, momentum and energy", "why_tests_cant": "the failure is a false convergence after many passes, for weak shocks only", "anchors": ["pypbomb/lookup_data/:Reflection.reflect", "pypbomb/lookup_data/:Reflection.get_eq_state"]}
{"id": "C139", "title": "A flange can be found for every rated pipe", "statement": "Whenever the tables give a pipe's maximum pressure, with the stress limit of its material and any safety factor of at least one, Flange.get_class returns a class for that pressure, material and temperature, so the pipe can be closed with a flange of the package's own tables.", "quantifier": "all offered pipes, materials, safety factors of at least one, and temperatures inside the flange tables", "why_tests_cant": "joint property of the pipe schedule, the stress tables and the flange tables through three functions; real-valued temperature and safety factor. (Refuted with the default factor of 1; true from 4 up to 550 degC and from 24 everywhere.)", "anchors": ["pypbomb/tube.py:Flange.get_class", "pypbomb/tube.py:Tube.calculate_max_pressure", "pypbomb/tube.py:Tube.calculate_max_stress", "docs/example.ipynb"]}
{"id": "C140", "title": "The largest of several flange classes", "statement": "The largest, as the documentation takes it, of the classes get_class returns for several tubes (a maximum of strings) is rated for every pressure the classes were found for.", "quantifier": "all non-empty collections of get_class results for one material and temperature", "why_tests_cant": "all collections; the order of texts and the order of the ratings are different orders. (True for classes up to 900 or from 1500; refuted for every mixture of 300...900 with 1500 or 2500.)", "anchors": ["pypbomb/tube.py:Flange.get_class", "docs/example.ipynb"]}
{"id": "C141", "title": "The same results in IEEE-754 doubles", "statement": "Computed in binary64 with its infinities, subnormals and signed zeros, and given numbers that are 0 or between 1e-18 and 1e18 in size (1e-10 and 1e10 for the load factor), the window, blockage, maximum-pressure and load-factor calculations end exactly as in rounding with unbounded exponents: the same exception, or the same number; so the accuracies of C96, C100 and C101 hold of the floats returned.", "quantifier": "all arguments read in any unit of the table whose numbers are in the range; all registries", "why_tests_cant": "Overflow and loss of digits are possible somewhere in every product; absence ranges over all doubles in the range, in every unit.", "anchors": ["pypbomb/tube.py:Window.safety_factor", "pypbomb/tube.py:Window.minimum_thickness", "pypbomb/tube.py:DDT.calculate_blockage_diameter", "pypbomb/tube.py:DDT.calculate_blockage_ratio", "pypbomb/tube.py:Tube.calculate_max_pressure", "pypbomb/tube.py:Tube.dynamic_load_factor"]}
{"id": "C142", "title": "Window results are never negative in doubles", "statement": "Whatever floats are given (infinities, nan, subnormal numbers, signed zeros), a safety factor and a minimum thickness that are returned are not below zero.", "quantifier": "all arguments, all doubles, all registries", "why_tests_cant": "Signs through overflow and underflow, for all doubles.", "anchors": ["pypbomb/tube.py:Window.safety_factor", "pypbomb/tube.py:Window.minimum_thickness"]}
{"id": "C143", "title": "The order of windows in doubles", "statement": "For all floats given in one unit, however large or small: a thicker window or a stronger material never has a smaller safety factor and a larger pressure never a larger one; a larger required factor or pressure never has a thinner window and a stronger material never a thicker one - unless a result is nan.", "quantifier": "all pairs of doubles, all other arguments, all units", "why_tests_cant": "Order of all pairs of doubles, overflow and underflow included.", "anchors": ["pypbomb/tube.py:Window.safety_factor", "pypbomb/tube.py:Window.minimum_thickness"]}
{"id": "C144", "title": "Blockages in doubles stay within their bounds", "statement": "For all finite floats: a blockage ratio is between 0 and 1, and a blockage diameter between 0 and half of the pipe's diameter.", "quantifier": "all finite doubles and units", "why_tests_cant": "Bounds over all doubles. (True of diameters up to 1e290; a 1.5e308 m blockage in a 1.7e308 m tube has the ratio -inf.)", "anchors": ["pypbomb/tube.py:DDT.calculate_blockage_ratio", "pypbomb/tube.py:DDT.calculate_blockage_diameter"]}
{"id": "C145", "title": "Finite numbers give finite numbers", "statement": "Given finite floats, the window and blockage functions return finite floats.", "quantifier": "all finite doubles and units", "why_tests_cant": "All doubles. (True of numbers between 1e-18 and 1e18; refuted: 1e-200 m of a material of 1e308 Pa has the safety factor nan.)", "anchors": ["pypbomb/tube.py:Window.safety_factor", "pypbomb/tube.py:Window.minimum_thickness", "pypbomb/tube.py:DDT.calculate_blockage_ratio", "pypbomb/tube.py:DDT.calculate_blockage_diameter"]}
{"id": "C146", "title": "Units mean what they are defined to mean", "statement": "A magnitude with the name of a unit is read as the value its legal definition gives: the international inch of 25.4 mm, foot and mile, the pound-force per square inch from the pound of 0.45359237 kg and standard gravity, the atmosphere of 101325 Pa, the bar, degrees Celsius and Fahrenheit with their zeros; and a result converted to a unit is the number that means the same value in it. Each name of the model is in the list once.", "quantifier": "all listed unit names, all real magnitudes, all registries", "why_tests_cant": "All real magnitudes in every unit, both directions; the definitions are stated apart from the unit table.", "anchors": ["pypbomb/units.py:parse_quant_input"]}
{"id": "C147", "title": "Sound speed and run-up distance under rounding", "statement": "With every operation rounded by at most the fraction u, get_eq_sound_speed is right up to 45000 u (the pressure rise of 0.01 % loses four digits), and calculate_run_up, for blockage ratios 0.3 to 0.75, is right up to 50000 u plus 10 K u where the density ratio is at least 1 + 1/K; in double precision that is 7e-12 for a density ratio of 2.", "quantifier": "all roundings, all mixtures that can be compressed, all diameters, temperatures and pressures in any unit", "why_tests_cant": "All inputs and all roundings. The chemistry is any function from states to states; what is bounded is the arithmetic around it.", "anchors": ["pypbomb/tube.py:DDT.calculate_run_up", "pypbomb/thermochem.py:get_eq_sound_speed"]}
{"id": "C148", "title": "Bolts in double precision", "statement": "With arguments that are 0 or between 1e-18 and 1e18, calculate_stress_areas and calculate_safety_factors in IEEE doubles end as they do with unbounded rounding: the same error or the same numbers, nothing overflowing and no digits lost to underflow, for every thread size and class; so the safety factors are right to 1e-11. Python's pi is the double nearest to pi.", "quantifier": "all double-precision arguments of that size, all thread sizes and classes", "why_tests_cant": "All doubles of that size, and every row of the thread tables.", "anchors": ["pypbomb/tube.py:Bolt.calculate_stress_areas", "pypbomb/tube.py:Bolt.calculate_safety_factors", "pypbomb/lookup_data/ANSI_inch_internal_thread.csv", "pypbomb/lookup_data/ANSI_inch_external_thread.csv"]}
{"id": "C149", "title": "Stress tables and flange ratings in double precision", "statement": "With a temperature and pressure whose numbers are 0 or between 1e-18 and 1e18, in any unit, calculate_max_stress, Flange.get_max_pressure and Flange.get_max_temperature in IEEE doubles end as they do with unbounded rounding: the same error or the same number; Flange.get_class gives the same class. So the stress is right to 1e-12 ksi, the rating to 1e-6 Pa, and the class covers the pressure, and no smaller one does, but for 1e-6 Pa.", "quantifier": "all double-precision temperatures and pressures of that size in all units, all materials, classes and both interpolation libraries", "why_tests_cant": "All doubles of that size, and every cell of the stress and rating tables.", "anchors": ["pypbomb/tube.py:Tube.calculate_max_stress", "pypbomb/tube.py:Flange.get_class", "pypbomb/tube.py:Flange.get_max_pressure", "pypbomb/tube.py:Flange.get_max_temperature"]}
{"id": "C150", "title": "The temperature limit of a flange class under rounding", "statement": "Flange.get_max_temperature, with every operation, literal and unit factor rounded, still sorts the ratings as in exact arithmetic and keeps equal ones equal: for a pressure a rounding margin above some positive rating of the class and below another, it returns the exact temperature but for a few rounding units (in doubles within 1e-7 K, without overflow), and the exact rating there covers the pressure but for a rounding error; out of the ratings by a margin it raises ValueError; with an interpolation library that rejects repeated abscissae it never returns.", "quantifier": "all roundings to at least six digits (doubles among them), all pressures and units, all materials and classes", "why_tests_cant": "All pressures and all roundings: the order of equal and nearly equal ratings decides which temperature is found.", "anchors": ["pypbomb/tube.py:Flange.get_max_temperature"]}
{"id": "C151", "title": "Rating a catalogue pipe in floating point", "statement": "Looking a pipe's dimensions up, its material's stress limit at a temperature, and asking for the maximum pressure: with every operation, literal and unit factor rounded by a fraction u, the rating is within 1e11 u / safety factor pascals of the exact one; in IEEE-754 doubles nothing overflows or underflows, every call raises what the rounded one raises, and a rating is within 2e-5 Pa / safety factor of the exact one (28/10 apart, whose table entry is a misprint).", "quantifier": "all sizes, schedules, materials, temperatures in all units, safety factors and all roundings to at least six digits (doubles among them)", "why_tests_cant": "Subtractions and an interpolation near steps of the table, for every cell and every temperature.", "anchors": ["pypbomb/tube.py:Tube.get_dimensions"]}
{"id": "C152", "title": "Pipe ratings in doubles keep the order of walls and temperatures", "statement": "Of two schedules of one pipe size the one with the thicker wall is rated strictly higher by doubles wherever the material carries at least 1 Pa, and schedules with the same wall get exactly the same rating; a hotter or a welded pipe is never rated higher than a cooler or seamless one by more than 4e-5 Pa / safety factor, and no rating is below zero by more than 2e-5 Pa / safety factor (28/10 apart).", "quantifier": "all sizes, pairs of schedules, materials, temperatures in all units and safety factors", "why_tests_cant": "The order must survive every rounding for every pair of cells and every pair of temperatures.", "anchors": ["pypbomb/tube.py:Tube.calculate_max_pressure"]}
{"id": "C153", "title": "Stress limits in doubles keep the order of temperatures and welds", "statement": "Computed with doubles, the allowable stress of a hotter pipe is never above that of a cooler one, nor a welded pipe's above a seamless one's, by more than 1e-12 ksi, whatever the temperatures and units; between two rows of the table, in one unit, it does not rise by even the last bit.", "quantifier": "all materials, welded or not, all pairs of temperatures, in and out of the table", "why_tests_cant": "Interpolation rounds differently at every temperature; the order is a statement about all pairs.", "anchors": ["pypbomb/tube.py:Tube.calculate_max_stress"]}
{"id": "C154", "title": "Flange ratings in doubles keep the order of classes and temperatures", "statement": "Computed with doubles, a larger class is rated at least 9999 Pa higher than a smaller one at the same temperature, and a hotter flange is never rated higher than a cooler one by more than 2e-6 Pa, nor any rating below zero by more.", "quantifier": "all materials, pairs of classes, pairs of temperatures of the table, in all units", "why_tests_cant": "The order is a statement about all pairs of temperatures and all roundings.", "anchors": ["pypbomb/tube.py:Flange.get_max_pressure"]}
{"id": "C155", "title": "The class of a flange's own rating, in doubles", "statement": "Computed with doubles, get_class asked for the pressure that get_max_pressure has just returned for a class, at the same temperature, returns that class.", "quantifier": "all materials, classes and temperatures of the table, in all units", "why_tests_cant": "Whether the comparison of a rating with itself survives the rounding is a question about every temperature; at most of them it does.", "anchors": ["pypbomb/tube.py:Flange.get_class", "pypbomb/tube.py:Flange.get_max_pressure"]}
