(** * BoltM: model of class Bolt, /repo/pypbomb/tube.py:317-687 *)
From Coq Require Import String Ascii ZArith QArith List Bool.
From Verif Require Import PyBase Pint UnitsM Csv Tables.
Import ListNotations.
Local Open Scope string_scope.
Local Open Scope num_scope.

(** tube.py:530-533 and the like, 686: [THREAD_SPECS[kind][prop][size][cls]]: rows whose two index columns match.
    No row: KeyError.  Two rows: pandas returns a Series, which pint refuses to wrap
    (TypeError). *)
Definition thread_rows (internal : bool) (size cls : string) : list (list string) :=
  filter (fun r => (String.eqb (hd "" r) size && String.eqb (hd "" (tl r)) cls)%bool)
         (f_rows (THREAD_SPECS internal)).

Definition thread_cell (internal : bool) (prop size cls : string) : result Q :=
  if negb (str_mem prop (tl (tl (f_cols (THREAD_SPECS internal)))))
  then Err (KeyError prop)
  else match thread_rows internal size cls with
       | [] => Err (KeyError size)
       | [r] => match num_cell (f_cols (THREAD_SPECS internal)) r prop with
                | Some q => Ok q
                | None => Err NotFinite
                end
       | _ => Err (TypeError "Quantity cannot wrap upcast type Series")
       end.

Section Bolt.
  Context {A : Type} {NA : Num A}.

  (** tube.py:629-687 Bolt.get_thread_property *)
  Definition get_thread_property (prop size cls : string) (reg : nat)
    : result (quantity A) :=
    let grade := (contains "2" cls || contains "3" cls)%bool in
    let* internal :=
      (if contains "A" cls && grade then Ok false
       else if contains "B" cls && grade then Ok true
       else Err (ValueError "bad thread class"))%bool in
    let specs := THREAD_SPECS internal in
    let* _ := raise_if (negb (str_mem prop (tl (tl (f_cols specs)))))
                       (KeyError ("Thread property '" ++ prop ++ "' not found.")) in
    let* _ := raise_if (negb (str_mem size (index_of specs)))
                       (KeyError ("Thread size '" ++ size ++ "' not found")) in
    let* v := thread_cell internal prop size cls in
    quant reg (nofQ v) "in".

  (** [float(thread_size.split("-")[-1])], tube.py:557-560 *)
  Definition threads_per_inch (size : string) : result A :=
    match parse_number (last (split_on "-" size) "") with
    | Some q => Ok (nofQ q)
    | None => Err (ValueError "could not convert string to float")
    end.

  Record thread_areas : Type := mkThread {
    screw_area : quantity A;
    plate_area : quantity A;
    minimum_engagement : quantity A;
    shear_warning : bool            (* "Screws fail in shear, not tension." *)
  }.

  (** Conversion to the local registry, tube.py:433-441, 513-524: [quant(q.magnitude, units)] *)
  Definition rereg (q : quantity A) (reg : nat) : quantity A :=
    mkQ (q_mag q) (q_unit q) reg.

  (** tube.py:569-581: tensile stress area, by bolt strength *)
  Definition tensile_area (bolt_max_tensile basic_diameter e_s_min tpi : quantity A)
      (reg : nat) : result (quantity A) :=
    let* limit := quant reg (lit 100000) "psi" in
    let* weak := q_lt bolt_max_tensile limit in
    if weak then
      let* p := n_divq pydiv (lit 0.9742785) tpi in
      let* d := q_sub basic_diameter p in
      let* d2 := q_sq d in
      q_scale (npi / lit 4) d2
    else
      let* h := q_divn pydiv e_s_min (lit 2) in
      let* p := n_divq pydiv (lit 0.16238) tpi in
      let* d := q_sub h p in
      let* d2 := q_sq d in
      q_scale npi d2.

  (** tube.py:585-588 and 604-607: shear area
      [np.pi * tpi * engagement * d * (1./(2*tpi) + 0.57735*(x - y))] *)
  Definition shear_area (tpi engagement d x y : quantity A) : result (quantity A) :=
    let* a := q_scale npi tpi in
    let* a := q_mul a engagement in
    let* a := q_mul a d in
    let* t2 := q_scale (lit 2) tpi in
    let* half_pitch := n_divq pydiv one t2 in
    let* diff := q_sub x y in
    let* k := q_scale (lit 0.57735) diff in
    let* s := q_add half_pitch k in
    q_mul a s.

  (** tube.py:453-627 Bolt.calculate_stress_areas *)
  Definition calculate_stress_areas (thread_size thread_class : string)
      (bolt_max_tensile plate_max_tensile engagement_length : quantity A) (reg : nat)
    : result thread_areas :=
    let* _ := check_q bolt_max_tensile "pressure" true in
    let* _ := check_q plate_max_tensile "pressure" true in
    let* _ := check_q engagement_length "length" true in
    let bolt_max_tensile := rereg bolt_max_tensile reg in
    let plate_max_tensile := rereg plate_max_tensile reg in
    let engagement_length := rereg engagement_length reg in
    let internal := thread_class ++ "B" in
    let external := thread_class ++ "A" in
    let* k_n_max := thread_cell true "minor diameter max" thread_size internal in
    let* k_n_max := quant reg (nofQ k_n_max) "in" in
    let* e_s_min := thread_cell false "pitch diameter min" thread_size external in
    let* e_s_min := quant reg (nofQ e_s_min) "in" in
    let* e_n_max := thread_cell true "pitch diameter max" thread_size internal in
    let* e_n_max := quant reg (nofQ e_n_max) "in" in
    let* d_s_min := thread_cell false "major diameter min" thread_size external in
    let* d_s_min := quant reg (nofQ d_s_min) "in" in
    let* tpi := threads_per_inch thread_size in
    let* tpi := quant reg tpi "1/in" in
    let* basic_diameter := thread_cell false "basic diameter" thread_size external in
    let* basic_diameter := quant reg (nofQ basic_diameter) "in" in
    let* screw_area_tensile :=
      tensile_area bolt_max_tensile basic_diameter e_s_min tpi reg in
    let* screw_area_shear :=
      shear_area tpi engagement_length k_n_max e_s_min k_n_max in
    let* shear := q_lt screw_area_shear screw_area_tensile in
    let screw := if shear then screw_area_shear else screw_area_tensile in
    let* plate := shear_area tpi engagement_length d_s_min d_s_min e_n_max in
    let* j_num := q_mul screw_area_shear bolt_max_tensile in
    let* j_den := q_mul plate plate_max_tensile in
    let* j_factor := q_div npdiv j_num j_den in
    let* num := q_scale (lit 2) screw_area_tensile in
    let* k_pi := q_scale npi k_n_max in
    let* c := q_scale (lit 0.57735) tpi in
    let* diff := q_sub e_s_min k_n_max in
    let* c := q_mul c diff in
    let* s := n_addq (one / lit 2) c in
    let* den := q_mul k_pi s in
    let* base := q_div npdiv num den in
    let* min_engagement := q_mul base j_factor in
    Ok (mkThread screw plate min_engagement shear).

  Record bolt_factors : Type := mkFactors {
    sf_bolt : A; sf_plate : A; sf_warning : bool }.

  (** tube.py:321-451 Bolt.calculate_safety_factors *)
  Definition calculate_safety_factors (max_pressure window_area : pyin A)
      (num_bolts : A) (thread_size thread_class : string)
      (bolt_max_tensile plate_max_tensile engagement_length : pyin A) (reg : nat)
    : result bolt_factors :=
    let* max_pressure := parse_quant_input max_pressure reg in
    let* window_area := parse_quant_input window_area reg in
    let* bolt_max_tensile := parse_quant_input bolt_max_tensile reg in
    let* plate_max_tensile := parse_quant_input plate_max_tensile reg in
    let* engagement_length := parse_quant_input engagement_length reg in
    let* _ := check_q max_pressure "pressure" true in
    let* _ := check_q window_area "area" true in
    let* _ := check_q bolt_max_tensile "pressure" true in
    let* _ := check_q plate_max_tensile "pressure" true in
    let* _ := check_q engagement_length "length" true in
    let* atm := quant reg one "atm" in
    let* gauge := q_sub max_pressure atm in
    let* force := q_mul gauge window_area in
    let* window_force := q_divn pydiv force num_bolts in
    let* thread := calculate_stress_areas thread_size thread_class
                     bolt_max_tensile plate_max_tensile engagement_length reg in
    let screw := rereg (screw_area thread) reg in
    let plate := rereg (plate_area thread) reg in
    let* stress_b := q_div npdiv window_force screw in
    let* b := q_div npdiv bolt_max_tensile stress_b in
    let* b := q_plain b in
    let* stress_p := q_div npdiv window_force plate in
    let* p := q_div npdiv plate_max_tensile stress_p in
    let* p := q_plain p in
    Ok (mkFactors b p (shear_warning thread)).
End Bolt.
Arguments thread_areas A : clear implicits.
Arguments bolt_factors A : clear implicits.
