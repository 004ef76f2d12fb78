(** * VectorM: the same functions called with arrays.

    Window.safety_factor, Window.minimum_thickness (/repo/pypbomb/tube.py:1024-1207) and
    Bolt.calculate_safety_factors / calculate_stress_areas (tube.py:321-627) are written
    with numpy operations and are used with arrays (tests/test_tube.py:64, 389, 449).
    Here a magnitude is a number or a one-dimensional ndarray; every other line is read
    as in WindowM.v and BoltM.v.

    Simplification: where one element of an array becomes inf or nan the model gives
    [NotFinite] for the whole call. *)
From Coq Require Import String ZArith QArith List Bool.
From Verif Require Import PyBase Pint UnitsM Csv Tables WindowM BoltM.
Import ListNotations.
Local Open Scope string_scope.
Local Open Scope num_scope.

(** a number or a one-dimensional ndarray *)
Inductive vmag (A : Type) : Type := Sca (a : A) | Arr (l : list A).
Arguments Sca {A}. Arguments Arr {A}.

(** numpy broadcasting of two operands: equal lengths, or one of them of length one or
    a number; otherwise ValueError. *)
Definition broadcast_error {B} : result B :=
  Err (ValueError "operands could not be broadcast together").
Definition lift2 {A B C} (f : A -> B -> result C) (x : vmag A) (y : vmag B)
  : result (vmag C) :=
  match x, y with
  | Sca a, Sca b => let* c := f a b in Ok (Sca c)
  | Sca a, Arr m => let* l := mapM (f a) m in Ok (Arr l)
  | Arr l, Sca b => let* l := mapM (fun a => f a b) l in Ok (Arr l)
  | Arr l, Arr m =>
    if Nat.eqb (length l) (length m) then
      let* l := mapM (fun p => f (fst p) (snd p)) (combine l m) in Ok (Arr l)
    else match l, m with
         | [a], _ => let* l := mapM (f a) m in Ok (Arr l)
         | _, [b] => let* l := mapM (fun a => f a b) l in Ok (Arr l)
         | _, _ => broadcast_error
         end
  end.
Definition lift1 {A B} (f : A -> result B) (x : vmag A) : result (vmag B) :=
  match x with
  | Sca a => let* b := f a in Ok (Sca b)
  | Arr l => let* l := mapM f l in Ok (Arr l)
  end.

(** Python's [if mask:]: an array of more than one element raises; an empty one is
    false. *)
Definition truth (x : vmag bool) : result bool :=
  match x with
  | Sca b => Ok b
  | Arr [] => Ok false
  | Arr [b] => Ok b
  | Arr _ => Err (ValueError ("The truth value of an array with more than one element "
                              ++ "is ambiguous. Use a.any() or a.all()"))
  end.

Section Vector.
  Context {A : Type} {NA : Num A}.

  Record vquantity : Type := mkV { v_mag : vmag A; v_unit : unit_ A; v_reg : nat }.

  (** an argument: a quantity, a (magnitude, unit) pair, or anything else without the
      attributes parse_quant_input looks for *)
  Inductive vpyin : Type :=
  | VQ (q : vquantity)
  | VPair (m : vmag A) (s : string)
  | VBad.

  (** a quantity whose magnitude is a number *)
  Definition scalar (q : quantity A) : vquantity :=
    mkV (Sca (q_mag q)) (q_unit q) (q_reg q).

  (** units.py:84-114 *)
  Definition v_parse (i : vpyin) (reg : nat) : result vquantity :=
    match i with
    | VQ q => Ok (mkV (v_mag q) (v_unit q) reg)
    | VPair m s => match lookup_unit s with
                   | Some u => Ok (mkV m u reg)
                   | None => Err UndefinedUnitError
                   end
    | VBad => Err (ValueError "Bad quantity input")
    end.

  Definition v_raw (m : vmag A) : rawmag A :=
    match m with Sca a => MNum a | Arr l => MArr l end.

  (** units.py:10-81 (looks at the first element of an array only) *)
  Definition v_check (q : vquantity) (dimension_type : string) (pos : bool)
    : result bool :=
    check_pint_quantity (OQuant (v_raw (v_mag q)) (v_unit q)) dimension_type pos.

  Definition v_map (f : A -> A) (m : vmag A) : vmag A :=
    match m with Sca a => Sca (f a) | Arr l => Arr (map f l) end.

  (** [q.to_base_units()], [q.to(u)] *)
  Definition v_base_mag (q : vquantity) : vmag A :=
    v_map (fun a => base_mag (mkQ a (v_unit q) (v_reg q))) (v_mag q).
  Definition v_to_base (q : vquantity) : vquantity :=
    mkV (v_base_mag q) (mult_unit (u_dim (v_unit q)) one) (v_reg q).
  Definition v_to (q : vquantity) (u : unit_ A) : result vquantity :=
    if dim_eqb (u_dim (v_unit q)) (u_dim u) then
      Ok (mkV (v_map (fun a => let b := base_mag (mkQ a (v_unit q) (v_reg q)) in
                               match u_off u with
                               | None => b / u_scale u
                               | Some o => (b - o) / u_scale u
                               end) (v_mag q)) u (v_reg q))
    else Err DimensionalityError.

  Definition v_offset_free (q : vquantity) : result unit :=
    match u_off (v_unit q) with
    | None => Ok tt
    | Some _ => Err OffsetUnitCalculusError
    end.
  Definition v_same_reg (p q : vquantity) : result unit :=
    if Nat.eqb (v_reg p) (v_reg q) then Ok tt
    else Err (ValueError
      "Cannot operate with Quantity and Quantity of different registries.").

  (** division: as Python for two numbers ([div]), as numpy as soon as an array takes
      part *)
  Definition vdiv (div : A -> A -> result A) (x y : vmag A) : result (vmag A) :=
    match x, y with
    | Sca a, Sca b => let* c := div a b in Ok (Sca c)
    | _, _ => lift2 npdiv x y
    end.

  Definition v_mul (p q : vquantity) : result vquantity :=
    let* _ := v_same_reg p q in
    let* _ := v_offset_free p in
    let* _ := v_offset_free q in
    let* m := lift2 (fun a b => Ok (a * b)) (v_mag p) (v_mag q) in
    Ok (mkV m (mult_unit (dim_mul (u_dim (v_unit p)) (u_dim (v_unit q)))
                         (u_scale (v_unit p) * u_scale (v_unit q))) (v_reg p)).
  Definition v_div (div : A -> A -> result A) (p q : vquantity) : result vquantity :=
    let* _ := v_same_reg p q in
    let* _ := v_offset_free p in
    let* _ := v_offset_free q in
    let* m := vdiv div (v_mag p) (v_mag q) in
    Ok (mkV m (mult_unit (dim_div (u_dim (v_unit p)) (u_dim (v_unit q)))
                         (u_scale (v_unit p) / u_scale (v_unit q))) (v_reg p)).
  (** number or array * quantity; quantity / number or array *)
  Definition v_scale (k : vmag A) (q : vquantity) : result vquantity :=
    let* _ := v_offset_free q in
    let* m := lift2 (fun a b => Ok (a * b)) k (v_mag q) in
    Ok (mkV m (v_unit q) (v_reg q)).
  Definition v_divn (div : A -> A -> result A) (q : vquantity) (k : vmag A)
    : result vquantity :=
    let* _ := v_offset_free q in
    let* m := vdiv div (v_mag q) k in
    Ok (mkV m (v_unit q) (v_reg q)).
  Definition v_sub (p q : vquantity) : result vquantity :=
    let* _ := v_same_reg p q in
    let* _ := v_offset_free p in
    let* _ := v_offset_free q in
    let* q' := v_to q (v_unit p) in
    let* m := lift2 (fun a b => Ok (a - b)) (v_mag p) (v_mag q') in
    Ok (mkV m (v_unit p) (v_reg p)).
  Definition v_naddq (k : A) (q : vquantity) : result vquantity :=
    if dim_eqb (u_dim (v_unit q)) d_none then
      Ok (mkV (v_map (fun b => k + b) (v_base_mag q)) (mult_unit d_none one) (v_reg q))
    else Err DimensionalityError.
  Definition v_sq (q : vquantity) : result vquantity :=
    let* _ := v_offset_free q in
    Ok (mkV (v_map sq (v_mag q))
            (mult_unit (dim_mul (u_dim (v_unit q)) (u_dim (v_unit q)))
                       (sq (u_scale (v_unit q)))) (v_reg q)).
  Definition v_sqrt (q : vquantity) : result vquantity :=
    let* _ := v_offset_free q in
    match dim_root 2 (u_dim (v_unit q)) with
    | None => Err Unmodelled
    | Some d =>
      let* m := lift1 npsqrt (v_mag q) in
      Ok (mkV m (mult_unit d (nsqrt (u_scale (v_unit q)))) (v_reg q))
    end.
  (** [if p < q:] *)
  Definition v_lt (p q : vquantity) : result bool :=
    let* _ := v_same_reg p q in
    if dim_eqb (u_dim (v_unit p)) (u_dim (v_unit q)) then
      let* mask := lift2 (fun a b => Ok (a <? b)) (v_base_mag p) (v_base_mag q) in
      truth mask
    else Err DimensionalityError.
  (** [q.to("").magnitude] *)
  Definition v_plain (q : vquantity) : result (vmag A) :=
    let* q' := v_to q (mult_unit d_none one) in Ok (v_mag q').

  Definition v_parse_base (i : vpyin) (reg : nat) : result vquantity :=
    let* q := v_parse i reg in Ok (v_to_base q).

  (** tube.py:1024-1116 Window.safety_factor *)
  Definition v_safety_factor (length width thickness pressure rupture_modulus : vpyin)
      (reg : nat) : result (vmag A) :=
    let* length := v_parse_base length reg in
    let* width := v_parse_base width reg in
    let* thickness := v_parse_base thickness reg in
    let* pressure := v_parse_base pressure reg in
    let* rupture_modulus := v_parse_base rupture_modulus reg in
    let* _ := v_check length "length" true in
    let* _ := v_check width "length" true in
    let* _ := v_check thickness "length" true in
    let* _ := v_check pressure "pressure" true in
    let* _ := v_check rupture_modulus "pressure" true in
    let* r := v_div pydiv length width in
    let* t_over_l := v_div pydiv thickness length in
    let* t_over_l_2 := v_sq t_over_l in
    let* m2 := v_scale (Sca (lit 2)) rupture_modulus in
    let* r2 := v_sq r in
    let* one_r2 := v_naddq one r2 in
    let* m_term := v_mul m2 one_r2 in
    let* numerator := v_mul t_over_l_2 m_term in
    let* denominator := v_scale (Sca window_k) pressure in
    let* sf := v_div pydiv numerator denominator in
    v_plain sf.

  (** the safety_factor argument: numbers, or something that cannot be compared with 1 *)
  Inductive vsf_arg : Type := VSfNum (m : vmag A) | VSfNonNumeric.

  (** tube.py:1118-1207 Window.minimum_thickness *)
  Definition v_minimum_thickness (length width : vpyin) (safety_factor : vsf_arg)
      (pressure rupture_modulus : vpyin) (reg : nat) : result vquantity :=
    let* length := v_parse_base length reg in
    let* width := v_parse_base width reg in
    let* pressure := v_parse_base pressure reg in
    let* rupture_modulus := v_parse_base rupture_modulus reg in
    let* _ := v_check length "length" true in
    let* _ := v_check width "length" true in
    let* _ := v_check pressure "pressure" true in
    let* _ := v_check rupture_modulus "pressure" true in
    let* sf := match safety_factor with
               | VSfNonNumeric => Err (TypeError "Non-numeric window safety factor")
               | VSfNum m =>
                 let* mask := lift1 (fun s => Ok (s <? one)) m in
                 let* low := truth mask in
                 if low then Err (ValueError "Window safety factor < 1") else Ok m
               end in
    let* r := v_div pydiv length width in
    let* root_sf := lift1 (fun s => npsqrt (s * window_k / lit 2)) sf in
    let* l_sf := v_scale root_sf length in
    let* r2 := v_sq r in
    let* one_r2 := v_naddq one r2 in
    let* m_term := v_mul rupture_modulus one_r2 in
    let* p_over_m := v_div pydiv pressure m_term in
    let* root_p := v_sqrt p_over_m in
    let* thickness := v_mul l_sf root_p in
    v_to thickness (v_unit width).

  (** ** Bolt *)
  Definition v_rereg (q : vquantity) (reg : nat) : vquantity :=
    mkV (v_mag q) (v_unit q) reg.

  (** tube.py:569-581 (the strength only decides the branch) *)
  Definition v_tensile_area (bolt_max_tensile : vquantity)
      (basic_diameter e_s_min tpi : quantity A) (reg : nat) : result (quantity A) :=
    let* limit := quant reg (lit 100000) "psi" in
    let* weak := v_lt bolt_max_tensile (scalar limit) in
    if weak then
      let* p := n_divq pydiv (lit 0.9742785) tpi in
      let* d := q_sub basic_diameter p in
      let* d2 := q_sq d in
      q_scale (npi / lit 4) d2
    else
      let* h := q_divn pydiv e_s_min (lit 2) in
      let* p := n_divq pydiv (lit 0.16238) tpi in
      let* d := q_sub h p in
      let* d2 := q_sq d in
      q_scale npi d2.

  (** tube.py:585-588 and 604-607 *)
  Definition v_shear_area (tpi : quantity A) (engagement : vquantity) (d x y : quantity A)
    : result vquantity :=
    let* a := q_scale npi tpi in
    let* a := v_mul (scalar a) engagement in
    let* a := v_mul a (scalar d) in
    let* t2 := q_scale (lit 2) tpi in
    let* half_pitch := n_divq pydiv one t2 in
    let* diff := q_sub x y in
    let* k := q_scale (lit 0.57735) diff in
    let* s := q_add half_pitch k in
    v_mul a (scalar s).

  Record v_thread_areas : Type := mkVThread {
    v_screw_area : vquantity;
    v_plate_area : vquantity;
    v_minimum_engagement : vquantity;
    v_shear_warning : bool
  }.

  (** tube.py:453-627 Bolt.calculate_stress_areas *)
  Definition v_stress_areas (thread_size thread_class : string)
      (bolt_max_tensile plate_max_tensile engagement_length : vquantity) (reg : nat)
    : result v_thread_areas :=
    let* _ := v_check bolt_max_tensile "pressure" true in
    let* _ := v_check plate_max_tensile "pressure" true in
    let* _ := v_check engagement_length "length" true in
    let bolt_max_tensile := v_rereg bolt_max_tensile reg in
    let plate_max_tensile := v_rereg plate_max_tensile reg in
    let engagement_length := v_rereg engagement_length reg in
    let internal := thread_class ++ "B" in
    let external := thread_class ++ "A" in
    let* k_n_max := thread_cell true "minor diameter max" thread_size internal in
    let* k_n_max := quant reg (nofQ k_n_max) "in" in
    let* e_s_min := thread_cell false "pitch diameter min" thread_size external in
    let* e_s_min := quant reg (nofQ e_s_min) "in" in
    let* e_n_max := thread_cell true "pitch diameter max" thread_size internal in
    let* e_n_max := quant reg (nofQ e_n_max) "in" in
    let* d_s_min := thread_cell false "major diameter min" thread_size external in
    let* d_s_min := quant reg (nofQ d_s_min) "in" in
    let* tpi := threads_per_inch thread_size in
    let* tpi := quant reg tpi "1/in" in
    let* basic_diameter := thread_cell false "basic diameter" thread_size external in
    let* basic_diameter := quant reg (nofQ basic_diameter) "in" in
    let* screw_area_tensile :=
      v_tensile_area bolt_max_tensile basic_diameter e_s_min tpi reg in
    let* screw_area_shear :=
      v_shear_area tpi engagement_length k_n_max e_s_min k_n_max in
    let* shear := v_lt screw_area_shear (scalar screw_area_tensile) in
    let screw := if shear then screw_area_shear else scalar screw_area_tensile in
    let* plate := v_shear_area tpi engagement_length d_s_min d_s_min e_n_max in
    let* j_num := v_mul screw_area_shear bolt_max_tensile in
    let* j_den := v_mul plate plate_max_tensile in
    let* j_factor := v_div npdiv j_num j_den in
    let* num := q_scale (lit 2) screw_area_tensile in
    let* k_pi := q_scale npi k_n_max in
    let* c := q_scale (lit 0.57735) tpi in
    let* diff := q_sub e_s_min k_n_max in
    let* c := q_mul c diff in
    let* s := n_addq (one / lit 2) c in
    let* den := q_mul k_pi s in
    let* base := q_div npdiv num den in
    let* min_engagement := v_mul (scalar base) j_factor in
    Ok (mkVThread screw plate min_engagement shear).

  Record v_factors : Type := mkVFactors {
    v_sf_bolt : vmag A; v_sf_plate : vmag A; v_sf_warning : bool }.

  (** tube.py:321-451 Bolt.calculate_safety_factors *)
  Definition v_bolt_safety_factors (max_pressure window_area : vpyin)
      (num_bolts : vmag A) (thread_size thread_class : string)
      (bolt_max_tensile plate_max_tensile engagement_length : vpyin) (reg : nat)
    : result v_factors :=
    let* max_pressure := v_parse max_pressure reg in
    let* window_area := v_parse window_area reg in
    let* bolt_max_tensile := v_parse bolt_max_tensile reg in
    let* plate_max_tensile := v_parse plate_max_tensile reg in
    let* engagement_length := v_parse engagement_length reg in
    let* _ := v_check max_pressure "pressure" true in
    let* _ := v_check window_area "area" true in
    let* _ := v_check bolt_max_tensile "pressure" true in
    let* _ := v_check plate_max_tensile "pressure" true in
    let* _ := v_check engagement_length "length" true in
    let* atm := quant reg one "atm" in
    let* gauge := v_sub max_pressure (scalar atm) in
    let* force := v_mul gauge window_area in
    let* window_force := v_divn pydiv force num_bolts in
    let* thread := v_stress_areas thread_size thread_class
                     bolt_max_tensile plate_max_tensile engagement_length reg in
    let screw := v_rereg (v_screw_area thread) reg in
    let plate := v_rereg (v_plate_area thread) reg in
    let* stress_b := v_div npdiv window_force screw in
    let* b := v_div npdiv bolt_max_tensile stress_b in
    let* b := v_plain b in
    let* stress_p := v_div npdiv window_force plate in
    let* p := v_div npdiv plate_max_tensile stress_p in
    let* p := v_plain p in
    Ok (mkVFactors b p (v_shear_warning thread)).
End Vector.
Arguments vquantity A : clear implicits.
Arguments vpyin A : clear implicits.
Arguments vsf_arg A : clear implicits.
Arguments v_thread_areas A : clear implicits.
Arguments v_factors A : clear implicits.
