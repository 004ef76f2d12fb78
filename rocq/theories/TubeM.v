(** * TubeM: model of class Tube, /repo/pypbomb/tube.py:1210-1775 *)
From Coq Require Import String Ascii ZArith QArith List Bool.
From Verif Require Import PyBase Pint UnitsM Csv Tables Interp.
Import ListNotations.
Local Open Scope string_scope.
Local Open Scope num_scope.

Section Tube.
  Context {A : Type} {NA : Num A}.

  (** tube.py:1291-1331 Tube._get_pipe_stress_limits: the (temperature, stress)
      rows in degF and ksi.  Selecting [["Temp", material]] raises KeyError when the
      column does not exist; note that the column "Temp" itself does exist. *)
  Definition get_pipe_stress_limits (material : string) (welded : bool)
    : result (list (A * A)) :=
    let f := MATERIAL_LIMITS welded in
    let* _ := raise_if (negb (str_mem material (f_cols f))) (KeyError material) in
    mapM (fun r =>
            match num_cell (f_cols f) r "Temp", num_cell (f_cols f) r material with
            | Some t, Some s => Ok (nofQ t, nofQ s)
            | _, _ => Err NotFinite
            end) (f_rows f).

  (** tube.py:1218-1289 Tube.calculate_max_stress *)
  Definition calculate_max_stress (initial_temperature : pyin A) (material : string)
      (welded : bool) (reg : nat) : result (quantity A) :=
    let* initial_temperature := parse_quant_input initial_temperature reg in
    let* limits := get_pipe_stress_limits material welded in
    let* _ := raise_if (negb (strictly_increasing (map fst limits)))
                (ValueError ("Stress limits require temperatures to be "
                             ++ "monotonically increasing")) in
    let* t := q_to_str initial_temperature "degF" in
    let* s := np_interp (q_mag t) limits in
    quant reg s "ksi".

  (** tube.py:1391-1403: radius, wall thickness and critical velocity *)
  Definition critical_velocity (tube_id tube_od elastic_modulus density : quantity A)
      (poisson_ratio : A) : result (quantity A) :=
    let* s := q_add tube_od tube_id in
    let* radius := q_divn pydiv s (lit 4) in
    let* d := q_sub tube_od tube_id in
    let* tube_thickness := q_divn pydiv d (lit 2) in
    let* e2 := q_sq elastic_modulus in
    let* t2 := q_sq tube_thickness in
    let* num := q_mul e2 t2 in
    let* rho2 := q_sq density in
    let* den := q_scale (lit 3) rho2 in
    let* r2 := q_sq radius in
    let* den := q_mul den r2 in
    let* den := q_scale (one - sq poisson_ratio) den in
    let* ratio := q_div pydiv num den in
    q_root4 ratio.

  (** tube.py:1333-1419 Tube.dynamic_load_factor (result 1, 2 or 4) *)
  Definition dynamic_load_factor (tube_id tube_od cj_velocity elastic_modulus density
      : quantity A) (poisson_ratio plus_or_minus : A) : result nat :=
    let* _ := check_q tube_id "length" true in
    let* _ := check_q tube_od "length" true in
    let* _ := check_q cj_velocity "velocity" false in
    let* _ := check_q elastic_modulus "pressure" true in
    let* _ := check_q density "density" true in
    let* _ := raise_if (negb ((zero <? plus_or_minus) && (plus_or_minus <? one)))
                       (ValueError "plus_or_minus factor not between 0 and 1") in
    let* crit := critical_velocity tube_id tube_od elastic_modulus density
                   poisson_ratio in
    let* upper := q_scale (one + plus_or_minus) crit in
    let* upper := q_to_str upper "m/s" in
    let* lower := q_scale (one - plus_or_minus) crit in
    let* lower := q_to_str lower "m/s" in
    let* v := q_to_str cj_velocity "m/s" in
    Ok (if q_mag v <? q_mag lower then 1%nat
        else if q_mag upper <? q_mag v then 2%nat
        else 4%nat).

  (** tube.py:1421-1456 Tube.calculate_max_pressure *)
  Definition calculate_max_pressure (tube_id tube_od max_stress : quantity A)
      (safety_factor : A) : result (quantity A) :=
    let* s := q_add tube_od tube_id in
    let* mean_diameter := q_divn pydiv s (lit 2) in
    let* d := q_sub tube_od tube_id in
    let* wall_thickness := q_divn pydiv d (lit 2) in
    let* w2 := q_scale (lit 2) wall_thickness in
    let* num := q_mul max_stress w2 in
    let* den := q_scale safety_factor mean_diameter in
    q_div pydiv num den.
End Tube.

(** ** Pipe tables *)

(** tube.py:1602-1622 Tube.get_available_pipe_schedules:
    [list(PIPE_SCHEDULES.T[size].dropna().index.drop("OD"))] *)
Definition filled_columns (cols row : list string) : list string :=
  map fst (filter (fun cv => match parse_number (snd cv) with
                             | Some _ => true | None => false end)
                  (combine cols row)).

Definition get_available_pipe_schedules (pipe_size : pyname) : result (list string) :=
  match pipe_size with
  | NInt _ => Err (ValueError "Invalid pipe size")
  | NStr s =>
    match row_of PIPE_SCHEDULES s with
    | None => Err (ValueError ("Invalid pipe size: " ++ s
                               ++ ". See Tube.available_pipe_sizes."))
    | Some row =>
      Ok (filter (fun c => negb (String.eqb c "OD"))
                 (filled_columns (tl (f_cols PIPE_SCHEDULES)) (tl row)))
    end
  end.

Record dimensions (A : Type) : Type := mkDims {
  inner_diameter : quantity A; outer_diameter : quantity A;
  wall_thickness : quantity A }.
Arguments inner_diameter {A}. Arguments outer_diameter {A}.
Arguments wall_thickness {A}. Arguments mkDims {A}.

(** [PIPE_SCHEDULES[col][size]], tube.py:1662-1663 *)
Definition pipe_cell (col size : string) : result Q :=
  match row_of PIPE_SCHEDULES size with
  | None => Err (KeyError size)
  | Some row => match num_cell (f_cols PIPE_SCHEDULES) row col with
                | Some q => Ok q
                | None => Err NotFinite
                end
  end.

Section Pipes.
  Context {A : Type} {NA : Num A}.

  (** tube.py:1624-1670 Tube.get_dimensions *)
  Definition get_dimensions (pipe_size pipe_schedule : string) (reg : nat)
    : result (dimensions A) :=
    let* avail := get_available_pipe_schedules (NStr pipe_size) in
    let* _ := raise_if (negb (str_mem pipe_schedule avail))
                (ValueError ("Schedule " ++ pipe_schedule
                             ++ " invalid for pipe size " ++ pipe_size)) in
    let* od := pipe_cell "OD" pipe_size in
    let* w := pipe_cell pipe_schedule pipe_size in
    let od : A := nofQ od in
    let w : A := nofQ w in
    let* qid := quant reg (od - lit 2 * w) "in" in
    let* qod := quant reg od "in" in
    let* qw := quant reg w "in" in
    Ok (mkDims qid qod qw).

  (** tube.py:1758-1775 Tube._check_material: works on [str(material)] *)
  Definition Z_to_string (z : Z) : string :=
    (* decimal text of the integers that matter here; others give a text that is
       not a grade *)
    if Z.eqb z 304 then "304" else if Z.eqb z 316 then "316"
    else if Z.eqb z 317 then "317" else "other integer".
  Definition py_str (m : pyname) : string :=
    match m with NStr s => s | NInt z => Z_to_string z end.
  Definition tube_check_material (m : pyname) : result unit :=
    raise_if (negb (str_mem (py_str m) available_materials))
             (ValueError ("Material " ++ py_str m ++ " not found")).

  (** tube.py:1697-1699, 1728-1730, 1754-1756:
      [TUBE_MATERIALS[TUBE_MATERIALS["Grade"] == material][col].values[0]]:
      an integer equals no grade string, so the selection is empty. *)
  Definition material_cell (col : string) (m : pyname) : result Q :=
    match m with
    | NInt _ => Err IndexError
    | NStr s => match row_of TUBE_MATERIALS s with
                | None => Err IndexError
                | Some row => match num_cell (f_cols TUBE_MATERIALS) row col with
                              | Some q => Ok q
                              | None => Err NotFinite
                              end
                end
    end.

  (** tube.py:1672-1701 Tube.get_elastic_modulus (loaded in GPa, tube.py:94-97) *)
  Definition get_elastic_modulus (m : pyname) (reg : nat) : result (quantity A) :=
    let* _ := tube_check_material m in
    let* v := material_cell "ElasticModulus" m in
    let* q := quant 0 (nofQ v) "GPa" in
    parse_quant_input (PQuant q) reg.

  (** tube.py:1703-1732 Tube.get_density (loaded in g/cm^3, tube.py:98-101) *)
  Definition get_density (m : pyname) (reg : nat) : result (quantity A) :=
    let* _ := tube_check_material m in
    let* v := material_cell "Density" m in
    let* q := quant 0 (nofQ v) "g/cm^3" in
    parse_quant_input (PQuant q) reg.

  (** tube.py:1734-1756 Tube.get_poisson *)
  Definition get_poisson (m : pyname) : result A :=
    let* _ := tube_check_material m in
    let* v := material_cell "Poisson" m in
    Ok (nofQ v).
End Pipes.
