(** * FlangeM: model of class Flange, /repo/pypbomb/tube.py:1778-2014 *)
From Coq Require Import String Ascii ZArith QArith List Bool.
From Verif Require Import PyBase Pint UnitsM Csv Tables Interp.
Import ListNotations.
Local Open Scope string_scope.
Local Open Scope num_scope.

(** The registry [_U] of the module. *)
Definition module_reg : nat := 0.

Section Flange.
  Context {A : Type} {NA : Num A}.

  (** tube.py:1786-1794 Flange._check_flange_class *)
  Definition check_flange_class (flange_class : string) (t : flange_table)
    : result bool :=
    if str_mem flange_class (fl_columns t) then Ok true
    else Err (ValueError (flange_class ++ " not found in group")).

  (** Group of a material, tube.py:1854-1856, 1919-1921, 1980-1982 *)
  Definition group_of (material : string) : result string :=
    match row_of TUBE_MATERIALS material with
    | None => Err IndexError
    | Some row => match cell (f_cols TUBE_MATERIALS) row "Group" with
                  | Some g => Ok g
                  | None => Err (KeyError "Group")
                  end
    end.

  (** Cell of a loaded row in a column. *)
  Fixpoint fl_cell (cols : list string) (row : list Q) (c : string) : option Q :=
    match cols, row with
    | k :: cols', x :: row' => if String.eqb k c then Some x else fl_cell cols' row' c
    | _, _ => None
    end.

  (** A column in base units: temperatures degC -> K, pressures bar -> Pa
      (tube.py:250-267 and the applymap at 1879, 1941, 2002). *)
  Definition temp_base (t : Q) : A := nofQ t * one + lit 273.15.
  Definition press_base (p : Q) : A := nofQ p * lit 100000.

  Definition column (t : flange_table) (c : string) : list Q :=
    flat_map (fun row => match fl_cell (fl_columns t) row c with
                         | Some q => [q] | None => [] end) (fl_rows t).

  Definition temps_base (t : flange_table) : list A :=
    map temp_base (column t "Temperature").
  Definition press_column (t : flange_table) (c : string) : list A :=
    map press_base (column t c).

  (** pandas Series.min / Series.max *)
  Definition list_min (l : list A) : result A :=
    match l with
    | [] => Err NotFinite
    | x :: r => Ok (fold_left (fun m y => if y <? m then y else m) r x)
    end.
  Definition list_max (l : list A) : result A :=
    match l with
    | [] => Err NotFinite
    | x :: r => Ok (fold_left (fun m y => if m <? y then y else m) r x)
    end.

  (** tube.py:1872-1877, 1934-1939, 1995-2000:
      [temperature < limits.min() or temperature > limits.max()] -> ValueError;
      a quantity of another dimension raises DimensionalityError. *)
  Definition check_in_range (q : quantity A) (d : dim) (l : list A) (msg : string)
    : result unit :=
    let* lo := list_min l in
    let* hi := list_max l in
    if negb (dim_eqb (u_dim (q_unit q)) d) then Err DimensionalityError
    else raise_if ((base_mag q <? lo) || (hi <? base_mag q)) (ValueError msg).

  (** Rating of a class at temperature [t] (K): the interpolated last row,
      tube.py:1879-1889 and 1941-1952. *)
  Definition rating (strict : bool) (tab : flange_table) (cls : string) (t : A)
    : result A :=
    slinear strict (combine (temps_base tab) (press_column tab cls)) t.

  (** tube.py:1860 The class names: [df_limits.keys()[1:]] *)
  Definition classes (t : flange_table) : list string := tl (fl_columns t).

  (** [int(key)] *)
  Definition int_of (s : string) : result Z :=
    match parse_number s with
    | Some q => if Pos.eqb (Qden q) 1 then Ok (Qnum q)
                else Err (ValueError "invalid literal for int()")
    | None => Err (ValueError "invalid literal for int()")
    end.

  (** tube.py:1860-1864: the key with the largest integer value, starting at "0" *)
  Fixpoint max_key (keys : list string) (best : string) : result string :=
    match keys with
    | [] => Ok best
    | k :: r =>
      let* a := int_of k in
      let* b := int_of best in
      max_key r (if Z.ltb b a then k else best)
    end.

  (** tube.py:1796-1892 Flange.get_class *)
  Definition get_class (strict : bool) (max_pressure temperature : pyin A)
      (material : pyname) (reg : nat) : result string :=
    let* max_pressure := parse_quant_input max_pressure reg in
    let* temperature := parse_quant_input temperature reg in
    let* _ := check_q max_pressure "pressure" true in
    let* _ := check_q temperature "temperature" true in
    let* max_pressure := parse_quant_input (PQuant max_pressure) module_reg in
    let* temperature := parse_quant_input (PQuant temperature) module_reg in
    let* _ := check_material material in
    let* group := match material with
                  | NStr s => group_of s | NInt _ => Err IndexError end in
    let* tab := FLANGE_LIMITS group in
    let* key := max_key (classes tab) "0" in
    let* max_ok := list_max (press_column tab key) in
    let* _ := raise_if (max_ok <? base_mag max_pressure)
                       (ValueError "Pressure out of range.") in
    let* _ := check_in_range temperature d_temperature (temps_base tab)
                             "Temperature out of range." in
    let* ratings := mapM (fun c => let* r := rating strict tab c (base_mag temperature)
                                   in Ok (c, r)) (classes tab) in
    match filter (fun cr => base_mag max_pressure <=? snd cr) ratings with
    | [] => Err IndexError                        (* keys()[mask][0] on no keys *)
    | cr :: _ => Ok (fst cr)
    end.

  (** The part shared by get_max_pressure and get_max_temperature,
      tube.py:1918-1922, 1979-1983. *)
  Definition table_for (flange_class : string) (material : pyname)
    : result flange_table :=
    let* _ := check_material material in
    let* group := match material with
                  | NStr s => group_of s | NInt _ => Err IndexError end in
    let* tab := FLANGE_LIMITS group in
    let* _ := check_flange_class flange_class tab in
    Ok tab.

  (** Registry of the argument, if it is a quantity (tube.py:1925-1928, 1986-1989). *)
  Definition out_reg (i : pyin A) : nat :=
    match i with PQuant q => q_reg q | _ => module_reg end.

  (** tube.py:1894-1953 Flange.get_max_pressure.  Asking for "Temperature" passes
      the class check but is the index of the interpolated frame: KeyError. *)
  Definition get_max_pressure (strict : bool) (flange_class : string)
      (temperature : pyin A) (material : pyname) : result (quantity A) :=
    let* tab := table_for flange_class material in
    let reg := out_reg temperature in
    let* temperature := parse_quant_input temperature module_reg in
    let* _ := check_in_range temperature d_temperature (temps_base tab)
                             "Temperature out of range." in
    let* _ := raise_if (String.eqb flange_class "Temperature")
                       (KeyError "Temperature") in
    let* r := rating strict tab flange_class (base_mag temperature) in
    quant reg r "Pa".

  (** tube.py:1955-2014 Flange.get_max_temperature: interpolates temperature against
      the pressures of the class.  For "Temperature" the pressure is compared with
      temperatures: DimensionalityError (unless the "pressure" is itself a
      temperature, which is not modelled). *)
  Definition get_max_temperature (strict : bool) (flange_class : string)
      (pressure : pyin A) (material : pyname) : result (quantity A) :=
    let* tab := table_for flange_class material in
    let reg := out_reg pressure in
    let* pressure := parse_quant_input pressure module_reg in
    let* _ := raise_if (String.eqb flange_class "Temperature")
                       (if dim_eqb (u_dim (q_unit pressure)) d_temperature
                        then Unmodelled else DimensionalityError) in
    let* _ := check_in_range pressure d_pressure (press_column tab flange_class)
                             "Pressure out of range." in
    let* t := slinear strict
                (combine (press_column tab flange_class) (temps_base tab))
                (base_mag pressure) in
    quant reg t "K".
End Flange.
