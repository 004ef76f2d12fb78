(** * FrameM: the table look-ups of tube.py with DataFrames as objects.

    FlangeM.v and TubeM.v read the tables as constants.  Here the tables are objects that
    could be changed, as in Python: every frame a function makes is a new object, and the
    operations that change a frame in place (renaming its columns, assigning a column,
    interpolate(inplace=True)) change the object they are called on.  The functions below
    are the only ones in tube.py that change a frame after import.

    pandas is not in /repo: selecting columns, applymap, pd.DataFrame(columns=...),
    pd.concat and set_index give new frames.  Frames are stored by columns; columns of a
    frame given to assign/concat/set_index have different names. *)
From Coq Require Import String Ascii ZArith QArith List Bool.
From Verif Require Import PyBase Pint UnitsM Csv Tables Interp TubeM FlangeM HeapM.
Import ListNotations.
Local Open Scope string_scope.
Local Open Scope num_scope.

Section Frame.
  Context {A : Type} {NA : Num A}.

  Inductive fcell : Type := FNum (a : A) | FQuant (q : quantity A) | FNaN.
  (** index (empty when it is the default one) and columns *)
  Record df : Type := mkDf { d_index : list fcell; d_cols : list (string * list fcell) }.

  Definition fr (B : Type) : Type := hio A df B.
  Definition new_frame (d : df) : fr nat :=
    fun h => mkOut [] (mkHeap (obj (write h (next h) d)) (S (next h))) (Ok (next h)).
  Definition change_frame (r : nat) (f : df -> result df) : fr unit :=
    fun h => match f (obj h r) with
             | Ok d => mkOut [] (write h r d) (Ok tt)
             | Err e => mkOut [] h (Err e)
             end.

  (** ** pandas *)
  Definition keys (d : df) : list string := map fst (d_cols d).
  (** [d[c]] *)
  Definition get_column (d : df) (c : string) : result (list fcell) :=
    match find (fun k => String.eqb (fst k) c) (d_cols d) with
    | Some k => Ok (snd k)
    | None => Err (KeyError c)
    end.
  (** [d[[c1, c2]]] *)
  Definition select2 (d : df) (c1 c2 : string) : result df :=
    let* a := get_column d c1 in
    let* b := get_column d c2 in
    Ok (mkDf (d_index d) [(c1, a); (c2, b)]).
  (** [d.columns = names] (in place) *)
  Definition rename (names : list string) (d : df) : result df :=
    if Nat.eqb (length names) (length (d_cols d))
    then Ok (mkDf (d_index d) (combine names (map snd (d_cols d))))
    else Err (ValueError "Length mismatch").
  (** [x.to_base_units().magnitude] *)
  Definition base_cell (c : fcell) : fcell :=
    match c with FQuant q => FNum (base_mag q) | c => c end.
  (** [d.applymap(f)] *)
  Definition applymap (f : fcell -> fcell) (d : df) : df :=
    mkDf (d_index d) (map (fun k => (fst k, map f (snd k))) (d_cols d)).
  (** [pd.DataFrame(columns=names)] *)
  Definition empty_frame (names : list string) : df := mkDf [] (map (fun c => (c, [])) names).
  (** [d[c] = [v]] for a frame without rows and a column it has (in place): one row, the
      other columns are NaN *)
  Definition assign1 (c : string) (v : A) (d : df) : result df :=
    Ok (mkDf (d_index d)
             (map (fun k => (fst k, [if String.eqb (fst k) c then FNum v else FNaN])) (d_cols d))).
  (** [pd.concat((a, b))] for frames with the same columns *)
  Definition concat2 (a b : df) : result df :=
    let* cols := mapM (fun k => let* y := get_column b (fst k) in Ok (fst k, (snd k ++ y)%list)) (d_cols a) in
    Ok (mkDf [] cols).
  (** [d.set_index(c)] *)
  Definition set_index (c : string) (d : df) : result df :=
    let* i := get_column d c in
    Ok (mkDf i (filter (fun k => negb (String.eqb (fst k) c)) (d_cols d))).
  (** the known points of a column *)
  Definition known_points (index col : list fcell) : list (A * A) :=
    flat_map (fun xy => match xy with (FNum x, FNum y) => [(x, y)] | _ => [] end) (combine index col).
  (** [d.interpolate(method="slinear", inplace=True)] (in place): every NaN of every column,
      from the known points of the column.  Where the result would be NaN the model stops
      with NotFinite, as everywhere. *)
  Definition interpolate_column (strict : bool) (index : list fcell) (col : list fcell) : result (list fcell) :=
    mapM (fun xy => match xy with
                    | (FNum x, FNaN) => let* y := slinear strict (known_points index col) x in Ok (FNum y)
                    | (_, y) => Ok y
                    end) (combine index col).
  Definition interpolate (strict : bool) (d : df) : result df :=
    let* cols := mapM (fun k => let* c := interpolate_column strict (d_index d) (snd k) in Ok (fst k, c)) (d_cols d) in
    Ok (mkDf (d_index d) cols).
  (** [d.iloc[-1]] *)
  Definition last_row (d : df) : list (string * fcell) :=
    map (fun k => (fst k, last (snd k) FNaN)) (d_cols d).
  Definition number (c : fcell) : result A :=
    match c with FNum a => Ok a | _ => Err NotFinite end.
  Definition item (row : list (string * fcell)) (c : string) : result A :=
    match find (fun k => String.eqb (fst k) c) row with
    | Some k => number (snd k)
    | None => Err (KeyError c)
    end.
  (** the quantities of a column, in base units (for min, max and comparisons) *)
  Definition base_numbers (l : list fcell) : list A :=
    flat_map (fun c => match c with FQuant q => [base_mag q] | _ => [] end) l.

  (** ** The module's tables: references *)
  (** tube.py:28-43 MATERIAL_LIMITS *)
  Definition limits_ref (welded : bool) : nat := if welded then 0 else 1.
  (** tube.py:209-210, 269 FLANGE_LIMITS *)
  Definition flange_ref (group : string) : result nat :=
    if String.eqb group "2.1" then Ok 2%nat else if String.eqb group "2.2" then Ok 3%nat
    else if String.eqb group "2.3" then Ok 4%nat else Err (KeyError group).

  (** a frame read by pd.read_csv, numbers only (tube.py:28-43) *)
  Definition numbers_frame (f : frame) : df :=
    mkDf [] (map (fun c => (c, map (fun r => match num_cell (f_cols f) r c with
                                             | Some q => FNum (nofQ q) | None => FNaN end) (f_rows f)))
                 (f_cols f)).
  (** a flange table with units (tube.py:250-267) *)
  Definition units_frame (t : flange_table) : df :=
    mkDf [] (map (fun c => (c, map (fun q => FQuant (if String.eqb c "Temperature"
                                                     then mkQ (nofQ q) (mkUnit d_temperature one (Some (lit 273.15))) module_reg
                                                     else mkQ (nofQ q) (mult_unit d_pressure (lit 100000)) module_reg))
                                   (column t c)))
                 (fl_columns t)).
  (** the tables in the heap *)
  Definition tables_loaded (h : heap df) : Prop :=
    (5 <= next h)%nat
    /\ (forall welded, obj h (limits_ref welded) = numbers_frame (MATERIAL_LIMITS welded))
    /\ (forall group r t, flange_ref group = Ok r -> FLANGE_LIMITS group = Ok t -> obj h r = units_frame t).

  (** ** The functions *)
  (** tube.py:1291-1331 Tube._get_pipe_stress_limits *)
  Definition f_get_pipe_stress_limits (material : string) (welded : bool) : fr (list (A * A)) :=
    run two <- h_look (fun o => select2 (o (limits_ref welded)) "Temp" material);
    run material_limits <- new_frame two;
    (* tube.py:1322 *)
    run _ <- change_frame material_limits (rename ["temperature"; "stress"]);
    (* tube.py:1324-1329 *)
    run temps <- h_look (fun o => get_column (o material_limits) "temperature");
    run stress <- h_look (fun o => get_column (o material_limits) "stress");
    h_pure (mapM (fun ts => let* t := number (fst ts) in let* s := number (snd ts) in Ok (t, s))
                 (combine temps stress)).

  (** tube.py:1218-1289 Tube.calculate_max_stress *)
  Definition f_calculate_max_stress (initial_temperature : pyin A) (material : string)
      (welded : bool) (reg : nat) : fr (quantity A) :=
    run initial_temperature <- h_pure (parse_quant_input initial_temperature reg);
    run limits <- f_get_pipe_stress_limits material welded;
    h_pure (let* _ := raise_if (negb (strictly_increasing (map fst limits)))
                        (ValueError ("Stress limits require temperatures to be "
                                     ++ "monotonically increasing")) in
            let* t := q_to_str initial_temperature "degF" in
            let* s := np_interp (q_mag t) limits in
            quant reg s "ksi").

  (** tube.py:1879-1889 and 1941-1952: the interpolated last row of a flange table *)
  Definition f_interpolated_row (strict : bool) (df_limits : nat) (index_col : string) (v : A)
    : fr (list (string * fcell)) :=
    (* tube.py:1882-1883, 1945-1946, 2006-2007 *)
    run columns <- h_look (fun o => Ok (keys (o df_limits)));
    run df_interp <- new_frame (empty_frame columns);
    run _ <- change_frame df_interp (assign1 index_col v);
    (* tube.py:1884, 1947, 2008 *)
    run joined <- h_look (fun o => let* c := concat2 (o df_limits) (o df_interp) in set_index index_col c);
    run df_interp <- new_frame joined;
    (* tube.py:1888, 1951, 2012 *)
    run _ <- change_frame df_interp (interpolate strict);
    h_look (fun o => Ok (last_row (o df_interp))).

  (** tube.py:1854-1857 and the like: group of the material, and its table *)
  Definition f_group (material : pyname) : fr nat :=
    h_pure (let* _ := check_material material in
            let* group := match material with
                          | NStr s => group_of s | NInt _ => Err IndexError end in
            flange_ref group).

  (** tube.py:1796-1892 Flange.get_class *)
  Definition f_get_class (strict : bool) (max_pressure temperature : pyin A)
      (material : pyname) (reg : nat) : fr string :=
    run (max_pressure, temperature) <- h_pure (
      let* max_pressure := parse_quant_input max_pressure reg in
      let* temperature := parse_quant_input temperature reg in
      let* _ := check_q max_pressure "pressure" true in
      let* _ := check_q temperature "temperature" true in
      let* max_pressure := parse_quant_input (PQuant max_pressure) module_reg in
      let* temperature := parse_quant_input (PQuant temperature) module_reg in
      Ok (max_pressure, temperature));
    run limits <- f_group material;
    (* tube.py:1860-1877 *)
    run class_keys <- h_look (fun o => Ok (tl (keys (o limits))));
    run key <- h_pure (max_key class_keys "0");
    run pressures <- h_look (fun o => get_column (o limits) key);
    run temps <- h_look (fun o => get_column (o limits) "Temperature");
    run _ <- h_pure (
      let* max_ok := list_max (base_numbers pressures) in
      let* _ := raise_if (max_ok <? base_mag max_pressure) (ValueError "Pressure out of range.") in
      check_in_range temperature d_temperature (base_numbers temps) "Temperature out of range.");
    (* tube.py:1879-1889 *)
    run based <- h_look (fun o => Ok (applymap base_cell (o limits)));
    run df_limits <- new_frame based;
    run ser_result <- f_interpolated_row strict df_limits "Temperature" (base_mag temperature);
    (* tube.py:1890-1892 *)
    h_pure (let* ratings := mapM (fun k => let* r := number (snd k) in Ok (fst k, r)) ser_result in
            match filter (fun cr => base_mag max_pressure <=? snd cr) ratings with
            | [] => Err IndexError
            | cr :: _ => Ok (fst cr)
            end).

  (** tube.py:1918-1922, 1979-1983 *)
  Definition f_table_for (flange_class : string) (material : pyname) : fr nat :=
    run limits <- f_group material;
    run _ <- h_look (fun o => if str_mem flange_class (keys (o limits)) then Ok true
                              else Err (ValueError (flange_class ++ " not found in group")));
    h_ret limits.

  (** tube.py:1894-1953 Flange.get_max_pressure (the error for "Temperature" is raised before
      the interpolation here and in FlangeM, after it in Python) *)
  Definition f_get_max_pressure (strict : bool) (flange_class : string)
      (temperature : pyin A) (material : pyname) : fr (quantity A) :=
    run limits <- f_table_for flange_class material;
    let reg := out_reg temperature in
    run temperature <- h_pure (parse_quant_input temperature module_reg);
    run temps <- h_look (fun o => get_column (o limits) "Temperature");
    run _ <- h_pure (check_in_range temperature d_temperature (base_numbers temps)
                                    "Temperature out of range.");
    run _ <- h_pure (raise_if (String.eqb flange_class "Temperature") (KeyError "Temperature"));
    (* tube.py:1941-1952 *)
    run based <- h_look (fun o => Ok (applymap base_cell (o limits)));
    run df_limits <- new_frame based;
    run ser_result <- f_interpolated_row strict df_limits "Temperature" (base_mag temperature);
    h_pure (let* r := item ser_result flange_class in quant reg r "Pa").

  (** tube.py:1955-2014 Flange.get_max_temperature *)
  Definition f_get_max_temperature (strict : bool) (flange_class : string)
      (pressure : pyin A) (material : pyname) : fr (quantity A) :=
    run limits <- f_table_for flange_class material;
    let reg := out_reg pressure in
    run pressure <- h_pure (parse_quant_input pressure module_reg);
    run _ <- h_pure (raise_if (String.eqb flange_class "Temperature")
                       (if dim_eqb (u_dim (q_unit pressure)) d_temperature
                        then Unmodelled else DimensionalityError));
    run pressures <- h_look (fun o => get_column (o limits) flange_class);
    run _ <- h_pure (check_in_range pressure d_pressure (base_numbers pressures)
                                    "Pressure out of range.");
    (* tube.py:2002-2004 *)
    run based <- h_look (fun o => Ok (applymap base_cell (o limits)));
    run all_limits <- new_frame based;
    run two <- h_look (fun o => select2 (o all_limits) "Temperature" flange_class);
    run df_limits <- new_frame two;
    run ser_result <- f_interpolated_row strict df_limits flange_class (base_mag pressure);
    h_pure (let* t := item ser_result "Temperature" in quant reg t "K").

  (** ** Histories *)
  Inductive call : Type :=
  | CMaxStress (initial_temperature : pyin A) (material : string) (welded : bool) (reg : nat)
  | CClass (max_pressure temperature : pyin A) (material : pyname) (reg : nat)
  | CMaxPressure (flange_class : string) (temperature : pyin A) (material : pyname)
  | CMaxTemperature (flange_class : string) (pressure : pyin A) (material : pyname).
  Inductive answer : Type := AQuantity (r : result (quantity A)) | AClass (r : result string).

  Definition perform (strict : bool) (c : call) (h : heap df) : heap df * answer :=
    match c with
    | CMaxStress t m w reg => let o := f_calculate_max_stress t m w reg h in (o_heap o, AQuantity (o_value o))
    | CClass p t m reg => let o := f_get_class strict p t m reg h in (o_heap o, AClass (o_value o))
    | CMaxPressure c t m => let o := f_get_max_pressure strict c t m h in (o_heap o, AQuantity (o_value o))
    | CMaxTemperature c p m => let o := f_get_max_temperature strict c p m h in (o_heap o, AQuantity (o_value o))
    end.
  Fixpoint history (strict : bool) (cs : list call) (h : heap df) : heap df * list answer :=
    match cs with
    | [] => (h, [])
    | c :: r => let (h1, a) := perform strict c h in
                let (h2, l) := history strict r h1 in (h2, a :: l)
    end.
End Frame.
Arguments fcell A : clear implicits.
Arguments df A : clear implicits.
Arguments call A : clear implicits.
Arguments answer A : clear implicits.
