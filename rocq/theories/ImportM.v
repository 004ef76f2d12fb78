(** * ImportM: what importing /repo/pypbomb/tube.py does with the directory
    lookup_data, for an arbitrary directory.

    A directory is a list of (file name, text).  Simplified: texts are well-formed CSV
    with newline line ends (pandas' own parse errors, quoting and carriage returns are
    not modelled); a Group cell is compared as text (pandas would turn 2.10 into 2.1);
    unreadable numbers in materials_list.csv are left to the functions that use them. *)
From Coq Require Import String Ascii ZArith QArith List Bool.
From Verif Require Import PyBase Csv CsvData Tables.
Import ListNotations.
Local Open Scope string_scope.

(** os.path.exists, and the text behind a name. *)
Definition file_text (d : list (string * string)) (name : string) : option string :=
  match find (fun f => String.eqb (fst f) name) d with
  | Some f => Some (snd f)
  | None => None
  end.

(** No line with anything in it: pandas raises EmptyDataError, a ValueError. *)
Definition nothing_in (text : string) : bool :=
  forallb (fun l => String.eqb l "") (split_on newline text).

(** pd.read_csv(name) *)
Definition pd_read (d : list (string * string)) (name : string) : result frame :=
  match file_text d name with
  | None => Err (FileNotFoundError name)
  | Some text => if nothing_in text then Err (ValueError "No columns to parse from file")
                 else Ok (read_csv text)
  end.

(** tube.py:55-103 _collect_tube_materials *)
Definition collect_tube_materials (d : list (string * string)) : result frame :=
  match file_text d "materials_list.csv" with
  | None => Err (ValueError (nl ++ "materials_list.csv does not exist"))
  | Some text =>
    if nothing_in text then Err (ValueError (nl ++ "materials_list.csv is empty"))
    else
      let f := read_csv text in
      let* _ := raise_if (negb (str_mem "ElasticModulus" (f_cols f)))
                         (KeyError "ElasticModulus") in
      let* _ := raise_if (negb (str_mem "Density" (f_cols f))) (KeyError "Density") in
      Ok f
  end.

(** A column as text: [df[c].values.astype(str)] (tube.py:158, 169); a blank cell is
    NaN, whose text is "nan". *)
Definition text_cell (f : frame) (c : string) (row : list string) : string :=
  match cell (f_cols f) row c with
  | None | Some "" => "nan"
  | Some s => s
  end.
Definition text_column (f : frame) (c : string) : result (list string) :=
  let* _ := raise_if (negb (str_mem c (f_cols f))) (KeyError c) in
  Ok (map (text_cell f c) (f_rows f)).

(** tube.py:203-270 _get_flange_limits_from_csv: the groups are a fixed list. *)
Definition flange_groups : list string := ["2.1"; "2.2"; "2.3"].
Definition flange_file_name (group : string) : string :=
  "ASME_B16_5_flange_ratings_group_" ++ replace_char "." "_" group ++ ".csv".

Definition load_flange_group (d : list (string * string)) (group : string)
  : result (string * flange_table) :=
  match file_text d (flange_file_name group) with
  | None => Err (FileNotFoundError (nl ++ flange_file_name group ++ "not found"))
  | Some _ =>
    let* f := pd_read d (flange_file_name group) in
    let* tab := load_flange f in
    let* _ := raise_if (negb (str_mem "Temperature" (f_cols f)))
                       (KeyError "Temperature") in
    Ok (group, tab)
  end.

Definition load_flange_limits (d : list (string * string))
  : result (list (string * flange_table)) :=
  mapM (load_flange_group d) flange_groups.

(** The module's data after import. *)
Record tables : Type := mkTables {
  t_welded : frame;
  t_seamless : frame;
  t_pipes : frame;
  t_materials : frame;
  t_flanges : list (string * flange_table);
  t_internal : frame;
  t_external : frame
}.

(** Importing the module: tube.py:28-52, 106, 192, 273, 314, in that order, and the
    class attributes at 1215-1216 and 1782-1784.  Returns the warnings and the data. *)
Definition import_tube (dir : string) (d : list (string * string))
  : list string * result tables :=
  match
    (let* welded := pd_read d "ASME_B31_1_stress_limits_welded.csv" in
     let* seamless := pd_read d "ASME_B31_1_stress_limits_seamless.csv" in
     let* pipes := pd_read d "pipe_schedules.csv" in
     let* materials := collect_tube_materials d in
     let* grade := text_column materials "Grade" in
     let* group := text_column materials "Group" in
     Ok (welded, seamless, pipes, materials, combine grade group))
  with
  | Err e => ([], Err e)
  | Ok (welded, seamless, pipes, materials, pairs) =>
    let (warns, ok) :=
      check_materials_list dir (map (fun f => (fst f, first_line (snd f))) d) pairs in
    (warns,
     let* _ := ok in
     let* flanges := load_flange_limits d in
     let* internal := pd_read d "ANSI_inch_internal_thread.csv" in
     let* external := pd_read d "ANSI_inch_external_thread.csv" in
     Ok (mkTables welded seamless pipes materials flanges internal external))
  end.

(** ** Lookups in imported data. *)
(** tube.py:1216 Tube.available_materials *)
Definition materials_in (t : tables) : list string :=
  map (text_cell (t_materials t) "Grade") (f_rows (t_materials t)).

(** tube.py:1291-1331 Tube._get_pipe_stress_limits: [["Temp", material]] *)
Definition stress_columns_in (t : tables) (material : string) (welded : bool)
  : result frame :=
  let f := if welded then t_welded t else t_seamless t in
  let* _ := raise_if (negb (str_mem material (f_cols f))) (KeyError material) in
  Ok f.

(** tube.py:195-200, 1919-1922: FLANGE_LIMITS[group of the material] *)
Definition flange_table_in (t : tables) (material : string) : result flange_table :=
  let f := t_materials t in
  match find (fun r => String.eqb (text_cell f "Grade" r) material) (f_rows f) with
  | None => Err (ValueError (material ++ " not found in materials."
                               ++ " Try Flange.available_materials"))
  | Some r =>
    let g := text_cell f "Group" r in
    match find (fun gt => String.eqb (fst gt) g) (t_flanges t) with
    | None => Err (KeyError g)
    | Some gt => Ok (snd gt)
    end
  end.

(** The shipped directory. *)
Definition shipped : list (string * string) :=
  [ ("ANSI_inch_external_thread.csv", csv_external_thread);
    ("ANSI_inch_internal_thread.csv", csv_internal_thread);
    ("ASME_B16_5_flange_ratings_group_2_1.csv", csv_flange_2_1);
    ("ASME_B16_5_flange_ratings_group_2_2.csv", csv_flange_2_2);
    ("ASME_B16_5_flange_ratings_group_2_3.csv", csv_flange_2_3);
    ("ASME_B31_1_stress_limits_seamless.csv", csv_stress_seamless);
    ("ASME_B31_1_stress_limits_welded.csv", csv_stress_welded);
    ("materials_list.csv", csv_materials);
    ("pipe_schedules.csv", csv_pipe_schedules) ].
