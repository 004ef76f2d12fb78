(** * Tables: module-level lookup data of /repo/pypbomb/tube.py and the functions
    that load and check it. *)
From Coq Require Import String Ascii ZArith QArith List Bool.
From Verif Require Import PyBase Pint Csv CsvData.
Import ListNotations.
Local Open Scope string_scope.

(** tube.py:28-43 MATERIAL_LIMITS *)
Definition MATERIAL_LIMITS (welded : bool) : frame :=
  read_csv (if welded then csv_stress_welded else csv_stress_seamless).

(** tube.py:44-52 PIPE_SCHEDULES (index_col=0: the first column is the index) *)
Definition PIPE_SCHEDULES : frame := read_csv csv_pipe_schedules.

(** tube.py:55-103, 106 TUBE_MATERIALS (units are applied when a value is used) *)
Definition TUBE_MATERIALS : frame := read_csv csv_materials.

(** tube.py:276-311, 314 THREAD_SPECS (index_col=(0,1)) *)
Definition THREAD_SPECS (internal : bool) : frame :=
  read_csv (if internal then csv_internal_thread else csv_external_thread).

(** tube.py:1215-1216 Tube.available_pipe_sizes / available_materials, and
    tube.py:1782-1784 Flange.available_materials (every Group cell is filled) *)
Definition index_of (f : frame) : list string :=
  map (fun r => hd "" r) (f_rows f).
Definition available_pipe_sizes : list string := index_of PIPE_SCHEDULES.
Definition grades : list string := index_of TUBE_MATERIALS.
Definition available_materials : list string := grades.

(** First row whose index is [k]. *)
Definition row_of (f : frame) (k : string) : option (list string) :=
  find (fun r => String.eqb (hd "" r) k) (f_rows f).

(** ** tube.py:203-270 _get_flange_limits_from_csv, for one file.
    Unreadable cells become 0 ([to_numeric(errors="coerce")] then [fillna(0)]).
    Returns the class names and the rows (temperature, pressures) in degC and bar. *)
Record flange_table : Type := mkFlange {
  fl_columns : list string;              (* "Temperature" and the classes *)
  fl_rows : list (list Q)                (* same order as the columns *)
}.

Definition num_or_zero (s : string) : Q :=
  match parse_number s with Some q => q | None => 0 end.

(** Non-temperature entries of a row. *)
Fixpoint pressures_of (cols : list string) (row : list Q) : list Q :=
  match cols, row with
  | c :: cols', x :: row' =>
    if String.eqb c "Temperature" then pressures_of cols' row'
    else x :: pressures_of cols' row'
  | _, _ => []
  end.

Definition load_flange (f : frame) : result flange_table :=
  let rows := map (map num_or_zero) (f_rows f) in
  if forallb (fun row => forallb (Qle_bool 0) (pressures_of (f_cols f) row)) rows
  then Ok (mkFlange (f_cols f) rows)
  else Err (ValueError "Pressure less than zero.").

(** tube.py:209-229: group name to the CSV file
    ASME_B16_5_flange_ratings_group_<group with "." as "_">.csv *)
Definition flange_file (group : string) : option frame :=
  if group =? "2.1" then Some (read_csv csv_flange_2_1)
  else if group =? "2.2" then Some (read_csv csv_flange_2_2)
  else if group =? "2.3" then Some (read_csv csv_flange_2_3)
  else None.

(** tube.py:209-210, 270, 273 FLANGE_LIMITS: group name to table. *)
Definition FLANGE_LIMITS (group : string) : result flange_table :=
  match flange_file group with
  | Some f => load_flange f
  | None => Err (KeyError group)
  end.

(** ** tube.py:109-189 _check_materials_list.
    Inputs: the directory listing with the first line of each file, and the
    (grade, group) pairs of TUBE_MATERIALS.  Output: warnings issued, and the
    result.  [groups] is a Python set; the model visits it in order of first
    appearance (the set's own order is unspecified and only affects the order of the
    lines in the message). *)
Definition nl : string := String newline "".

Fixpoint dedup (l : list string) : list string :=
  match l with
  | [] => []
  | x :: r => x :: filter (fun y => negb (String.eqb x y)) (dedup r)
  end.

Definition found_past_start (pat s : string) : bool :=   (* s.find(pat) > 0 *)
  match String.index 0 pat s with Some (S _) => true | _ => false end.

Definition check_materials_list (dir : string) (files : list (string * string))
    (materials : list (string * string)) : list string * result bool :=
  let flange_ratings :=
    filter (fun f => contains "flange" (lower f)) (map fst files) in
  let stress_limits :=
    filter (fun f => contains "stress" (lower (fst f))) files in
  if (Nat.eqb (length flange_ratings) 0 && Nat.eqb (length stress_limits) 0)%bool
  then ([], Err (FileNotFoundError "No files containing 'flange' or 'stress' found"))
  else
    let warns :=
      map (fun f => (fst f ++ " does not indicate whether it is welded or seamless"))
          (filter (fun f => (negb (contains "welded" (lower (fst f)))
                             && negb (contains "seamless" (lower (fst f))))%bool)
                  stress_limits) in
    let missing_materials :=
      flat_map (fun f =>
        let in_file := tl (split_on comma (strip (snd f))) in
        map (fun g => "Material " ++ g ++ " not found in " ++ dir ++ fst f ++ nl)
            (filter (fun g => negb (str_mem g in_file)) (map fst materials)))
        stress_limits in
    let groups := dedup (map (fun m => replace_char "." "_" (snd m)) materials) in
    let missing_groups :=
      map (fun g => "material group " ++ g ++ " not found" ++ nl)
          (filter (fun g => negb (existsb (found_past_start g) flange_ratings))
                  groups) in
    let errors := (missing_materials ++ missing_groups)%list in
    (warns,
     match errors with
     | [] => Ok true
     | _ => Err (ValueError (nl ++ String.concat "" errors))
     end).

(** The shipped directory (file name, first line) and material list. *)
Definition first_line (text : string) : string :=
  match split_on newline text with [] => "" | l :: _ => l end.

Definition lookup_data_dir : list (string * string) :=
  [ ("ANSI_inch_external_thread.csv", first_line csv_external_thread);
    ("ANSI_inch_internal_thread.csv", first_line csv_internal_thread);
    ("ASME_B16_5_flange_ratings_group_2_1.csv", first_line csv_flange_2_1);
    ("ASME_B16_5_flange_ratings_group_2_2.csv", first_line csv_flange_2_2);
    ("ASME_B16_5_flange_ratings_group_2_3.csv", first_line csv_flange_2_3);
    ("ASME_B31_1_stress_limits_seamless.csv", first_line csv_stress_seamless);
    ("ASME_B31_1_stress_limits_welded.csv", first_line csv_stress_welded);
    ("materials_list.csv", first_line csv_materials);
    ("pipe_schedules.csv", first_line csv_pipe_schedules) ].

Definition material_groups : list (string * string) :=
  map (fun r => (hd "" r, hd "" (tl r))) (f_rows TUBE_MATERIALS).

(** tube.py:195-200 _check_material (module level, used by Flange).
    Materials are Python values: strings, or integers such as 304. *)
Inductive pyname : Type := NStr (s : string) | NInt (z : Z).

Definition check_material (m : pyname) : result bool :=
  match m with
  | NStr s => if str_mem s grades then Ok true
              else Err (ValueError (s ++ " not found in materials."
                                      ++ " Try Flange.available_materials"))
  | NInt _ => Err (ValueError "not found in materials. Try Flange.available_materials")
  end.
