(** * ImportSpec: what importing the package must guarantee. *)
From Coq Require Import String Ascii ZArith QArith List Bool.
From Verif Require Import PyBase Csv DataSpec.
Import ListNotations.
Local Open Scope string_scope.

(** [text] is the text of the file called [name] in the directory [d]. *)
Definition has_file (d : list (string * string)) (name text : string) : Prop :=
  exists before after, d = (before ++ (name, text) :: after)%list
                       /\ ~ In name (map fst before).
(** The files the package reads. *)
Definition data_files : list string :=
  [ "ASME_B31_1_stress_limits_welded.csv"; "ASME_B31_1_stress_limits_seamless.csv";
    "pipe_schedules.csv"; "materials_list.csv";
    "ASME_B16_5_flange_ratings_group_2_1.csv"; "ASME_B16_5_flange_ratings_group_2_2.csv";
    "ASME_B16_5_flange_ratings_group_2_3.csv"; "ANSI_inch_internal_thread.csv";
    "ANSI_inch_external_thread.csv" ].
Definition stress_file (welded : bool) : string :=
  if welded then "ASME_B31_1_stress_limits_welded.csv"
  else "ASME_B31_1_stress_limits_seamless.csv".

(** The header line has no white space at its ends. *)
Definition clean_header (text : string) : Prop :=
  forall line rest, split_on newline text = line :: rest -> strip line = line.

(** Row [row] of [f] is a material called [grade] in group [group]. *)
Definition lists (f : frame) (row : list string) (grade group : string) : Prop :=
  In row (f_rows f) /\ cell (f_cols f) row "Grade" = Some grade
  /\ cell (f_cols f) row "Group" = Some group /\ grade <> "" /\ group <> "".
