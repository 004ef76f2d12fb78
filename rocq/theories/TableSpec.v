(** * TableSpec: what it means for a value to be in one of the shipped CSV tables.

    Only the CSV reader (header, rows, decimal numbers) is used. *)
From Coq Require Import String ZArith QArith List Bool.
From Verif Require Import PyBase Csv.
Import ListNotations.

(** The row labelled [key] (first column) has the number [q] in column [col]. *)
Definition entry (f : frame) (key col : string) (q : Q) : Prop :=
  exists row, In row (f_rows f) /\ hd ""%string row = key
              /\ num_cell (f_cols f) row col = Some q.

(** Row labels. *)
Definition labels (f : frame) : list string := map (hd ""%string) (f_rows f).

(** The number a flange CSV file gives in column [col] of [row]: a blank or unreadable
    cell counts as 0. *)
Definition tabulated (f : frame) (row : list string) (col : string) (q : Q) : Prop :=
  exists s, cell (f_cols f) row col = Some s
            /\ q = match parse_number s with Some n => n | None => 0%Q end.

(** The flange rating file [f] that applies to a material: the material's row in
    materials_list.csv names the group, the group names the file. *)
Definition rated_by (materials : frame) (file : string -> option frame)
    (material : string) (f : frame) : Prop :=
  exists row g, find (fun r => String.eqb (hd ""%string r) material) (f_rows materials) = Some row
    /\ cell (f_cols materials) row "Group" = Some g /\ file g = Some f.

(** The pressure classes of a rating file: every column but the first. *)
Definition pressure_classes (f : frame) : list string := tl (f_cols f).

(** The ASME B16.5 pressure classes. *)
Definition class_names : list string :=
  ["150"; "300"; "400"; "600"; "900"; "1500"; "2500"]%string.
