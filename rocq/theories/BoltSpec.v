(** * BoltSpec: what the bolt properties are about.

    Thread dimensions as the two CSV tables give them, and the stress areas of
    Machinery's Handbook (26th ed., pp. 1482-1491), in square metres. *)
From Coq Require Import String ZArith QArith Reals Qreals List Bool.
From Verif Require Import PyBase Csv.
Import ListNotations.
Local Open Scope string_scope.

(** [part] occurs in [s]. *)
Definition occurs_in (part s : string) : Prop :=
  exists before after, s = before ++ part ++ after.

(** The rows of a thread table with this size and this class. *)
Definition rows_for (f : frame) (size cls : string) : list (list string) :=
  filter (fun row => String.eqb (nth 0 row "") size && String.eqb (nth 1 row "") cls)
         (f_rows f).
Definition size_listed (f : frame) (size : string) : Prop :=
  exists row, In row (f_rows f) /\ nth 0 row "" = size.
(** The columns that hold thread properties. *)
Definition thread_properties (f : frame) : list string := skipn 2 (f_cols f).

(** Which table a thread class belongs to: grade 2 or 3, with an A external, with a B
    and no A internal. *)
Definition table_for (cls : string) (internal : bool) : Prop :=
  (occurs_in "2" cls \/ occurs_in "3" cls)
  /\ if internal then occurs_in "B" cls /\ ~ occurs_in "A" cls else occurs_in "A" cls.

(** The threads per inch are written after the last dash of the size. *)
Definition written_after_last_dash (size : string) (n : Q) : Prop :=
  exists before digits, size = before ++ "-" ++ digits
    /\ ~ occurs_in "-" digits /\ parse_number digits = Some n.

(** Dimensions of a mating pair of threads, in inches. *)
Record thread := mkThreadDims {
  t_minor_int : R;   (* internal thread, maximum minor diameter *)
  t_pitch_int : R;   (* internal thread, maximum pitch diameter *)
  t_pitch_ext : R;   (* external thread, minimum pitch diameter *)
  t_major_ext : R;   (* external thread, minimum major diameter *)
  t_basic : R;       (* basic diameter *)
  t_tpi : R          (* threads per inch *)
}.

(** The tables give these dimensions for size [size] and grade [grade] ("2", "3"):
    exactly one row in each table, and numbers in the cells. *)
Definition thread_in_tables (internal external : frame) (size grade : string) (t : thread)
  : Prop :=
  exists rowB rowA kn en es ds D n,
    rows_for internal size (grade ++ "B") = [rowB]
    /\ rows_for external size (grade ++ "A") = [rowA]
    /\ num_cell (f_cols internal) rowB "minor diameter max" = Some kn
    /\ num_cell (f_cols internal) rowB "pitch diameter max" = Some en
    /\ num_cell (f_cols external) rowA "pitch diameter min" = Some es
    /\ num_cell (f_cols external) rowA "major diameter min" = Some ds
    /\ num_cell (f_cols external) rowA "basic diameter" = Some D
    /\ written_after_last_dash size n
    /\ t = mkThreadDims (Q2R kn) (Q2R en) (Q2R es) (Q2R ds) (Q2R D) (Q2R n).

Local Open Scope R_scope.

(** One inch, one square inch, one pound-force per square inch, one atmosphere in SI. *)
Definition inch : R := 254 / 10000.
Definition psi : R := (45359237 / 100000000) * (980665 / 100000) / inch ^ 2.
Definition atmosphere : R := 101325.

(** Tensile stress area: eq. 9 p. 1482 below 100 000 psi, eq. 2b p. 1490 from there. *)
Definition area_in_tension (t : thread) (bolt_strength : R) : R :=
  (if Rlt_dec bolt_strength (100000 * psi)
   then PI / 4 * (t_basic t - 9742785 / 10000000 / t_tpi t) ^ 2
   else PI * (t_pitch_ext t / 2 - 16238 / 100000 / t_tpi t) ^ 2) * inch ^ 2.

(** Shear area of the screw thread per metre of engagement, eq. 5 p. 1491. *)
Definition screw_shear_per_length (t : thread) : R :=
  PI * t_tpi t * t_minor_int t
  * (1 / (2 * t_tpi t) + 57735 / 100000 * (t_pitch_ext t - t_minor_int t)) * inch.
Definition area_in_shear (t : thread) (engagement : R) : R :=
  screw_shear_per_length t * engagement.

(** Shear area of the plate thread per metre of engagement, eq. 6 p. 1491. *)
Definition plate_shear_per_length (t : thread) : R :=
  PI * t_tpi t * t_major_ext t
  * (1 / (2 * t_tpi t) + 57735 / 100000 * (t_major_ext t - t_pitch_int t)) * inch.
Definition area_of_plate (t : thread) (engagement : R) : R :=
  plate_shear_per_length t * engagement.
