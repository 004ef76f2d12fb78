(** * DataSpec: what the import-time checks are about. *)
From Coq Require Import String Ascii ZArith QArith List Bool.
From Verif Require Import PyBase Csv BoltSpec TextSpec.
Import ListNotations.
Local Open Scope string_scope.

(** Files of the lookup directory: (name, first line).  Names are read without regard
    to capitals. *)
Definition flange_name (file : string) : Prop := mentions file "flange".
Definition stress_name (file : string) : Prop := mentions file "stress".

(** A stress-limit file covers the materials that are fields of its first line, the
    first field excepted; white space around the line does not count. *)
Definition covers (header grade : string) : Prop :=
  exists line first materials,
    trimmed header line /\ fields "," line (first :: materials) /\ In grade materials.

(** [part] occurs in [s], but not at its very beginning. *)
Definition occurs_inside (part s : string) : Prop :=
  occurs_in part s /\ ~ exists rest, s = part ++ rest.

(** What is missing from a directory for a list of (grade, group) pairs. *)
Definition missing_material (files : list (string * string)) (grade file : string) : Prop :=
  exists header, In (file, header) files /\ stress_name file /\ ~ covers header grade.
Definition missing_group (files : list (string * string)) (group : string) : Prop :=
  forall file header, In (file, header) files -> flange_name file ->
    ~ occurs_inside (replace_char "." "_" group) file.

(** Text in row [i], column number [j], under the header [c]. *)
Definition text_at (f : frame) (i j : nat) (c s : string) : Prop :=
  exists row, nth_error (f_rows f) i = Some row /\ nth_error row j = Some s
              /\ nth_error (f_cols f) j = Some c.
Definition number_or_zero (s : string) (q : Q) : Prop :=
  decimal s q \/ ((forall n, ~ decimal s n) /\ q == 0%Q).
