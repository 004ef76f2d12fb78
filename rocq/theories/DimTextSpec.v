(** * DimTextSpec: how to read a dimension in a message. *)
From Coq Require Import String ZArith.
From Verif Require Import Pint TextSpec.
Local Open Scope string_scope.

(** the four names *)
Inductive name_of : string -> dim -> Prop :=
| n_length : name_of "length" (mkDim 1 0 0 0)
| n_mass : name_of "mass" (mkDim 0 1 0 0)
| n_temperature : name_of "temperature" (mkDim 0 0 0 1)
| n_time : name_of "time" (mkDim 0 0 1 0).
Definition dim_power (d : dim) (n : Z) : dim :=
  mkDim (dL d * n) (dM d * n) (dT d * n) (dK d * n).

(** a name, or a name to a power, written as digits *)
Inductive factor : string -> dim -> Prop :=
| f_name k d : name_of k d -> factor k d
| f_power k d t n j : name_of k d -> digits t n j -> (0 < j)%nat ->
    factor (k ++ " ** " ++ t) (dim_power d n).

(** products and quotients, read from left to right *)
Inductive product : string -> dim -> Prop :=
| p_one : product "1" d_none
| p_factor s d : factor s d -> product s d
| p_times s d t e : product s d -> factor t e -> product (s ++ " * " ++ t) (dim_mul d e)
| p_over s d t e : product s d -> factor t e -> product (s ++ " / " ++ t) (dim_div d e).

Definition reads_as (s : string) (d : dim) : Prop :=
  (s = "dimensionless" /\ d = d_none) \/ product s d.
