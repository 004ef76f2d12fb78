(** * UnitRestSpec: what it means for two calls to come to the same thing (C122). *)
From Coq Require Import Reals.
From Verif Require Import PyBase Pint UnitsM Spec Gas.

(** Two runs: the same calls to the library with the same arguments, in the same order,
    and outcomes in relation [P] (or the same exception). *)
Definition same_run {A B} (P : B -> B -> Prop) (r1 r2 : io A B) : Prop :=
  trace r1 = trace r2 /\ same_outcome P (value r1) (value r2).

(** The same number in the same unit (the registry may be another). *)
Definition same_reading (q1 q2 : quantity R) : Prop :=
  q_mag q1 = q_mag q2 /\ q_unit q1 = q_unit q2.
