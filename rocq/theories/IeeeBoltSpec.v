(** * IeeeBoltSpec: results for a bolt, in doubles and in real numbers. *)
From Coq Require Import ZArith QArith Reals List String.
From Flocq Require Import Core BinarySingleNaN.
From Verif Require Import PyBase Pint BoltM IeeeM IeeeSpec.

Definition same_areas (a : thread_areas b64) (a' : thread_areas R) : Prop :=
  same_quantity (screw_area a) (screw_area a') /\ same_quantity (plate_area a) (plate_area a')
  /\ same_quantity (minimum_engagement a) (minimum_engagement a')
  /\ shear_warning a = shear_warning a'.

Definition same_factors (f : bolt_factors b64) (f' : bolt_factors R) : Prop :=
  same_number (sf_bolt f) (sf_bolt f') /\ same_number (sf_plate f) (sf_plate f')
  /\ sf_warning f = sf_warning f'.
