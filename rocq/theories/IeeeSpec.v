(** * IeeeSpec: double-precision inputs read as real numbers. *)
From Coq Require Import ZArith QArith Reals List String.
From Flocq Require Import Core BinarySingleNaN.
From Verif Require Import PyBase Pint UnitsM RoundSpec RoundM IeeeM.
Import ListNotations.
Local Open Scope R_scope.

(** The number a double stands for. *)
Definition real (x : b64) : R := B2R x.

(** A finite double that is 0 or between 1/c and c in size. *)
Definition moderate (c : R) (x : b64) : Prop :=
  is_finite x = true /\ (real x = 0 \/ / c <= Rabs (real x) <= c).

(** An argument with its numbers read as real numbers: a number with the name of a unit,
    or a quantity whose unit is one of the table. *)
Inductive reads (c : R) : pyin b64 -> pyin R -> Prop :=
| reads_number m name : moderate c m ->
    reads c (PSeq [ENum m; EStr name]) (PSeq [ENum (real m); EStr name])
| reads_quantity m name u u' reg : moderate c m ->
    @lookup_unit b64 Num_b64 name = Some u ->
    @lookup_unit R (Num_rounded double) name = Some u' ->
    reads c (PQuant (mkQ m u reg)) (PQuant (mkQ (real m) u' reg)).

(** Two calls, one in doubles and one in real numbers, that end in the same way: the same
    error, or results standing for the same number. *)
Definition same_outcome {A B : Type} (same : A -> B -> Prop) (r : result A) (r' : result B) : Prop :=
  (exists e, r = Err e /\ r' = Err e) \/ (exists a b, r = Ok a /\ r' = Ok b /\ same a b).

Definition same_number (x : b64) (y : R) : Prop := is_finite x = true /\ real x = y.

Definition same_quantity (q : quantity b64) (q' : quantity R) : Prop :=
  same_number (q_mag q) (q_mag q') /\ same_number (u_scale (q_unit q)) (u_scale (q_unit q'))
  /\ Pint.u_off (q_unit q) = None /\ Pint.u_off (q_unit q') = None
  /\ u_dim (q_unit q) = u_dim (q_unit q') /\ q_reg q = q_reg q'.

(** The quantity [q] of doubles is worth [x] in base units. *)
Definition worth_double (q : quantity b64) (x : R) : Prop :=
  is_finite (q_mag q) = true /\ is_finite (u_scale (q_unit q)) = true
  /\ Pint.u_off (q_unit q) = None /\ real (q_mag q) * real (u_scale (q_unit q)) = x.

(** Not below zero (a nan is not below anything). *)
Definition not_negative (x : b64) : Prop := Bltb x (b64_of_Z 0) = false.
