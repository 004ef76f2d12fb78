(** * RoundTempSpec: a temperature as the user writes it, in rounded arithmetic. *)
From Coq Require Import String Reals List.
From Verif Require Import PyBase Pint UnitsM RoundM.
Import ListNotations.

(** [m] of the unit called [name], as a (magnitude, name) pair or as a quantity of any
    registry (whose unit has the scale and offset of the unit table, rounded). *)
Definition given (rnd : R -> R) (i : pyin R) (m : R) (name : string) : Prop :=
  i = PSeq [ENum m; EStr name]
  \/ exists q, i = PQuant q /\ q_mag q = m
       /\ @lookup_unit R (Num_rounded rnd) name = Some (q_unit q).

(** A temperature of [t] degC, written in the unit [name], between [lo] and [hi] degC: by
    any margin if written in degC (the unit of the rating tables), by at least 20000
    rounding units of 1 degC in any other unit. *)
Definition accepted (u : R) (name : string) (lo hi t : R) : Prop :=
  ((name = "degC" \/ name = "degree_Celsius")%string /\ (lo <= t <= hi)%R)
  \/ (lo + 20000 * u <= t <= hi - 20000 * u)%R.
