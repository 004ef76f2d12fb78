(** * RoundM: the model's arithmetic with rounding.

    The model functions are polymorphic in [Num A].  This instance computes on real
    numbers but rounds the result of every operation, every decimal literal and pi, as
    a floating-point machine without overflow and underflow does.  Comparisons, negation
    and absolute value are exact, as in IEEE-754. *)
From Coq Require Import ZArith QArith Reals Qreals.
From Verif Require Import PyBase.
Local Open Scope R_scope.

Definition Num_rounded (rnd : R -> R) : Num R := {|
  nadd := fun x y => rnd (x + y);
  nsub := fun x y => rnd (x - y);
  nmul := fun x y => rnd (x * y);
  ndiv := fun x y => rnd (x / y);
  nopp := Ropp;
  nabs := Rabs;
  nsqrt := fun x => rnd (R_sqrt.sqrt x);
  nltb := Rltb; nleb := Rleb; neqb := Reqb;
  nofQ := fun q => rnd (Q2R q);
  npi := rnd PI
|}.
