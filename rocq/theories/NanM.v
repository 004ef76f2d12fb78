(** * NanM: the number type of the model with the float "nan" added.

    The model is polymorphic in its arithmetic ([Num A], PyBase.v).  Here [A] is the real
    numbers with one more element, [NaN], that behaves as Python's and numpy's nan do:
    every operation on it gives nan again, and every comparison with it ([<], [<=], [==],
    also of nan with itself) is false.  Nothing else changes: the functions are the same
    model functions of /repo/pypbomb/units.py and tube.py as everywhere else.
    Infinities are not added: where numpy gives inf, or makes a nan out of ordinary
    numbers (a zero divisor, a negative radicand), the model stops with [NotFinite]. *)
From Coq Require Import String ZArith QArith Reals Qreals List Bool.
From Verif Require Import PyBase RunUpM.

Inductive fl : Type := Fin (x : R) | NaN.

Definition fl1 (f : R -> R) (a : fl) : fl :=
  match a with Fin x => Fin (f x) | NaN => NaN end.
Definition fl2 (f : R -> R -> R) (a b : fl) : fl :=
  match a, b with Fin x, Fin y => Fin (f x y) | _, _ => NaN end.
Definition flc (f : R -> R -> bool) (a b : fl) : bool :=
  match a, b with Fin x, Fin y => f x y | _, _ => false end.

Global Instance Num_fl : Num fl := {|
  nadd := fl2 Rplus; nsub := fl2 Rminus; nmul := fl2 Rmult; ndiv := fl2 Rdiv;
  nopp := fl1 Ropp; nabs := fl1 Rabs; nsqrt := fl1 R_sqrt.sqrt;
  nltb := flc Rltb; nleb := flc Rleb; neqb := flc Reqb;
  nofQ := fun q => Fin (Q2R q); npi := Fin PI
|}.

(** The powers of the run-up correlations (RunUpM.v) have exponents different from 0, so
    that the power of nan is nan. *)
Global Instance Trans_fl : Trans fl := {|
  npow := fl2 (@npow R Trans_R);
  nln := fl1 ln
|}.
