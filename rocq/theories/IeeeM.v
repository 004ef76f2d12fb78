(** * IeeeM: the model's arithmetic in IEEE-754 binary64.

    The instance of [Num] that Python's floats are: Flocq's formalisation of the
    standard, 53 binary digits, exponents up to 1024, round to nearest even, with
    infinities, subnormal numbers, signed zeros and a nan.  A decimal literal is the
    correctly rounded quotient of two integers (the ones in the source and the data
    have fewer than 16 digits); [npi] is the double nearest to pi,
    3.141592653589793. *)
From Coq Require Import ZArith QArith Bool.
From Flocq Require Import Core BinarySingleNaN.
From Verif Require Import PyBase.

Definition b64 : Type := binary_float 53 1024.

Lemma prec_pos : Prec_gt_0 53. Proof. reflexivity. Qed.
Lemma prec_emax : Prec_lt_emax 53 1024. Proof. reflexivity. Qed.
#[global] Existing Instance prec_pos.
#[global] Existing Instance prec_emax.

Definition b64_of_Z (z : Z) : b64 := binary_normalize 53 1024 prec_pos prec_emax mode_NE z 0 false.

Definition b64_pi : b64 := @B754_finite 53 1024 false 7074237752028440 (-51) eq_refl.

Global Instance Num_b64 : Num b64 := {|
  nadd := Bplus mode_NE;
  nsub := Bminus mode_NE;
  nmul := Bmult mode_NE;
  ndiv := Bdiv mode_NE;
  nopp := Bopp;
  nabs := Babs;
  nsqrt := Bsqrt mode_NE;
  nltb := Bltb; nleb := Bleb; neqb := Beqb;
  nofQ := fun q => Bdiv mode_NE (b64_of_Z (Qnum q)) (b64_of_Z (Zpos (Qden q)));
  npi := b64_pi
|}.
