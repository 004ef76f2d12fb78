(** * FitSpec: parabolas and squared residuals, for the cj_curve_fit properties. *)
From Coq Require Import Reals List.
Import ListNotations.
Local Open Scope R_scope.

Definition parabola (a b c x : R) : R := a * x^2 + b * x + c.

(** sum of [f] over the data points *)
Definition total {P} (f : P -> R) (pts : list P) : R :=
  fold_right (fun p s => f p + s) 0 pts.

(** sum of squared residuals of a parabola on the points *)
Definition squared_residuals (pts : list (R * R)) (a b c : R) : R :=
  total (fun p => (snd p - parabola a b c (fst p))^2) pts.

Definition mean_y (pts : list (R * R)) : R := total snd pts / INR (length pts).

Definition three_distinct (l : list R) : Prop :=
  exists x1 x2 x3, In x1 l /\ In x2 l /\ In x3 l /\ x1 <> x2 /\ x1 <> x3 /\ x2 <> x3.

(** ** Orders of summation *)
From Coq Require Import Permutation.
(** [s] is a sum of the numbers [l], added with [add] in some order and some
    bracketing (the sum of no numbers is [zero]). *)
Inductive added {A} (add : A -> A -> A) (zero : A) : list A -> A -> Prop :=
| added_none : added add zero [] zero
| added_one x : added add zero [x] x
| added_two l l1 l2 s1 s2 :
    added add zero l1 s1 -> added add zero l2 s2 -> Permutation l (l1 ++ l2) ->
    added add zero l (add s1 s2).
