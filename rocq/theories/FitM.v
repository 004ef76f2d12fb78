(** * FitM: model of pypbomb/sd.py cj_curve_fit (lines 21-84). *)
From Coq Require Import String ZArith QArith List Bool.
From Verif Require Import PyBase.
Import ListNotations.
Local Open Scope num_scope.

Section Fit.
  Context {A : Type} {NA : Num A}.

  (** np.sum (sd.py:48-54), left to right.  numpy adds arrays of eight elements and more
      in another order ([numpy_sum] below); C114 shows that in exact arithmetic no order
      changes the fit. *)
  Definition np_sum (l : list A) : A := fold_left nadd l zero.

  (** np.power(x, 2), (x, 3), (x, 4) of one element (sd.py:49-51) *)
  Definition pow2 (x : A) : A := x * x.
  Definition pow3 (x : A) : A := x * x * x.
  Definition pow4 (x : A) : A := x * x * x * x.

  (** elementwise operation on two arrays of the same length *)
  Definition zip_with (f : A -> A -> A) (x y : list A) : list A :=
    map (fun p => f (fst p) (snd p)) (combine x y).

  Record fit : Type := mkFit { fit_a : A; fit_b : A; fit_c : A; fit_r2 : result A }.

  (** sd.py:22-84 cj_curve_fit.  Simplifications: where a coefficient becomes inf or nan
      the model stops with [NotFinite] (an R^2 that is inf or nan is kept, as
      [Err NotFinite] in [fit_r2]); arrays of unequal length raise ValueError
      (numpy's broadcast error), except that broadcasting of one-element arrays is not
      modelled. *)
  Definition cj_curve_fit_by (np_sum : list A -> A) (x y : list A) : result fit :=
    let* _ :=
      (if Nat.eqb (length x) (length y) then Ok tt
       else if (Nat.eqb (length x) 1 || Nat.eqb (length y) 1)%bool then Err Unmodelled
       else Err (ValueError "operands could not be broadcast together")) in
    (* sd.py:45 *)
    let n := n_of_nat (length x) in
    (* sd.py:48-54 *)
    let sum_x := np_sum x in
    let sum_x2 := np_sum (map pow2 x) in
    let sum_x3 := np_sum (map pow3 x) in
    let sum_x4 := np_sum (map pow4 x) in
    let sum_y := np_sum y in
    let sum_xy := np_sum (zip_with (fun xi yi => yi * xi) x y) in
    let sum_x2y := np_sum (zip_with (fun xi yi => yi * pow2 xi) x y) in
    (* sd.py:57-67 *)
    let* m := npdiv sum_y n in
    let den := sum_x3 * n - sum_x2 * sum_x in
    let temp :=
      den * (sum_x * sum_x2 - sum_x3 * n)
      + sum_x2 * sum_x2 * (sum_x * sum_x - n * sum_x2)
      - sum_x4 * n * (sum_x * sum_x - sum_x2 * n) in
    let temp2 :=
      den * (sum_y * sum_x2 - sum_x2y * n)
      + (sum_xy * n - sum_y * sum_x) * (sum_x4 * n - sum_x2 * sum_x2) in
    (* sd.py:70-76 *)
    let* b := npdiv temp2 temp in
    let* inv_den := npdiv one den in
    let a := inv_den * (n * sum_xy - sum_y * sum_x
                        - b * (sum_x2 * n - sum_x * sum_x)) in
    let* inv_n := pydiv one n in
    let c := inv_n * (sum_y - a * sum_x2 - b * sum_x) in
    (* sd.py:79-82 *)
    let f := map (fun xi => a * pow2 xi + b * xi + c) x in
    let sse := np_sum (zip_with (fun yi fi => pow2 (yi - fi)) y f) in
    let sst := np_sum (map (fun yi => pow2 (yi - m)) y) in
    let r_squared := (let* ratio := npdiv sse sst in Ok (one - ratio)) in
    Ok (mkFit a b c r_squared).

  Definition cj_curve_fit (x y : list A) : result fit := cj_curve_fit_by np_sum x y.

  (** numpy's order of summation (pairwise_sum in numpy/core/src/umath/loops_utils.h.src,
      called by the np.sum of sd.py:48-54, 80-81): fewer than eight elements left to
      right; up to 128 elements eight running sums, added as a tree, then the rest; more
      are halved.  Numpy is not part of /repo: this order is used only where rounding
      matters. *)
  Definition tree8 (r : list A) : A :=
    match r with
    | [r0; r1; r2; r3; r4; r5; r6; r7] =>
      ((r0 + r1) + (r2 + r3)) + ((r4 + r5) + (r6 + r7))
    | _ => np_sum r
    end.
  Fixpoint eight_sums (fuel : nat) (r l : list A) : A :=
    match fuel with
    | O => fold_left nadd l (tree8 r)
    | S fuel => if Nat.ltb (length l) 8 then fold_left nadd l (tree8 r)
                else eight_sums fuel (zip_with nadd r (firstn 8 l)) (skipn 8 l)
    end.
  Fixpoint numpy_pairwise (fuel : nat) (l : list A) : A :=
    let n := length l in
    if Nat.ltb n 8 then np_sum l
    else if Nat.leb n 128 then eight_sums n (firstn 8 l) (skipn 8 l)
    else match fuel with
         | O => np_sum l
         | S fuel => let h := (Nat.div2 n - Nat.modulo (Nat.div2 n) 8)%nat in
                     numpy_pairwise fuel (firstn h l) + numpy_pairwise fuel (skipn h l)
         end.
  Definition numpy_sum (l : list A) : A := numpy_pairwise (length l) l.
End Fit.
Arguments fit A : clear implicits.
