(** * Interp: np.interp and the order-1 spline behind DataFrame.interpolate.

    numpy, pandas and scipy are not in /repo: this file states the behaviour the
    model assumes of them (DESIGN.md, trusted base). *)
From Coq Require Import String ZArith QArith List Bool.
From Verif Require Import PyBase.
Import ListNotations.
Local Open Scope num_scope.

Section Interp.
  Context {A : Type} {NA : Num A}.

  (** [np.diff(xs) > 0] everywhere *)
  Fixpoint strictly_increasing (xs : list A) : bool :=
    match xs with
    | x :: ((y :: _) as r) => (x <? y) && strictly_increasing r
    | _ => true
    end.

  (** np.interp(x, xp, fp) for increasing xp: constant beyond both ends; the slope
      formula [fp[j] + (fp[j+1]-fp[j])/(xp[j+1]-xp[j])*(x-xp[j])] inside; an x that
      is nan (the only x with [x != x]) is returned as it is. *)
  Fixpoint np_interp_from (x : A) (p : A * A) (rest : list (A * A)) : A :=
    match rest with
    | [] => snd p
    | q :: rest' =>
      if x <? fst q
      then (snd q - snd p) / (fst q - fst p) * (x - fst p) + snd p
      else np_interp_from x q rest'
    end.
  Definition np_interp (x : A) (pts : list (A * A)) : result A :=
    match pts with
    | [] => Err (ValueError "array of sample points is empty")
    | p :: rest => Ok (if negb (x =? x) then x
                     else if x <? fst p then snd p else np_interp_from x p rest)
    end.

  (** Stable sort of the valid points by abscissa
      (scipy.interpolate.interp1d: [np.argsort(x, kind="mergesort")]). *)
  Fixpoint insert_pt (p : A * A) (l : list (A * A)) : list (A * A) :=
    match l with
    | [] => [p]
    | q :: r => if fst p <=? fst q then p :: l else q :: insert_pt p r
    end.
  Fixpoint sort_pts (l : list (A * A)) : list (A * A) :=
    match l with [] => [] | p :: r => insert_pt p (sort_pts r) end.

  Fixpoint has_duplicates (l : list (A * A)) : bool :=
    match l with
    | p :: ((q :: _) as r) => (fst p =? fst q) || has_duplicates r
    | _ => false
    end.

  (** Order-1 B-spline on knots x0,x0,x1,...,xn,xn (scipy make_interp_spline k=1):
      the interval is the first one whose right end exceeds x, or the last one;
      de Boor's recurrence gives both basis functions the value 0 on an interval of
      length zero. *)
  Fixpoint spline1 (x : A) (p : A * A) (rest : list (A * A)) : A :=
    match rest with
    | [] => snd p
    | q :: rest' =>
      match rest' with
      | _ :: _ => if fst q <=? x then spline1 x q rest'
                  else (fst q - x) / (fst q - fst p) * snd p
                       + (x - fst p) / (fst q - fst p) * snd q
      | [] => if fst q =? fst p then zero
              else (fst q - x) / (fst q - fst p) * snd p
                   + (x - fst p) / (fst q - fst p) * snd q
      end
    end.

  (** DataFrame.interpolate(method="slinear") for the one missing value at index
      [x]: NaN outside the range of the known points.  Newer scipy releases
      ([strict = true], 1.7 and later) reject repeated abscissae; those current
      when the commit was made ([strict = false]) do not. *)
  Definition slinear (strict : bool) (pts : list (A * A)) (x : A) : result A :=
    let s := sort_pts pts in
    if strict && has_duplicates s
    then Err (ValueError "Expect x to not have duplicates")
    else match s with
         | p :: ((_ :: _) as rest) =>
           if (x <? fst p) || (fst (last rest p) <? x) then Err NotFinite
           else Ok (spline1 x p rest)
         | _ => Err Unmodelled
         end.
End Interp.
