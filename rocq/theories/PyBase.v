(** * PyBase: Python exceptions as values, and the arithmetic interface.

    Every model function is polymorphic in [Num A]:
    - [A := R]     is the instance the theorems are about (exact arithmetic);
    - [A := Q] (NumQ.v) computes: facts about the shipped tables, and Tests.v, which
      runs the model on the numbers of /repo/pypbomb/tests;
    - theorems stated for every [Num A] hold of any arithmetic, IEEE-754 included. *)
From Coq Require Import String ZArith QArith Reals Qreals List Bool.
Import ListNotations.

(** ** Exceptions.  Message strings are kept where pypbomb itself builds them. *)
Inductive exn : Type :=
| ValueError (msg : string)
| TypeError (msg : string)
| KeyError (msg : string)
| FileNotFoundError (msg : string)
| IndexError
| ZeroDivisionError
| DimensionalityError          (* pint.DimensionalityError *)
| OffsetUnitCalculusError      (* pint.OffsetUnitCalculusError *)
| UndefinedUnitError           (* pint.UndefinedUnitError *)
| NotFinite                    (* not an exception: numpy yields inf or nan here *)
| OutOfFuel                    (* not an exception: the loop has not finished *)
| Unmodelled.                  (* outside the modelled part of a library *)

Inductive result (A : Type) : Type :=
| Ok (a : A)
| Err (e : exn).
Arguments Ok {A} a.
Arguments Err {A} e.

Definition bind {A B} (x : result A) (f : A -> result B) : result B :=
  match x with Ok a => f a | Err e => Err e end.

Notation "'let*' x ':=' e 'in' k" := (bind e (fun x => k))
  (at level 200, x pattern, e at level 100, k at level 200, right associativity).

(** Python's [raise e if b]. *)
Definition raise_if (b : bool) (e : exn) : result unit :=
  if b then Err e else Ok tt.

Definition is_value_error {A} (r : result A) : Prop :=
  exists m, r = Err (ValueError m).
Definition is_key_error {A} (r : result A) : Prop :=
  exists m, r = Err (KeyError m).
Definition is_type_error {A} (r : result A) : Prop :=
  exists m, r = Err (TypeError m).
Definition raises {A} (r : result A) : Prop := exists e, r = Err e.

(** ** Arithmetic. *)
Class Num (A : Type) : Type := {
  nadd : A -> A -> A;
  nsub : A -> A -> A;
  nmul : A -> A -> A;
  ndiv : A -> A -> A;
  nopp : A -> A;
  nabs : A -> A;
  nsqrt : A -> A;
  nltb : A -> A -> bool;
  nleb : A -> A -> bool;
  neqb : A -> A -> bool;
  nofQ : Q -> A;      (* a decimal literal in the source or in a CSV file *)
  npi : A             (* np.pi *)
}.

Arguments nofQ {A _} _%Q_scope.

Declare Scope num_scope.
Delimit Scope num_scope with num.
Notation "x + y" := (nadd x y) : num_scope.
Notation "x - y" := (nsub x y) : num_scope.
Notation "x * y" := (nmul x y) : num_scope.
Notation "x / y" := (ndiv x y) : num_scope.
Notation "- x" := (nopp x) : num_scope.
Notation "x <? y" := (nltb x y) : num_scope.
Notation "x <=? y" := (nleb x y) : num_scope.
Notation "x =? y" := (neqb x y) : num_scope.
Notation "'lit' q" := (nofQ q) (at level 9, q at level 8) : num_scope.

(** *** Real numbers. *)
Definition Rltb (x y : R) : bool := if Rlt_dec x y then true else false.
Definition Rleb (x y : R) : bool := if Rle_dec x y then true else false.
Definition Reqb (x y : R) : bool := if Req_EM_T x y then true else false.

Global Instance Num_R : Num R := {|
  nadd := Rplus; nsub := Rminus; nmul := Rmult; ndiv := Rdiv;
  nopp := Ropp; nabs := Rabs; nsqrt := R_sqrt.sqrt;
  nltb := Rltb; nleb := Rleb; neqb := Reqb;
  nofQ := Q2R; npi := PI
|}.

Section Ops.
  Context {A : Type} {NA : Num A}.
  Local Open Scope num_scope.

  Definition zero : A := lit 0.
  Definition one : A := lit 1.

  (** Division of Python numbers: raises on a zero divisor. *)
  Definition pydiv (x y : A) : result A :=
    if y =? zero then Err ZeroDivisionError else Ok (x / y).

  (** Division of numpy float64 numbers: yields inf/nan on a zero divisor. *)
  Definition npdiv (x y : A) : result A :=
    if y =? zero then Err NotFinite else Ok (x / y).

  (** np.sqrt: nan below zero. *)
  Definition npsqrt (x : A) : result A :=
    if x <? zero then Err NotFinite else Ok (nsqrt x).

  (** Python's [x ** 2] on numbers. *)
  Definition sq (x : A) : A := x * x.

  (** Python's built-in abs, max-free comparisons, etc. come from the class. *)
  Definition n_of_nat (n : nat) : A := nofQ (inject_Z (Z.of_nat n)).
End Ops.
Arguments zero {A NA} : simpl never.
Arguments one {A NA} : simpl never.

(** Python [for x in l: ...] where the body may raise. *)
Fixpoint mapM {A B} (f : A -> result B) (l : list A) : result (list B) :=
  match l with
  | [] => Ok []
  | x :: r => let* y := f x in let* ys := mapM f r in Ok (y :: ys)
  end.
