(** * Spec: the vocabulary in which the properties are stated.

    Nothing here mentions the model's functions; only the shape of Python values
    (quantities, tuples, results) and physics. *)
From Coq Require Import String ZArith QArith Reals List Bool Lra.
From Verif Require Import PyBase Pint UnitsM.
Import ListNotations.
Local Open Scope R_scope.

(** ** Physical meaning of a unit, a quantity, an argument, a result. *)

(** A unit as pint defines them: positive scale; only temperature units have an
    offset. *)
Definition wf_unit (u : unit_ R) : Prop :=
  0 < u_scale u /\ (u_off u <> None -> u_dim u = d_temperature).

(** [m] of unit [u] is the value [x] in SI base units. *)
Definition worth (m : R) (u : unit_ R) (x : R) : Prop :=
  x = m * u_scale u + match u_off u with Some o => o | None => 0 end.

(** The argument [i] (a quantity from any registry or a (magnitude, unit) pair)
    stands for the value [x] (SI) of dimension [d]. *)
Inductive denotes : pyin R -> dim -> R -> Prop :=
| denotes_quantity (q : quantity R) (d : dim) (x : R) :
    wf_unit (q_unit q) -> u_dim (q_unit q) = d -> worth (q_mag q) (q_unit q) x ->
    denotes (PQuant q) d x
| denotes_pair (m : R) (s : string) (u : unit_ R) (d : dim) (x : R) :
    lookup_unit s = Some u -> u_dim u = d -> worth m u x ->
    denotes (PSeq [ENum m; EStr s]) d x.

(** A quantity that stands for [x] of dimension [d] in registry [reg], in a
    multiplicative unit. *)
Definition stands_for (q : quantity R) (d : dim) (x : R) (reg : nat) : Prop :=
  u_dim (q_unit q) = d /\ u_off (q_unit q) = None /\ 0 < u_scale (q_unit q)
  /\ q_mag q * u_scale (q_unit q) = x /\ q_reg q = reg.

(** A call that returns such a quantity. *)
Definition returns (r : result (quantity R)) (d : dim) (x : R) (reg : nat) : Prop :=
  exists q, r = Ok q /\ stands_for q d x reg.

(** Same unit. *)
Definition unit_of (q : quantity R) : unit_ R := q_unit q.

(** A quantity in the named unit with the given magnitude. *)
Definition is_in (q : quantity R) (m : R) (unit_name : string) (reg : nat) : Prop :=
  lookup_unit unit_name = Some (q_unit q) /\ q_mag q = m /\ q_reg q = reg.

(** The unit an argument is expressed in. *)
Inductive expressed_in : pyin R -> unit_ R -> Prop :=
| expressed_quantity (q : quantity R) : expressed_in (PQuant q) (q_unit q)
| expressed_pair (m : R) (s : string) (u : unit_ R) :
    lookup_unit s = Some u -> expressed_in (PSeq [ENum m; EStr s]) u.

(** ** Geometry of a spiral of wire diameter [d] in a tube of diameter [D]. *)
Definition circle_area (diameter : R) : R := PI * diameter^2 / 4.
Definition blocked_fraction (D d : R) : R :=
  (circle_area D - circle_area (D - 2 * d)) / circle_area D.

(** ** The seven documented dimension names (docstring of check_pint_quantity), as
    exponents of length, mass, time, temperature. *)
Definition documented_dimensions : list (string * dim) :=
  [ ("length"%string, mkDim 1 0 0 0);
    ("area"%string, mkDim 2 0 0 0);
    ("volume"%string, mkDim 3 0 0 0);
    ("temperature"%string, mkDim 0 0 0 1);
    ("pressure"%string, mkDim (-1) 1 (-2) 0);
    ("velocity"%string, mkDim 1 0 (-1) 0);
    ("density"%string, mkDim (-3) 1 0 0) ].

(** ** Equivalent calls *)

(** Both return related values, or both raise the same exception. *)
Definition same_outcome {A} (P : A -> A -> Prop) (r1 r2 : result A) : Prop :=
  match r1, r2 with
  | Ok a, Ok b => P a b
  | Err e, Err e' => e = e'
  | _, _ => False
  end.

(** Same physical value, same registry, multiplicative units. *)
Definition same_value (q1 q2 : quantity R) : Prop :=
  exists d x reg, stands_for q1 d x reg /\ stands_for q2 d x reg.

(** Two arguments with the same physical value. *)
Definition same_argument (i1 i2 : pyin R) : Prop :=
  exists d x, d <> d_temperature /\ denotes i1 d x /\ denotes i2 d x.


(** ** Tables and straight lines *)

(** [p] and [q] are neighbours in [l]. *)
Definition consecutive {A} (l : list A) (p q : A) : Prop :=
  exists before after, l = (before ++ p :: q :: after)%list.

(** The straight line through two points. *)
Definition line (p q : R * R) (x : R) : R :=
  snd p + (snd q - snd p) * ((x - fst p) / (fst q - fst p)).

(** Abscissae strictly increase along the list. *)
Definition increasing (l : list (R * R)) : Prop :=
  forall p q, consecutive l p q -> fst p < fst q.
(** Ordinates never increase along the list. *)
Definition falling (l : list (R * R)) : Prop :=
  forall p q, consecutive l p q -> snd q <= snd p.

(** A temperature of [t] degrees Fahrenheit or Celsius, in kelvin. *)
Definition fahrenheit (t : R) : R := (t + 45967/100) * (5/9).
Definition celsius (t : R) : R := t + 27315/100.
