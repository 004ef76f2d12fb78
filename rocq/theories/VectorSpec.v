(** * VectorSpec: elements of array arguments and results. *)
From Coq Require Import String List Bool.
From Verif Require Import PyBase Pint UnitsM WindowM BoltM VectorM.
Import ListNotations.

(** Element [i] of a magnitude; a number, or an array of one element, is the same at
    every [i] (numpy broadcasting). *)
Definition pick {A} (i : nat) (m : vmag A) : option A :=
  match m with
  | Sca a => Some a
  | Arr [a] => Some a
  | Arr l => nth_error l i
  end.

(** The magnitude of an argument. *)
Definition arg_mag {A} (v : vpyin A) : vmag A :=
  match v with VQ q => v_mag q | VPair m _ => m | VBad => Arr [] end.

(** [s] is the argument [v] with its [i]-th element only. *)
Inductive element_of {A} (i : nat) : vpyin A -> pyin A -> Prop :=
| element_quantity (q : vquantity A) (a : A) :
    pick i (v_mag q) = Some a ->
    element_of i (VQ q) (PQuant (mkQ a (v_unit q) (v_reg q)))
| element_pair (m : vmag A) (s : string) (a : A) :
    pick i m = Some a -> element_of i (VPair m s) (PSeq [ENum a; EStr s])
| element_bad : element_of i VBad PNoIter.

(** [n] elements: an array of [n], an array of one, or a number. *)
Definition of_length {A} (n : nat) (m : vmag A) : Prop :=
  match m with Sca _ => True | Arr l => length l = n \/ length l = 1 end.

(** The exception check_pint_quantity raises for a negative value. *)
Definition negative_rejected {A} (r : result A) : Prop :=
  r = Err (ValueError "Input value < 0").

(** The argument [v] holds [n] elements (or one, shared by all), and [s i] is [v] with
    its [i]-th element only. *)
Definition elements {A} (n : nat) (v : vpyin A) (s : nat -> pyin A) : Prop :=
  of_length n (arg_mag v) /\ forall i, i < n -> element_of i v (s i).
Definition number_elements {A} (n : nat) (m : vmag A) (s : nat -> A) : Prop :=
  of_length n m /\ forall i, i < n -> pick i m = Some (s i).

(** Element [i] of a quantity, and of a pair of safety factors. *)
Definition quantity_at {A} (i : nat) (q : vquantity A) : option (quantity A) :=
  match pick i (v_mag q) with
  | Some a => Some (mkQ a (v_unit q) (v_reg q))
  | None => None
  end.
Definition factors_at {A} (i : nat) (f : v_factors A) : option (bolt_factors A) :=
  match pick i (v_sf_bolt f), pick i (v_sf_plate f) with
  | Some b, Some p => Some (mkFactors b p (v_sf_warning f))
  | _, _ => None
  end.

(** One array call against [n] single calls:
    - whenever all the single calls return, the array call returns the same values;
    - when the array call returns, each element of what it returns is what the single
      call returns, or it is not the first and the single call rejects a negative
      argument. *)
Definition elementwise {V S} (n : nat) (at_ : nat -> V -> option S)
    (array : result V) (single : nat -> result S) : Prop :=
  (forall f, (forall i, i < n -> single i = Ok (f i)) ->
     exists v, array = Ok v /\ forall i, i < n -> at_ i v = Some (f i))
  /\ (forall v, array = Ok v -> forall i, i < n ->
     exists a, at_ i v = Some a /\ (single i = Ok a \/ (0 < i /\ negative_rejected (single i)))).
