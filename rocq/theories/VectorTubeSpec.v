(** * VectorTubeSpec: array calls that agree with the single calls without exception. *)
From Coq Require Import List.
From Verif Require Import PyBase Pint UnitsM WindowM BoltM VectorM VectorSpec.

(** The quantity [v] holds [n] elements (or one, shared by all), and [f i] is its [i]-th. *)
Definition quantity_elements {A} (n : nat) (v : vquantity A) (f : nat -> quantity A) : Prop :=
  of_length n (v_mag v) /\ forall i, i < n -> quantity_at i v = Some (f i).

(** One array call against [n] single calls: when all the single calls return, the array
    call returns the same values; when the array call returns, so do all the single calls,
    and each element is what the single call returns. *)
Definition same_elementwise {V S} (n : nat) (at_ : nat -> V -> option S)
    (array : result V) (single : nat -> result S) : Prop :=
  (forall f, (forall i, i < n -> single i = Ok (f i)) ->
     exists v, array = Ok v /\ forall i, i < n -> at_ i v = Some (f i))
  /\ (forall v, array = Ok v -> forall i, i < n ->
     exists a, at_ i v = Some a /\ single i = Ok a).

(** An argument of one element: a number or an array of length one. *)
Definition only {A} (m : vmag A) (a : A) : Prop := m = Sca a \/ m = Arr (a :: nil).
