(** * PoolSpec: worker pools as a caller (or `ps`) sees them. *)
From Coq Require Import List.
From Verif Require Import PyBase Gas.
Import ListNotations.

Inductive pool_event := Opened | Closed.

(** the pools made and closed during a call, in order *)
Fixpoint pool_history {A} (t : list (event A)) : list pool_event :=
  match t with
  | [] => []
  | EvPoolOpen :: r => Opened :: pool_history r
  | EvPoolClose :: r => Closed :: pool_history r
  | _ :: r => pool_history r
  end.

(** [n] pools one after another, each closed before the next is made *)
Fixpoint one_at_a_time (n : nat) : list pool_event :=
  match n with
  | O => []
  | S n => Opened :: Closed :: one_at_a_time n
  end.
