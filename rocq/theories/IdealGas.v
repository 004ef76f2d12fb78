(** * IdealGas: a calorically perfect gas to run the gas dynamics on. *)
From Coq Require Import String ZArith QArith Reals List Bool.
From Verif Require Import PyBase Gas.
Import ListNotations.
Local Open Scope num_scope.

(** A calorically perfect gas p = rho Rs T, h = cp T + (q1 before it has burnt): its state
    is temperature, density and whether it is yet unburnt; it burns when equilibrated. *)
Definition ideal_gas {A} {NA : Num A} (Rs cp q1 : A) : cantera A (A * A * bool) bool :=
  mkCantera A (A * A * bool) bool
    (fun _ _ => Ok (lit 300, lit 1, true))
    (fun _ T P x => Ok (T, P / (Rs * T), x))
    (fun g T D => Ok (T, D, snd g))
    (fun g _ _ => Ok g)
    (fun g _ => Ok (fst g, false))
    (fun g => fst (fst g))
    (fun g => snd (fst g) * Rs * fst (fst g))
    (fun g => snd (fst g))
    (fun g => cp * fst (fst g) + (if snd g then q1 else lit 0))
    (fun _ => lit 0) snd (fun _ => Ok (lit 0)) (fun _ => Ok (lit 0)).
