(** * SpeedSpec: what cj_speed is expected to do, for the properties of Detonation.cj_speed. *)
From Coq Require Import String ZArith Reals List Bool Permutation.
From Verif Require Import PyBase Gas FitSpec SdM.
Import ListNotations.
Local Open Scope R_scope.

(** A schedule hands out the jobs it is given in some order. *)
Definition reorders {A} (schedule : nat -> list (nat * A) -> list (nat * A)) : Prop :=
  forall round jobs, Permutation (schedule round jobs) jobs.

(** 21 evenly spaced numbers from [lo] to [hi] *)
Definition evenly_spaced (lo hi : R) (l : list R) : Prop :=
  length l = 21%nat
  /\ forall i, (i <= 20)%nat -> nth i l 0 = lo + INR i * (hi - lo) / 20.

(** the parabola with the least sum of squared residuals, and the only such one *)
Definition best_parabola (pts : list (R * R)) (a b c : R) : Prop :=
  forall a' b' c',
    squared_residuals pts a b c <= squared_residuals pts a' b' c'
    /\ (squared_residuals pts a' b' c' <= squared_residuals pts a b c ->
        a' = a /\ b' = b /\ c' = c).

Section Spec.
  Context {G X : Type} (L : cantera R G X) (P T : R) (x : X) (mech : string).

  (** a new gas object set to the initial state *)
  Definition starts_as (g : G) : Prop :=
    exists g0, ct_new L mech "" = Ok g0 /\ ct_set_TPX L g0 T P x = Ok g.

  (** cj_state gives speed [U] (and gas [g]) for density ratio [r], with the tolerances
      1e-4, at most 500 iterations, from fresh gases *)
  Definition cj_result (r : R) (g : G) (U : R) : Prop :=
    exists initial working,
      starts_as initial /\ starts_as working
      /\ value (cj_state L 500 npdiv working initial (1/10000) (1/10000) r 500) = Ok (g, U).
  Definition cj_velocity (r U : R) : Prop := exists g, cj_result r g U.

  Record fit_round := mkRound {
    ratios : list R; speeds : list R; ra : R; rb : R; rc : R }.
  Definition vertex (r : fit_round) : R := - rb r / (2 * ra r).

  (** One round: cj_state at 21 evenly spaced ratios, best parabola through the speeds. *)
  Definition round_over (lo hi : R) (r : fit_round) : Prop :=
    evenly_spaced lo hi (ratios r)
    /\ Forall2 cj_velocity (ratios r) (speeds r)
    /\ best_parabola (combine (ratios r) (speeds r)) (ra r) (rb r) (rc r)
    /\ ra r <> 0.

  (** Rounds, each within 0.1 % of the vertex of the one before. *)
  Fixpoint refining (lo hi : R) (rs : list fit_round) : Prop :=
    match rs with
    | [] => True
    | r :: rest =>
        round_over lo hi r
        /\ refining (vertex r * (999/1000)) (vertex r * (1001/1000)) rest
    end.
End Spec.

(** number of gas objects created in a trace *)
Definition gases_created {A} (t : list (event A)) : nat :=
  length (filter (fun e => match e with EvNew _ _ => true | _ => false end) t).
