(** * SearchSpec: chemistry seen from outside, as functions of the initial pressure. *)
From Coq Require Import String Reals List.
From Verif Require Import PyBase Pint UnitsM Spec Gas SdM ThermoM TubeM.
Local Open Scope R_scope.

(** For every initial pressure [P] in [domain] (in Pa, however it is written) the reflected
    shock can be computed and has pressure [peak P], and the tube's dynamic load factor for
    the CJ speed is [dlf P]. *)
Definition chemistry {G X} (L : cantera R G X) (tube_id tube_od T : quantity R) (x : X)
  (mech : string) (E rho : quantity R) (nu f : R) (reg : nat) (p : pool R)
  (domain : R -> Prop) (peak : R -> R) (dlf : R -> nat) : Prop :=
  forall q P, denotes (PQuant q) d_pressure P -> 0 < P -> domain P ->
    exists s, value (calculate_reflected_shock_state L T q x mech reg p) = Ok s
      /\ ct_P L (reflected_state s) = peak P
      /\ dynamic_load_factor tube_id tube_od (cj_wave_speed s) E rho nu f = Ok (dlf P).

(** The ratio peak P / P changes by at most P^eps: proportional means eps = 0. *)
Definition nearly_proportional (domain : R -> Prop) (peak : R -> R) (eps : R) : Prop :=
  forall P Q, 0 < P -> 0 < Q -> domain P -> domain Q ->
    0 < peak P /\ 0 < peak Q
    /\ Rabs (ln (peak P / P) - ln (peak Q / Q)) <= eps * Rabs (ln P - ln Q).

(** at most a factor exp W away from 1 atm *)
Definition around_1_atm (W P : R) : Prop := Rabs (ln P - ln 101325) <= W.
