(** * InitPressureSpec: what a search for the initial pressure is. *)
From Coq Require Import String ZArith Reals List Bool.
From Verif Require Import PyBase Pint UnitsM Spec Gas SdM ThermoM TubeM InitPressureM.
Import ListNotations.
Local Open Scope R_scope.

(** One evaluation of the chemistry: the pressure it was made at, what came out, and the
    load factor used with it. *)
Record trial (G : Type) : Type := mkTrial {
  tried : quantity R; shocks : shock_states R G; factor : R }.
Arguments mkTrial {G}. Arguments tried {G}. Arguments shocks {G}. Arguments factor {G}.

Section Spec.
  Context {G X : Type} (L : cantera R G X).
  Context (tube_id tube_od T : quantity R) (x : X) (mech : string)
          (E rho : quantity R) (nu f : R) (use : bool) (reg : nat) (p : pool R).

  (** the tube's load factor for the CJ speed of [s] *)
  Definition factor_of (s : shock_states R G) (k : R) : Prop :=
    exists n, dynamic_load_factor tube_id tube_od (cj_wave_speed s) E rho nu f = Ok n
              /\ k = INR n.

  Definition evaluated (t : trial G) : Prop :=
    value (calculate_reflected_shock_state L T (tried t) x mech reg p) = Ok (shocks t).

  (** the first trial is at 1 atm, with the tube's load factor *)
  Definition first_trial (t : trial G) : Prop :=
    is_in (tried t) 1 "atm" reg /\ evaluated t /\ factor_of (shocks t) (factor t).

  (** the next one is at the pressure that would give [M] if the reflected pressure were
      proportional to the initial pressure *)
  Definition next_trial (M : R) (t t' : trial G) : Prop :=
    (exists m, is_in (tried t') m "atm" reg
       /\ factor t * ct_P L (reflected_state (shocks t)) <> 0
       /\ m = q_mag (tried t) * M / (factor t * ct_P L (reflected_state (shocks t))))
    /\ evaluated t'
    /\ (if use then factor_of (shocks t') (factor t') else factor t' = 1).

  (** the pressure of the chosen state times the load factor is within [tol] of [M] *)
  Definition meets (w : which) (M tol : R) (t : trial G) : Prop :=
    Rabs ((ct_P L (state_at w (shocks t)) * factor t - M) / M) <= tol.

  (** [ts]: the trials in order *)
  Definition is_search (M : R) (ts : list (trial G)) : Prop :=
    match ts with
    | [] => False
    | t :: _ => first_trial t /\ forall a b, consecutive ts a b -> next_trial M a b
    end.
End Spec.

(** the pressure and, if asked for, the factor of the trial *)
Definition reports {G} (return_dlf : bool) (t : trial G) (a : answer R) : Prop :=
  a = if return_dlf then PressureAndFactor (tried t) (factor t) else Pressure (tried t).
