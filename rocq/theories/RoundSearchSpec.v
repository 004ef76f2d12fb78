(** * RoundSearchSpec: a search for the initial pressure made in rounded arithmetic.
    As InitPressureSpec, with the chemistry and the load factor computed in rounded
    arithmetic and the new pressure within a few roundings of the exact one. *)
From Coq Require Import String ZArith Reals List Bool.
From Verif Require Import PyBase Pint UnitsM Spec Gas SdM ThermoM TubeM InitPressureM InitPressureSpec
  RoundM RoundSpec.
Import ListNotations.
Local Open Scope R_scope.

(** [m] atm, in the rounded unit table *)
Definition in_atm (rnd : R -> R) (q : quantity R) (m : R) (reg : nat) : Prop :=
  @lookup_unit R (Num_rounded rnd) "atm" = Some (q_unit q) /\ q_mag q = m /\ q_reg q = reg.

Section Spec.
  Context (u : R) (rnd : R -> R) {G X : Type} (L : cantera R G X).
  Context (tube_id tube_od T : quantity R) (x : X) (mech : string)
          (E rho : quantity R) (nu f : R) (use : bool) (reg : nat) (p : pool R).

  Definition shocks_at (q : quantity R) : result (shock_states R G) :=
    value (@calculate_reflected_shock_state R G X (Num_rounded rnd) L T q x mech reg p).
  Definition rounded_factor (s : shock_states R G) : result nat :=
    @dynamic_load_factor R (Num_rounded rnd) tube_id tube_od (cj_wave_speed s) E rho nu f.

  Definition first_trial_r (t : trial G) : Prop :=
    in_atm rnd (tried t) 1 reg /\ shocks_at (tried t) = Ok (shocks t)
    /\ exists n, rounded_factor (shocks t) = Ok n /\ factor t = INR n.
  Definition next_trial_r (M : R) (t t' : trial G) : Prop :=
    (exists m, in_atm rnd (tried t') m reg
       /\ factor t * ct_P L (reflected_state (shocks t)) <> 0
       /\ within (6 * u) (q_mag (tried t) * M / (factor t * ct_P L (reflected_state (shocks t)))) m)
    /\ shocks_at (tried t') = Ok (shocks t')
    /\ (if use then exists n, rounded_factor (shocks t') = Ok n /\ factor t' = INR n
        else factor t' = 1).
  Definition is_search_r (M : R) (ts : list (trial G)) : Prop :=
    match ts with
    | [] => False
    | t :: _ => first_trial_r t /\ forall a b, consecutive ts a b -> next_trial_r M a b
    end.

  (** The reflected pressure is [r] Pa for every atm of initial pressure, up to the
      fraction [eta], and the load factor is always [n]. *)
  Definition nearly_proportional (r eta : R) (n : nat) : Prop :=
    forall q m, in_atm rnd q m reg -> 0 < m ->
      exists s, shocks_at q = Ok s
        /\ within eta (r * m) (ct_P L (reflected_state s))
        /\ rounded_factor s = Ok n.
End Spec.
