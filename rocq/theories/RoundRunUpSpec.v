(** * RoundRunUpSpec: vocabulary for sound speeds and run-up distances under rounding. *)
From Coq Require Import String ZArith QArith Reals List Bool.
From Verif Require Import PyBase Pint UnitsM Gas Spec ThermoSpec RoundSpec RoundTempSpec.
Import ListNotations.
Local Open Scope R_scope.

(** [x] is a number of the machine: rounding leaves it alone. *)
Definition machine_number (rnd : R -> R) (x : R) : Prop := rnd x = x.

Section Spec.
  Context {G X : Type} (L : cantera R G X) (x : X) (mech phase : string) (u : R).

  (** [g0]: the mixture equilibrated at [T], [P]; [g1]: the same gas after a pressure rise
      of 0.01 %, up to four roundings of the pressure, at constant entropy, equilibrated
      again. *)
  Definition nearly_isentropic_pair (T P : R) (g0 g1 : G) : Prop :=
    exists g h p1,
      gas_at_state L x mech phase T P g /\ ct_equilibrate L g "TP" = Ok g0
      /\ within (4 * u) (10001/10000 * ct_P L g0) p1
      /\ ct_set_SP L g0 (ct_entropy L g0) p1 = Ok h
      /\ ct_equilibrate L h "SP" = Ok g1.

  (** Equilibrated at [T], [P] the mixture has a positive pressure, and it gets denser when it
      is compressed a little, whatever the rounding of the pressure. *)
  Definition compressible (T P : R) : Prop :=
    exists g g0,
      gas_at_state L x mech phase T P g /\ ct_equilibrate L g "TP" = Ok g0 /\ 0 < ct_P L g0
      /\ forall p1, within (4 * u) (10001/10000 * ct_P L g0) p1 ->
         exists h g1, ct_set_SP L g0 (ct_entropy L g0) p1 = Ok h
                      /\ ct_equilibrate L h "SP" = Ok g1
                      /\ ct_density L g0 < ct_density L g1.

  (** [c] is the speed of sound from such a pair: the square of it is the slope of the
      pressure, 0.01 % of it over the change in density. *)
  Definition speed_of_sound (T P c : R) : Prop :=
    exists g0 g1, nearly_isentropic_pair T P g0 g1
      /\ 0 < c /\ c^2 * (ct_density L g1 - ct_density L g0) = 1/10000 * ct_P L g0.

  (** The mixture at [T], [P] burns with flame speed [S]; the products [h] of burning at
      constant enthalpy and pressure are [sigma] times thinner. *)
  Definition flame (T P S sigma : R) (h : G) : Prop :=
    exists g, gas_at_state L x mech phase T P g /\ ct_flame_speed L g = Ok S
      /\ ct_equilibrate L g "HP" = Ok h
      /\ 0 < ct_density L g /\ 0 < ct_density L h /\ sigma = ct_density L g / ct_density L h.
End Spec.
