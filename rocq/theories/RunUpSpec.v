(** * RunUpSpec: vocabulary for the run-up distance (tube.py, DDT.calculate_run_up).

    The two correlations of Ciccarelli and Dorofeev (Prog. Energy Combust. Sci. 34, 2008,
    equations 4.1 and 4.4), and the properties of the mixture that enter them. *)
From Coq Require Import String ZArith QArith Reals List Bool.
From Verif Require Import PyBase Pint UnitsM Gas Spec ThermoSpec.
Import ListNotations.
Local Open Scope R_scope.

Section Mixture.
  Context {G X : Type} (L : cantera R G X) (x : X) (mech phase : string) (T P : R).

  (** The mixture at [T], [P] burns with flame speed [S]; the products [h] of burning at
      constant enthalpy and pressure are [sigma] times thinner, and the speed of sound in
      them is [c] (the slope of a 0.01 % isentropic pressure rise, C70). *)
  Definition burns (S sigma c : R) (h : G) : Prop :=
    exists g g0 g1,
      gas_at_state L x mech phase T P g
      /\ ct_flame_speed L g = Ok S
      /\ ct_equilibrate L g "HP" = Ok h
      /\ ct_density L h <> 0 /\ sigma = ct_density L g / ct_density L h
      /\ 0 <= ct_T L h /\ 0 <= ct_P L h
      /\ isentropic_pair L x mech phase (ct_T L h) (ct_P L h) g0 g1
      /\ ct_density L g1 <> ct_density L g0
      /\ 0 <= c /\ c^2 * (ct_density L g1 - ct_density L g0) = 1/10000 * ct_P L g0.

  (** The gas object [h] put back to the initial state has kinematic viscosity [nu]. *)
  Definition kinematic_viscosity (h : G) (nu : R) : Prop :=
    exists g mu,
      ct_set_TPX L h T P x = Ok g /\ ct_viscosity L g = Ok mu
      /\ ct_density L g <> 0 /\ nu = mu / ct_density L g.
End Mixture.

(** Equation 4.1, smooth tubes: [D] tube diameter, [delta] = nu/S flame thickness, obstacle
    height h with D/h = 2/(1 - sqrt(1 - BR)); C = 0.2, kappa = 0.4, K = 5.5, eta = 2.1,
    m = -0.18. *)
Definition flame_group (S sigma c nu D : R) : R :=
  Rpower (c / (21/10 * (sigma - 1)^2 * S) * Rpower (nu / S / D) (1/3))
         (1 / (2 * (-18/100) + 7/3)).
Definition diameter_over_height (BR : R) : R := 2 / (1 - sqrt (1 - BR)).
Definition smooth_tube (BR S sigma c nu D : R) : R :=
  let gamma := flame_group S sigma c nu D in
  gamma / (2/10) * (1 / (4/10) * ln (gamma * diameter_over_height BR) + 55/10) * D.

(** Equation 4.4, rough tubes: the run-up distance [x] satisfies
    x * 2*10*S*(sigma-1) / (c*D) = a*(1-BR)/(1+b*BR), a = 2, b = 1.5. *)
Definition rough_tube (BR S sigma c D : R) : R :=
  2 * (1 - BR) / (1 + 3/2 * BR) * (c * D) / (2 * 10 * S * (sigma - 1)).

(** Smooth up to 0.1, rough from 0.3, on the straight line between the two in between. *)
Definition run_up_distance (BR S sigma c nu D : R) : R :=
  if Rle_dec BR (1/10) then smooth_tube BR S sigma c nu D
  else if Rle_dec (3/10) BR then rough_tube BR S sigma c D
  else line (1/10, smooth_tube BR S sigma c nu D) (3/10, rough_tube BR S sigma c D) BR.

(** cantera with another viscosity model *)
Definition with_viscosity {G X} (L : cantera R G X) (v : G -> result R) : cantera R G X :=
  mkCantera R G X (ct_new L) (ct_set_TPX L) (ct_set_TD L) (ct_set_SP L) (ct_equilibrate L)
    (ct_T L) (ct_P L) (ct_density L) (ct_enthalpy L) (ct_entropy L) (ct_X L) v
    (ct_flame_speed L).
