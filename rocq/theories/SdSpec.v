(** * SdSpec: conservation laws and Newton iterations, for the properties of sd.py. *)
From Coq Require Import String ZArith QArith Reals List Bool.
From Verif Require Import PyBase Gas.
Import ListNotations.
Local Open Scope R_scope.

Section Spec.
  Context {G X : Type} (L : cantera R G X).

  (** ** Conservation laws *)

  (** A steady wave runs at speed [U] into the gas [g1] and leaves the gas [g2] behind:
      in the frame of the wave [g1] flows in at [U] and [g2] flows out at [w]. *)
  Definition wave_conserves (g1 g2 : G) (U w : R) : Prop :=
    ct_density L g1 * U = ct_density L g2 * w
    /\ ct_P L g1 + ct_density L g1 * U^2 = ct_P L g2 + ct_density L g2 * w^2
    /\ ct_enthalpy L g1 + U^2 / 2 = ct_enthalpy L g2 + w^2 / 2.

  (** ** Newton iterations *)

  (** energy and momentum imbalance of a candidate burnt gas [g2] for speed [U] *)
  Definition energy_imbalance (g1 g2 : G) (U : R) : R :=
    (ct_enthalpy L g2 + (U * ct_density L g1 / ct_density L g2)^2 / 2)
    - (ct_enthalpy L g1 + U^2 / 2).
  Definition momentum_imbalance (g1 g2 : G) (U : R) : R :=
    (ct_P L g2 + ct_density L g2 * (U * ct_density L g1 / ct_density L g2)^2)
    - (ct_P L g1 + ct_density L g1 * U^2).

  (** the same for a reflected shock that stops gas [g2] moving at [u] and leaves [g3] *)
  Definition reflected_energy_imbalance (g2 g3 : G) (u : R) : R :=
    let r := ct_density L g3 / ct_density L g2 in
    ct_enthalpy L g3 - ct_enthalpy L g2 - u^2 / 2 * (r + 1) / (r - 1).
  Definition reflected_momentum_imbalance (g2 g3 : G) (u : R) : R :=
    let r := ct_density L g3 / ct_density L g2 in
    ct_P L g3 - ct_P L g2 - ct_density L g3 * u^2 / (r - 1).

  (** setting temperature and density and equilibrating at fixed volume *)
  Definition settles (g : G) (T D : R) (g' : G) : Prop :=
    exists g1, ct_set_TD L g T D = Ok g1 /\ ct_equilibrate L g1 "TV" = Ok g'.

  (** [d1], [d2] is the one solution of  J (d1,d2) = - (e1,e2). *)
  Definition the_solution (h1 h2 p1 p2 e1 e2 d1 d2 : R) : Prop :=
    (h1 * d1 + h2 * d2 = - e1 /\ p1 * d1 + p2 * d2 = - e2)
    /\ forall d1' d2',
        h1 * d1' + h2 * d2' = - e1 -> p1 * d1' + p2 * d2' = - e2 ->
        d1' = d1 /\ d2' = d2.

  (** [d'] is [d] cut down to at most [m] in absolute value. *)
  Definition cut (d m d' : R) : Prop :=
    (Rabs d <= m /\ d' = d) \/ (m < d /\ d' = m) \/ (d < - m /\ d' = - m).

  (** An iterate of the CJ iteration: temperature, wave speed, gas. *)
  Definition cj_iterate : Type := (R * R * G)%type.

  (** One Newton step: the derivatives are finite differences for a 2 % change of
      temperature and of speed at fixed density [D]. *)
  Definition cj_newton_step (initial : G) (D : R) (p q : cj_iterate) : Prop :=
    let '(T, U, g) := p in
    let '(T', U', g') := q in
    exists gT gU dT dU,
      settles g (T + 1/50 * T) D gT /\ settles gT T D gU /\ settles gU T' D g'
      /\ the_solution
          ((energy_imbalance initial gT U - energy_imbalance initial g U) / (1/50 * T))
          ((energy_imbalance initial gU (U + 1/50 * U) - energy_imbalance initial g U)
           / (1/50 * U))
          ((momentum_imbalance initial gT U - momentum_imbalance initial g U) / (1/50 * T))
          ((momentum_imbalance initial gU (U + 1/50 * U) - momentum_imbalance initial g U)
           / (1/50 * U))
          (energy_imbalance initial g U) (momentum_imbalance initial g U) dT dU
      /\ cut dT (1/5 * T) (T' - T) /\ U' = U + dU.

  (** An iterate of the reflected-shock iteration: temperature, volume, gas. *)
  Definition rs_iterate : Type := (R * R * G)%type.

  (** the volume step is cut to 20 % of the volume or, if it would pass the volume [v2]
      of the gas ahead of the reflected shock, to half the way there *)
  Definition rs_newton_step (g2 : G) (u : R) (p q : rs_iterate) : Prop :=
    let v2 := 1 / ct_density L g2 in
    let '(T, v, g) := p in
    let '(T', v', g') := q in
    exists gT gv dT dv,
      settles g (T + 1/50 * T) (1 / v) gT /\ settles gT T (1 / (v + 1/50 * v)) gv
      /\ settles gv T' (1 / v') g'
      /\ the_solution
          ((reflected_energy_imbalance g2 gT u - reflected_energy_imbalance g2 g u)
           / (1/50 * T))
          ((reflected_energy_imbalance g2 gv u - reflected_energy_imbalance g2 g u)
           / (1/50 * v))
          ((reflected_momentum_imbalance g2 gT u - reflected_momentum_imbalance g2 g u)
           / (1/50 * T))
          ((reflected_momentum_imbalance g2 gv u - reflected_momentum_imbalance g2 g u)
           / (1/50 * v))
          (reflected_energy_imbalance g2 g u) (reflected_momentum_imbalance g2 g u) dT dv
      /\ cut dT (1/5 * T) (T' - T)
      /\ (v + dv <= v2 -> cut dv (1/5 * v) (v' - v))
      /\ (v2 < v + dv -> cut dv (1/2 * (v2 - v)) (v' - v)).
End Spec.

(** ** Sequences of iterates *)
(** temperature, speed (or volume) of an iterate *)
Definition itT {G} (p : R * R * G) : R := fst (fst p).
Definition itU {G} (p : R * R * G) : R := snd (fst p).

(** the (temperature, density) settings made while going through the iterates of the
    CJ iteration at density [D]: for each step the perturbed temperature, the
    temperature itself (for the perturbed speed), and the new temperature *)
Fixpoint cj_settings {G} (D : R) (its : list (R * R * G)) : list (R * R) :=
  match its with
  | p :: ((q :: _) as r) =>
      (itT p + 1/50 * itT p, D) :: (itT p, D) :: (itT q, D) :: cj_settings D r
  | _ => []
  end.
(** the same for the reflected-shock iteration *)
Fixpoint rs_settings {G} (its : list (R * R * G)) : list (R * R) :=
  match its with
  | p :: ((q :: _) as r) =>
      (itT p + 1/50 * itT p, 1 / itU p) :: (itT p, 1 / (itU p + 1/50 * itU p))
      :: (itT q, 1 / itU q) :: rs_settings r
  | _ => []
  end.

(** the last step is within the relative tolerances *)
Definition last_step_within {G} (tol_T tol_U : R) (its : list (R * R * G)) : Prop :=
  forall before p q, its = (before ++ [p; q])%list ->
    Rabs (itT q - itT p) <= tol_T * itT q /\ Rabs (itU q - itU p) <= tol_U * itU q.
Definition last_step_outside {G} (tol_T tol_U : R) (its : list (R * R * G)) : Prop :=
  forall before p q, its = (before ++ [p; q])%list ->
    ~ (Rabs (itT q - itT p) <= tol_T * itT q /\ Rabs (itU q - itU p) <= tol_U * itU q).

(** every neighbour pair of the list is a step *)
Definition chain {I} (step : I -> I -> Prop) (l : list I) : Prop :=
  forall before p q after, l = (before ++ p :: q :: after)%list -> step p q.

(** the warnings in a trace *)
Definition warnings {A} (t : list (event A)) : list (event A) :=
  filter (fun e => match e with EvWarn _ => true | _ => false end) t.
(** the (temperature, density) pairs a gas was set to *)
Definition settings {A} (t : list (event A)) : list (A * A) :=
  flat_map (fun e => match e with EvTD T D => [(T, D)] | _ => [] end) t.
(** the loop ended (the model's own loop bound was not what stopped it) *)
Definition finishes {A B} (r : io A B) : Prop := ~ In EvStuck (trace r).
