(** * InitPressureM: model of Tube.calculate_max_initial_pressure, tube.py:1458-1600 *)
From Coq Require Import String ZArith QArith List Bool.
From Verif Require Import PyBase Pint UnitsM TubeM Gas FitM SdM ThermoM.
Import ListNotations.
Local Open Scope string_scope.
Local Open Scope num_scope.

Section InitPressure.
  Context {A G X : Type} {NA : Num A} (L : cantera A G X).

  (** what the function returns: a quantity, or (with return_dlf) a tuple *)
  Inductive answer : Type :=
  | Pressure (p : quantity A)
  | PressureAndFactor (p : quantity A) (dlf : A).

  (** tube.py:1534 [max_pressure_state in ("reflected", "cj")] and
      [state[max_pressure_state]["state"]] (1592) *)
  Inductive which : Type := AtReflected | AtCj.
  Definition which_state (s : string) : option which :=
    if String.eqb s "reflected" then Some AtReflected
    else if String.eqb s "cj" then Some AtCj
    else None.
  Definition state_at (w : which) (s : shock_states A G) : G :=
    match w with AtReflected => reflected_state s | AtCj => cj_gas_state s end.

  Section Search.
    (** the arguments that stay the same through the search *)
    Context (tube_id tube_od initial_temperature : quantity A) (species : X)
            (mechanism : string) (max_pressure elastic_modulus density : quantity A)
            (poisson_ratio plus_or_minus : A) (use_dynamic_load_factor : bool)
            (reg : nat) (p : pool A) (selected : which).

    (** tube.py:1544-1551 and 1572-1579 *)
    Definition shock_at (initial_pressure : quantity A) : io A (shock_states A G) :=
      calculate_reflected_shock_state L initial_temperature initial_pressure species
        mechanism reg p.

    (** tube.py:1553-1561 and 1582-1590; the load factor is an int *)
    Definition load_factor (state : shock_states A G) : result A :=
      let* n := dynamic_load_factor tube_id tube_od (cj_wave_speed state)
                  elastic_modulus density poisson_ratio plus_or_minus in
      Ok (n_of_nat n).

    (** tube.py:1568-1569: the new guess *)
    Definition next_pressure (initial_pressure : quantity A) (dlf : A)
      (state : shock_states A G) : result (quantity A) :=
      let* q := q_scale (q_mag max_pressure) initial_pressure in
      q_divn pydiv q (dlf * ct_P L (reflected_state state)).

    (** tube.py:1564-1595, the while loop.  [budget] is max_iterations - counter. *)
    Fixpoint pressure_loop (budget : nat) (error_tol error : A)
      (initial_pressure : quantity A) (dlf : A) (state : shock_states A G)
      : io A (quantity A * A) :=
      if error_tol <? nabs error then
        match budget with
        | O => ret (initial_pressure, dlf)
        | S budget =>
          do initial_pressure <- pure (next_pressure initial_pressure dlf state);
          do state <- shock_at initial_pressure;
          do dlf <- pure (if use_dynamic_load_factor then load_factor state else Ok one);
          do error <- pure (pydiv (ct_P L (state_at selected state) * dlf - q_mag max_pressure)
                                  (q_mag max_pressure));
          pressure_loop budget error_tol error initial_pressure dlf state
        end
      else ret (initial_pressure, dlf).
  End Search.

  (** tube.py:1534-1600 *)
  Definition calculate_max_initial_pressure
    (tube_id tube_od initial_temperature : quantity A) (species : X) (mechanism : string)
    (max_pressure elastic_modulus density : quantity A) (poisson_ratio plus_or_minus : A)
    (use_dynamic_load_factor : bool) (reg : nat) (error_tol : A) (max_iterations : Z)
    (p : pool A) (max_pressure_state : string) (return_dlf : bool) : io A answer :=
    match which_state max_pressure_state with
    | None => pure (Err (ValueError "`max_pressure_state` must be 'reflected' or 'cj'"))
    | Some selected =>
      do initial_pressure <- pure (quant reg one "atm");
      let error_tol := nabs error_tol in
      do state <- shock_at initial_temperature species mechanism reg p initial_pressure;
      do dlf <- pure (load_factor tube_id tube_od elastic_modulus density poisson_ratio
                                  plus_or_minus state);
      do e <- pure (pydiv (q_mag initial_pressure * dlf) (q_mag max_pressure));
      do (initial_pressure, dlf) <-
        pressure_loop tube_id tube_od initial_temperature species mechanism max_pressure
          elastic_modulus density poisson_ratio plus_or_minus use_dynamic_load_factor reg p
          selected (Z.to_nat max_iterations) error_tol (e - one) initial_pressure dlf state;
      ret (if return_dlf then PressureAndFactor initial_pressure dlf
           else Pressure initial_pressure)
    end.
End InitPressure.
Arguments answer A : clear implicits.
