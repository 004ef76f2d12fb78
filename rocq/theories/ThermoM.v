(** * ThermoM: model of pypbomb/thermochem.py *)
From Coq Require Import String ZArith QArith List Bool.
From Verif Require Import PyBase Pint UnitsM Gas FitM SdM.
Import ListNotations.
Local Open Scope num_scope.
Local Open Scope string_scope.

Section Thermo.
  Context {A G X : Type} {NA : Num A} (L : cantera A G X).

  (** [q.to(unit).magnitude] *)
  Definition in_unit (q : quantity A) (s : string) : result A :=
    let* q := q_to_str q s in Ok (q_mag q).

  (** thermochem.py:19-85 calculate_laminar_flame_speed.  The gas object is made
      before the arguments are looked at (line 48).  cantera's FreeFlame, its refine
      criteria and solve() (79-83) are one library call, [ct_flame_speed]. *)
  Definition calculate_laminar_flame_speed (initial_temperature initial_pressure : pyin A)
    (species : X) (mechanism phase_specification : string) (reg : nat)
    : io A (quantity A) :=
    do gas <- new_solution L mechanism phase_specification;
    (* 51-68 *)
    do initial_pressure <- pure (parse_quant_input initial_pressure reg);
    do initial_temperature <- pure (parse_quant_input initial_temperature reg);
    do _ <- pure (check_q initial_pressure "pressure" true);
    do _ <- pure (check_q initial_temperature "temperature" true);
    (* 70-76 *)
    do T <- pure (in_unit initial_temperature "K");
    do P <- pure (in_unit initial_pressure "Pa");
    do gas <- set_TPX L gas T P species;
    (* 79-84 *)
    do u <- flame_speed L gas;
    pure (quant reg u "m/s").

  (** thermochem.py:89-166 get_eq_sound_speed *)
  Definition get_eq_sound_speed (temperature pressure : pyin A) (species : X)
    (mechanism phase_specification : string) (reg : nat) : io A (quantity A) :=
    (* 121-138 *)
    do pressure <- pure (parse_quant_input pressure reg);
    do temperature <- pure (parse_quant_input temperature reg);
    do _ <- pure (check_q pressure "pressure" true);
    do _ <- pure (check_q temperature "temperature" true);
    (* 140-145 *)
    do gas <- new_solution L mechanism phase_specification;
    do T <- pure (in_unit temperature "K");
    do P <- pure (in_unit pressure "Pa");
    do gas <- set_TPX L gas T P species;
    (* 150-153 *)
    do gas <- equilibrate L gas "TP";
    let p0 := ct_P L gas in
    let rho0 := ct_density L gas in
    (* 156-159 *)
    let p1 := lit 1.0001 * p0 in
    do gas <- set_SP L gas (ct_entropy L gas) p1;
    do gas <- equilibrate L gas "SP";
    let rho1 := ct_density L gas in
    (* 162-164 *)
    do slope <- pure (npdiv (p1 - p0) (rho1 - rho0));
    do sound_speed <- pure (npsqrt slope);
    pure (quant reg sound_speed "m/s").

  (** The dict {"reflected": {"speed", "state"}, "cj": {"speed", "state"}} *)
  Record shock_states : Type := mkShock {
    reflected_speed : quantity A;
    reflected_state : G;
    cj_wave_speed : quantity A;
    cj_gas_state : G
  }.

  (** [cj_calcs["cj speed"]], [cj_calcs["cj state"]] (thermochem.py:239-243) *)
  Fixpoint number_at (k : string) (d : list (string * entry A G)) : result A :=
    match d with
    | [] => Err (KeyError k)
    | (k', e) :: r =>
        if String.eqb k' k then match e with ENumber a => Ok a | _ => Err Unmodelled end
        else number_at k r
    end.
  Fixpoint gas_at (k : string) (d : list (string * entry A G)) : result G :=
    match d with
    | [] => Err (KeyError k)
    | (k', e) :: r =>
        if String.eqb k' k then match e with EGas g => Ok g | _ => Err Unmodelled end
        else gas_at k r
    end.

  (** thermochem.py:169-265 calculate_reflected_shock_state.  The arguments must be
      quantities (the code calls .to on them); they are not checked. *)
  Definition calculate_reflected_shock_state (initial_temperature initial_pressure : quantity A)
    (species : X) (mechanism : string) (reg : nat) (p : pool A) : io A shock_states :=
    (* 208-209 *)
    do initial_gas <- new_solution L mechanism "";
    do reflected_gas <- new_solution L mechanism "";
    (* 212-224 *)
    do T <- pure (in_unit initial_temperature "K");
    do P <- pure (in_unit initial_pressure "Pa");
    do initial_gas <- set_TPX L initial_gas T P species;
    do reflected_gas <- set_TPX L reflected_gas T P species;
    (* 227-234 *)
    do cj_calcs <- cj_speed L P T species mechanism p false true;
    (* 237-244 *)
    do cj_state <- pure (gas_at "cj state" cj_calcs);
    do cj_speed <- pure (number_at "cj speed" cj_calcs);
    do (_, reflected_speed, reflected_gas) <-
      reflect L initial_gas cj_state reflected_gas cj_speed;
    (* 246-261 *)
    do ws <- pure (quant reg reflected_speed "m/s");
    do cs <- pure (quant reg cj_speed "m/s");
    ret (mkShock ws reflected_gas cs cj_state).
End Thermo.
Arguments shock_states A G : clear implicits.

(** thermochem.py:268-299 find_mechanisms.  [listing] is what os.listdir gives for the
    directory [path] (cantera's data directory).  The Python set is a list here. *)
Definition contains (sub s : string) : bool :=
  match String.index 0 sub s with Some _ => true | None => false end.

Inductive mechanisms : Type :=
| JustSet (available : list string)
| SetAndPath (available : list string) (path : string).

Definition find_mechanisms (path : string) (listing : list string) (return_directory : bool)
  : mechanisms :=
  let available := filter (fun item => contains ".cti" item || contains ".xml" item) listing in
  if return_directory then SetAndPath available path else JustSet available.
