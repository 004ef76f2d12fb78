(** * RunUpM: model of DDT.calculate_run_up, tube.py:803-1017 *)
From Coq Require Import String ZArith QArith Reals List Bool.
From Verif Require Import PyBase Pint UnitsM Interp Gas FitM SdM ThermoM.
Import ListNotations.
Local Open Scope string_scope.
Local Open Scope num_scope.

(** Powers with a real exponent and natural logarithm (numpy float64 ** float, np.log),
    for the arguments for which they are finite. *)
Class Trans (A : Type) : Type := {
  npow : A -> A -> A;      (* base >= 0, exponent > 0 *)
  nln : A -> A             (* argument > 0 *)
}.
Global Instance Trans_R : Trans R := {|
  npow := fun x y => if Req_EM_T x 0%R then 0%R else Rpower x y;
  nln := ln
|}.

Section RunUp.
  Context {A G X : Type} {NA : Num A} {TA : Trans A} (L : cantera A G X).

  (** [q ** e] of a dimensionless numpy quantity: the unit (such as m/inch) is raised to
      the power too; nan for a negative base. *)
  Definition q_pow (q : quantity A) (e : A) : result (quantity A) :=
    let* _ := offset_free q in
    if dim_eqb (u_dim (q_unit q)) d_none then
      if q_mag q <? zero then Err NotFinite
      else Ok (mkQ (npow (q_mag q) e) (mult_unit d_none (npow (u_scale (q_unit q)) e)) (q_reg q))
    else Err Unmodelled.

  (** [np.log(q)]: pint first converts to a plain number; -inf or nan unless positive *)
  Definition q_log (q : quantity A) : result (quantity A) :=
    if dim_eqb (u_dim (q_unit q)) d_none then
      if zero <? base_mag q
      then Ok (mkQ (nln (base_mag q)) (mult_unit d_none one) (q_reg q))
      else Err NotFinite
    else Err DimensionalityError.

  (** tube.py:925-970 eq4_1.  [working_gas] is the object that was burnt at constant
      enthalpy and pressure; it is first put back to the initial state. *)
  Definition eq4_1 (blockage_ratio : A) (tube_diameter initial_temperature
      initial_pressure : quantity A) (species : X) (reg : nat) (working_gas : G)
      (laminar_fs : quantity A) (density_ratio : A) (sound_speed : quantity A)
    : io A (quantity A) :=
    let kappa := lit 0.4 in
    let kk := lit 5.5 in
    let cc := lit 0.2 in
    let mm := lit (-0.18) in
    let eta := lit 2.1 in
    (* 940-952 *)
    do T <- pure (in_unit initial_temperature "K");
    do P <- pure (in_unit initial_pressure "Pa");
    do working_gas <- set_TPX L working_gas T P species;
    do rho <- pure (quant reg (ct_density L working_gas) "kg/m^3");
    do mu <- pure (ct_viscosity L working_gas);
    pure (
      let* mu := quant reg mu "Pa*s" in
      let* nu := q_div pydiv mu rho in
      let* delta := q_div npdiv nu laminar_fs in
      let delta := to_base_units delta in
      (* 957-961 *)
      let* den := q_scale (eta * sq (density_ratio - one)) laminar_fs in
      let* front := q_div npdiv sound_speed den in
      let* thin := q_div npdiv delta tube_diameter in
      let* thin := q_pow thin (one / lit 3) in
      let* gamma := q_mul front thin in
      let* gamma := q_pow gamma (one / (lit 2 * mm + lit 7 / lit 3)) in
      (* 964-969 *)
      let* root := npsqrt (one - blockage_ratio) in
      let* d_over_h := npdiv (lit 2) (one - root) in
      let* scaled := q_divn pydiv gamma cc in
      let* gd := q_scale d_over_h gamma in
      let* lg := q_log gd in
      let* lg := q_scale (one / kappa) lg in
      let* lg := n_addq kk lg in
      let* runup := q_mul scaled lg in
      let* runup := q_mul runup tube_diameter in
      (* 970 *)
      q_to runup (q_unit tube_diameter)).

  (** tube.py:972-995 eq4_4 *)
  Definition eq4_4 (blockage_ratio : A) (tube_diameter laminar_fs : quantity A)
      (density_ratio : A) (sound_speed : quantity A) : result (quantity A) :=
    let aa := lit 2 in
    let bb := lit 1.5 in
    let* top := q_scale (lit 2 * lit 10) laminar_fs in
    let* top := q_scale (density_ratio - one) top in
    let* bottom := q_mul sound_speed tube_diameter in
    let* lhs := q_div npdiv top bottom in
    let* rhs := pydiv (aa * (one - blockage_ratio)) (one + bb * blockage_ratio) in
    let* runup := n_divq npdiv rhs lhs in
    q_to runup (q_unit tube_diameter).

  (** tube.py:803-1017 calculate_run_up *)
  Definition calculate_run_up (blockage_ratio : A)
      (tube_diameter initial_temperature initial_pressure : pyin A) (species : X)
      (mechanism : string) (reg : nat) (phase_specification : string)
    : io A (quantity A) :=
    (* 860-861 *)
    if (blockage_ratio <=? zero) || (lit 0.75 <? blockage_ratio)
    then pure (Err (ValueError "
Blockage ratio outside of correlation range"))
    else
    (* 863-889 *)
    do tube_diameter <- pure (parse_quant_input tube_diameter reg);
    do initial_temperature <- pure (parse_quant_input initial_temperature reg);
    do initial_pressure <- pure (parse_quant_input initial_pressure reg);
    do _ <- pure (check_q tube_diameter "length" true);
    do _ <- pure (check_q initial_temperature "temperature" true);
    do _ <- pure (check_q initial_pressure "pressure" true);
    (* 892-899 *)
    do laminar_fs <- calculate_laminar_flame_speed L (PQuant initial_temperature)
                       (PQuant initial_pressure) species mechanism phase_specification reg;
    (* 903-913 *)
    do working_gas <- new_solution L mechanism phase_specification;
    do T <- pure (in_unit initial_temperature "K");
    do P <- pure (in_unit initial_pressure "Pa");
    do working_gas <- set_TPX L working_gas T P species;
    let density0 := ct_density L working_gas in
    do working_gas <- equilibrate L working_gas "HP";
    do density1 <- pure (pydiv one (ct_density L working_gas));
    let density_ratio := density0 * density1 in
    (* 916-923 *)
    do sound_speed <- get_eq_sound_speed L (PSeq [ENum (ct_T L working_gas); EStr "K"])
                        (PSeq [ENum (ct_P L working_gas); EStr "Pa"]) species mechanism
                        phase_specification reg;
    (* 998-1015 *)
    if (lit 0.3 <=? blockage_ratio) && (blockage_ratio <=? lit 0.75) then
      pure (eq4_4 blockage_ratio tube_diameter laminar_fs density_ratio sound_speed)
    else if blockage_ratio <=? lit 0.1 then
      eq4_1 blockage_ratio tube_diameter initial_temperature initial_pressure species reg
            working_gas laminar_fs density_ratio sound_speed
    else
      do smooth <- eq4_1 blockage_ratio tube_diameter initial_temperature initial_pressure
                     species reg working_gas laminar_fs density_ratio sound_speed;
      do rough <- pure (eq4_4 blockage_ratio tube_diameter laminar_fs density_ratio sound_speed);
      do x <- pure (np_interp blockage_ratio
                      [(lit 0.1, q_mag smooth); (lit 0.3, q_mag rough)]);
      ret (mkQ x (q_unit tube_diameter) reg).
End RunUp.
