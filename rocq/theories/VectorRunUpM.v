(** * VectorRunUpM: DDT.calculate_run_up called with arrays (/repo/pypbomb/tube.py:803-1017).

    The tube diameter may be an array (one length per element comes back) and so may the
    blockage ratio; the initial temperature and pressure go to cantera and are single values.
    Quantities and broadcasting are those of VectorM.v and VectorTubeM.v; every other line is
    read as in RunUpM.v.

    Simplification (as in VectorM.v): where one element of an array becomes inf or nan the
    model gives [NotFinite] for the whole call. *)
From Coq Require Import String ZArith QArith Reals List Bool.
From Verif Require Import PyBase Pint UnitsM Interp Gas FitM SdM ThermoM RunUpM VectorM VectorTubeM.
Import ListNotations.
Local Open Scope string_scope.
Local Open Scope num_scope.

Section VectorRunUp.
  Context {A G X : Type} {NA : Num A} {TA : Trans A} (L : cantera A G X).

  (** [q ** e], e a number *)
  Definition v_pow (q : vquantity A) (e : A) : result (vquantity A) :=
    let* _ := v_offset_free q in
    if dim_eqb (u_dim (v_unit q)) d_none then
      let* m := lift1 (fun x => if x <? zero then Err NotFinite else Ok (npow x e)) (v_mag q) in
      Ok (mkV m (mult_unit d_none (npow (u_scale (v_unit q)) e)) (v_reg q))
    else Err Unmodelled.
  (** [np.log(q)] *)
  Definition v_log (q : vquantity A) : result (vquantity A) :=
    if dim_eqb (u_dim (v_unit q)) d_none then
      let* m := lift1 (fun x => if zero <? x then Ok (nln x) else Err NotFinite) (v_base_mag q) in
      Ok (mkV m (mult_unit d_none one) (v_reg q))
    else Err DimensionalityError.
  (** number or array / quantity *)
  Definition v_ndivq (div : A -> A -> result A) (k : vmag A) (q : vquantity A)
    : result (vquantity A) :=
    let* _ := v_offset_free q in
    let* m := vdiv div k (v_mag q) in
    Ok (mkV m (mult_unit (dim_div d_none (u_dim (v_unit q))) (one / u_scale (v_unit q)))
            (v_reg q)).
  (** [if x <= y:] on magnitudes *)
  Definition m_le (x y : vmag A) : result bool :=
    let* mask := lift2 (fun a b => Ok (a <=? b)) x y in truth mask.

  (** tube.py:925-970 eq4_1 *)
  Definition v_eq4_1 (blockage_ratio : vmag A) (tube_diameter : vquantity A)
      (initial_temperature initial_pressure : quantity A) (species : X) (reg : nat)
      (working_gas : G) (laminar_fs : quantity A) (density_ratio : A)
      (sound_speed : quantity A) : io A (vquantity A) :=
    let kappa := lit 0.4 in
    let kk := lit 5.5 in
    let cc := lit 0.2 in
    let mm := lit (-0.18) in
    let eta := lit 2.1 in
    (* 940-952 *)
    do T <- pure (in_unit initial_temperature "K");
    do P <- pure (in_unit initial_pressure "Pa");
    do working_gas <- set_TPX L working_gas T P species;
    do rho <- pure (quant reg (ct_density L working_gas) "kg/m^3");
    do mu <- pure (ct_viscosity L working_gas);
    pure (
      let* mu := quant reg mu "Pa*s" in
      let* nu := q_div pydiv mu rho in
      let* delta := q_div npdiv nu laminar_fs in
      let delta := to_base_units delta in
      (* 957-961 *)
      let* den := q_scale (eta * sq (density_ratio - one)) laminar_fs in
      let* front := q_div npdiv sound_speed den in
      let* thin := v_div npdiv (scalar delta) tube_diameter in
      let* thin := v_pow thin (one / lit 3) in
      let* gamma := v_mul (scalar front) thin in
      let* gamma := v_pow gamma (one / (lit 2 * mm + lit 7 / lit 3)) in
      (* 964-969 *)
      let* root := lift1 (fun b => npsqrt (one - b)) blockage_ratio in
      let* d_over_h := lift1 (fun r => npdiv (lit 2) (one - r)) root in
      let* scaled := v_divn pydiv gamma (Sca cc) in
      let* gd := v_scale d_over_h gamma in
      let* lg := v_log gd in
      let* lg := v_scale (Sca (one / kappa)) lg in
      let* lg := v_naddq kk lg in
      let* runup := v_mul scaled lg in
      let* runup := v_mul runup tube_diameter in
      (* 970 *)
      v_to runup (v_unit tube_diameter)).

  (** tube.py:972-995 eq4_4.  A quotient of plain numbers is Python's, of arrays numpy's. *)
  Definition v_eq4_4 (blockage_ratio : vmag A) (tube_diameter : vquantity A)
      (laminar_fs : quantity A) (density_ratio : A) (sound_speed : quantity A)
    : result (vquantity A) :=
    let aa := lit 2 in
    let bb := lit 1.5 in
    let* top := q_scale (lit 2 * lit 10) laminar_fs in
    let* top := q_scale (density_ratio - one) top in
    let* bottom := v_mul (scalar sound_speed) tube_diameter in
    let* lhs := v_div npdiv (scalar top) bottom in
    let* rhs := vdiv pydiv (v_map (fun b => aa * (one - b)) blockage_ratio)
                           (v_map (fun b => one + bb * b) blockage_ratio) in
    let* runup := v_ndivq npdiv rhs lhs in
    v_to runup (v_unit tube_diameter).

  (** tube.py:1003-1015.  np.array of two numbers is what np.interp takes; of two arrays (even
      of length one) it is two-dimensional, and np.interp refuses it. *)
  Definition v_between (blockage_ratio smooth rough : vmag A) : result (vmag A) :=
    match blockage_ratio, smooth, rough with
    | Sca b, Sca s, Sca r => let* x := np_interp b [(lit 0.1, s); (lit 0.3, r)] in Ok (Sca x)
    | _, _, _ => Err (ValueError "object too deep for desired array")
    end.

  (** tube.py:803-1017 calculate_run_up *)
  Definition v_run_up (blockage_ratio : vmag A) (tube_diameter : vpyin A)
      (initial_temperature initial_pressure : pyin A) (species : X)
      (mechanism : string) (reg : nat) (phase_specification : string)
    : io A (vquantity A) :=
    (* 860-861: [a or b] *)
    do low <- pure (m_le blockage_ratio (Sca zero));
    do outside <- pure (if low then Ok true else m_lt (Sca (lit 0.75)) blockage_ratio);
    if outside
    then pure (Err (ValueError "
Blockage ratio outside of correlation range"))
    else
    (* 863-889 *)
    do tube_diameter <- pure (v_parse tube_diameter reg);
    do initial_temperature <- pure (parse_quant_input initial_temperature reg);
    do initial_pressure <- pure (parse_quant_input initial_pressure reg);
    do _ <- pure (v_check tube_diameter "length" true);
    do _ <- pure (check_q initial_temperature "temperature" true);
    do _ <- pure (check_q initial_pressure "pressure" true);
    (* 892-899 *)
    do laminar_fs <- calculate_laminar_flame_speed L (PQuant initial_temperature)
                       (PQuant initial_pressure) species mechanism phase_specification reg;
    (* 903-913 *)
    do working_gas <- new_solution L mechanism phase_specification;
    do T <- pure (in_unit initial_temperature "K");
    do P <- pure (in_unit initial_pressure "Pa");
    do working_gas <- set_TPX L working_gas T P species;
    let density0 := ct_density L working_gas in
    do working_gas <- equilibrate L working_gas "HP";
    do density1 <- pure (pydiv one (ct_density L working_gas));
    let density_ratio := density0 * density1 in
    (* 916-923 *)
    do sound_speed <- get_eq_sound_speed L (PSeq [ENum (ct_T L working_gas); EStr "K"])
                        (PSeq [ENum (ct_P L working_gas); EStr "Pa"]) species mechanism
                        phase_specification reg;
    (* 998-1015 *)
    do from <- pure (m_le (Sca (lit 0.3)) blockage_ratio);
    do rough_range <- pure (if from then m_le blockage_ratio (Sca (lit 0.75)) else Ok false);
    if rough_range then
      pure (v_eq4_4 blockage_ratio tube_diameter laminar_fs density_ratio sound_speed)
    else
    do smooth_range <- pure (m_le blockage_ratio (Sca (lit 0.1)));
    if smooth_range then
      v_eq4_1 blockage_ratio tube_diameter initial_temperature initial_pressure species reg
              working_gas laminar_fs density_ratio sound_speed
    else
      do smooth <- v_eq4_1 blockage_ratio tube_diameter initial_temperature initial_pressure
                     species reg working_gas laminar_fs density_ratio sound_speed;
      do rough <- pure (v_eq4_4 blockage_ratio tube_diameter laminar_fs density_ratio sound_speed);
      do x <- pure (v_between blockage_ratio (v_mag smooth) (v_mag rough));
      ret (mkV x (v_unit tube_diameter) reg).
End VectorRunUp.
