(** * Properties_UnitRest: C122.  The functions C04 leaves out: outcomes (values and
    exceptions) and library calls depend only on the physical values of the arguments.
    There are no range hypotheses: [denotes i d x] says that the argument [i] is the
    value [x] (in SI units) of dimension [d], right or wrong for its parameter. *)
From Coq Require Import String ZArith Reals List Lra.
From Verif Require Import PyBase Pint UnitsM Spec QLemmas Gas SdM ThermoM TubeM FlangeM RunUpM
  InitPressureM UnitRestSpec UnitRest ExampleGas.
Import ListNotations.
Local Open Scope R_scope.

(** DDT.calculate_run_up: the answer is the same length (its unit is that of the given
    diameter), after the same chemistry. *)
Theorem C122_run_up {G X} (L : cantera R G X) :
  forall BR iD iD' iT iT' iP iP' dD D dT T dP P x mech reg phase,
    denotes iD dD D -> denotes iD' dD D ->
    denotes iT dT T -> denotes iT' dT T ->
    denotes iP dP P -> denotes iP' dP P ->
    same_run same_value (calculate_run_up L BR iD iT iP x mech reg phase)
                        (calculate_run_up L BR iD' iT' iP' x mech reg phase).
Proof. exact (ui_run_up L). Qed.
Print Assumptions C122_run_up.

(** thermochem.calculate_reflected_shock_state: the very same run. *)
Theorem C122_reflected_shock_state {G X} (L : cantera R G X) :
  forall qT qT' qP qP' dT T dP P x mech reg p,
    denotes (PQuant qT) dT T -> denotes (PQuant qT') dT T ->
    denotes (PQuant qP) dP P -> denotes (PQuant qP') dP P ->
    calculate_reflected_shock_state L qT qP x mech reg p
    = calculate_reflected_shock_state L qT' qP' x mech reg p.
Proof.
  intros * T1 T2 P1 P2. eapply ui_shock; apply denotes_parsed; eassumption.
Qed.
Print Assumptions C122_reflected_shock_state.

(** Tube.calculate_max_initial_pressure: the unit of every argument but max_pressure is
    free (the unit of max_pressure matters: C35). *)
Theorem C122_max_initial_pressure {G X} (L : cantera R G X) :
  forall id id' od od' qT qT' dT T x mech mp E E' rho rho' nu pm udlf reg tol mx p st rd,
    same_value id id' -> same_value od od' ->
    denotes (PQuant qT) dT T -> denotes (PQuant qT') dT T ->
    same_value E E' -> same_value rho rho' ->
    same_run eq
      (calculate_max_initial_pressure L id od qT x mech mp E rho nu pm udlf reg tol mx p st rd)
      (calculate_max_initial_pressure L id' od' qT' x mech mp E' rho' nu pm udlf reg tol mx p st rd).
Proof.
  intros * Hi Ho T1 T2 HE Hr. apply denotes_parsed in T1. apply denotes_parsed in T2.
  eapply ui_search; eassumption.
Qed.
Print Assumptions C122_max_initial_pressure.

(** Tube.calculate_max_stress *)
Theorem C122_max_stress :
  forall iT iT' d T material welded reg,
    denotes iT d T -> denotes iT' d T ->
    calculate_max_stress iT material welded reg = calculate_max_stress iT' material welded reg.
Proof. exact ui_max_stress. Qed.
Print Assumptions C122_max_stress.

(** Flange.get_class *)
Theorem C122_flange_class :
  forall strict iP iP' iT iT' dP P dT T material reg,
    denotes iP dP P -> denotes iP' dP P -> denotes iT dT T -> denotes iT' dT T ->
    get_class strict iP iT material reg = get_class strict iP' iT' material reg.
Proof. exact ui_flange_class. Qed.
Print Assumptions C122_flange_class.

(** Flange.get_max_pressure and get_max_temperature: the same number in the same unit *)
Theorem C122_flange_pressure :
  forall strict cls iT iT' d T material,
    denotes iT d T -> denotes iT' d T ->
    same_outcome same_reading (get_max_pressure strict cls iT material)
                              (get_max_pressure strict cls iT' material).
Proof. exact ui_flange_pressure. Qed.
Print Assumptions C122_flange_pressure.

Theorem C122_flange_temperature :
  forall strict cls iP iP' d P material,
    denotes iP d P -> denotes iP' d P ->
    same_outcome same_reading (get_max_temperature strict cls iP material)
                              (get_max_temperature strict cls iP' material).
Proof. exact ui_flange_temperature. Qed.
Print Assumptions C122_flange_temperature.

(** 25 degC is 298.15 K, 77 degF; 1 bar is 100000 Pa. *)
Example C122_case :
  denotes (PSeq [ENum 25; EStr "degC"]) d_temperature (29815/100)
  /\ denotes (PSeq [ENum (29815/100); EStr "K"]) d_temperature (29815/100)
  /\ denotes (PSeq [ENum 77; EStr "degF"]) d_temperature (29815/100)
  /\ denotes (PSeq [ENum 1; EStr "bar"]) d_pressure 100000
  /\ denotes (PSeq [ENum 100000; EStr "Pa"]) d_pressure 100000.
Proof.
  repeat split; (eapply denotes_pair; [reflexivity|reflexivity|]); unfold worth; cbn; rnum;
    rewrite ?one_R; rnum; q2r; try lra.
Qed.
