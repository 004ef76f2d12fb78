(** * Properties_UnitIndep: C04. Both outcomes, success and failure, depend only on the
    physical values of the arguments: no range hypotheses. *)
From Coq Require Import String Reals List Lra.
From Verif Require Import PyBase Pint UnitsM Spec QLemmas WindowM DdtM TubeM BoltM UnitIndep.
Import ListNotations.
Local Open Scope R_scope.

Theorem C04_window_safety_factor :
  forall l1 l2 w1 w2 t1 t2 p1 p2 m1 m2 reg,
    same_argument l1 l2 -> same_argument w1 w2 -> same_argument t1 t2 ->
    same_argument p1 p2 -> same_argument m1 m2 ->
    safety_factor l1 w1 t1 p1 m1 reg = safety_factor l2 w2 t2 p2 m2 reg.
Proof. exact ui_window_sf. Qed.
Print Assumptions C04_window_safety_factor.

Theorem C04_window_minimum_thickness :
  forall l1 l2 w1 w2 sf p1 p2 m1 m2 reg,
    same_argument l1 l2 -> same_argument w1 w2 ->
    same_argument p1 p2 -> same_argument m1 m2 ->
    minimum_thickness l1 w1 sf p1 m1 reg = minimum_thickness l2 w2 sf p2 m2 reg.
Proof. exact ui_window_thickness. Qed.
Print Assumptions C04_window_minimum_thickness.

Theorem C04_blockage_ratio :
  forall t1 t2 b1 b2 reg,
    same_argument t1 t2 -> same_argument b1 b2 ->
    calculate_blockage_ratio t1 b1 reg = calculate_blockage_ratio t2 b2 reg.
Proof. exact ui_blockage_ratio. Qed.
Print Assumptions C04_blockage_ratio.

Theorem C04_blockage_diameter :
  forall p1 p2 br reg,
    same_argument p1 p2 ->
    same_outcome same_value (calculate_blockage_diameter p1 br reg)
                            (calculate_blockage_diameter p2 br reg).
Proof. exact ui_blockage_diameter. Qed.
Print Assumptions C04_blockage_diameter.

Theorem C04_dynamic_load_factor :
  forall i1 i2 o1 o2 v1 v2 e1 e2 d1 d2 nu f,
    same_value i1 i2 -> same_value o1 o2 -> same_value v1 v2 ->
    same_value e1 e2 -> same_value d1 d2 ->
    dynamic_load_factor i1 o1 v1 e1 d1 nu f = dynamic_load_factor i2 o2 v2 e2 d2 nu f.
Proof. exact ui_dlf. Qed.
Print Assumptions C04_dynamic_load_factor.

Theorem C04_max_pressure :
  forall i1 i2 o1 o2 s1 s2 sf,
    same_value i1 i2 -> same_value o1 o2 -> same_value s1 s2 ->
    same_outcome same_value (calculate_max_pressure i1 o1 s1 sf)
                            (calculate_max_pressure i2 o2 s2 sf).
Proof. exact ui_max_pressure. Qed.
Print Assumptions C04_max_pressure.

Theorem C04_bolt_safety_factors :
  forall mp1 mp2 wa1 wa2 n size cls b1 b2 p1 p2 e1 e2 reg,
    same_argument mp1 mp2 -> same_argument wa1 wa2 -> same_argument b1 b2 ->
    same_argument p1 p2 -> same_argument e1 e2 ->
    calculate_safety_factors mp1 wa1 n size cls b1 p1 e1 reg
    = calculate_safety_factors mp2 wa2 n size cls b2 p2 e2 reg.
Proof. exact ui_bolt. Qed.
Print Assumptions C04_bolt_safety_factors.

Theorem C04_bolt_stress_areas :
  forall size cls b1 b2 p1 p2 e1 e2 reg,
    same_value b1 b2 -> same_value p1 p2 -> same_value e1 e2 ->
    same_outcome
      (fun a b => same_value (screw_area a) (screw_area b)
         /\ same_value (plate_area a) (plate_area b)
         /\ same_value (minimum_engagement a) (minimum_engagement b)
         /\ shear_warning a = shear_warning b)
      (calculate_stress_areas size cls b1 p1 e1 reg)
      (calculate_stress_areas size cls b2 p2 e2 reg).
Proof. exact ui_stress_areas. Qed.
Print Assumptions C04_bolt_stress_areas.

(** 10 in as a pair is 0.254 m as a quantity of another registry. *)
Example C04_case :
  same_argument (PSeq [ENum 10; EStr "in"]) (PQuant (mkQ 0.254 (mult_unit d_length one) 3))
  /\ same_value (mkQ 10 (mult_unit d_length s_inch) 1) (mkQ 0.254 (mult_unit d_length one) 1).
Proof.
  assert (I : s_inch = 254 / 10000) by (unfold s_inch; rnum; q2r; lra).
  split.
  - exists d_length, (10 * (254/10000)). split; [discriminate|]. split; [apply denotes_inch|].
    constructor; [split; cbn; [rewrite one_R; lra | congruence] | reflexivity |].
    unfold worth; cbn; rewrite one_R; lra.
  - exists d_length, 0.254, 1%nat. unfold stands_for; cbn. rewrite one_R, I.
    repeat split; lra.
Qed.
