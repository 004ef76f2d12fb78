(** * Properties_FlangeOrder: C154, flange ratings computed with doubles rise with the class and
    fall with the temperature. *)
From Coq Require Import String ZArith QArith Reals Qreals List Bool Lra Lia.
From Flocq Require Import Core BinarySingleNaN.
From Verif Require Import PyBase Pint UnitsM Spec QLemmas Csv TableSpec Tables FlangeM FlangeP FlangeGapP RoundPipeP
  RoundM RoundSpec RoundTempSpec RoundP IeeeM IeeeSpec IeeeP Properties_Ieee Properties_Flange
  Properties_RoundFlange Properties_IeeeFlange.
Import ListNotations.
Local Open Scope R_scope.
Local Opaque MATERIAL_LIMITS TUBE_MATERIALS flange_file FLANGE_LIMITS.

(** At one temperature a larger class is rated at least 9999 Pa higher (exactly: a tenth of a
    bar). *)
Theorem C154_ratings_rise_in_doubles :
  forall (strict : bool) (material : string) (f : frame) (cls1 cls2 : string) (n1 n2 : Q)
         (m : R) (unit_name : string) (t : R) (temp : pyin b64) (temp' : pyin R)
         (row1 row2 : list string) (T1 T2 : Q) (d1 d2 : quantity b64),
    In material available_materials -> rated_by TUBE_MATERIALS flange_file material f ->
    In cls1 (pressure_classes f) -> In cls2 (pressure_classes f) ->
    parse_number cls1 = Some n1 -> parse_number cls2 = Some n2 -> (n1 < n2)%Q ->
    In row1 (f_rows f) -> tabulated f row1 "Temperature" T1 ->
    In row2 (f_rows f) -> tabulated f row2 "Temperature" T2 ->
    reads 1e18 temp temp' -> given double temp' m unit_name ->
    denotes (PSeq [ENum m; EStr unit_name]) d_temperature (celsius t) ->
    accepted double_unit unit_name (Q2R T1) (Q2R T2) t ->
    @get_max_pressure b64 Num_b64 strict cls1 temp (NStr material) = Ok d1 ->
    @get_max_pressure b64 Num_b64 strict cls2 temp (NStr material) = Ok d2 ->
    real (q_mag d1) + 9999 <= real (q_mag d2).
Proof.
  intros s mat f c1 c2 n1 n2 m name t i i' row1 row2 T1 T2 d1 d2 I Rb I1 I2 N1 N2 L J1 A1 J2 A2 Rd G D Acc E1 E2.
  destruct (C149_max_pressure_accuracy s mat f c1 m name t i i' row1 row2 T1 T2 I Rb I1 J1 A1 J2 A2 Rd G D Acc)
    as (q1 & x1 & Q1 & _ & X1 & _ & _ & _ & B1).
  destruct (C149_max_pressure_accuracy s mat f c2 m name t i i' row1 row2 T1 T2 I Rb I2 J1 A1 J2 A2 Rd G D Acc)
    as (q2 & x2 & Q2 & _ & X2 & _ & _ & _ & B2).
  assert (x1 = d1) by congruence. assert (x2 = d2) by congruence. subst x1 x2.
  pose proof (rating_class_gap s mat f c1 c2 n1 n2 _ _ q1 q2 I Rb I1 I2 N1 N2 L D Q1 Q2) as K.
  apply Rabs_le_inv in B1, B2. lra.
Qed.
Print Assumptions C154_ratings_rise_in_doubles.

(** A hotter flange is never rated higher, but for 2e-6 Pa, and no rating is below zero by
    more. *)
Theorem C154_hotter_never_higher_in_doubles :
  forall (strict : bool) (material : string) (f : frame) (cls : string)
         (m1 m2 : R) (name1 name2 : string) (t1 t2 : R) (temp1 temp2 : pyin b64) (temp1' temp2' : pyin R)
         (row1 row2 : list string) (T1 T2 : Q) (d1 d2 : quantity b64),
    In material available_materials -> rated_by TUBE_MATERIALS flange_file material f ->
    In cls (pressure_classes f) ->
    In row1 (f_rows f) -> tabulated f row1 "Temperature" T1 ->
    In row2 (f_rows f) -> tabulated f row2 "Temperature" T2 ->
    reads 1e18 temp1 temp1' -> given double temp1' m1 name1 ->
    denotes (PSeq [ENum m1; EStr name1]) d_temperature (celsius t1) ->
    accepted double_unit name1 (Q2R T1) (Q2R T2) t1 ->
    reads 1e18 temp2 temp2' -> given double temp2' m2 name2 ->
    denotes (PSeq [ENum m2; EStr name2]) d_temperature (celsius t2) ->
    accepted double_unit name2 (Q2R T1) (Q2R T2) t2 -> t1 <= t2 ->
    @get_max_pressure b64 Num_b64 strict cls temp1 (NStr material) = Ok d1 ->
    @get_max_pressure b64 Num_b64 strict cls temp2 (NStr material) = Ok d2 ->
    - (2/1000000) <= real (q_mag d2) <= real (q_mag d1) + 2/1000000.
Proof.
  intros s mat f c m1 m2 n1 n2 t1 t2 i1 i2 i1' i2' row1 row2 T1 T2 d1 d2 I Rb Ic J1 A1 J2 A2
    Rd1 G1 D1 Acc1 Rd2 G2 D2 Acc2 L E1 E2.
  destruct (C149_max_pressure_accuracy s mat f c m1 n1 t1 i1 i1' row1 row2 T1 T2 I Rb Ic J1 A1 J2 A2 Rd1 G1 D1 Acc1)
    as (q1 & x1 & Q1 & _ & X1 & _ & _ & _ & B1).
  destruct (C149_max_pressure_accuracy s mat f c m2 n2 t2 i2 i2' row1 row2 T1 T2 I Rb Ic J1 A1 J2 A2 Rd2 G2 D2 Acc2)
    as (q2 & x2 & Q2 & _ & X2 & _ & _ & _ & B2).
  assert (x1 = d1) by congruence. assert (x2 = d2) by congruence. subst x1 x2.
  destruct (C37_rating_never_rises_with_temperature s mat f c _ _ (celsius t1) (celsius t2) q1 q2 I Rb Ic D1 D2) as (K & _);
    [unfold celsius; lra|exact Q1|exact Q2|].
  apply Rabs_le_inv in B1, B2. lra.
Qed.
Print Assumptions C154_hotter_never_higher_in_doubles.

(** Hypotheses met (the rest is C149_case and C119_case): classes 300 and 400 in 304 at 75 and
    80 degC, in doubles. *)
Local Transparent MATERIAL_LIMITS TUBE_MATERIALS flange_file FLANGE_LIMITS.
Example C154_case :
  let d := fun q : Q => @nofQ b64 Num_b64 q in
  let at_ := fun q : Q => PSeq [ENum (d q); EStr "degC"%string] in
  reads 1e18 (at_ 75%Q) (PSeq [ENum 75; EStr "degC"%string])
  /\ reads 1e18 (at_ 80%Q) (PSeq [ENum 80; EStr "degC"%string])
  /\ given double (PSeq [ENum 75; EStr "degC"%string]) 75 "degC"
  /\ given double (PSeq [ENum 80; EStr "degC"%string]) 80 "degC"
  /\ accepted double_unit "degC" 50 100 75 /\ accepted double_unit "degC" 50 100 80
  /\ exists q1 q2 q3, @get_max_pressure b64 Num_b64 true "300" (at_ 75%Q) (NStr "304") = Ok q1
       /\ @get_max_pressure b64 Num_b64 true "400" (at_ 75%Q) (NStr "304") = Ok q2
       /\ @get_max_pressure b64 Num_b64 true "300" (at_ 80%Q) (NStr "304") = Ok q3
       /\ Bltb (q_mag q1) (q_mag q2) = true /\ Bltb (q_mag q3) (q_mag q1) = true.
Proof.
  cbv zeta.
  assert (E1 : real (@nofQ b64 Num_b64 75%Q) = 75) by (vm_compute; lra).
  assert (E2 : real (@nofQ b64 Num_b64 80%Q) = 80) by (vm_compute; lra).
  pose proof (reads_number 1e18 (@nofQ b64 Num_b64 75%Q) "degC") as X1. rewrite E1 in X1.
  pose proof (reads_number 1e18 (@nofQ b64 Num_b64 80%Q) "degC") as X2. rewrite E2 in X2.
  split; [apply X1; split; [vm_compute; reflexivity|right; rewrite E1, Rabs_pos_eq by lra; lra]|].
  split; [apply X2; split; [vm_compute; reflexivity|right; rewrite E2, Rabs_pos_eq by lra; lra]|].
  split; [now left|]. split; [now left|].
  split; [left; split; [now left|lra]|]. split; [left; split; [now left|lra]|].
  match goal with |- exists q1 q2 q3, ?t = Ok q1 /\ ?t' = Ok q2 /\ ?t'' = Ok q3 /\ _ =>
    assert (H : match t, t', t'' with Ok q, Ok q', Ok q'' => (Bltb (q_mag q) (q_mag q') && Bltb (q_mag q'') (q_mag q))%bool | _, _, _ => false end = true)
      by (vm_compute; reflexivity);
    destruct t as [q|e]; [|discriminate]; destruct t' as [q'|e']; [|discriminate];
    destruct t'' as [q''|e'']; [|discriminate];
    exists q, q', q''; split; [reflexivity|]; split; [reflexivity|]; split; [reflexivity|]; now apply andb_true_iff in H end.
Qed.
