(** * Properties_IeeeFlange: C149, allowable stress and flange ratings in IEEE-754 double
    precision.

    [@f b64 Num_b64] is the model of [f] computed with doubles (IeeeM: overflow, subnormal
    numbers, signed zeros, nan).  C118 and C119 are about [@f R (Num_rounded double)], which
    has no smallest and no largest number. *)
From Coq Require Import String ZArith QArith Reals Qreals List Bool Lra Lia.
From Flocq Require Import Core BinarySingleNaN.
From Verif Require Import PyBase Pint UnitsM Spec Csv TableSpec Tables TubeM FlangeM RoundM RoundSpec RoundTempSpec
  RoundP IeeeM IeeeSpec IeeeP IeeeInterpP IeeeFlangeP Properties_Ieee Properties_RoundStress Properties_RoundFlange.
Import ListNotations.
Local Open Scope R_scope.
Local Opaque MATERIAL_LIMITS TUBE_MATERIALS flange_file FLANGE_LIMITS.

(** Whatever the material, and for any temperature, however far from the table: nothing
    overflows and nothing loses digits to underflow. *)
Theorem C149_max_stress :
  forall (material : string) (welded : bool) (temp : pyin b64) (temp' : pyin R) (reg : nat),
    reads 1e18 temp temp' ->
    same_outcome same_quantity
      (@calculate_max_stress b64 Num_b64 temp material welded reg)
      (@calculate_max_stress R (Num_rounded double) temp' material welded reg).
Proof.
  intros m w t t' reg H. eapply rsim_outcome; [|exact (max_stress_sim t t' m w reg H)].
  intros a b. apply qplain_same.
Qed.
Print Assumptions C149_max_stress.

Theorem C149_max_pressure :
  forall (strict : bool) (cls : string) (material : pyname) (temp : pyin b64) (temp' : pyin R),
    reads 1e18 temp temp' ->
    same_outcome same_quantity
      (@get_max_pressure b64 Num_b64 strict cls temp material)
      (@get_max_pressure R (Num_rounded double) strict cls temp' material).
Proof.
  intros s c m t t' H. eapply rsim_outcome; [|exact (max_pressure_sim s c t t' m H)].
  intros a b. apply qplain_same.
Qed.
Print Assumptions C149_max_pressure.

Theorem C149_max_temperature :
  forall (strict : bool) (cls : string) (material : pyname) (pressure : pyin b64) (pressure' : pyin R),
    reads 1e18 pressure pressure' ->
    same_outcome same_quantity
      (@get_max_temperature b64 Num_b64 strict cls pressure material)
      (@get_max_temperature R (Num_rounded double) strict cls pressure' material).
Proof.
  intros s c m t t' H. eapply rsim_outcome; [|exact (max_temperature_sim s c t t' m H)].
  intros a b. apply qplain_same.
Qed.
Print Assumptions C149_max_temperature.

(** The class is the same one. *)
Theorem C149_class :
  forall (strict : bool) (material : pyname) (pressure temp : pyin b64) (pressure' temp' : pyin R) (reg : nat),
    reads 1e18 pressure pressure' -> reads 1e18 temp temp' ->
    @get_class b64 Num_b64 strict pressure temp material reg
    = @get_class R (Num_rounded double) strict pressure' temp' material reg.
Proof.
  intros s m p t p' t' reg P T. pose proof (get_class_sim s p p' t t' m reg P T) as H.
  destruct (get_class s p t m reg), (get_class s p' t' m reg); cbn [rsim] in H; congruence || contradiction.
Qed.
Print Assumptions C149_class.

(** So the stress in doubles is right to 1e-12 ksi. *)
Theorem C149_max_stress_accuracy :
  forall (material : string) (welded : bool) (m : R) (unit_name : string) (t : R)
         (temp : pyin b64) (temp' : pyin R) (reg : nat),
    In material available_materials ->
    reads 1e18 temp temp' -> given double temp' m unit_name ->
    denotes (PSeq [ENum m; EStr unit_name]) d_temperature (fahrenheit t) ->
    exists q d,
      @calculate_max_stress R Num_R (PSeq [ENum m; EStr unit_name]) material welded reg = Ok q
      /\ is_in q (q_mag q) "ksi" reg
      /\ @calculate_max_stress b64 Num_b64 temp material welded reg = Ok d
      /\ @lookup_unit b64 Num_b64 "ksi" = Some (q_unit d) /\ q_reg d = reg
      /\ is_finite (q_mag d) = true /\ Rabs (real (q_mag d) - q_mag q) <= 1e-12.
Proof.
  intros mat w m name t i i' reg I Rd G D.
  destruct (C118_stress_rounding _ _ double_rounding mat w m name t i' reg I D G)
    as (q & q' & E & U & E' & _ & _ & B).
  destruct (C149_max_stress mat w i i' reg Rd) as [(e & _ & X)|(d & g & Ed & Eg & S)]; [congruence|].
  assert (g = q') by congruence. subst g. destruct S as ((F & S) & _).
  assert (Ud : @lookup_unit b64 Num_b64 "ksi" = Some (q_unit d) /\ q_reg d = reg).
  { clear - Ed. unfold calculate_max_stress in Ed.
    destruct (parse_quant_input i reg) as [a|]; cbn [bind] in Ed; [|discriminate].
    destruct (get_pipe_stress_limits mat w) as [l|]; cbn [bind] in Ed; [|discriminate].
    destruct (negb _); cbn [raise_if bind] in Ed; [discriminate|].
    destruct (q_to_str a "degF") as [b|]; cbn [bind] in Ed; [|discriminate].
    destruct (Interp.np_interp _ _) as [c|]; cbn [bind] in Ed; [|discriminate].
    unfold quant in Ed. destruct (lookup_unit "ksi") as [v|]; [|discriminate]. now injection Ed as <-. }
  exists q, d. split; [exact E|]. split; [exact U|]. split; [exact Ed|].
  split; [apply Ud|]. split; [apply Ud|]. split; [exact F|]. rewrite S. eapply Rle_trans; [exact B|].
  unfold double_unit. cbn -[IZR]. lra.
Qed.
Print Assumptions C149_max_stress_accuracy.

(** And a rating right to 1e-6 Pa. *)
Theorem C149_max_pressure_accuracy :
  forall (strict : bool) (material : string) (f : frame) (cls : string)
         (m : R) (unit_name : string) (t : R) (temp : pyin b64) (temp' : pyin R)
         (row1 row2 : list string) (T1 T2 : Q),
    In material available_materials -> rated_by TUBE_MATERIALS flange_file material f ->
    In cls (pressure_classes f) ->
    In row1 (f_rows f) -> tabulated f row1 "Temperature" T1 ->
    In row2 (f_rows f) -> tabulated f row2 "Temperature" T2 ->
    reads 1e18 temp temp' -> given double temp' m unit_name ->
    denotes (PSeq [ENum m; EStr unit_name]) d_temperature (celsius t) ->
    accepted double_unit unit_name (Q2R T1) (Q2R T2) t ->
    exists q d,
      @get_max_pressure R Num_R strict cls (PSeq [ENum m; EStr unit_name]) (NStr material) = Ok q
      /\ is_in q (q_mag q) "Pa" module_reg
      /\ @get_max_pressure b64 Num_b64 strict cls temp (NStr material) = Ok d
      /\ @lookup_unit b64 Num_b64 "Pa" = Some (q_unit d) /\ q_reg d = out_reg temp
      /\ is_finite (q_mag d) = true /\ Rabs (real (q_mag d) - q_mag q) <= 1/1000000.
Proof.
  intros s mat f c m name t i i' row1 row2 T1 T2 I Rb Ic I1 A1 I2 A2 Rd G D Acc.
  assert (Hs : double_unit <= 1/1000000) by (unfold double_unit; cbn -[IZR]; lra).
  destruct (C119_rating_rounding _ _ double_rounding Hs s mat f c m name t i' row1 row2 T1 T2
              I Rb Ic I1 A1 I2 A2 D G Acc) as (q & q' & E & U & E' & _ & _ & B).
  destruct (C149_max_pressure s c (NStr mat) i i' Rd) as [(e & _ & X)|(d & g & Ed & Eg & S)]; [congruence|].
  assert (g = q') by congruence. subst g. destruct S as ((F & S) & _).
  assert (Ud : @lookup_unit b64 Num_b64 "Pa" = Some (q_unit d) /\ q_reg d = out_reg i).
  { clear - Ed. unfold get_max_pressure in Ed.
    destruct (table_for c (NStr mat)) as [tab|]; cbn [bind] in Ed; [|discriminate]. cbv zeta in Ed.
    destruct (parse_quant_input i module_reg) as [a|]; cbn [bind] in Ed; [|discriminate].
    destruct (check_in_range _ _ _ _); cbn [bind] in Ed; [|discriminate].
    destruct (String.eqb c "Temperature"); cbn [raise_if bind] in Ed; [discriminate|].
    destruct (rating _ _ _ _) as [r|]; cbn [bind] in Ed; [|discriminate].
    unfold quant in Ed. destruct (lookup_unit "Pa") as [v|]; [|discriminate]. now injection Ed as <-. }
  exists q, d. split; [exact E|]. split; [exact U|]. split; [exact Ed|].
  split; [apply Ud|]. split; [apply Ud|]. split; [exact F|]. rewrite S. eapply Rle_trans; [exact B|].
  unfold double_unit. cbn -[IZR]. lra.
Qed.
Print Assumptions C149_max_pressure_accuracy.

(** The class chosen in doubles covers the pressure, and no smaller one does, but for 1e-6 Pa. *)
Theorem C149_class_accuracy :
  forall (strict : bool) (material : string) (f : frame) (cls : string)
         (p : pyin b64) (p' : pyin R) (P : R)
         (m : R) (unit_name : string) (t : R) (temp : pyin b64) (temp' : pyin R) (reg : nat)
         (row1 row2 : list string) (T1 T2 : Q),
    In material available_materials -> rated_by TUBE_MATERIALS flange_file material f ->
    In row1 (f_rows f) -> tabulated f row1 "Temperature" T1 ->
    In row2 (f_rows f) -> tabulated f row2 "Temperature" T2 -> Q2R T1 <= t <= Q2R T2 ->
    reads 1e18 p p' -> denotes p' d_pressure P -> 0 <= P ->
    reads 1e18 temp temp' -> given double temp' m unit_name ->
    denotes (PSeq [ENum m; EStr unit_name]) d_temperature (celsius t) ->
    @get_class b64 Num_b64 strict p temp (NStr material) reg = Ok cls ->
    (exists q, @get_max_pressure R Num_R strict cls (PSeq [ENum m; EStr unit_name]) (NStr material) = Ok q
       /\ P - 1/1000000 <= q_mag q)
    /\ forall smaller n n', In smaller class_names ->
       parse_number cls = Some n -> parse_number smaller = Some n' -> (n' < n)%Q ->
       exists q', @get_max_pressure R Num_R strict smaller (PSeq [ENum m; EStr unit_name]) (NStr material) = Ok q'
         /\ q_mag q' < P + 1/1000000.
Proof.
  intros s mat f c p p' P m name t i i' reg row1 row2 T1 T2 I Rb I1 A1 I2 A2 B Rp Dp P0 Rd G D E.
  assert (Hs : double_unit <= 1/1000000) by (unfold double_unit; cbn -[IZR]; lra).
  assert (Hu : 4000000000 * double_unit <= 1/1000000) by (unfold double_unit; cbn -[IZR]; lra).
  rewrite (C149_class s (NStr mat) p i p' i' reg Rp Rd) in E.
  destruct (C119_class_rounded _ _ double_rounding Hs s mat f c p' P m name t i' reg row1 row2 T1 T2
              I Rb I1 A1 I2 A2 B Dp P0 D G E) as ((q & Eq & L) & H).
  split; [exists q; split; [exact Eq|lra]|].
  intros c' n n' Ic N N' Lt. destruct (H c' n n' Ic N N' Lt) as (q' & Eq' & L'). exists q'. split; [exact Eq'|lra].
Qed.
Print Assumptions C149_class_accuracy.

Local Transparent MATERIAL_LIMITS TUBE_MATERIALS flange_file FLANGE_LIMITS.
(** Beside the theorems: 304 at 75 degC and 3 MPa, computed in doubles. *)
Example C149_case :
  let d := fun q : Q => @nofQ b64 Num_b64 q in
  let temp := PSeq [ENum (d 75%Q); EStr "degC"%string] in
  let pressure := PSeq [ENum (d 3%Q); EStr "MPa"%string] in
  reads 1e18 temp (PSeq [ENum 75; EStr "degC"%string])
  /\ given double (PSeq [ENum 75; EStr "degC"%string]) 75 "degC"
  /\ reads 1e18 pressure (PSeq [ENum 3; EStr "MPa"%string])
  /\ @get_class b64 Num_b64 true pressure temp (NStr "304") 0 = Ok "300"%string
  /\ (exists q, @get_max_pressure b64 Num_b64 true "300" temp (NStr "304") = Ok q
       /\ Bltb (d 4000000%Q) (q_mag q) = true /\ Bltb (q_mag q) (d 5000000%Q) = true)
  /\ (exists q, @get_max_temperature b64 Num_b64 false "300" pressure (NStr "304") = Ok q
       /\ Bltb (d 300%Q) (q_mag q) = true /\ Bltb (q_mag q) (d 873%Q) = true)
  /\ (exists q, @calculate_max_stress b64 Num_b64 temp "304" false 0 = Ok q
       /\ Bltb (d 10%Q) (q_mag q) = true /\ Bltb (q_mag q) (d 25%Q) = true).
Proof.
  cbv zeta.
  assert (E75 : real (@nofQ b64 Num_b64 75%Q) = 75) by (vm_compute; lra).
  assert (E3 : real (@nofQ b64 Num_b64 3%Q) = 3) by (vm_compute; lra).
  pose proof (reads_number 1e18 (@nofQ b64 Num_b64 75%Q) "degC") as X75. rewrite E75 in X75.
  split; [apply X75; split; [vm_compute; reflexivity|right; rewrite E75, Rabs_pos_eq by lra; lra]|].
  split; [now left|].
  pose proof (reads_number 1e18 (@nofQ b64 Num_b64 3%Q) "MPa") as X3. rewrite E3 in X3.
  split; [apply X3; split; [vm_compute; reflexivity|right; rewrite E3, Rabs_pos_eq by lra; lra]|].
  split; [vm_compute; reflexivity|].
  repeat split.
  all: match goal with |- exists q, ?t = Ok q /\ Bltb ?a _ = true /\ Bltb _ ?b = true =>
    assert (H : match t with Ok q => (Bltb a (q_mag q) && Bltb (q_mag q) b)%bool | Err _ => false end = true)
      by (vm_compute; reflexivity);
    destruct t as [q|e]; [|discriminate]; exists q; split; [reflexivity|]; now apply andb_true_iff in H end.
Qed.
