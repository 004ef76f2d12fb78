(** * Properties_RoundFlangeT: C150, Flange.get_max_temperature computed with rounded
    arithmetic and in IEEE-754 double precision.

    [rounding u rnd] (RoundSpec): every operation moves its result by at most the fraction
    [u] of it; double precision is one, with u = 2^-53.  [Num_rounded rnd] (RoundM): the
    model's arithmetic with that rounding after every operation.  [@f b64 Num_b64]: the same
    model computed with doubles (IeeeM).

    The method sorts the ratings; equal ratings (every class has at least two) leave
    intervals of length 0, and the order decides which of two temperatures is found.  Here:
    the rounded pressures come in the same order and stay equal where they were equal, so
    that the temperature found is the exact one but for a rounding error. *)
From Coq Require Import String ZArith QArith Reals Qreals List Bool Lra Lia.
From Flocq Require Import Core BinarySingleNaN.
From Verif Require Import PyBase Pint UnitsM Spec QLemmas Csv TableSpec Tables Interp InterpP
  NumQ StressP PipeP FlangeM FlangeP RoundM RoundSpec RoundTempSpec RoundP RoundDdtP RoundStressP
  RoundFlangeP FlangeT RoundFlangeTP Properties_Flange
  IeeeM IeeeSpec IeeeP IeeeInterpP IeeeFlangeP Properties_Ieee Properties_IeeeFlange.
Import ListNotations.
Local Open Scope R_scope.
Local Opaque TUBE_MATERIALS flange_file FLANGE_LIMITS.

(** C150: a pressure above some positive rating of the class and below another (by 1.5e9
    rounding units of 1 Pa; the largest rating is 4.137e7 Pa) gives the exact temperature
    within 3e8 rounding units of 1 K. *)
Theorem C150_max_temperature_rounding :
  forall (u : R) (rnd : R -> R), rounding u rnd -> u <= 1/1000000 ->
  forall (material : string) (f : frame) (cls : string) (pressure : pyin R) (x : R)
         (row1 row2 : list string) (P1 P2 : Q),
    In material available_materials -> rated_by TUBE_MATERIALS flange_file material f ->
    In cls (pressure_classes f) -> denotes pressure d_pressure x ->
    In row1 (f_rows f) -> tabulated f row1 cls P1 -> 0 < Q2R P1 ->
    Q2R P1 * 100000 + 1500000000 * u <= x ->
    In row2 (f_rows f) -> tabulated f row2 cls P2 ->
    x + 1500000000 * u <= Q2R P2 * 100000 -> x < Q2R P2 * 100000 ->
    exists q q',
      @get_max_temperature R Num_R false cls pressure (NStr material) = Ok q
      /\ is_in q (q_mag q) "K" (out_reg pressure)
      /\ @get_max_temperature R (Num_rounded rnd) false cls pressure (NStr material) = Ok q'
      /\ @lookup_unit R (Num_rounded rnd) "K" = Some (q_unit q') /\ q_reg q' = out_reg pressure
      /\ Rabs (q_mag q' - q_mag q) <= 300000000 * u.
Proof.
  intros u rnd Hr Hs m f c p x row1 row2 P1 P2 I Rb Ic D I1 T1 Pos X1 I2 T2 X2 X3.
  destruct (rates_of m f I Rb) as (tab & H). rewrite (rates_classes _ _ _ H) in Ic.
  destruct (rated_pt _ _ _ _ _ _ H Ic I1 T1) as (r1 & Ir1 & Er1).
  destruct (rated_pt _ _ _ _ _ _ H Ic I2 T2) as (r2 & Ir2 & Er2).
  apply (max_temperature_rounded u rnd Hr Hs m f tab c p x H Ic D).
  - exists r1. rewrite Er1. repeat split; [exact Ir1|lra|lra].
  - exists r2. rewrite Er2. repeat split; [exact Ir2|lra|lra].
Qed.
Print Assumptions C150_max_temperature_rounding.

(** Used: at the temperature so computed the exact rating covers the pressure but for 5e13
    rounding units of 1 Pa. *)
Theorem C150_safe_rounded :
  forall (u : R) (rnd : R -> R), rounding u rnd -> u <= 1/1000000 ->
  forall (strict : bool) (material : string) (f : frame) (cls : string) (pressure : pyin R) (x : R)
         (row1 row2 : list string) (P1 P2 : Q),
    In material available_materials -> rated_by TUBE_MATERIALS flange_file material f ->
    In cls (pressure_classes f) -> denotes pressure d_pressure x ->
    In row1 (f_rows f) -> tabulated f row1 cls P1 -> 0 < Q2R P1 ->
    Q2R P1 * 100000 + 1500000000 * u <= x ->
    In row2 (f_rows f) -> tabulated f row2 cls P2 ->
    x + 1500000000 * u <= Q2R P2 * 100000 -> x < Q2R P2 * 100000 ->
    exists q',
      @get_max_temperature R (Num_rounded rnd) false cls pressure (NStr material) = Ok q'
      /\ forall (temp : pyin R) (q2 : quantity R), denotes temp d_temperature (q_mag q') ->
         get_max_pressure strict cls temp (NStr material) = Ok q2 -> x - 50000000000000 * u <= q_mag q2.
Proof.
  intros u rnd Hr Hs strict m f c p x row1 row2 P1 P2 I Rb Ic D I1 T1 Pos X1 I2 T2 X2 X3.
  pose proof (proj1 (proj1 Hr)) as u0.
  destruct (C150_max_temperature_rounding u rnd Hr Hs m f c p x row1 row2 P1 P2 I Rb Ic D I1 T1 Pos X1 I2 T2 X2 X3)
    as (q & q' & Eq & Uq & Eq' & _ & _ & B).
  exists q'. split; [exact Eq'|]. intros temp q2 Dt E2.
  destruct (max_temp_safe strict m f c p x row1 P1 row2 P2 I Rb Ic D I1 T1 ltac:(lra) I2 T2 X3)
    as (q0 & T & E0 & U0 & S). rewrite Eq in E0. injection E0 as <-.
  assert (ET : T = q_mag q) by (destruct U0 as (_ & -> & _); reflexivity). subst T.
  destruct (S (PSeq [ENum (q_mag q); EStr "K"])) as (q3 & E3 & L3).
  { den. }
  destruct (rates_of m f I Rb) as (tab & H). rewrite (rates_classes _ _ _ H) in Ic.
  destruct (max_pressure_ok _ _ _ _ _ _ _ _ H Ic Dt E2) as (N2 & _).
  assert (D3 : denotes (PSeq [ENum (q_mag q); EStr "K"]) d_temperature (q_mag q)) by den.
  destruct (max_pressure_ok _ _ _ _ _ _ _ _ H Ic D3 E3) as (N3 & _).
  pose proof (ra_ok _ _ _ H) as F.
  assert (Ne : curve tab c <> []).
  { destruct (curve_split _ _ _ _ H Ic) as (p0 & l & Ec & _). rewrite Ec. discriminate. }
  rewrite (interp_ok _ _ Ne) in N2. rewrite (interp_ok _ _ Ne) in N3. injection N2 as N2. injection N3 as N3.
  pose proof (interp_dist 140000 (curve tab c) (q_mag q) (q_mag q') ltac:(lra) Ne
    (fo_inc _ F c Ic) (fo_fall _ F c Ic) (co_gentle _ _ (curve_ok_of _ _ _ _ H Ic))) as Di.
  rewrite N2, N3 in Di. apply abs_bounds in Di. lra.
Qed.
Print Assumptions C150_safe_rounded.

(** Out of the ratings by 3e9 rounding units of 1 Pa: ValueError, as in exact arithmetic. *)
Theorem C150_outside_rounded :
  forall (u : R) (rnd : R -> R), rounding u rnd -> u <= 1/1000000 ->
  forall (strict : bool) (material : string) (f : frame) (cls : string) (pressure : pyin R) (x : R),
    In material available_materials -> rated_by TUBE_MATERIALS flange_file material f ->
    In cls (pressure_classes f) -> denotes pressure d_pressure x ->
    (forall row P, In row (f_rows f) -> tabulated f row cls P -> x < Q2R P * 100000 - 3000000000 * u)
    \/ (forall row P, In row (f_rows f) -> tabulated f row cls P -> Q2R P * 100000 + 3000000000 * u < x) ->
    is_value_error (@get_max_temperature R (Num_rounded rnd) strict cls pressure (NStr material)).
Proof.
  intros u rnd Hr Hs strict m f c p x I Rb Ic D B.
  pose proof (proj1 (proj1 Hr)) as u0.
  destruct (rates_of m f I Rb) as (tab & H). rewrite (rates_classes _ _ _ H) in Ic.
  apply (max_temperature_out u rnd Hr Hs strict m f tab c p x H Ic D).
  destruct B as [B|B]; [left|right]; intros r Ir;
    destruct (curve_rows _ _ _ _ _ H Ic Ir) as (row & T & P & I1 & _ & Tp & ->);
    specialize (B row P I1 Tp); cbn [ptTP snd].
  - lra.
  - assert (Bp : Q2R P <= 413.7).
    { unfold curve in Ir. apply in_map_iff in Ir as (w & Ew & Iw).
      destruct (co_small _ _ (curve_ok_of _ _ _ _ H Ic) w Iw) as (_ & Bp).
      apply (f_equal snd) in Ew. cbn [ptTP snd] in Ew. lra. }
    assert (Y1 : 22 * u * (Q2R P * 100000) <= 920000000 * u) by nra.
    assert (Y2 : 22 * u * (x - Q2R P * 100000) <= 1/1000 * (x - Q2R P * 100000)).
    { apply Rmult_le_compat_r; lra. }
    replace (22 * u * x) with (22 * u * (Q2R P * 100000) + 22 * u * (x - Q2R P * 100000)) by ring.
    lra.
Qed.
Print Assumptions C150_outside_rounded.

(** With a scipy that rejects repeated abscissae: the rounded ratings still repeat, and the
    method never returns. *)
Theorem C150_never_returns_rounded :
  forall (u : R) (rnd : R -> R), rounding u rnd -> u <= 1/1000000 ->
  forall (material : string) (f : frame) (cls : string) (pressure : pyin R) (x : R),
    In material available_materials -> rated_by TUBE_MATERIALS flange_file material f ->
    In cls (pressure_classes f) -> denotes pressure d_pressure x ->
    is_value_error (@get_max_temperature R (Num_rounded rnd) true cls pressure (NStr material)).
Proof.
  intros u rnd Hr Hs m f c p x I Rb Ic D.
  destruct (rates_of m f I Rb) as (tab & H). rewrite (rates_classes _ _ _ H) in Ic.
  exact (max_temperature_strict u rnd Hr Hs m f tab c p x H Ic D).
Qed.
Print Assumptions C150_never_returns_rounded.

(** In doubles, overflow and underflow included: the exact temperature within 1e-7 K, for any
    pressure 1e-6 Pa away from both ends. *)
Theorem C150_max_temperature_accuracy :
  forall (material : string) (f : frame) (cls : string) (pressure : pyin b64) (pressure' : pyin R) (x : R)
         (row1 row2 : list string) (P1 P2 : Q),
    In material available_materials -> rated_by TUBE_MATERIALS flange_file material f ->
    In cls (pressure_classes f) ->
    reads 1e18 pressure pressure' -> denotes pressure' d_pressure x ->
    In row1 (f_rows f) -> tabulated f row1 cls P1 -> 0 < Q2R P1 ->
    Q2R P1 * 100000 + 1/1000000 <= x ->
    In row2 (f_rows f) -> tabulated f row2 cls P2 -> x + 1/1000000 <= Q2R P2 * 100000 ->
    exists q d,
      @get_max_temperature R Num_R false cls pressure' (NStr material) = Ok q
      /\ is_in q (q_mag q) "K" (out_reg pressure')
      /\ @get_max_temperature b64 Num_b64 false cls pressure (NStr material) = Ok d
      /\ @lookup_unit b64 Num_b64 "K" = Some (q_unit d) /\ q_reg d = out_reg pressure
      /\ is_finite (q_mag d) = true /\ Rabs (real (q_mag d) - q_mag q) <= 1/10000000.
Proof.
  intros mat f c i i' x row1 row2 P1 P2 I Rb Ic Rd D I1 T1 Pos X1 I2 T2 X2.
  assert (Hs : double_unit <= 1/1000000) by (unfold double_unit; cbn -[IZR]; lra).
  assert (Hm : 1500000000 * double_unit <= 1/1000000) by (unfold double_unit; cbn -[IZR]; lra).
  destruct (C150_max_temperature_rounding _ _ double_rounding Hs mat f c i' x row1 row2 P1 P2
              I Rb Ic D I1 T1 Pos ltac:(lra) I2 T2 ltac:(lra) ltac:(lra)) as (q & q' & E & U & E' & _ & _ & B).
  destruct (C149_max_temperature false c (NStr mat) i i' Rd) as [(e & _ & X)|(d & g & Ed & Eg & S)]; [congruence|].
  assert (g = q') by congruence. subst g. destruct S as ((F & S) & _).
  assert (Ud : @lookup_unit b64 Num_b64 "K" = Some (q_unit d) /\ q_reg d = out_reg i).
  { clear - Ed. unfold get_max_temperature in Ed.
    destruct (table_for c (NStr mat)) as [tab|]; cbn [bind] in Ed; [|discriminate]. cbv zeta in Ed.
    destruct (parse_quant_input i module_reg) as [a|]; cbn [bind] in Ed; [|discriminate].
    destruct (raise_if _ _); cbn [bind] in Ed; [|discriminate].
    destruct (check_in_range _ _ _ _); cbn [bind] in Ed; [|discriminate].
    destruct (slinear _ _ _) as [r|]; cbn [bind] in Ed; [|discriminate].
    unfold quant in Ed. destruct (lookup_unit "K") as [v|]; [|discriminate]. now injection Ed as <-. }
  exists q, d. split; [exact E|]. split; [exact U|]. split; [exact Ed|].
  split; [apply Ud|]. split; [apply Ud|]. split; [exact F|]. rewrite S. eapply Rle_trans; [exact B|].
  unfold double_unit. cbn -[IZR]. lra.
Qed.
Print Assumptions C150_max_temperature_accuracy.

(** Beside the theorems: 304, class 300, 3 MPa, between the tabulated 29.6 and 30.2 bar, in
    doubles; and 1 GPa, above every rating. *)
Local Transparent TUBE_MATERIALS flange_file FLANGE_LIMITS.
Example C150_case :
  let pressure := PSeq [ENum (@nofQ b64 Num_b64 3%Q); EStr "MPa"%string] in
  reads 1e18 pressure (PSeq [ENum 3; EStr "MPa"%string])
  /\ denotes (PSeq [ENum 3; EStr "MPa"%string]) d_pressure 3000000
  /\ exists row1 row2,
     In row1 (f_rows f21) /\ tabulated f21 row1 "300" 29.6 /\ 0 < Q2R 29.6
     /\ Q2R 29.6 * 100000 + 1/1000000 <= 3000000
     /\ In row2 (f_rows f21) /\ tabulated f21 row2 "300" 30.2 /\ 3000000 + 1/1000000 <= Q2R 30.2 * 100000.
Proof.
  cbv zeta.
  assert (E3 : real (@nofQ b64 Num_b64 3%Q) = 3) by (vm_compute; lra).
  pose proof (reads_number 1e18 (@nofQ b64 Num_b64 3%Q) "MPa") as X3. rewrite E3 in X3.
  split; [apply X3; split; [vm_compute; reflexivity|right; rewrite E3, Rabs_pos_eq by lra; lra]|].
  split; [den|].
  exists (nth 9 (f_rows f21) []), (nth 8 (f_rows f21) []).
  assert (N : forall n, (n < length (f_rows f21))%nat -> In (nth n (f_rows f21) []) (f_rows f21))
    by (intros; apply nth_In; assumption).
  split; [apply N; vm_compute; lia|]. split; [tab|]. split; [q2r; lra|]. split; [q2r; lra|].
  split; [apply N; vm_compute; lia|]. split; [tab|]. q2r; lra.
Qed.
Example C150_case_outside :
  denotes (PSeq [ENum 1; EStr "GPa"%string]) d_pressure 1000000000
  /\ forall row P, In row (f_rows f21) -> tabulated f21 row "300" P ->
       Q2R P * 100000 + 3000000000 * (1/1000000) < 1000000000.
Proof.
  split; [den|]. intros row P Ir Tp.
  destruct (rated_pt _ _ _ _ _ _ rates21 (or_intror (or_introl eq_refl)) Ir Tp) as (r & I & E).
  pose proof (rates_temp _ _ _ _ rates21 (or_intror (or_introl eq_refl) : In "300"%string class_names)) as To.
  pose proof (to_top _ _ To _ I) as B.
  replace (topQ tab21 "300") with (496#10)%Q in B by (vm_compute; reflexivity).
  rewrite <- E. revert B. q2r. lra.
Qed.
