(** * Properties_StressOrder: C153, stress limits computed with doubles fall with temperature. *)
From Coq Require Import String ZArith QArith Reals Qreals List Bool Lra Lia.
From Flocq Require Import Core BinarySingleNaN.
From Verif Require Import PyBase Pint UnitsM Spec QLemmas Csv TableSpec Tables TubeM StressP RoundM RoundSpec RoundTempSpec
  RoundP IeeeM IeeeSpec IeeeP Properties_Ieee Properties_RoundStress Properties_IeeeFlange.
Import ListNotations.
Local Open Scope R_scope.
Local Opaque MATERIAL_LIMITS TUBE_MATERIALS.

Lemma stress_double_value mat w temp temp' reg d : reads 1e18 temp temp' ->
  @calculate_max_stress b64 Num_b64 temp mat w reg = Ok d ->
  exists g, @calculate_max_stress R (Num_rounded double) temp' mat w reg = Ok g
    /\ is_finite (q_mag d) = true /\ real (q_mag d) = q_mag g.
Proof.
  intros Rd E. destruct (C149_max_stress mat w temp temp' reg Rd) as [(e & X & _)|(a & g & Ea & Eg & S)]; [congruence|].
  exists g. split; [exact Eg|]. assert (a = d) by congruence. subst a. apply S.
Qed.

(** Anywhere, in and out of the table: a hotter pipe has no higher limit, nor a welded one than
    a seamless one, but for 1e-12 ksi; no limit is below zero by more. *)
Theorem C153_stress_order_in_doubles :
  forall (material : string) (welded : bool) (m1 m2 : R) (name1 name2 : string) (t1 t2 : R)
         (temp1 temp2 : pyin b64) (temp1' temp2' : pyin R) (reg : nat) (d1 d2 : quantity b64),
    In material available_materials ->
    reads 1e18 temp1 temp1' -> given double temp1' m1 name1 ->
    denotes (PSeq [ENum m1; EStr name1]) d_temperature (fahrenheit t1) ->
    reads 1e18 temp2 temp2' -> given double temp2' m2 name2 ->
    denotes (PSeq [ENum m2; EStr name2]) d_temperature (fahrenheit t2) -> t1 <= t2 ->
    (@calculate_max_stress b64 Num_b64 temp1 material welded reg = Ok d1 ->
     @calculate_max_stress b64 Num_b64 temp2 material welded reg = Ok d2 ->
     - 1e-12 <= real (q_mag d2) <= real (q_mag d1) + 1e-12)
    /\ (@calculate_max_stress b64 Num_b64 temp1 material true reg = Ok d1 ->
        @calculate_max_stress b64 Num_b64 temp1 material false reg = Ok d2 ->
        real (q_mag d1) <= real (q_mag d2) + 1e-12).
Proof.
  intros mat w m1 m2 n1 n2 t1 t2 i1 i2 i1' i2' reg d1 d2 I Rd1 G1 D1 Rd2 G2 D2 L.
  assert (U : 8000 * double_unit <= 1e-12) by (unfold double_unit; cbn -[IZR]; lra).
  assert (U0 : 0 <= double_unit) by (unfold double_unit; cbn -[IZR]; lra).
  split; intros E1 E2.
  - destruct (stress_double_value _ _ _ _ _ _ Rd1 E1) as (g1 & F1 & _ & V1).
    destruct (stress_double_value _ _ _ _ _ _ Rd2 E2) as (g2 & F2 & _ & V2).
    destruct (C118_stress_order_rounded _ _ double_rounding mat w m1 m2 n1 n2 t1 t2 i1' i2' reg g1 g2 I D1 D2 G1 G2 L) as (K & _).
    specialize (K F1 F2). rewrite V1, V2. lra.
  - destruct (stress_double_value _ _ _ _ _ _ Rd1 E1) as (g1 & F1 & _ & V1).
    destruct (stress_double_value _ _ _ _ _ _ Rd1 E2) as (g2 & F2 & _ & V2).
    destruct (C118_stress_order_rounded _ _ double_rounding mat w m1 m2 n1 n2 t1 t2 i1' i2' reg g1 g2 I D1 D2 G1 G2 L) as (_ & K).
    specialize (K F1 F2). rewrite V1, V2. lra.
Qed.
Print Assumptions C153_stress_order_in_doubles.

(** Between two rows of the table (a rounding margin away from them), in one unit: not even by
    the last bit. *)
Theorem C153_exact_order_between_rows :
  forall (material : string) (welded : bool) (row1 row2 : list string) (T1 T2 : Q)
         (m1 m2 : R) (name : string) (t1 t2 : R) (temp1 temp2 : pyin b64) (temp1' temp2' : pyin R) (reg : nat),
    let f := MATERIAL_LIMITS welded in
    In material available_materials ->
    consecutive (f_rows f) row1 row2 ->
    num_cell (f_cols f) row1 "Temp" = Some T1 -> num_cell (f_cols f) row2 "Temp" = Some T2 ->
    reads 1e18 temp1 temp1' -> given double temp1' m1 name ->
    denotes (PSeq [ENum m1; EStr name]) d_temperature (fahrenheit t1) ->
    reads 1e18 temp2 temp2' -> given double temp2' m2 name ->
    denotes (PSeq [ENum m2; EStr name]) d_temperature (fahrenheit t2) ->
    m1 <= m2 -> Q2R T1 + 1e-11 <= t1 -> t2 <= Q2R T2 - 1e-11 ->
    exists d1 d2,
      @calculate_max_stress b64 Num_b64 temp1 material welded reg = Ok d1
      /\ @calculate_max_stress b64 Num_b64 temp2 material welded reg = Ok d2
      /\ is_finite (q_mag d1) = true /\ is_finite (q_mag d2) = true
      /\ real (q_mag d2) <= real (q_mag d1).
Proof.
  intros mat w r1 r2 T1 T2 m1 m2 n t1 t2 i1 i2 i1' i2' reg f I C E1 E2 Rd1 G1 D1 Rd2 G2 D2 L L1 L2.
  assert (U : 20000 * double_unit < 1e-11) by (unfold double_unit; cbn -[IZR]; lra).
  destruct (C118_stress_order_between_rows _ _ double_rounding mat w r1 r2 T1 T2 m1 m2 n t1 t2 i1' i2' reg
    I C E1 E2 D1 D2 G1 G2 L ltac:(lra) ltac:(lra)) as (q1 & q2 & F1 & F2 & K).
  destruct (C149_max_stress mat w i1 i1' reg Rd1) as [(e & _ & X)|(a & g & Ea & Eg & S)]; [congruence|].
  destruct (C149_max_stress mat w i2 i2' reg Rd2) as [(e & _ & X)|(a2 & g2 & Ea2 & Eg2 & S2)]; [congruence|].
  assert (g = q1) by congruence. assert (g2 = q2) by congruence. subst g g2.
  destruct S as ((X1 & Y1) & _), S2 as ((X2 & Y2) & _).
  exists a, a2. repeat (split; [assumption|]). lra.
Qed.
Print Assumptions C153_exact_order_between_rows.

(** Hypotheses met: welded 304L, 350 and 360 degF, between the rows of 300 and 400. *)
Local Transparent MATERIAL_LIMITS TUBE_MATERIALS.
Example C153_case :
  let d := fun q : Q => @nofQ b64 Num_b64 q in
  In "304L"%string available_materials
  /\ (exists r1 r2, consecutive (f_rows (MATERIAL_LIMITS true)) r1 r2
       /\ num_cell (f_cols (MATERIAL_LIMITS true)) r1 "Temp" = Some (300#1)%Q
       /\ num_cell (f_cols (MATERIAL_LIMITS true)) r2 "Temp" = Some (400#1)%Q)
  /\ reads 1e18 (PSeq [ENum (d 350%Q); EStr "degF"%string]) (PSeq [ENum 350; EStr "degF"%string])
  /\ reads 1e18 (PSeq [ENum (d 360%Q); EStr "degF"%string]) (PSeq [ENum 360; EStr "degF"%string])
  /\ given double (PSeq [ENum 350; EStr "degF"%string]) 350 "degF"
  /\ given double (PSeq [ENum 360; EStr "degF"%string]) 360 "degF"
  /\ denotes (PSeq [ENum 350; EStr "degF"]) d_temperature (fahrenheit 350)
  /\ denotes (PSeq [ENum 360; EStr "degF"]) d_temperature (fahrenheit 360)
  /\ 300 + 1e-11 <= 350 /\ 360 <= 400 - 1e-11
  /\ exists q1 q2, @calculate_max_stress b64 Num_b64 (PSeq [ENum (d 350%Q); EStr "degF"%string]) "304L" true 0 = Ok q1
       /\ @calculate_max_stress b64 Num_b64 (PSeq [ENum (d 360%Q); EStr "degF"%string]) "304L" true 0 = Ok q2
       /\ Bltb (q_mag q2) (q_mag q1) = true.
Proof.
  cbv zeta.
  assert (E1 : real (@nofQ b64 Num_b64 350%Q) = 350) by (vm_compute; lra).
  assert (E2 : real (@nofQ b64 Num_b64 360%Q) = 360) by (vm_compute; lra).
  pose proof (reads_number 1e18 (@nofQ b64 Num_b64 350%Q) "degF") as X1. rewrite E1 in X1.
  pose proof (reads_number 1e18 (@nofQ b64 Num_b64 360%Q) "degF") as X2. rewrite E2 in X2.
  split; [apply str_mem_In; vm_compute; reflexivity|]. split.
  { exists (nth 3 (f_rows (MATERIAL_LIMITS true)) []), (nth 4 (f_rows (MATERIAL_LIMITS true)) []).
    split; [|vm_compute; repeat split; reflexivity].
    exists (firstn 3 (f_rows (MATERIAL_LIMITS true))), (skipn 5 (f_rows (MATERIAL_LIMITS true))). vm_compute. reflexivity. }
  split; [apply X1; split; [vm_compute; reflexivity|right; rewrite E1, Rabs_pos_eq by lra; lra]|].
  split; [apply X2; split; [vm_compute; reflexivity|right; rewrite E2, Rabs_pos_eq by lra; lra]|].
  split; [now left|]. split; [now left|].
  split; [eapply denotes_pair; [reflexivity|reflexivity|]; unfold worth, fahrenheit; cbn; rnum; q2r; lra|].
  split; [eapply denotes_pair; [reflexivity|reflexivity|]; unfold worth, fahrenheit; cbn; rnum; q2r; lra|].
  split; [lra|]. split; [lra|].
  match goal with |- exists q1 q2, ?t = Ok q1 /\ ?t' = Ok q2 /\ _ =>
    assert (H : match t, t' with Ok q, Ok q' => Bltb (q_mag q') (q_mag q) | _, _ => false end = true)
      by (vm_compute; reflexivity);
    destruct t as [q|e]; [|discriminate]; destruct t' as [q'|e']; [|discriminate];
    exists q, q'; split; [reflexivity|]; split; [reflexivity|exact H] end.
Qed.
