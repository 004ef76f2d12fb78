(** * Properties_RoundStress: C118 (rounding and the allowable stress). *)
From Coq Require Import String ZArith QArith Reals Qreals List Bool Lra.
From Verif Require Import PyBase Pint UnitsM Spec QLemmas Csv TableSpec Tables Interp InterpP NumQ TubeM
  StressP RoundM RoundSpec RoundTempSpec RoundP RoundStressP.
Import ListNotations.
Local Open Scope R_scope.

(** C118: with every operation, literal and unit factor rounded, a temperature written as
    [m] of any temperature unit gives a stress in ksi, for any temperature at all, within
    4000 rounding units (of 1 ksi) of the exact answer. *)
Theorem C118_stress_rounding :
  forall (u : R) (rnd : R -> R), rounding u rnd ->
  forall (material : string) (welded : bool) (m : R) (unit_name : string) (t : R)
         (temp : pyin R) (reg : nat),
    In material available_materials ->
    denotes (PSeq [ENum m; EStr unit_name]) d_temperature (fahrenheit t) ->
    given rnd temp m unit_name ->
    exists q q',
      @calculate_max_stress R Num_R (PSeq [ENum m; EStr unit_name]) material welded reg = Ok q
      /\ is_in q (q_mag q) "ksi" reg
      /\ @calculate_max_stress R (Num_rounded rnd) temp material welded reg = Ok q'
      /\ @lookup_unit R (Num_rounded rnd) "ksi" = Some (q_unit q') /\ q_reg q' = reg
      /\ Rabs (q_mag q' - q_mag q) <= 4000 * u.
Proof.
  intros u rnd Hr mat w m name t temp reg I D G.
  destruct (stress_ok_of mat w I) as [_ _ _ _ _ _ _ (p & l & mid & El & _)].
  assert (Ne : limits mat w <> []) by (rewrite El; discriminate).
  destruct (max_stress_value _ t mat w reg _ I D (interp_ok _ t Ne)) as (q & E & U).
  destruct (stress_rounded u rnd Hr mat w m name t reg temp I D G) as (q' & E' & K & Rg & B).
  exists q, q'. pose proof U as (_ & Um & _). rewrite Um.
  split; [exact E|]. split; [exact U|]. split; [exact E'|]. split; [exact K|]. split; [exact Rg|exact B].
Qed.
Print Assumptions C118_stress_rounding.

(** In double precision: within 1e-12 ksi. *)
Theorem C118_stress_double :
  forall (material : string) (welded : bool) (m : R) (unit_name : string) (t : R)
         (temp : pyin R) (reg : nat),
    In material available_materials ->
    denotes (PSeq [ENum m; EStr unit_name]) d_temperature (fahrenheit t) ->
    given double temp m unit_name ->
    exists q q',
      @calculate_max_stress R Num_R (PSeq [ENum m; EStr unit_name]) material welded reg = Ok q
      /\ @calculate_max_stress R (Num_rounded double) temp material welded reg = Ok q'
      /\ Rabs (q_mag q' - q_mag q) <= 1e-12.
Proof.
  intros mat w m name t temp reg I D G.
  destruct (C118_stress_rounding _ _ double_rounding mat w m name t temp reg I D G)
    as (q & q' & E & _ & E' & _ & _ & B).
  exists q, q'. repeat split; try assumption. eapply Rle_trans; [exact B|].
  unfold double_unit. cbn -[IZR]. lra.
Qed.
Print Assumptions C118_stress_double.

(** A hotter pipe never gets more stress, and a welded one never more than a seamless
    one, but for 8000 rounding units; the stress is not negative but for 4000. *)
Theorem C118_stress_order_rounded :
  forall (u : R) (rnd : R -> R), rounding u rnd ->
  forall (material : string) (welded : bool) (m1 m2 : R) (name1 name2 : string) (t1 t2 : R)
         (temp1 temp2 : pyin R) (reg : nat) (q1 q2 : quantity R),
    In material available_materials ->
    denotes (PSeq [ENum m1; EStr name1]) d_temperature (fahrenheit t1) ->
    denotes (PSeq [ENum m2; EStr name2]) d_temperature (fahrenheit t2) ->
    given rnd temp1 m1 name1 -> given rnd temp2 m2 name2 -> t1 <= t2 ->
    (@calculate_max_stress R (Num_rounded rnd) temp1 material welded reg = Ok q1 ->
     @calculate_max_stress R (Num_rounded rnd) temp2 material welded reg = Ok q2 ->
     - (4000 * u) <= q_mag q2 <= q_mag q1 + 8000 * u)
    /\ (@calculate_max_stress R (Num_rounded rnd) temp1 material true reg = Ok q1 ->
        @calculate_max_stress R (Num_rounded rnd) temp1 material false reg = Ok q2 ->
        q_mag q1 <= q_mag q2 + 8000 * u).
Proof.
  intros u rnd Hr mat w m1 m2 n1 n2 t1 t2 i1 i2 reg q1 q2 I D1 D2 G1 G2 L.
  assert (B : forall w m n t i q, denotes (PSeq [ENum m; EStr n]) d_temperature (fahrenheit t) ->
            given rnd i m n -> @calculate_max_stress R (Num_rounded rnd) i mat w reg = Ok q ->
            - (4000 * u) <= q_mag q - interp (limits mat w) t <= 4000 * u).
  { intros w0 m n t i q D G E.
    destruct (stress_rounded u rnd Hr mat w0 m n t reg i I D G) as (q' & E' & _ & _ & X).
    assert (q' = q) by congruence. subst q'. now apply abs_bounds in X. }
  assert (Ne : forall w, limits mat w <> []).
  { intros w0. destruct (stress_ok_of mat w0 I) as [_ _ _ _ _ _ _ (p & l & mid & El & _)].
    rewrite El. discriminate. }
  split; intros E1 E2.
  - pose proof (B _ _ _ _ _ _ D1 G1 E1) as B1. pose proof (B _ _ _ _ _ _ D2 G2 E2) as B2.
    destruct (stress_ok_of mat w I) as [_ _ _ Inc Fall Pos _ _].
    pose proof (interp_falls _ _ _ (Ne w) Inc Fall L).
    pose proof (np_interp_lower _ 0 t2 _ Inc Pos (interp_ok _ t2 (Ne w))). lra.
  - pose proof (B _ _ _ _ _ _ D1 G1 E1) as B1. pose proof (B _ _ _ _ _ _ D1 G1 E2) as B2.
    pose proof (np_interp_below _ _ t1 _ _ (so_below _ _ (stress_ok_of mat true I))
      (so_inc _ _ (stress_ok_of mat true I)) (so_inc _ _ (stress_ok_of mat false I))
      (interp_ok _ t1 (Ne true)) (interp_ok _ t1 (Ne false))). lra.
Qed.
Print Assumptions C118_stress_order_rounded.

(** Between two neighbouring rows (more than 20000 rounding units of 1 degF inside them)
    the order is exact: of two temperatures written in the same unit, the larger number
    never gets the larger stress. *)
Theorem C118_stress_order_between_rows :
  forall (u : R) (rnd : R -> R), rounding u rnd ->
  forall (material : string) (welded : bool) (row1 row2 : list string) (T1 T2 : Q)
         (m1 m2 : R) (name : string) (t1 t2 : R) (temp1 temp2 : pyin R) (reg : nat),
    let f := MATERIAL_LIMITS welded in
    In material available_materials ->
    consecutive (f_rows f) row1 row2 ->
    num_cell (f_cols f) row1 "Temp" = Some T1 -> num_cell (f_cols f) row2 "Temp" = Some T2 ->
    denotes (PSeq [ENum m1; EStr name]) d_temperature (fahrenheit t1) ->
    denotes (PSeq [ENum m2; EStr name]) d_temperature (fahrenheit t2) ->
    given rnd temp1 m1 name -> given rnd temp2 m2 name ->
    m1 <= m2 -> Q2R T1 + 20000 * u <= t1 -> t2 < Q2R T2 - 20000 * u ->
    exists q1 q2,
      @calculate_max_stress R (Num_rounded rnd) temp1 material welded reg = Ok q1
      /\ @calculate_max_stress R (Num_rounded rnd) temp2 material welded reg = Ok q2
      /\ q_mag q2 <= q_mag q1.
Proof.
  intros u rnd Hr mat w r1 r2 T1 T2 m1 m2 name t1 t2 i1 i2 reg f I C E1 E2 D1 D2 G1 G2 L L1 L2.
  assert (C' : consecutive (limits mat w)
            (pt2R (numc (f_cols f) r1 "Temp", numc (f_cols f) r1 mat))
            (pt2R (numc (f_cols f) r2 "Temp", numc (f_cols f) r2 mat))).
  { unfold limits, limitsQ. rewrite map_map.
    exact (consecutive_map
             (fun r => pt2R (numc (f_cols f) r "Temp", numc (f_cols f) r mat)) _ _ _ C). }
  assert (N1 : numc (f_cols f) r1 "Temp" = T1) by (unfold numc; now rewrite E1).
  assert (N2 : numc (f_cols f) r2 "Temp" = T2) by (unfold numc; now rewrite E2).
  rewrite N1, N2 in C'.
  assert (Lt : t1 <= t2).
  { inversion D1 as [|? ? v1 ? ? K1 _ W1]; subst. inversion D2 as [|? ? v2 ? ? K2 _ W2]; subst.
    assert (v2 = v1) by congruence. subst v2.
    assert (P : 0 < u_scale v1) by (apply (lookup_wf _ _ K1)).
    unfold worth, fahrenheit in W1, W2. destruct (u_off v1); nra. }
  destruct (stress_ok_of mat w I) as [_ _ _ Inc _ _ _ (p & l & mid & El & F1 & F2)].
  assert (Ends : -20 <= Q2R T1 /\ Q2R T2 <= 1200).
  { assert (A : forall a, In a (limits mat w) -> -20 <= fst a <= 1200).
    { intros a Ha. rewrite El in Ha, Inc. split.
      - destruct Ha as [<- | Ha]; [lra|]. left. rewrite <- F1. now apply (increasing_all _ _ Inc).
      - rewrite <- F2. clear - Ha Inc. change (p :: mid ++ [l]) with ((p :: mid) ++ [l]) in *.
        apply in_app_or in Ha as [Ha|[<- |[]]]; [|lra].
        apply in_split in Ha as (l1 & l2 & E). rewrite E in Inc. left.
        rewrite <- app_assoc in Inc. cbn [app] in Inc.
        assert (Inc' : increasing (a :: l2 ++ [l])).
        { clear - Inc. induction l1 as [|b l1 IH]; [exact Inc|]. apply IH. now apply increasing_tl in Inc. }
        apply (increasing_all _ _ Inc'). apply in_or_app. right. now left. }
    assert (I1 : In (pt2R (T1, numc (f_cols f) r1 mat)) (limits mat w)
              /\ In (pt2R (T2, numc (f_cols f) r2 mat)) (limits mat w)).
    { destruct C' as (b & a & ->). split; apply in_or_app; right; [now left|right; now left]. }
    destruct I1 as [I1 I2]. apply A in I1, I2. cbn [pt2R fst] in I1, I2. lra. }
  pose proof (proj1 (proj1 Hr)) as u0.
  apply (stress_gap u rnd Hr mat w m1 m2 name t1 t2 reg i1 i2 _ _ I C' D1 D2 G1 G2 L); cbn [pt2R fst]; lra.
Qed.
Print Assumptions C118_stress_order_between_rows.

(** Hypotheses met: 304L welded, 350 and 360 degF, in double precision; the second as a
    quantity. *)
Example C118_case :
  rounding double_unit double
  /\ In "304L"%string available_materials
  /\ denotes (PSeq [ENum 350; EStr "degF"]) d_temperature (fahrenheit 350)
  /\ denotes (PSeq [ENum 360; EStr "degF"]) d_temperature (fahrenheit 360)
  /\ given double (PSeq [ENum 350; EStr "degF"]) 350 "degF"
  /\ (exists v, @lookup_unit R (Num_rounded double) "degF" = Some v
        /\ given double (PQuant (mkQ 360 v 7)) 360 "degF")
  /\ 300 + 20000 * double_unit <= 350 /\ 360 < 400 - 20000 * double_unit
  /\ exists row1 row2, consecutive (f_rows (MATERIAL_LIMITS true)) row1 row2
     /\ num_cell (f_cols (MATERIAL_LIMITS true)) row1 "Temp" = Some (300#1)%Q
     /\ num_cell (f_cols (MATERIAL_LIMITS true)) row2 "Temp" = Some (400#1)%Q.
Proof.
  split; [exact double_rounding|]. split; [apply str_mem_In; vm_compute; reflexivity|].
  split; [eapply denotes_pair; [reflexivity|reflexivity|]; unfold worth, fahrenheit; cbn; rnum; q2r; lra|].
  split; [eapply denotes_pair; [reflexivity|reflexivity|]; unfold worth, fahrenheit; cbn; rnum; q2r; lra|].
  split; [now left|]. split.
  - eexists. split; [reflexivity|]. right. eexists. split; [reflexivity|]. split; reflexivity.
  - split; [unfold double_unit; cbn -[IZR]; lra|]. split; [unfold double_unit; cbn -[IZR]; lra|].
    exists (nth 3 (f_rows (MATERIAL_LIMITS true)) []),
      (nth 4 (f_rows (MATERIAL_LIMITS true)) []).
    split; [|vm_compute; repeat split; reflexivity].
    exists (firstn 3 (f_rows (MATERIAL_LIMITS true))),
      (skipn 5 (f_rows (MATERIAL_LIMITS true))). vm_compute. reflexivity.
Qed.
