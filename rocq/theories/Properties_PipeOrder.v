(** * Properties_PipeOrder: C152, ratings of catalogue pipes computed with doubles keep the
    order of the walls, the temperatures and the welds. *)
From Coq Require Import String ZArith QArith Reals Qreals List Bool Lra Lia.
From Flocq Require Import Core BinarySingleNaN.
From Verif Require Import PyBase Pint UnitsM Spec QLemmas Csv TableSpec Tables NumQ
  TubeM TubeP StressP PipeP DesignP RoundM RoundSpec RoundTempSpec RoundP RoundPipeSpec RoundPipeP PipeOrderP
  IeeeM IeeeSpec IeeeP IeeePipeP Properties_Ieee Properties_Design Properties_PipeDouble.
Import ListNotations.
Local Open Scope R_scope.
Local Opaque PIPE_SCHEDULES MATERIAL_LIMITS TUBE_MATERIALS.

(** Of two schedules of one size the one with the thicker wall is rated strictly higher by
    doubles, wherever the material still carries 1 Pa; schedules with the same wall get the
    same rating to the last bit. *)
Theorem C152_thicker_is_stronger_in_doubles :
  forall (size schedule1 schedule2 material : string) (w1 w2 : Q) (welded : bool)
         (m : R) (unit_name : string) (t S : R) (temp : pyin b64) (temp' : pyin R)
         (safety_factor : b64) (reg : nat) (q1 q2 : quantity b64) (p1 p2 : R),
    entry PIPE_SCHEDULES size schedule1 w1 -> entry PIPE_SCHEDULES size schedule2 w2 ->
    schedule1 <> "Size"%string -> schedule1 <> "OD"%string ->
    schedule2 <> "Size"%string -> schedule2 <> "OD"%string ->
    (size, schedule1) <> ("28"%string, "10"%string) ->
    (size, schedule2) <> ("28"%string, "10"%string) ->
    In material available_materials ->
    reads 1e18 temp temp' -> given double temp' m unit_name ->
    denotes (PSeq [ENum m; EStr unit_name]) d_temperature (fahrenheit t) ->
    moderate 1e10 safety_factor -> 0 < real safety_factor ->
    @rated_pipe b64 Num_b64 size schedule1 temp material welded safety_factor reg = Ok q1 ->
    @rated_pipe b64 Num_b64 size schedule2 temp material welded safety_factor reg = Ok q2 ->
    worth_double q1 p1 -> worth_double q2 p2 ->
    (Q2R w1 < Q2R w2 ->
     returns (@calculate_max_stress R Num_R (PSeq [ENum m; EStr unit_name]) material welded reg)
       d_pressure S reg -> 1 <= S -> p1 < p2)
    /\ (Q2R w1 = Q2R w2 -> real (q_mag q1) = real (q_mag q2) /\ p1 = p2).
Proof.
  intros size sc1 sc2 mat w1 w2 wd m name t S temp temp' sf reg q1 q2 p1 p2
    E1 E2 A1 B1 A2 B2 N1 N2 I Rd G D Ms F R1 R2 W1 W2.
  split.
  - intros L St S1.
    destruct (C151_rating_accuracy size sc1 mat wd m name t temp temp' sf reg
      (ex_intro _ w1 (conj E1 (conj A1 B1))) N1 I Rd G D Ms F)
      as (od & x1 & T1 & q & p & Eo & Ex1 & C1 & St1 & Eq1 & _ & _ & V1 & X1).
    destruct (C151_rating_accuracy size sc2 mat wd m name t temp temp' sf reg
      (ex_intro _ w2 (conj E2 (conj A2 B2))) N2 I Rd G D Ms F)
      as (od2 & x2 & T2 & q' & p' & Eo2 & Ex2 & C2 & St2 & Eq2 & _ & _ & V2 & X2).
    assert (q = q1) by congruence. assert (q' = q2) by congruence. subst q q'.
    assert (p = p1) by (destruct V1 as (_ & _ & _ & <-), W1 as (_ & _ & _ & <-); reflexivity).
    assert (p' = p2) by (destruct V2 as (_ & _ & _ & <-), W2 as (_ & _ & _ & <-); reflexivity).
    subst p p'.
    assert (Us : forall T, returns (@calculate_max_stress R Num_R (PSeq [ENum m; EStr name]) mat wd reg) d_pressure T reg -> T = S).
    { intros T (s1 & Es1 & (_ & _ & _ & Y1 & _)). destruct St as (s2 & Es2 & (_ & _ & _ & Y2 & _)).
      rewrite Es1 in Es2. injection Es2 as Es2. rewrite <- Y1, <- Y2, Es2. reflexivity. }
    rewrite (Us _ St1) in X1. rewrite (Us _ St2) in X2.
    rewrite (entry_fun _ _ _ _ Eo2 Eo) in *. rewrite (entry_fun _ _ _ _ Ex1 E1), (entry_fun _ _ _ _ Ex2 E2) in *.
    destruct (wall_gap _ _ _ _ _ _ Eo E1 E2 A1 B1 A2 B2) as (O & Gp). specialize (Gp L).
    pose proof (rating_gap S (real sf) (Q2R od) (Q2R w1) (Q2R w2) S1 F ltac:(lra) ltac:(lra) ltac:(lra) O) as K.
    apply Rabs_le_inv in X1, X2.
    assert (P : 0 < / real sf) by now apply Rinv_0_lt_compat.
    unfold Rdiv in *. lra.
  - intros Q. pose proof (same_wall double size sc1 sc2 w1 w2 temp' mat wd (real sf) reg E1 E2 A1 B1 A2 B2 Q in_double) as Sm.
    destruct (C151_rating_double size sc1 mat wd temp temp' sf reg N1 Rd Ms) as [(e & X & _)|(a & b & Ea & Eb & Sn)]; [congruence|].
    destruct (C151_rating_double size sc2 mat wd temp temp' sf reg N2 Rd Ms) as [(e & X & _)|(a2 & b2 & Ea2 & Eb2 & Sn2)]; [congruence|].
    assert (a = q1) by congruence. assert (a2 = q2) by congruence. assert (b2 = b) by congruence. subst a a2 b2.
    destruct Sn as ((_ & Y1) & (_ & Z1) & _), Sn2 as ((_ & Y2) & (_ & Z2) & _).
    assert (M : real (q_mag q1) = real (q_mag q2)) by congruence. split; [exact M|].
    destruct W1 as (_ & _ & _ & <-), W2 as (_ & _ & _ & <-). rewrite M. congruence.
Qed.
Print Assumptions C152_thicker_is_stronger_in_doubles.

(** A hotter pipe, or a welded one, is not rated higher by doubles than a cooler or a seamless
    one but for 4e-5 Pa (over the safety factor); and no rating is below zero but for half of
    that. *)
Theorem C152_hotter_or_welded_in_doubles :
  forall (size schedule material : string) (welded1 welded2 : bool)
         (m1 m2 : R) (unit1 unit2 : string) (t1 t2 : R) (temp1 temp2 : pyin b64) (temp1' temp2' : pyin R)
         (safety_factor : b64) (reg : nat) (q1 q2 : quantity b64) (p1 p2 : R),
    (exists w, entry PIPE_SCHEDULES size schedule w
               /\ schedule <> "Size"%string /\ schedule <> "OD"%string) ->
    (size, schedule) <> ("28"%string, "10"%string) ->
    In material available_materials ->
    reads 1e18 temp1 temp1' -> given double temp1' m1 unit1 ->
    denotes (PSeq [ENum m1; EStr unit1]) d_temperature (fahrenheit t1) ->
    reads 1e18 temp2 temp2' -> given double temp2' m2 unit2 ->
    denotes (PSeq [ENum m2; EStr unit2]) d_temperature (fahrenheit t2) ->
    moderate 1e10 safety_factor -> 0 < real safety_factor ->
    t1 <= t2 -> (welded1 = welded2 \/ (welded1 = false /\ welded2 = true)) ->
    @rated_pipe b64 Num_b64 size schedule temp1 material welded1 safety_factor reg = Ok q1 ->
    @rated_pipe b64 Num_b64 size schedule temp2 material welded2 safety_factor reg = Ok q2 ->
    worth_double q1 p1 -> worth_double q2 p2 ->
    p2 <= p1 + 4e-5 / real safety_factor /\ - (2e-5 / real safety_factor) <= p2.
Proof.
  intros size sc mat wd1 wd2 m1 m2 n1 n2 t1 t2 tp1 tp2 tp1' tp2' sf reg q1 q2 p1 p2
    O N I Rd1 G1 D1 Rd2 G2 D2 Ms F L W R1 R2 V1 V2.
  assert (K : forall wd m name t tp tp' q p, reads 1e18 tp tp' -> given double tp' m name ->
    denotes (PSeq [ENum m; EStr name]) d_temperature (fahrenheit t) ->
    @rated_pipe b64 Num_b64 size sc tp mat wd sf reg = Ok q -> worth_double q p ->
    exists x, returns (pipe_limit size sc (PSeq [ENum m; EStr name]) mat wd (real sf) reg) d_pressure x reg
      /\ Rabs (p - x) <= 2e-5 / real sf).
  { intros wd m name t tp tp' q p Rd G D E V.
    destruct (C151_rating_rounding _ _ double_rounding size sc mat wd m name t tp' (real sf) reg O N I D G F)
      as (x & x' & Rx & (y & Ey & Sy) & B).
    destruct (C151_rating_double size sc mat wd tp tp' sf reg N Rd Ms) as [(e & X & _)|(a & b & Ea & Eb & Sn)]; [congruence|].
    assert (a = q) by congruence. assert (b = y) by congruence. subst a b.
    rewrite rated_exact in Rx. exists x. split; [exact Rx|].
    assert (p = x') as ->.
    { destruct Sn as ((_ & Y) & (_ & Z) & _), Sy as (_ & _ & _ & S4 & _), V as (_ & _ & _ & <-). rewrite Y, Z. exact S4. }
    eapply Rle_trans; [exact B|]. unfold Rdiv. apply Rmult_le_compat_r; [left; now apply Rinv_0_lt_compat|].
    unfold double_unit. cbn -[IZR]. lra. }
  destruct (K _ _ _ _ _ _ _ _ Rd1 G1 D1 R1 V1) as (x1 & X1 & B1).
  destruct (K _ _ _ _ _ _ _ _ Rd2 G2 D2 R2 V2) as (x2 & X2 & B2).
  pose proof (C111_hotter_or_welded_never_higher_partial size sc mat _ _ t1 t2 (real sf) wd1 wd2 reg x1 x2
    O N I D1 D2 F L W X1 X2) as (P0 & P1).
  apply Rabs_le_inv in B1, B2. unfold Rdiv in *. split; lra.
Qed.
Print Assumptions C152_hotter_or_welded_in_doubles.

(** Hypotheses met: NPS 6 in welded 304L at 350 degF, safety factor 4: schedules 40 and XXH,
    both rated; 304L carries more than 1 Pa there. *)
Local Transparent PIPE_SCHEDULES MATERIAL_LIMITS TUBE_MATERIALS.
Example C152_case :
  let d := fun q : Q => @nofQ b64 Num_b64 q in
  let temp := PSeq [ENum (d 350%Q); EStr "degF"%string] in
  entry PIPE_SCHEDULES "6" "40" (28#100) /\ entry PIPE_SCHEDULES "6" "XXH" (864#1000)
  /\ Q2R (28#100) < Q2R (864#1000) /\ In "304L"%string available_materials
  /\ reads 1e18 temp (PSeq [ENum 350; EStr "degF"%string])
  /\ given double (PSeq [ENum 350; EStr "degF"%string]) 350 "degF"
  /\ denotes (PSeq [ENum 350; EStr "degF"]) d_temperature (fahrenheit 350)
  /\ moderate 1e10 (d 4%Q) /\ real (d 4%Q) = 4
  /\ (exists S, returns (@calculate_max_stress R Num_R (PSeq [ENum 350; EStr "degF"%string]) "304L" true 0)
        d_pressure S 0 /\ 1 <= S)
  /\ exists q1 q2, @rated_pipe b64 Num_b64 "6" "40" temp "304L" true (d 4%Q) 0 = Ok q1
       /\ @rated_pipe b64 Num_b64 "6" "XXH" temp "304L" true (d 4%Q) 0 = Ok q2
       /\ Bltb (q_mag q1) (q_mag q2) = true.
Proof.
  cbv zeta.
  assert (E350 : real (@nofQ b64 Num_b64 350%Q) = 350) by (vm_compute; lra).
  assert (E4 : real (@nofQ b64 Num_b64 4%Q) = 4) by (vm_compute; lra).
  pose proof (reads_number 1e18 (@nofQ b64 Num_b64 350%Q) "degF") as X350. rewrite E350 in X350.
  assert (I : In "304L"%string available_materials) by (apply str_mem_In; vm_compute; reflexivity).
  assert (D : denotes (PSeq [ENum 350; EStr "degF"]) d_temperature (fahrenheit 350))
    by (eapply denotes_pair; [reflexivity|reflexivity|]; unfold worth, fahrenheit; cbn; rnum; q2r; lra).
  split; [exists (nth 15 (f_rows PIPE_SCHEDULES) []); vm_compute; repeat split; auto 20|].
  split; [exists (nth 15 (f_rows PIPE_SCHEDULES) []); vm_compute; repeat split; auto 20|].
  split; [q2r; lra|]. split; [exact I|].
  split; [apply X350; split; [vm_compute; reflexivity|right; rewrite E350, Rabs_pos_eq by lra; lra]|].
  split; [now left|]. split; [exact D|].
  split; [split; [vm_compute; reflexivity|right; rewrite E4, Rabs_pos_eq by lra; lra]|].
  split; [exact E4|]. split.
  { destruct (max_stress_line "304L" true (PSeq [ENum 350; EStr "degF"]) 350 0
      (nth 3 (f_rows (MATERIAL_LIMITS true)) []) (nth 4 (f_rows (MATERIAL_LIMITS true)) [])
      (300#1) (102#10) (400#1) (93#10)) as (q & Eq & (Lq & Mq & Gq));
      [exact I| |vm_compute; reflexivity|vm_compute; reflexivity|vm_compute; reflexivity|vm_compute; reflexivity|exact D|q2r; lra|].
    { exists (firstn 3 (f_rows (MATERIAL_LIMITS true))), (skipn 5 (f_rows (MATERIAL_LIMITS true))). vm_compute. reflexivity. }
    assert (Mv : q_mag q = 9.75) by (rewrite Mq; unfold line; cbn [fst snd]; q2r; lra).
    assert (Iq : is_in q (q_mag q) "ksi" 0) by (repeat split; assumption).
    assert (Uk : 1 <= u_scale (q_unit q) /\ u_dim (q_unit q) = d_pressure /\ Pint.u_off (q_unit q) = None).
    { clear - Lq. cbn in Lq. injection Lq as Lq. rewrite <- Lq. cbn. repeat split; rnum; unfold s_psi, s_inch; rnum; q2r; lra. }
    destruct Uk as (Uk & Ud & Uo).
    exists (q_mag q * u_scale (q_unit q)). split.
    - exists q. split; [exact Eq|]. repeat split; try assumption. lra.
    - rewrite Mv. lra. }
  match goal with |- exists q1 q2, ?t = Ok q1 /\ ?t' = Ok q2 /\ _ =>
    assert (H : match t, t' with Ok q, Ok q' => Bltb (q_mag q) (q_mag q') | _, _ => false end = true)
      by (vm_compute; reflexivity);
    destruct t as [q|e]; [|discriminate]; destruct t' as [q'|e']; [|discriminate];
    exists q, q'; split; [reflexivity|]; split; [reflexivity|exact H] end.
Qed.
