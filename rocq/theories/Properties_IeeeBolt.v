(** * Properties_IeeeBolt: C148, bolts in IEEE-754 double precision.

    [@f b64 Num_b64] is the model of [f] computed with doubles (IeeeM: overflow, subnormal
    numbers, signed zeros, nan).  C117 is about [@f R (Num_rounded double)], which has no
    smallest and no largest number. *)
From Coq Require Import String ZArith QArith Reals Qreals List Bool Lra Lia.
From Flocq Require Import Core BinarySingleNaN.
From Verif Require Import PyBase Pint UnitsM Spec Csv CsvData Tables BoltSpec BoltM BoltP RoundM RoundSpec RoundP
  IeeeM IeeeSpec IeeeBoltSpec IeeeP IeeePiP IeeeBoltP Properties_Bolt Properties_RoundBolt Properties_Ieee.
Import ListNotations.
Local Open Scope R_scope.
Local Opaque THREAD_SPECS.

(** Python's [math.pi] is pi rounded to a double. *)
Theorem C148_pi : real (@npi b64 Num_b64) = double PI.
Proof. exact pi_double. Qed.
Print Assumptions C148_pi.

Lemma reads_off q q' : reads 1e18 (PQuant q) (PQuant q') -> offset_only_temperature q.
Proof.
  intros H. inversion H as [|m name u u' reg Mo L L' E1 E2]; subst. exact (lookup_off _ _ L).
Qed.

(** Whatever the thread size and class asked for: with numbers that are 0 or between 1e-18
    and 1e18 nothing overflows and nothing loses digits to underflow. *)
Theorem C148_stress_areas :
  forall (size grade : string) (bolt plate engagement : quantity b64)
         (bolt' plate' engagement' : quantity R) (reg : nat),
    reads 1e18 (PQuant bolt) (PQuant bolt') -> reads 1e18 (PQuant plate) (PQuant plate') ->
    reads 1e18 (PQuant engagement) (PQuant engagement') ->
    same_outcome same_areas
      (@calculate_stress_areas b64 Num_b64 size grade bolt plate engagement reg)
      (@calculate_stress_areas R (Num_rounded double) size grade bolt' plate' engagement' reg).
Proof.
  intros size cls b p l b' p' l' reg B P L.
  eapply rsim_outcome; [|exact (stress_areas_sim size cls b b' p p' l l' reg (reads_qsim _ _ B) (reads_qsim _ _ P)
     (reads_qsim _ _ L) (reads_off _ _ B) (reads_off _ _ P) (reads_off _ _ L))].
  intros a a' (H1 & H2 & H3 & H4). repeat (split; [eapply qplain_same; eassumption|]). exact H4.
Qed.
Print Assumptions C148_stress_areas.

Theorem C148_safety_factors :
  forall (size grade : string) (pressure area bolt plate engagement : pyin b64)
         (pressure' area' bolt' plate' engagement' : pyin R) (bolts : b64) (reg : nat),
    reads 1e18 pressure pressure' -> reads 1e18 area area' -> moderate 1e18 bolts ->
    reads 1e18 bolt bolt' -> reads 1e18 plate plate' -> reads 1e18 engagement engagement' ->
    same_outcome same_factors
      (@calculate_safety_factors b64 Num_b64 pressure area bolts size grade bolt plate engagement reg)
      (@calculate_safety_factors R (Num_rounded double) pressure' area' (real bolts) size grade
         bolt' plate' engagement' reg).
Proof.
  intros size cls mp wa b p l mp' wa' b' p' l' n reg Rm Rw Mn Rb Rp Rl.
  eapply rsim_outcome; [|exact (safety_factors_sim size cls mp mp' wa wa' n b b' p p' l l' reg Rm Rw Mn Rb Rp Rl)].
  intros f f' (H1 & H2 & H3). repeat (split; [eapply sim_same; eassumption|]). exact H3.
Qed.
Print Assumptions C148_safety_factors.

(** So the safety factors of doubles are right to 1e-11. *)
Theorem C148_safety_factors_accuracy :
  forall (size grade : string) (t : thread) (pressure area bolt plate engagement : pyin b64)
         (pressure' area' bolt' plate' engagement' : pyin R) (bolts : b64)
         (xP xA xb xp xl : R) (reg : nat),
    listed_thread size grade t ->
    reads 1e18 pressure pressure' -> reads 1e18 area area' -> moderate 1e18 bolts ->
    reads 1e18 bolt bolt' -> reads 1e18 plate plate' -> reads 1e18 engagement engagement' ->
    denotes pressure' d_pressure xP -> denotes area' d_area xA -> denotes bolt' d_pressure xb ->
    denotes plate' d_pressure xp -> denotes engagement' d_length xl ->
    101/100 * atmosphere <= xP -> 0 < xA -> 0 < real bolts -> 0 <= xb -> 0 < xp -> 0 < xl ->
    exists f xb',
      @calculate_safety_factors b64 Num_b64 pressure area bolts size grade bolt plate engagement reg = Ok f
      /\ is_finite (sf_bolt f) = true /\ is_finite (sf_plate f) = true
      /\ within 1e-14 xb xb'
      /\ within 1e-11 (xb * Rmin (area_in_tension t xb') (area_in_shear t xl)
                       / ((xP - atmosphere) * xA / real bolts)) (real (sf_bolt f))
      /\ within 1e-11 (xp * area_of_plate t xl / ((xP - atmosphere) * xA / real bolts)) (real (sf_plate f))
      /\ ((1 + 1e-11) * area_in_shear t xl < area_in_tension t xb' -> sf_warning f = true)
      /\ ((1 + 1e-11) * area_in_tension t xb' < area_in_shear t xl -> sf_warning f = false).
Proof.
  intros size cls t mp wa b p l mp' wa' b' p' l' n xP xA xb xp xl reg T Rm Rw Mn Rb Rp Rl
    Dm Dw Db Dp Dl P1 P2 P3 P4 P5 P6.
  destruct C117_double as (_ & Hs & _).
  destruct (C117_safety_factors_rounding _ _ double_rounding Hs size cls t mp' wa' (real n) b' p' l'
     xP xA xb xp xl reg T Dm Dw Db Dp Dl P1 P2 P3 P4 P5 P6) as (f' & xb' & E' & Wx & _ & Wb & Wp & H1 & H2).
  destruct (C148_safety_factors size cls mp wa b p l mp' wa' b' p' l' n reg Rm Rw Mn Rb Rp Rl)
    as [(e & _ & X)|(f & g & Ef & Eg & (Fb & Sb) & (Fp & Sp) & Sw)]; [congruence|].
  assert (g = f') by congruence. subst g.
  assert (Wk : forall e e' x y, e <= e' -> within e x y -> within e' x y).
  { intros e e' x y He. unfold within. intros H. eapply Rle_trans; [exact H|].
    apply Rmult_le_compat_r; [apply Rabs_pos|exact He]. }
  assert (U1 : 60 * double_unit <= 1e-14) by (unfold double_unit; cbn -[Rmult]; lra).
  assert (U2 : 50000 * double_unit <= 1e-11) by (unfold double_unit; cbn -[Rmult]; lra).
  assert (U3 : 20000 * double_unit <= 1e-11) by (unfold double_unit; cbn -[Rmult]; lra).
  assert (A1 : 0 <= area_in_shear t xl).
  { apply Rlt_le, Rmult_lt_0_compat; [apply screw_shear_pos, (table_sound _ _ _ T)|assumption]. }
  assert (A2 : 0 <= area_in_tension t xb').
  { apply Rlt_le, tension_pos, (table_sound _ _ _ T). }
  exists f, xb'. split; [exact Ef|]. split; [exact Fb|]. split; [exact Fp|].
  split; [exact (Wk _ _ _ _ U1 Wx)|]. rewrite Sb, Sp, Sw.
  split; [exact (Wk _ _ _ _ U2 Wb)|]. split; [exact (Wk _ _ _ _ U2 Wp)|]. split.
  - intros H. apply H1. eapply Rle_lt_trans; [|exact H]. apply Rmult_le_compat_r; [exact A1|lra].
  - intros H. apply H2. eapply Rle_lt_trans; [|exact H]. apply Rmult_le_compat_r; [exact A2|lra].
Qed.
Print Assumptions C148_safety_factors_accuracy.

(** Beside the theorems: the numbers of the documentation's bolts are read this way, and the
    model computes their factors in doubles. *)
Example C148_case :
  let d := fun q : Q => @nofQ b64 Num_b64 q in
  let psi_of q := PSeq [ENum (d q); EStr "psi"%string] in
  moderate 1e18 (d 1800%Q) /\ real (d 1800%Q) = 1800
  /\ exists f, @calculate_safety_factors b64 Num_b64 (psi_of 1800%Q) (PSeq [ENum (d 9%Q); EStr "in^2"%string]) (d 16%Q)
        "1/4-28"%string "2"%string (psi_of 120000%Q) (psi_of 80000%Q) (PSeq [ENum (d (3#8)%Q); EStr "inch"%string]) 7 = Ok f
     /\ Bltb (d 4%Q) (sf_bolt f) = true /\ Bltb (sf_bolt f) (d 6%Q) = true
     /\ Bltb (d 4%Q) (sf_plate f) = true /\ Bltb (sf_plate f) (d 20%Q) = true.
Proof.
  cbv zeta.
  assert (S : sim 11 (@nofQ b64 Num_b64 1800%Q) (@nofQ R (Num_rounded double) 1800%Q)) by (apply (sim_lit 11 0); (lia || reflexivity)).
  assert (E : real (@nofQ b64 Num_b64 1800%Q) = 1800) by (vm_compute; lra).
  split; [split; [vm_compute; reflexivity|right; rewrite E, Rabs_pos_eq by lra; lra]|]. split; [exact E|].
  match goal with |- exists f, ?t = Ok f /\ _ =>
    assert (H : match t with
                | Ok f => (Bltb (@nofQ b64 Num_b64 4%Q) (sf_bolt f) && Bltb (sf_bolt f) (@nofQ b64 Num_b64 6%Q)
                           && Bltb (@nofQ b64 Num_b64 4%Q) (sf_plate f) && Bltb (sf_plate f) (@nofQ b64 Num_b64 20%Q))%bool
                | Err _ => false end = true) by (vm_compute; reflexivity);
    destruct t as [f|e]; [|discriminate] end.
  exists f. split; [reflexivity|]. repeat (apply andb_true_iff in H; destruct H as (H & ?)). auto.
Qed.
