(** * Properties_RoundBolt: C117, bolts computed with rounded arithmetic.

    [rounding u rnd] (RoundSpec): every operation moves its result by at most the fraction
    [u] of it; double precision is one, with u = 2^-53.  [Num_rounded rnd] (RoundM): the
    model's arithmetic with that rounding after every operation. *)
From Coq Require Import String ZArith QArith Reals Qreals List Bool Lra Lia.
From Verif Require Import PyBase Pint UnitsM Spec QLemmas Csv CsvData Tables StressP BoltSpec BoltM BoltP
  RoundM RoundSpec RoundP RoundBoltP RoundAreaP Properties_Bolt.
Import ListNotations.
Local Open Scope R_scope.
Local Opaque THREAD_SPECS.

Lemma about_stands u q d x reg b : about u b q d x reg -> stands_for q d (bv q) reg.
Proof. intros ((A & B & C & D) & _). repeat split; assumption. Qed.

Lemma Rabs_le_inv a b : Rabs a <= b -> - b <= a <= b.
Proof. intros H. unfold Rabs in H. destruct (Rcase_abs a); lra. Qed.

Section Lemmas.
  Variables (u : R) (rnd : R -> R).
  Hypothesis Hr : rounding u rnd.
  Hypothesis Hs : u <= 1/1000000.
  Let Hu : 0 <= u <= 1/1024. Proof. exact (proj1 Hr). Qed.
  Lemma close_within b e x y : 0 <= b <= 100000 -> 2 * b <= e -> close u b x y -> within (e * u) x y.
  Proof.
    intros B E C. unfold within. apply (close_err u rnd Hr) in C; [|lra|].
    - eapply Rle_trans; [exact C|]. apply Rmult_le_compat_r; [apply Rabs_pos|].
      apply Rmult_le_compat_r; lra.
    - assert (b * u <= 100000 * (1/1000000)) by (apply Rmult_le_compat; lra). lra.
  Qed.
  (** a comparison of rounded numbers that are far enough apart *)
  Lemma far_true a b x y c c' : 0 <= a <= 4100 -> 0 <= b <= 4100 -> 0 < x -> close u a x c -> close u b y c' ->
    (1 + 20000 * u) * x < y -> Rltb c c' = true.
  Proof.
    intros A B X C C' H. apply (close_err u rnd Hr) in C; [|lra|nra]. apply (close_err u rnd Hr) in C'; [|lra|nra].
    assert (Y : 0 < y) by nra. rewrite (Rabs_pos_eq x) in C by lra. rewrite (Rabs_pos_eq y) in C' by lra.
    apply Rabs_le_inv in C, C'.
    assert (C1 : c <= x + 8200 * u * x).
    { assert (a * (u * x) <= 4100 * (u * x)) by (apply Rmult_le_compat_r; [apply Rmult_le_pos; lra|lra]). lra. }
    assert (C2 : y - 8200 * u * y <= c').
    { assert (b * (u * y) <= 4100 * (u * y)) by (apply Rmult_le_compat_r; [apply Rmult_le_pos; lra|lra]). lra. }
    apply Rltb_true. eapply Rle_lt_trans; [exact C1|]. eapply Rlt_le_trans; [|exact C2].
    assert (K : (1 - 8200 * u) * ((1 + 20000 * u) * x) < (1 - 8200 * u) * y).
    { apply Rmult_lt_compat_l; lra. }
    assert (0 <= u * x) by (apply Rmult_le_pos; lra).
    assert (u * (u * x) <= 1/1000000 * (u * x)) by (apply Rmult_le_compat_r; lra). nra.
  Qed.
  Lemma far_false a b x y c c' : 0 <= a <= 4100 -> 0 <= b <= 4100 -> 0 < y -> close u a x c -> close u b y c' ->
    (1 + 20000 * u) * y < x -> Rltb c c' = false.
  Proof.
    intros A B Y C C' H. pose proof (far_true b a y x c' c B A Y C' C H) as T.
    apply Rltb_false. destruct (Rltb_spec c' c); [lra|discriminate].
  Qed.
  Lemma same_side t xb xb' : 0 <= xb -> close u 30 xb xb' ->
    100 * u * (100000 * psi) < Rabs (xb - 100000 * psi) ->
    area_in_tension t xb' = area_in_tension t xb.
  Proof.
    intros P C H. apply (close_err u rnd Hr) in C; [|lra|lra]. rewrite (Rabs_pos_eq xb) in C by exact P.
    pose proof psi_pos as Pp. set (L := 100000 * psi) in *. assert (L0 : 0 < L) by (unfold L; lra).
    apply Rabs_le_inv in C. unfold area_in_tension. fold L.
    assert (Cx : - (60 * (u * xb)) <= xb' - xb <= 60 * (u * xb)) by lra. clear C.
    assert (0 <= u * L) by (apply Rmult_le_pos; lra).
    destruct (Rlt_dec xb L) as [A|A], (Rlt_dec xb' L) as [B|B]; try reflexivity; exfalso.
    - rewrite Rabs_left in H by lra.
      assert (u * xb <= u * L) by (apply Rmult_le_compat_l; lra). lra.
    - rewrite Rabs_pos_eq in H by lra.
      assert (60 * (u * (xb - L)) <= 60 * (1/1000000 * (xb - L)))
        by (apply Rmult_le_compat_l; [lra|]; apply Rmult_le_compat_r; lra). lra.
  Qed.
End Lemmas.

(** C117, stress areas.  [xb'] is the bolt's strength as the comparison with 100 000 psi
    sees it: within 60 rounding units of [xb], and giving the same tensile area unless
    [xb] is within 100 units of 100 000 psi. *)
Theorem C117_stress_areas_rounding :
  forall (u : R) (rnd : R -> R), rounding u rnd -> u <= 1/1000000 ->
  forall (size grade : string) (t : thread) (bolt plate len : quantity R)
         (xb xp xl : R) (rb rp rl reg : nat),
    listed_thread size grade t ->
    stands_for bolt d_pressure xb rb -> stands_for plate d_pressure xp rp ->
    stands_for len d_length xl rl -> 0 <= xb -> 0 < xp -> 0 < xl ->
    exists r xb' s p m,
      @calculate_stress_areas R (Num_rounded rnd) size grade bolt plate len reg = Ok r
      /\ within (60 * u) xb xb'
      /\ (100 * u * (100000 * psi) < Rabs (xb - 100000 * psi) ->
          area_in_tension t xb' = area_in_tension t xb)
      /\ stands_for (screw_area r) d_area s reg
      /\ within (9000 * u) (Rmin (area_in_tension t xb') (area_in_shear t xl)) s
      /\ stands_for (plate_area r) d_area p reg
      /\ within (9000 * u) (area_of_plate t xl) p
      /\ stands_for (minimum_engagement r) d_length m reg
      /\ within (30000 * u) (2 * area_in_tension t xb' * xb / (plate_shear_per_length t * xp)) m
      /\ ((1 + 20000 * u) * area_in_shear t xl < area_in_tension t xb' -> shear_warning r = true)
      /\ ((1 + 20000 * u) * area_in_tension t xb' < area_in_shear t xl -> shear_warning r = false).
Proof.
  intros u rnd Hr Hs size grade t bolt plate len xb xp xl rb rp rl reg T Hb Hp Hl Pb Pp Pl.
  pose proof (proj1 Hr) as Hu.
  assert (Go : forall q d x r, stands_for q d x r -> about u 20 q d x r).
  { intros q d x r (A & B & C & D & E). split; [repeat split; assumption|]. exists 0%nat.
    split; [cbn; lra|]. unfold bv. rewrite D. apply near_refl. exact Hu. }
  destruct (areas_about u rnd Hr Hs size grade t bolt plate len xb xp xl rb rp rl reg T
              (Go _ _ _ _ Hb) (Go _ _ _ _ Hp) (Go _ _ _ _ Hl) Pb Pp Pl)
    as (r & xb' & c & c' & E & Cx & As & Ap & Am & Ew & Cc & Cc').
  pose proof (table_sound _ _ _ T) as S0. pose proof (tension_pos t xb' S0) as At0.
  assert (Ash : 0 < area_in_shear t xl) by (apply Rmult_lt_0_compat; [now apply screw_shear_pos|assumption]).
  exists r, xb', (bv (screw_area r)), (bv (plate_area r)), (bv (minimum_engagement r)).
  split; [exact E|]. split; [eapply (close_within u rnd Hr Hs); [| |exact Cx]; lra|].
  split; [intros H; eapply (same_side u rnd Hr Hs); eassumption|].
  split; [eapply about_stands; exact As|].
  split; [eapply (close_within u rnd Hr Hs); [| |exact (proj2 As)]; lra|].
  split; [eapply about_stands; exact Ap|].
  split; [eapply (close_within u rnd Hr Hs); [| |exact (proj2 Ap)]; lra|].
  split; [eapply about_stands; exact Am|].
  split; [eapply (close_within u rnd Hr Hs); [| |exact (proj2 Am)]; lra|].
  rewrite Ew. split; intros H.
  - eapply (far_true u rnd Hr Hs 4051 421); [lra|lra| |exact Cc|exact Cc'|exact H]. exact Ash.
  - eapply (far_false u rnd Hr Hs 4051 421); [lra|lra| |exact Cc|exact Cc'|exact H]. exact At0.
Qed.
Print Assumptions C117_stress_areas_rounding.

(** C117, safety factors, for a pressure at least a hundredth of an atmosphere above
    ambient. *)
Theorem C117_safety_factors_rounding :
  forall (u : R) (rnd : R -> R), rounding u rnd -> u <= 1/1000000 ->
  forall (size grade : string) (t : thread) mp wa (N : R) bolt plate len
         (xP xA xb xp xl : R) (reg : nat),
    listed_thread size grade t ->
    denotes mp d_pressure xP -> denotes wa d_area xA -> denotes bolt d_pressure xb ->
    denotes plate d_pressure xp -> denotes len d_length xl ->
    101/100 * atmosphere <= xP -> 0 < xA -> 0 < N -> 0 <= xb -> 0 < xp -> 0 < xl ->
    exists f xb',
      @calculate_safety_factors R (Num_rounded rnd) mp wa N size grade bolt plate len reg = Ok f
      /\ within (60 * u) xb xb'
      /\ (100 * u * (100000 * psi) < Rabs (xb - 100000 * psi) ->
          area_in_tension t xb' = area_in_tension t xb)
      /\ within (50000 * u) (xb * Rmin (area_in_tension t xb') (area_in_shear t xl)
                             / ((xP - atmosphere) * xA / N)) (sf_bolt f)
      /\ within (50000 * u) (xp * area_of_plate t xl / ((xP - atmosphere) * xA / N)) (sf_plate f)
      /\ ((1 + 20000 * u) * area_in_shear t xl < area_in_tension t xb' -> sf_warning f = true)
      /\ ((1 + 20000 * u) * area_in_tension t xb' < area_in_shear t xl -> sf_warning f = false).
Proof.
  intros u rnd Hr Hs size grade t mp wa N bolt plate len xP xA xb xp xl reg T HP HA Hb Hp Hl P1 P2 P3 P4 P5 P6.
  destruct (factors_about u rnd Hr Hs size grade t mp wa N bolt plate len xP xA xb xp xl reg
              T HP HA Hb Hp Hl P1 P2 P3 P4 P5 P6)
    as (f & xb' & c & c' & E & Cx & Cb & Cp & Ew & Cc & Cc').
  pose proof (table_sound _ _ _ T) as S0. pose proof (tension_pos t xb' S0) as At0.
  assert (Ash : 0 < area_in_shear t xl) by (apply Rmult_lt_0_compat; [now apply screw_shear_pos|assumption]).
  exists f, xb'.
  split; [exact E|]. split; [eapply (close_within u rnd Hr Hs); [| |exact Cx]; lra|].
  split; [intros H; eapply (same_side u rnd Hr Hs); eassumption|].
  split; [eapply (close_within u rnd Hr Hs); [| |exact Cb]; lra|].
  split; [eapply (close_within u rnd Hr Hs); [| |exact Cp]; lra|].
  rewrite Ew. split; intros H.
  - eapply (far_true u rnd Hr Hs 4051 421); [lra|lra| |exact Cc|exact Cc'|exact H]. exact Ash.
  - eapply (far_false u rnd Hr Hs 4051 421); [lra|lra| |exact Cc|exact Cc'|exact H]. exact At0.
Qed.
Print Assumptions C117_safety_factors_rounding.

(** In double precision: twelve digits of every stress area, eleven of every factor
    survive.  A 1/4-20 bolt in class 2, 30 ksi, 20 bolts on 9 square inches at 200 psi. *)
Theorem C117_double :
  rounding double_unit double /\ double_unit <= 1/1000000
  /\ 9000 * double_unit <= 1 / 10 ^ 12 /\ 50000 * double_unit <= 1 / 10 ^ 11.
Proof.
  split; [exact double_rounding|]. unfold double_unit. cbn -[IZR]. repeat split; lra.
Qed.
Print Assumptions C117_double.
Example C117_case :
  listed_thread "1/4-20" "2"
    (mkThreadDims (Q2R 0.2070) (Q2R 0.2248) (Q2R 0.2127) (Q2R 0.2489) (Q2R 0.2500) (Q2R 20))
  /\ denotes (PQuant (mkQ 200 (mult_unit d_pressure 6894.757) 0)) d_pressure (200 * 6894.757)
  /\ 101/100 * atmosphere <= 200 * 6894.757
  /\ 100 * double_unit * (100000 * psi) < Rabs (30000 * psi - 100000 * psi).
Proof.
  split; [exact quarter_twenty|]. split; [|split].
  - constructor; [split; [cbn; lra|cbn; congruence]|reflexivity|]. unfold worth. cbn. lra.
  - unfold atmosphere. lra.
  - pose proof psi_pos. rewrite Rabs_left by lra. unfold double_unit. cbn -[IZR psi]. lra.
Qed.
