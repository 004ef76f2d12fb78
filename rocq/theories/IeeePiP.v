(** * IeeePiP: Python's [math.pi] is the double nearest to pi. *)
From Coq Require Import ZArith QArith Reals Qreals List Bool Lra Lia.
From Coq Require Import Machin Ratan.
From Flocq Require Import Core BinarySingleNaN.
From Verif Require Import PyBase RoundM RoundSpec IeeeM.
Local Open Scope R_scope.

(** Machin's series, 2 atan (1/3) + atan (1/7), in fractions. *)
Definition qterm (n : nat) : Q :=
  let m := (2 * n + 1)%nat in
  (Z.of_nat 1 # 1) * ((2 # (Pos.of_nat m * 3 ^ Pos.of_nat m)%positive) + (1 # (Pos.of_nat m * 7 ^ Pos.of_nat m)%positive)).
Fixpoint qsum (n : nat) : Q :=
  match n with
  | O => qterm 0
  | S k => Qred (qsum k + (if Nat.even n then qterm n else - qterm n))
  end.

Lemma IZR_pos_pow (a b : positive) : IZR (Zpos (a ^ b)) = IZR (Zpos a) ^ Pos.to_nat b.
Proof. rewrite Pos2Z.inj_pow, <- (positive_nat_Z b), <- pow_IZR. reflexivity. Qed.
Lemma qterm_ok n : Q2R (qterm n) = PI_2_3_7_tg n.
Proof.
  unfold qterm, PI_2_3_7_tg, Ratan_seq. cbv zeta.
  set (m := (2 * n + 1)%nat). assert (Nm : m <> 0%nat) by lia.
  rewrite Q2R_mult, Q2R_plus. unfold Q2R; cbn [Qnum Qden].
  rewrite !Pos2Z.inj_mul, !mult_IZR, !IZR_pos_pow, !Nat2Pos.id by exact Nm.
  assert (E : IZR (Zpos (Pos.of_nat m)) = INR m).
  { rewrite INR_IZR_INZ. f_equal. rewrite <- positive_nat_Z, Nat2Pos.id by exact Nm. reflexivity. }
  rewrite E. rewrite !pow_inv.
  assert (INR m <> 0) by (apply not_0_INR; exact Nm).
  cbn [Z.of_nat]. change (IZR (Z.pos (Pos.of_succ_nat 0))) with 1.
  field. repeat split; try assumption; apply pow_nonzero; lra.
Qed.
Lemma qsum_ok n : Q2R (qsum n) = sum_f_R0 (tg_alt PI_2_3_7_tg) n.
Proof.
  induction n as [|n IH].
  - cbn [qsum sum_f_R0]. rewrite qterm_ok. unfold tg_alt. cbn [pow]. ring.
  - cbn [sum_f_R0]. rewrite <- IH. unfold qsum; fold qsum.
    rewrite (Qeq_eqR _ _ (Qred_correct _)), Q2R_plus. f_equal.
    unfold tg_alt. rewrite <- qterm_ok.
    destruct (Nat.even (S n)) eqn:E.
    + apply Nat.even_spec in E. destruct E as (k & ->). rewrite pow_1_even. ring.
    + assert (O : Nat.odd (S n) = true) by (unfold Nat.odd; now rewrite E).
      apply Nat.odd_spec in O. destruct O as (k & E'). rewrite E'. rewrite Nat.add_1_r, pow_1_odd, Q2R_opp. ring.
Qed.

Lemma pi_close : Rabs (PI * IZR (2 ^ 51) - IZR 7074237752028440) < 1/2.
Proof.
  pose proof (PI_2_3_7_ineq 9) as (L & U). rewrite <- !qsum_ok in L, U.
  assert (A : (((2 * 7074237752028440 - 1) # (8 * 2 ^ 51)) < qsum 19)%Q) by (vm_compute; reflexivity).
  assert (B : (qsum 18 < ((2 * 7074237752028440 + 1) # (8 * 2 ^ 51)))%Q) by (vm_compute; reflexivity).
  apply Qlt_Rlt in A, B. change (S (2 * 9)) with 19%nat in L. change (2 * 9)%nat with 18%nat in U.
  revert A B L U. generalize (Q2R (qsum 19)) (Q2R (qsum 18)). intros a b A B L U.
  unfold Q2R in A, B. cbn [Qnum Qden] in A, B.
  change (2 * 7074237752028440 - 1)%Z with 14148475504056879%Z in A.
  change (2 * 7074237752028440 + 1)%Z with 14148475504056881%Z in B.
  change (Z.pos (8 * 2 ^ 51)) with 18014398509481984%Z in A, B.
  change (2 ^ 51)%Z with 2251799813685248%Z.
  apply Rabs_def1; lra.
Qed.

Lemma pi_double : B2R b64_pi = double PI.
Proof.
  unfold double.
  unfold round.
  assert (M : mag radix2 PI = 2%Z :> Z).
  { apply mag_unique. rewrite Rabs_pos_eq by (pose proof PI_RGT_0; lra).
    change (bpow radix2 (2 - 1)) with 2. change (bpow radix2 2) with 4.
    pose proof PI_4. pose proof PI2_1. pose proof pi_close as C. apply Rabs_def2 in C.
    change (2 ^ 51)%Z with 2251799813685248%Z in C. lra. }
  unfold scaled_mantissa, cexp. rewrite M. unfold FLX_exp.
  change (- (2 - 53))%Z with 51%Z. change (2 - 53)%Z with (-51)%Z.
  rewrite (Znearest_imp _ _ 7074237752028440).
  - reflexivity.
  - pose proof pi_close as C. change (IZR (2 ^ 51)) with (bpow radix2 51) in C. lra.
Qed.
