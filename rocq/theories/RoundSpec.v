(** * RoundSpec: what a rounding is, and that double precision is one. *)
From Coq Require Import ZArith QArith Reals Lra Lia.
From Flocq Require Import Core Relative.
Local Open Scope R_scope.

(** [rnd] moves a number by at most the fraction [u] of it, keeps the order of numbers,
    leaves small integers alone, and doubles a rounded number exactly (base two). *)
Definition rounding (u : R) (rnd : R -> R) : Prop :=
  0 <= u <= 1/1024
  /\ (forall x, Rabs (rnd x - x) <= u * Rabs x)
  /\ (forall x y, x <= y -> rnd x <= rnd y)
  /\ (forall z, (-1024 <= z <= 1024)%Z -> rnd (IZR z) = IZR z)
  /\ (forall x, rnd (2 * rnd x) = 2 * rnd x).

(** [y] is [x] up to the fraction [e] of it. *)
Definition within (e x y : R) : Prop := Rabs (y - x) <= e * Rabs x.

(** Double precision: 53 binary digits, to nearest, ties to even (no overflow or
    underflow). *)
Definition double (x : R) : R := round radix2 (FLX_exp 53) ZnearestE x.
Definition double_unit : R := / IZR (2 ^ 53).

Lemma double_rounding : rounding double_unit double.
Proof.
  unfold rounding, double_unit. split; [|split; [|split; [|split]]].
  - cbn -[IZR]. lra.
  - intros x. unfold double.
    pose proof (relative_error_N_FLX radix2 53 eq_refl (fun z => negb (Z.even z)) x) as H.
    assert (E : / 2 * bpow radix2 (Z.opp 53 + 1) = / IZR (2 ^ 53)).
    { change (/2 * / IZR (2 ^ 52) = / IZR (2 ^ 53)). cbn -[IZR]. lra. }
    rewrite E in H. exact H.
  - intros x y H. unfold double. apply round_le; [apply FLX_exp_valid; unfold Prec_gt_0; lia|apply valid_rnd_N|exact H].
  - intros z H. unfold double. apply round_generic; [apply valid_rnd_N|].
    apply generic_format_FLX. exists (Float radix2 z 0); [unfold F2R; cbn; lra|].
    cbn [Fnum]. apply Z.le_lt_trans with 1024%Z; [lia|]. reflexivity.
  - intros x. unfold double. apply round_generic; [apply valid_rnd_N|].
    assert (Prec_gt_0 53) by (unfold Prec_gt_0; lia).
    pose proof (generic_format_round radix2 (FLX_exp 53) ZnearestE x) as G.
    destruct (FLX_format_generic radix2 53 _ G) as [f E L]. rewrite E.
    apply generic_format_FLX. exists (Float radix2 (Fnum f) (Fexp f + 1)); [|exact L].
    unfold F2R. cbn [Fnum Fexp]. rewrite bpow_plus. change (bpow radix2 1) with 2. ring.
Qed.

(** It really rounds: one tenth is not a double. *)
Lemma pow2_mod5 (n : nat) : (2 ^ Z.of_nat n mod 5 <> 0)%Z.
Proof.
  assert (H : (2 ^ Z.of_nat n mod 5 = 1 \/ 2 ^ Z.of_nat n mod 5 = 2
               \/ 2 ^ Z.of_nat n mod 5 = 3 \/ 2 ^ Z.of_nat n mod 5 = 4)%Z).
  { induction n as [|n IH]; [left; reflexivity|].
    rewrite Nat2Z.inj_succ, Z.pow_succ_r by lia. rewrite Z.mul_mod by lia.
    destruct IH as [H|[H|[H|H]]]; rewrite H; cbn; auto. }
  lia.
Qed.
Lemma double_tenth : double 0.1 <> 0.1.
Proof.
  intros E. assert (Prec_gt_0 53) by (unfold Prec_gt_0; lia).
  pose proof (generic_format_round radix2 (FLX_exp 53) ZnearestE 0.1) as G.
  fold (double 0.1) in G. rewrite E in G.
  destruct (FLX_format_generic radix2 53 _ G) as [[m e] F _]. unfold F2R in F. cbn [Fnum Fexp] in F.
  destruct (Z.le_gt_cases 0 e) as [P|P].
  - rewrite <- (IZR_Zpower radix2 e P), <- mult_IZR in F.
    assert (H2 : 1 = IZR (10 * (m * radix2 ^ e))) by (rewrite mult_IZR, <- F; lra).
    apply eq_IZR in H2. lia.
  - assert (F2 : 10 * IZR m = bpow radix2 (- e)).
    { rewrite bpow_opp. apply Rmult_eq_reg_r with (bpow radix2 e); [|apply Rgt_not_eq, bpow_gt_0].
      rewrite Rinv_l by apply Rgt_not_eq, bpow_gt_0. lra. }
    rewrite <- (IZR_Zpower radix2 (-e)) in F2 by lia. rewrite <- mult_IZR in F2. apply eq_IZR in F2.
    apply (pow2_mod5 (Z.to_nat (- e))). rewrite Z2Nat.id by lia.
    change (radix2 ^ - e)%Z with (2 ^ - e)%Z in F2. rewrite <- F2.
    replace (10 * m)%Z with (2 * m * 5)%Z by ring. apply Z.mod_mul. lia.
Qed.

(** A number just below 1 rounds to 1. *)
Lemma double_just_below_one b : 0 < b <= / IZR (2 ^ 55) -> double (1 - b) = 1.
Proof.
  intros (B0 & B1). cbn -[IZR] in B1.
  assert (M : mag radix2 (1 - b) = 0%Z :> Z).
  { apply mag_unique. rewrite Rabs_pos_eq by lra. cbn -[IZR]. lra. }
  unfold double, round, scaled_mantissa, cexp, F2R. rewrite M.
  change (FLX_exp 53 0) with (-53)%Z. cbn [Fnum Fexp].
  change (bpow radix2 (- -53)) with (IZR (2 ^ 53)). change (bpow radix2 (-53)) with (/ IZR (2 ^ 53)).
  rewrite (Znearest_imp _ _ (2 ^ 53)%Z).
  - cbn -[IZR]. lra.
  - cbn -[IZR]. apply Rabs_def1; lra.
Qed.
