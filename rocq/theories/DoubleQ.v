(** * DoubleQ: rounding to double precision computed on rationals. *)
From Coq Require Import ZArith QArith Qreals Reals Lra Lia List Bool.
From Flocq Require Import Core.
From Verif Require Import PyBase QLemmas NumQ RoundM RoundSpec.
Local Open Scope Z_scope.

(** Nearest integer to N/D, ties to even (D > 0). *)
Definition near_even (N D : Z) : Z :=
  let f := N / D in let r := N mod D in
  match Z.compare (2 * r) D with
  | Lt => f | Gt => f + 1 | Eq => if Z.even f then f else f + 1
  end.
(** n/d * 2^s as a pair *)
Definition scale_up (n d s : Z) : Z * Z :=
  if 0 <=? s then (n * 2 ^ s, d) else (n, d * 2 ^ (- s)).
(** the e with 2^(e-1) <= n/d < 2^e *)
Definition mag2 (n d : Z) : Z :=
  let k := Z.log2 n - Z.log2 d in
  let (N, D) := scale_up n d (- k) in if D <=? N then k + 1 else k.
Definition two_to (m e : Z) : Q :=
  if 0 <=? e then inject_Z (m * 2 ^ e) else m # Z.to_pos (2 ^ (- e)).
Definition doubleQ (q : Q) : Q :=
  let n := Qnum q in let d := Zpos (Qden q) in
  if n =? 0 then 0%Q
  else let e := mag2 (Z.abs n) d in
       let (N, D) := scale_up n d (53 - e) in
       Qred (two_to (near_even N D) (e - 53)).

Lemma near_even_ok N D : 0 < D -> ZnearestE (IZR N / IZR D) = near_even N D.
Proof.
  intros P. unfold near_even.
  assert (PR : (0 < IZR D)%R) by now apply IZR_lt.
  pose proof (Z.div_mod N D ltac:(lia)) as E. pose proof (Z.mod_pos_bound N D P) as B.
  set (f := N / D) in *. set (r := N mod D) in *.
  assert (X : (IZR N / IZR D = IZR f + IZR r / IZR D)%R).
  { rewrite E at 1. rewrite plus_IZR, mult_IZR. field. lra. }
  assert (F : Zfloor (IZR N / IZR D) = f).
  { apply Zfloor_imp. rewrite X, plus_IZR. split.
    - assert (0 <= IZR r / IZR D)%R; [|lra].
      apply Rmult_le_pos; [apply IZR_le; lia | left; now apply Rinv_0_lt_compat].
    - assert (IZR r / IZR D < 1)%R; [|lra].
      apply Rmult_lt_reg_r with (IZR D); [lra|]. unfold Rdiv.
      rewrite Rmult_assoc, Rinv_l, Rmult_1_r, Rmult_1_l by lra. apply IZR_lt. lia. }
  assert (Cl : r <> 0 -> Zceil (IZR N / IZR D) = f + 1).
  { intros Nr. rewrite Zceil_floor_neq; [now rewrite F|]. rewrite F, X. intros Y.
    assert (IZR r / IZR D = 0)%R as Y' by lra. apply Nr. apply eq_IZR.
    apply Rmult_eq_reg_r with (/ IZR D)%R; [|apply Rinv_neq_0_compat; lra]. unfold Rdiv in Y'. lra. }
  assert (Cmp : Rcompare (IZR N / IZR D - IZR f) (/2) = Z.compare (2 * r) D).
  { replace (IZR N / IZR D - IZR f)%R with (IZR r / IZR D)%R by lra.
    rewrite <- Rcompare_IZR, mult_IZR.
    rewrite <- (Rcompare_mult_r (2 * IZR D) (IZR r / IZR D)) by lra.
    f_equal; field; lra. }
  unfold Znearest. rewrite F, Cmp.
  destruct (Z.compare_spec (2 * r) D) as [c|c|c].
  - rewrite Cl by lia. destruct (Z.even f); reflexivity.
  - reflexivity.
  - apply Cl; lia.
Qed.

Lemma scale_up_ok n d s : 0 < d ->
  0 < snd (scale_up n d s)
  /\ (IZR (fst (scale_up n d s)) / IZR (snd (scale_up n d s)) = IZR n / IZR d * bpow radix2 s)%R.
Proof.
  intros P. unfold scale_up. destruct (Z.leb_spec 0 s) as [L|L]; cbn [fst snd].
  - split; [lia|]. rewrite mult_IZR, <- (IZR_Zpower radix2 s L). change (radix_val radix2) with 2.
    field. apply not_0_IZR; lia.
  - assert (Q : 0 < 2 ^ (- s)) by (apply Z.pow_pos_nonneg; lia). split; [lia|].
    rewrite mult_IZR. replace s with (- - s) at 2 by lia. rewrite bpow_opp.
    rewrite <- (IZR_Zpower radix2 (- s)) by lia. change (radix_val radix2) with 2.
    field. split; apply not_0_IZR; lia.
Qed.

Lemma mag2_ok n d : 0 < n -> 0 < d ->
  (bpow radix2 (mag2 n d - 1) <= IZR n / IZR d < bpow radix2 (mag2 n d))%R.
Proof.
  intros Pn Pd. unfold mag2.
  destruct (Z.log2_spec n Pn) as [N1 N2]. destruct (Z.log2_spec d Pd) as [D1 D2].
  pose proof (Z.log2_nonneg n) as An. pose proof (Z.log2_nonneg d) as Ad.
  set (a := Z.log2 n) in *. set (b := Z.log2 d) in *.
  assert (PD : (0 < IZR d)%R) by now apply IZR_lt.
  assert (Lo : (bpow radix2 (a - b - 1) < IZR n / IZR d)%R).
  { apply Rmult_lt_reg_r with (IZR d); [lra|]. unfold Rdiv.
    rewrite Rmult_assoc, Rinv_l, Rmult_1_r by lra.
    apply Rlt_le_trans with (bpow radix2 (a - b - 1) * bpow radix2 (b + 1))%R.
    - apply Rmult_lt_compat_l; [apply bpow_gt_0|].
      rewrite <- IZR_Zpower by lia. apply IZR_lt. change (radix_val radix2) with 2. lia.
    - rewrite <- bpow_plus. replace (a - b - 1 + (b + 1)) with a by lia.
      rewrite <- IZR_Zpower by lia. apply IZR_le. change (radix_val radix2) with 2. lia. }
  assert (Hi : (IZR n / IZR d < bpow radix2 (a - b + 1))%R).
  { apply Rmult_lt_reg_r with (IZR d); [lra|]. unfold Rdiv.
    rewrite Rmult_assoc, Rinv_l, Rmult_1_r by lra.
    apply Rlt_le_trans with (bpow radix2 (a + 1)).
    - rewrite <- IZR_Zpower by lia. apply IZR_lt. change (radix_val radix2) with 2. lia.
    - apply Rle_trans with (bpow radix2 (a - b + 1) * bpow radix2 b)%R.
      + rewrite <- bpow_plus. apply bpow_le. lia.
      + apply Rmult_le_compat_l; [apply bpow_ge_0|].
        rewrite <- IZR_Zpower by lia. apply IZR_le. change (radix_val radix2) with 2. lia. }
  destruct (scale_up_ok n d (- (a - b)) Pd) as [SP SE].
  destruct (scale_up n d (- (a - b))) as [N D]. cbn [fst snd] in SP, SE.
  assert (V : (IZR n / IZR d = IZR N / IZR D * bpow radix2 (a - b))%R).
  { rewrite SE, Rmult_assoc, <- bpow_plus. replace (- (a - b) + (a - b)) with 0 by lia.
    cbn [bpow]. lra. }
  assert (PDD : (0 < IZR D)%R) by now apply IZR_lt.
  pose proof (bpow_gt_0 radix2 (a - b)) as Pk.
  destruct (Z.leb_spec D N) as [c|c].
  - replace (a - b + 1 - 1) with (a - b) by lia. split; [|exact Hi].
    rewrite V. rewrite <- (Rmult_1_l (bpow radix2 (a - b))) at 1.
    apply Rmult_le_compat_r; [lra|]. apply Rmult_le_reg_r with (IZR D); [lra|]. unfold Rdiv.
    rewrite Rmult_assoc, Rinv_l, Rmult_1_r, Rmult_1_l by lra. now apply IZR_le.
  - split; [lra|]. rewrite V. rewrite <- (Rmult_1_l (bpow radix2 (a - b))) at 2.
    apply Rmult_lt_compat_r; [lra|]. apply Rmult_lt_reg_r with (IZR D); [lra|]. unfold Rdiv.
    rewrite Rmult_assoc, Rinv_l, Rmult_1_r, Rmult_1_l by lra. now apply IZR_lt.
Qed.

Lemma two_to_ok m e : (Q2R (two_to m e) = IZR m * bpow radix2 e)%R.
Proof.
  unfold two_to. destruct (Z.leb_spec 0 e) as [L|L].
  - unfold Q2R, inject_Z; cbn [Qnum Qden]. rewrite mult_IZR, <- (IZR_Zpower radix2 e L).
    change (radix_val radix2) with 2. lra.
  - assert (P : 0 < 2 ^ (- e)) by (apply Z.pow_pos_nonneg; lia).
    unfold Q2R; cbn [Qnum Qden]. rewrite Z2Pos.id by lia.
    replace e with (- - e) at 2 by lia. rewrite bpow_opp, <- (IZR_Zpower radix2 (- e)) by lia.
    reflexivity.
Qed.

Lemma doubleQ_ok q : double (Q2R q) = Q2R (doubleQ q).
Proof.
  unfold doubleQ. destruct q as [n d]. cbn [Qnum Qden].
  destruct (Z.eqb_spec n 0) as [-> | Nz].
  - unfold double. replace (Q2R (0 # d)) with 0%R by (unfold Q2R; cbn; lra).
    rewrite round_0 by apply valid_rnd_N. unfold Q2R; cbn; lra.
  - pose proof (mag2_ok (Z.abs n) (Zpos d) ltac:(lia) ltac:(lia)) as M.
    set (e := mag2 (Z.abs n) (Zpos d)) in *.
    assert (A : (Q2R (n # d) = IZR n / IZR (Zpos d))%R) by reflexivity.
    assert (PD : (0 < IZR (Zpos d))%R) by now apply IZR_lt.
    assert (Mg : mag radix2 (Q2R (n # d)) = e :> Z).
    { apply mag_unique. rewrite A. unfold Rdiv. rewrite Rabs_mult, Rabs_inv.
      rewrite (Rabs_pos_eq (IZR (Zpos d))) by lra. rewrite <- abs_IZR. exact M. }
    destruct (scale_up_ok n (Zpos d) (53 - e) ltac:(lia)) as [SP SE].
    destruct (scale_up n (Zpos d) (53 - e)) as [N D]. cbn [fst snd] in SP, SE.
    rewrite Q2R_red, two_to_ok.
    unfold double, round, scaled_mantissa, cexp, F2R. rewrite Mg.
    change (FLX_exp 53 e) with (e - 53). cbn [Fnum Fexp].
    rewrite A. replace (- (e - 53)) with (53 - e) by lia. rewrite <- SE.
    now rewrite near_even_ok.
Qed.

(** Double-precision arithmetic on rationals (square roots and pi are not used). *)
Definition Num_doubleQ : Num Q := {|
  nadd := fun x y => doubleQ (Qplus x y); nsub := fun x y => doubleQ (Qminus x y);
  nmul := fun x y => doubleQ (Qmult x y);
  ndiv := fun x y => doubleQ (Qdiv x y); nopp := Qopp; nabs := Qabs.Qabs;
  nsqrt := fun x => x; nltb := Qltb; nleb := Qle_bool; neqb := Qeq_bool;
  nofQ := doubleQ; npi := 0%Q |}.
