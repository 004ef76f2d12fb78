(** * IeeeSignP: signs and order of doubles, infinities and nan included. *)
From Coq Require Import SpecFloat String ZArith QArith Reals Qreals List Bool Lra Lia.
From Flocq Require Import Core BinarySingleNaN.
From Verif Require Import PyBase Pint UnitsM IeeeM IeeeSpec.
Import ListNotations.
Local Open Scope R_scope.

Notation NB := Num_b64.

(** Not below zero: nan, a zero, positive. *)
Definition nnb (x : b64) : bool :=
  match x with
  | B754_nan | B754_zero _ | B754_infinity false | B754_finite false _ _ _ => true
  | _ => false
  end.
Definition nn (x : b64) : Prop := nnb x = true.
(** A positive finite number. *)
Definition ppb (x : b64) : bool := match x with B754_finite false _ _ _ => true | _ => false end.
Definition pp (x : b64) : Prop := ppb x = true.
Definition top : R := bpow radix2 1024.
Definition xr (x : b64) : R :=
  match x with B754_infinity false => top | B754_infinity true => - top | _ => B2R x end.
Definition rd (r : R) : R := round radix2 (SpecFloat.fexp 53 1024) ZnearestE r.

Lemma rd_le a b : a <= b -> rd a <= rd b.
Proof. intros H. unfold rd. apply round_le; try typeclasses eauto; assumption. Qed.
Lemma rd_0 : rd 0 = 0.
Proof. unfold rd. apply round_0. typeclasses eauto. Qed.
Lemma rd_nn a : 0 <= a -> 0 <= rd a.
Proof. intros H. rewrite <- rd_0. now apply rd_le. Qed.
Lemma rd_id (x : b64) : rd (B2R x) = B2R x.
Proof. unfold rd. apply round_generic; [typeclasses eauto|apply generic_format_B2R]. Qed.

Lemma top_pos : 0 < top. Proof. apply bpow_gt_0. Qed.
Lemma not_nn x : is_nan x = false -> ~ nn x -> x = B754_infinity true \/ (is_finite x = true /\ B2R x < 0).
Proof.
  intros N H. destruct x as [s|[|]| |[|] m e B]; try (exfalso; apply H; reflexivity); try discriminate.
  - now left.
  - right. split; [reflexivity|]. cbn [B2R]. apply F2R_lt_0. reflexivity.
Qed.
Lemma nn_finite x : is_finite x = true -> 0 <= B2R x -> nn x.
Proof.
  intros F H. destruct x as [s|[|]| |[|] m e B]; try discriminate; try reflexivity.
  exfalso. assert (B2R (B754_finite true m e B) < 0); [|lra]. apply F2R_lt_0. reflexivity.
Qed.
Lemma nn_B2R x : nn x -> 0 <= B2R x.
Proof.
  intros H. destruct x as [s|[|]| |[|] m e B]; try discriminate; cbn [B2R]; try lra.
  apply F2R_ge_0. cbn. lia.
Qed.
Lemma pp_B2R x : pp x -> 0 < B2R x.
Proof.
  intros H. destruct x as [s|[|]| |[|] m e B]; try discriminate. cbn [B2R]. apply F2R_gt_0. reflexivity.
Qed.
Lemma pp_nn x : pp x -> nn x.
Proof. destruct x as [s|[|]| |[|] m e B]; try discriminate; reflexivity. Qed.
Lemma pp_finite x : pp x -> is_finite x = true.
Proof. destruct x as [s|[|]| |[|] m e B]; try discriminate; reflexivity. Qed.
Lemma nn_xr x : nn x -> 0 <= xr x <= top.
Proof.
  intros H. pose proof top_pos. pose proof (nn_B2R _ H). pose proof (abs_B2R_lt_emax 53 1024 x) as B.
  destruct x as [s|[|]| |[|] m e Q]; try discriminate; cbn [xr B2R] in *; try lra.
  unfold top. rewrite Rabs_pos_eq in B; lra.
Qed.
Lemma xr_finite x : is_finite x = true -> xr x = B2R x.
Proof. destruct x as [s|[|]| |[|] m e B]; try discriminate; reflexivity. Qed.

Lemma nn_not_negative x : nn x <-> not_negative x.
Proof.
  unfold not_negative. split.
  - intros H. destruct (is_finite x) eqn:F.
    + rewrite Bltb_correct; [|exact F|reflexivity]. apply Rlt_bool_false.
      pose proof (nn_B2R _ H). replace (B2R (b64_of_Z 0)) with 0 by reflexivity. exact H0.
    + destruct x as [s|[|]| |[|] m e B]; try discriminate; reflexivity.
  - intros H. destruct (is_nan x) eqn:N; [destruct x; try discriminate; reflexivity|].
    destruct (nnb x) eqn:W; [exact W|]. exfalso.
    destruct (not_nn x N ltac:(unfold nn; congruence)) as [->|(F & L)]; [discriminate|].
    rewrite Bltb_correct in H by (exact F || reflexivity).
    replace (B2R (b64_of_Z 0)) with 0 in H by reflexivity.
    rewrite Rlt_bool_true in H by exact L. discriminate.
Qed.
Lemma le_xr x y : nn x -> nn y -> is_nan x = false -> is_nan y = false ->
  Bleb x y = true <-> xr x <= xr y.
Proof.
  intros X Y Nx Ny. pose proof (nn_xr x X) as Bx. pose proof (nn_xr y Y) as By'.
  pose proof (abs_B2R_lt_emax 53 1024 x) as Ax. pose proof (abs_B2R_lt_emax 53 1024 y) as Ay.
  destruct (is_finite x) eqn:Fx, (is_finite y) eqn:Fy.
  - rewrite Bleb_correct by assumption. rewrite !xr_finite by assumption.
    destruct (Rle_bool_spec (B2R x) (B2R y)); split; intros; (reflexivity || assumption || discriminate || lra).
  - destruct y as [s|[|]| |[|] m e B]; try discriminate. split; [intros _; apply Bx|].
    intros _. destruct x as [s'|[|]| |[|] m' e' B']; try discriminate; reflexivity.
  - destruct x as [s|[|]| |[|] m e B]; try discriminate. split.
    + destruct y as [s'|[|]| |[|] m' e' B']; try discriminate.
    + rewrite (xr_finite y Fy). cbn [xr]. intros H. pose proof (Rle_abs (B2R y)). unfold top in *. lra.
  - destruct x as [s|[|]| |[|] m e B]; try discriminate. destruct y as [s'|[|]| |[|] m' e' B']; try discriminate.
    split; [intros _; cbn [xr]; lra|reflexivity].
Qed.

Lemma overflow_xr (z : b64) s : B2SF z = binary_overflow 53 1024 mode_NE s -> s = false -> z = B754_infinity false.
Proof.
  intros H ->. apply B2SF_inj. rewrite H. reflexivity.
Qed.
Lemma pos_sign x : nn x -> B2R x <> 0 -> Bsign x = false.
Proof. destruct x as [s|[|]| |[|] m e B]; try discriminate; cbn [B2R]; intros _ N; try reflexivity; now elim N. Qed.

(** ** Products *)
Lemma mul_nn x y : nn x -> nn y -> nn (Bmult mode_NE x y).
Proof.
  intros X Y. destruct (is_finite x && is_finite y)%bool eqn:F.
  - apply andb_prop in F. destruct F as (Fx & Fy).
    pose proof (Bmult_correct 53 1024 prec_pos prec_emax mode_NE x y) as H.
    cbn [round_mode] in H. fold (rd (B2R x * B2R y)) in H.
    pose proof (nn_B2R _ X) as Px. pose proof (nn_B2R _ Y) as Py.
    assert (P : 0 <= B2R x * B2R y) by now apply Rmult_le_pos.
    destruct (Rlt_bool_spec (Rabs (rd (B2R x * B2R y))) (bpow radix2 1024)) as [L|L].
    + destruct H as (H1 & H2 & _). apply nn_finite; [now rewrite H2, Fx, Fy|]. rewrite H1. now apply rd_nn.
    + assert (B2R x * B2R y <> 0).
      { intros E. rewrite E, rd_0, Rabs_R0 in L. pose proof top_pos. unfold top in *. lra. }
      assert (B2R x <> 0) by (intros E; apply H0; rewrite E; ring).
      assert (B2R y <> 0) by (intros E; apply H0; rewrite E; ring).
      rewrite (overflow_xr _ _ H); [reflexivity|]. now rewrite (pos_sign x), (pos_sign y).
  - destruct x as [s|[|]| |[|] m e B], y as [s'|[|]| |[|] m' e' B']; try discriminate; reflexivity.
Qed.
Lemma mul_nan (x y : b64) : is_nan (Bmult mode_NE x y) = false -> is_nan x = false /\ is_nan y = false.
Proof.
  destruct x as [s|[|]| |[|] m e B], y as [s'|[|]| |[|] m' e' B']; cbn; split; try reflexivity; discriminate.
Qed.
Lemma mul_xr x y : nn x -> nn y -> is_nan (Bmult mode_NE x y) = false ->
  (is_finite x = true /\ is_finite y = true /\ xr (Bmult mode_NE x y) = Rmin (rd (B2R x * B2R y)) top)
  \/ ((is_finite x = false \/ is_finite y = false) /\ xr (Bmult mode_NE x y) = top).
Proof.
  intros X Y N. destruct (is_finite x && is_finite y)%bool eqn:F.
  - left. apply andb_prop in F. destruct F as (Fx & Fy). split; [exact Fx|]. split; [exact Fy|].
    pose proof (Bmult_correct 53 1024 prec_pos prec_emax mode_NE x y) as H.
    cbn [round_mode] in H. fold (rd (B2R x * B2R y)) in H.
    pose proof (nn_B2R _ X) as Px. pose proof (nn_B2R _ Y) as Py.
    assert (P : 0 <= B2R x * B2R y) by now apply Rmult_le_pos.
    pose proof (rd_nn _ P) as P'.
    rewrite (Rabs_pos_eq (rd _)) in H by exact P'. fold top in H.
    destruct (Rlt_bool_spec (rd (B2R x * B2R y)) top) as [L|L].
    + destruct H as (H1 & H2 & _). rewrite xr_finite by (now rewrite H2, Fx, Fy).
      rewrite H1, Rmin_left; [reflexivity|now apply Rlt_le].
    + assert (B2R x * B2R y <> 0).
      { intros E. rewrite E, rd_0 in L. pose proof top_pos. lra. }
      assert (B2R x <> 0) by (intros E; apply H0; rewrite E; ring).
      assert (B2R y <> 0) by (intros E; apply H0; rewrite E; ring).
      rewrite (overflow_xr _ _ H); [|now rewrite (pos_sign x), (pos_sign y)].
      rewrite Rmin_right by exact L. reflexivity.
  - right. split; [now apply andb_false_iff|].
    destruct x as [s|[|]| |[|] m e B], y as [s'|[|]| |[|] m' e' B']; try discriminate; reflexivity.
Qed.
Lemma mul_le x x' y y' : nn x -> nn x' -> nn y -> nn y' -> xr x <= xr x' -> xr y <= xr y' ->
  is_nan (Bmult mode_NE x y) = false -> is_nan (Bmult mode_NE x' y') = false ->
  xr (Bmult mode_NE x y) <= xr (Bmult mode_NE x' y').
Proof.
  intros X X' Y Y' Lx Ly N N'.
  destruct (mul_xr x' y' X' Y' N') as [(Fx' & Fy' & E')|(_ & E')]; rewrite E'.
  2:{ apply nn_xr. now apply mul_nn. }
  assert (K : forall a b, nn a -> nn b -> is_nan a = false -> is_finite b = true -> xr a <= xr b -> is_finite a = true).
  { intros a b A B Na Fb L. rewrite (xr_finite b Fb) in L. pose proof (abs_B2R_lt_emax 53 1024 b) as W.
    pose proof (Rle_abs (B2R b)). destruct a as [s|[|]| |[|] m e Q]; try discriminate; try reflexivity.
    cbn [xr] in L. unfold top in L. lra. }
  destruct (mul_nan _ _ N) as (Nx & Ny).
  pose proof (K _ _ X X' Nx Fx' Lx) as Fx. pose proof (K _ _ Y Y' Ny Fy' Ly) as Fy.
  destruct (mul_xr x y X Y N) as [(_ & _ & E)|([Z|Z] & _)]; [|congruence|congruence].
  rewrite E. rewrite !xr_finite in Lx, Ly by assumption.
  apply Rle_min_compat_r, rd_le. apply Rmult_le_compat; try assumption; now apply nn_B2R.
Qed.

(** ** Quotients *)
Lemma nonzero_pos y : nn y -> is_nan y = false -> Beqb y (@zero b64 NB) = false ->
  y = B754_infinity false \/ (is_finite y = true /\ 0 < B2R y).
Proof.
  intros Y N Z. destruct y as [s|[|]| |[|] m e B]; try discriminate.
  - now left.
  - right. split; [reflexivity|]. cbn [B2R]. apply F2R_gt_0. reflexivity.
Qed.
Lemma div_nan (x y : b64) : is_nan (Bdiv mode_NE x y) = false -> is_nan x = false /\ is_nan y = false.
Proof.
  destruct x as [s|[|]| |[|] m e B], y as [s'|[|]| |[|] m' e' B']; cbn; split; try reflexivity; discriminate.
Qed.
Lemma div_xr x y : nn x -> nn y -> Beqb y (@zero b64 NB) = false -> is_nan (Bdiv mode_NE x y) = false ->
  nn (Bdiv mode_NE x y) /\
  ((is_finite x = true /\ is_finite y = true /\ 0 < B2R y
      /\ xr (Bdiv mode_NE x y) = Rmin (rd (B2R x / B2R y)) top)
  \/ (is_finite x = true /\ is_finite y = false /\ xr (Bdiv mode_NE x y) = 0)
  \/ (is_finite x = false /\ is_finite y = true /\ xr (Bdiv mode_NE x y) = top)).
Proof.
  intros X Y Z N. destruct (div_nan _ _ N) as (Nx & Ny).
  destruct (nonzero_pos y Y Ny Z) as [->|(Fy & Py)].
  - destruct x as [s|[|]| |[|] m e B]; try discriminate; (split; [reflexivity|]); right; left; repeat split.
  - destruct (is_finite x) eqn:Fx.
    + pose proof (Bdiv_correct 53 1024 prec_pos prec_emax mode_NE x y ltac:(lra)) as H.
      cbn [round_mode] in H. fold (rd (B2R x / B2R y)) in H.
      pose proof (nn_B2R _ X) as Px.
      assert (P : 0 <= B2R x / B2R y).
      { apply Rmult_le_pos; [exact Px|]. now apply Rlt_le, Rinv_0_lt_compat. }
      pose proof (rd_nn _ P) as P'.
      rewrite (Rabs_pos_eq (rd _)) in H by exact P'. fold top in H.
      destruct (Rlt_bool_spec (rd (B2R x / B2R y)) top) as [L|L].
      * destruct H as (H1 & H2 & _). rewrite Fx in H2.
        split; [apply nn_finite; [exact H2|now rewrite H1]|]. left.
        rewrite xr_finite by exact H2. rewrite H1, Rmin_left by now apply Rlt_le. auto.
      * assert (B2R x / B2R y <> 0).
        { intros E. rewrite E, rd_0 in L. pose proof top_pos. lra. }
        assert (B2R x <> 0) by (intros E; apply H0; rewrite E; unfold Rdiv; ring).
        assert (E : Bdiv mode_NE x y = B754_infinity false).
        { apply (overflow_xr _ _ H). rewrite (pos_sign x), (pos_sign y); try assumption; [reflexivity|lra]. }
        rewrite E. split; [reflexivity|]. left. rewrite Rmin_right by exact L. auto.
    + destruct x as [s|[|]| |[|] m e B]; try discriminate.
      destruct y as [s'|[|]| |[|] m' e' B']; try discriminate; cbn [B2R] in Py; try lra.
      split; [reflexivity|]. right; right. repeat split.
Qed.
Lemma div_nn x y : nn x -> nn y -> Beqb y (@zero b64 NB) = false -> nn (Bdiv mode_NE x y).
Proof.
  intros X Y Z. destruct (is_nan (Bdiv mode_NE x y)) eqn:N.
  - destruct (Bdiv mode_NE x y); try discriminate. reflexivity.
  - apply div_xr; assumption.
Qed.
Lemma finite_below a b : nn a -> is_nan a = false -> is_finite b = true -> xr a <= xr b -> is_finite a = true.
Proof.
  intros A Na Fb L. rewrite (xr_finite b Fb) in L. pose proof (abs_B2R_lt_emax 53 1024 b) as W.
  pose proof (Rle_abs (B2R b)). destruct a as [s|[|]| |[|] m e Q]; try discriminate; try reflexivity.
  cbn [xr] in L. unfold top in L. lra.
Qed.
Lemma div_le x x' y y' : nn x -> nn x' -> nn y -> nn y' ->
  Beqb y (@zero b64 NB) = false -> Beqb y' (@zero b64 NB) = false ->
  xr x <= xr x' -> xr y' <= xr y ->
  is_nan (Bdiv mode_NE x y) = false -> is_nan (Bdiv mode_NE x' y') = false ->
  xr (Bdiv mode_NE x y) <= xr (Bdiv mode_NE x' y').
Proof.
  intros X X' Y Y' Z Z' Lx Ly N N'.
  destruct (div_nan _ _ N) as (Nx & Ny). destruct (div_nan _ _ N') as (Nx' & Ny').
  destruct (div_xr x' y' X' Y' Z' N') as (Q' & C'). destruct (div_xr x y X Y Z N) as (Q & C).
  destruct C' as [(Fx' & Fy' & Py' & E')|[(Fx' & Fy' & E')|(_ & _ & E')]].
  - destruct C as [(Fx & Fy & Py & E)|[(_ & _ & E)|(Fx & _ & _)]].
    + rewrite E, E'. rewrite !xr_finite in Lx, Ly by assumption.
      apply Rle_min_compat_r, rd_le. pose proof (nn_B2R _ X). apply Rmult_le_compat; try assumption.
      * now apply Rlt_le, Rinv_0_lt_compat.
      * apply Rinv_le_contravar; assumption.
    + rewrite E. apply nn_xr, Q'.
    + rewrite (finite_below x x' X Nx Fx' Lx) in Fx. discriminate.
  - (* y' infinite, so y too *)
    destruct (is_finite y) eqn:Fy; [rewrite (finite_below y' y Y' Ny' Fy Ly) in Fy'; discriminate|].
    destruct C as [(_ & G & _)|[(_ & _ & E)|(_ & G & _)]]; try congruence. rewrite E. apply nn_xr, Q'.
  - rewrite E'. apply nn_xr, Q.
Qed.

(** ** Sums and roots *)
Lemma add_nn x y : nn x -> nn y -> nn (Bplus mode_NE x y).
Proof.
  intros X Y. destruct (is_finite x && is_finite y)%bool eqn:F.
  - apply andb_prop in F. destruct F as (Fx & Fy).
    pose proof (Bplus_correct 53 1024 prec_pos prec_emax mode_NE x y Fx Fy) as H.
    cbn [round_mode] in H. fold (rd (B2R x + B2R y)) in H.
    pose proof (nn_B2R _ X) as Px. pose proof (nn_B2R _ Y) as Py.
    assert (P : 0 <= B2R x + B2R y) by lra.
    destruct (Rlt_bool_spec (Rabs (rd (B2R x + B2R y))) (bpow radix2 1024)) as [L|L].
    + destruct H as (H1 & H2 & _). apply nn_finite; [exact H2|]. rewrite H1. now apply rd_nn.
    + assert (B2R x + B2R y <> 0).
      { intros E. rewrite E, rd_0, Rabs_R0 in L. pose proof top_pos. unfold top in *. lra. }
      destruct H as (H & S).
      assert (Bsign x = false).
      { destruct (Req_dec (B2R x) 0) as [E|E]; [|now apply pos_sign].
        rewrite S. apply pos_sign; [exact Y|lra]. }
      rewrite (overflow_xr _ _ H); [reflexivity|assumption].
  - destruct x as [s|[|]| |[|] m e B], y as [s'|[|]| |[|] m' e' B']; try discriminate; reflexivity.
Qed.
Lemma add_nan (x y : b64) : is_nan (Bplus mode_NE x y) = false -> is_nan x = false /\ is_nan y = false.
Proof.
  destruct x as [s|[|]| |[|] m e B], y as [s'|[|]| |[|] m' e' B']; cbn; split; try reflexivity; discriminate.
Qed.
Lemma sqrt_nn x : nn x -> nn (Bsqrt mode_NE x).
Proof.
  intros X. destruct x as [s|[|]| |[|] m e B]; try discriminate; try reflexivity.
  destruct (Bsqrt_correct 53 1024 prec_pos prec_emax mode_NE (B754_finite false m e B)) as (H1 & H2 & _).
  apply nn_finite; [exact H2|]. rewrite H1. apply rd_nn, sqrt_pos.
Qed.
Lemma sqrt_le x x' : nn x -> nn x' -> is_nan x = false -> is_nan x' = false -> xr x <= xr x' ->
  xr (Bsqrt mode_NE x) <= xr (Bsqrt mode_NE x').
Proof.
  intros X X' N N' L.
  destruct (is_finite x') eqn:F'.
  - pose proof (finite_below x x' X N F' L) as F.
    destruct (Bsqrt_correct 53 1024 prec_pos prec_emax mode_NE x) as (H1 & H2 & _).
    destruct (Bsqrt_correct 53 1024 prec_pos prec_emax mode_NE x') as (H1' & H2' & _).
    assert (G : is_finite (Bsqrt mode_NE x) = true).
    { rewrite H2. destruct x as [s|[|]| |[|] m e B]; try discriminate; reflexivity. }
    assert (G' : is_finite (Bsqrt mode_NE x') = true).
    { rewrite H2'. destruct x' as [s|[|]| |[|] m e B]; try discriminate; reflexivity. }
    rewrite !xr_finite by assumption. rewrite !xr_finite in L by assumption.
    rewrite H1, H1'. apply rd_le. now apply sqrt_le_1_alt.
  - destruct x' as [s|[|]| |[|] m e B]; try discriminate.
    replace (xr (Bsqrt mode_NE (B754_infinity false))) with top by reflexivity.
    apply nn_xr, sqrt_nn, X.
Qed.
Lemma sqrt_nan (x : b64) : is_nan (Bsqrt mode_NE x) = false -> is_nan x = false.
Proof. destruct x; cbn; try reflexivity; discriminate. Qed.

(** ** Multiplying by one *)
Definition one_lit : b64 := @B754_finite 53 1024 false 4503599627370496 (-52) eq_refl.
Lemma one_eq : @one b64 NB = one_lit.
Proof. apply B2SF_inj. vm_compute. reflexivity. Qed.
Lemma one_lit_1 : B2R one_lit = 1.
Proof. cbn [B2R one_lit]. unfold F2R. cbn [Fnum Fexp cond_Zopp]. change (bpow radix2 (-52)) with (/ IZR (2^52)).
  change (2^52)%Z with 4503599627370496%Z. apply Rinv_r. apply not_0_IZR. discriminate. Qed.
Lemma accepted_nn x : Bltb (Bmult mode_NE x (@one b64 NB)) (@zero b64 NB) = false -> nn x.
Proof.
  intros H. destruct (is_nan x) eqn:N; [destruct x; try discriminate; reflexivity|].
  destruct (nnb x) eqn:W; [exact W|]. exfalso. rewrite one_eq in H.
  destruct (not_nn x N ltac:(unfold nn; congruence)) as [->|(F & L)]; [discriminate|].
  pose proof (Bmult_correct 53 1024 prec_pos prec_emax mode_NE x one_lit) as C.
  cbn [round_mode] in C. rewrite one_lit_1, Rmult_1_r in C. fold (rd (B2R x)) in C. rewrite rd_id in C.
  rewrite Rlt_bool_true in C by apply abs_B2R_lt_emax. destruct C as (C1 & C2 & _).
  rewrite F in C2. cbn in C2.
  rewrite Bltb_correct in H; [|exact C2|reflexivity]. rewrite C1 in H.
  replace (B2R (@zero b64 NB)) with 0 in H by reflexivity.
  rewrite Rlt_bool_true in H by exact L. discriminate.
Qed.
