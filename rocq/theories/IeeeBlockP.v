(** * IeeeBlockP: the blockage functions on all doubles. *)
From Coq Require Import SpecFloat String ZArith QArith Reals Qreals List Bool Lra Lia.
From Flocq Require Import Core BinarySingleNaN.
From Verif Require Import PyBase Pint UnitsM WindowM DdtM QLemmas IeeeM IeeeSpec IeeeP IeeeSignP IeeeOrderP.
Import ListNotations.
Local Open Scope R_scope.

Lemma rd_bpow e : (-1074 <= e)%Z -> rd (bpow radix2 e) = bpow radix2 e.
Proof.
  intros H. unfold rd. apply round_generic; [typeclasses eauto|].
  rewrite fexp_FLT. apply generic_format_FLT_bpow; [reflexivity|exact H].
Qed.
Lemma rd_1 : rd 1 = 1. Proof. apply (rd_bpow 0). lia. Qed.
Lemma rd_2 : rd 2 = 2. Proof. apply (rd_bpow 1). lia. Qed.
Lemma rd_m1 : rd (-1) = -1.
Proof.
  unfold rd. replace (-1) with (- (1)) by ring. rewrite round_NE_opp.
  f_equal. exact rd_1.
Qed.
Lemma rd_double (x : b64) : rd (2 * B2R x) = 2 * B2R x.
Proof.
  unfold rd. apply round_generic; [typeclasses eauto|]. rewrite fexp_FLT.
  pose proof (generic_format_B2R 53 1024 x) as G. rewrite fexp_FLT in G.
  apply FLT_format_generic in G; [|reflexivity]. destruct G as [[m e] E1 E2 E3]. cbn [Fnum Fexp] in *.
  apply generic_format_FLT. exists (Float radix2 m (e + 1)).
  - rewrite E1. unfold F2R. cbn [Fnum Fexp]. rewrite bpow_plus. change (bpow radix2 1) with 2. ring.
  - exact E2.
  - cbn [Fexp]. lia.
Qed.
Lemma small_top r : Rabs r <= 2 -> Rlt_bool (Rabs r) (bpow radix2 1024) = true.
Proof.
  intros H. apply Rlt_bool_true. apply Rle_lt_trans with (1 := H).
  change 2 with (bpow radix2 1). apply bpow_lt. lia.
Qed.

Lemma B1_real : is_finite B1 = true /\ real B1 = 1.
Proof. rewrite one_eq. split; [reflexivity|exact one_lit_1]. Qed.
Definition two_lit : b64 := @B754_finite 53 1024 false 4503599627370496 (-51) eq_refl.
Lemma two_eq : two = two_lit.
Proof. apply B2SF_inj. vm_compute. reflexivity. Qed.
Lemma two_real : is_finite two = true /\ real two = 2.
Proof.
  rewrite two_eq. split; [reflexivity|]. unfold real. cbn [B2R two_lit]. unfold F2R. cbn [Fnum Fexp cond_Zopp].
  change (bpow radix2 (-51)) with (/ IZR (2^51)). change (2^51)%Z with 2251799813685248%Z. lra.
Qed.

(** 1 - x for x between 0 and 2, x * x for x between -1 and 1 *)
Lemma one_minus x : is_finite x = true -> 0 <= B2R x <= 2 ->
  is_finite (Bminus mode_NE B1 x) = true /\ B2R (Bminus mode_NE B1 x) = rd (1 - B2R x)
  /\ -1 <= B2R (Bminus mode_NE B1 x) <= 1.
Proof.
  intros F H. destruct B1_real as (F1 & E1). unfold real in E1.
  pose proof (Bminus_correct 53 1024 prec_pos prec_emax mode_NE B1 x F1 F) as C.
  cbn [round_mode] in C. rewrite E1 in C. fold (rd (1 - B2R x)) in C.
  assert (X : -1 <= rd (1 - B2R x) <= 1).
  { split; [apply Rle_trans with (rd (-1)); [rewrite rd_m1; lra|]|apply Rle_trans with (rd 1); [|rewrite rd_1; lra]]; apply rd_le; lra. }
  rewrite small_top in C by (apply Rabs_le; lra). destruct C as (C1 & C2 & _).
  split; [exact C2|]. split; [exact C1|]. now rewrite C1.
Qed.
Lemma one_minus_unit x : is_finite x = true -> 0 <= B2R x <= 1 ->
  is_finite (Bminus mode_NE B1 x) = true /\ 0 <= B2R (Bminus mode_NE B1 x) <= 1.
Proof.
  intros F H. destruct (one_minus x F ltac:(lra)) as (A & B & C). split; [exact A|].
  split; [|apply C]. rewrite B. apply rd_nn. lra.
Qed.
Lemma square_unit x : is_finite x = true -> -1 <= B2R x <= 1 ->
  is_finite (Bmult mode_NE x x) = true /\ 0 <= B2R (Bmult mode_NE x x) <= 1.
Proof.
  intros F H. pose proof (Bmult_correct 53 1024 prec_pos prec_emax mode_NE x x) as C.
  cbn [round_mode] in C. fold (rd (B2R x * B2R x)) in C.
  assert (X : 0 <= rd (B2R x * B2R x) <= 1).
  { split; [apply rd_nn; nra|]. apply Rle_trans with (rd 1); [apply rd_le; nra|rewrite rd_1; lra]. }
  rewrite small_top in C by (apply Rabs_le; lra). destruct C as (C1 & C2 & _).
  rewrite F in C2. split; [exact C2|]. now rewrite C1.
Qed.

(** ** calculate_blockage_ratio *)
Lemma blockage_ratio_inv t b reg f : @calculate_blockage_ratio b64 NB t b reg = Ok f ->
  exists T B, base_arg d_length t reg T /\ base_arg d_length b reg B
    /\ Beqb T B0 = false /\ Bleb (Bmult mode_NE T B1) (Bmult mode_NE B B1) = false
    /\ let r := Bminus mode_NE B1 (Bdiv mode_NE (Bmult mode_NE two B) T) in
       f = Bminus mode_NE B1 (Bmult mode_NE r r).
Proof.
  unfold calculate_blockage_ratio. intros H.
  apply bind_inv in H; destruct H as (QT & PT & H). apply bind_inv in H; destruct H as (QB & PB & H).
  apply bind_inv in H; destruct H as (? & CT & H). apply bind_inv in H; destruct H as (? & CB & H).
  destruct (arg_inv _ _ _ _ _ _ PT CT eq_refl) as (T & rt & AT & ->).
  destruct (arg_inv _ _ _ _ _ _ PB CB eq_refl) as (B & rb & AB & ->).
  exists T, B. split; [exact AT|]. split; [exact AB|]. clear PT PB CT CB.
  apply bind_inv in H; destruct H as (u & E & H). cbn [q_mag neqb NB] in E.
  destruct (Beqb T B0) eqn:Z; [discriminate|]. split; [reflexivity|]. clear E.
  apply bind_inv in H; destruct H as (ge & E & H). unfold q_ge, q_cmp in E.
  apply bind_inv in E; destruct E as (u' & E' & E). cbn [q_unit q_mag u_dim mult_unit base_mag Pint.u_off u_scale nleb nmul NB] in E.
  replace (dim_eqb d_length d_length) with true in E by reflexivity. apply ok_inj in E.
  apply bind_inv in H; destruct H as (u2 & E2 & H). destruct ge; [discriminate|]. split; [exact E|].
  apply bind_inv in H; destruct H as (rt' & E3 & H). cbn [q_mag] in E3. apply pydiv_inv in E3. destruct E3 as (_ & ->).
  apply ok_inj in H. rewrite <- H. reflexivity.
Qed.

Lemma mul_one x : is_finite x = true -> is_finite (Bmult mode_NE x B1) = true /\ B2R (Bmult mode_NE x B1) = B2R x.
Proof.
  intros F. pose proof (Bmult_correct 53 1024 prec_pos prec_emax mode_NE x B1) as C.
  destruct B1_real as (F1 & E1). unfold real in E1.
  cbn [round_mode] in C. rewrite E1, Rmult_1_r in C. fold (rd (B2R x)) in C. rewrite rd_id in C.
  rewrite Rlt_bool_true in C by apply abs_B2R_lt_emax. destruct C as (C1 & C2 & _).
  rewrite F, F1 in C2. now split.
Qed.

Lemma ratio_bounds T B : nn T -> nn B -> is_nan T = false -> is_finite B = true ->
  Beqb T B0 = false -> Bleb (Bmult mode_NE T B1) (Bmult mode_NE B B1) = false ->
  2 * B2R B < bpow radix2 1024 ->
  let r := Bminus mode_NE B1 (Bdiv mode_NE (Bmult mode_NE two B) T) in
  let f := Bminus mode_NE B1 (Bmult mode_NE r r) in
  is_finite f = true /\ 0 <= B2R f <= 1.
Proof.
  intros HT HB NT FB ZT Ge Small r f.
  pose proof (nn_B2R _ HB) as PB. destruct two_real as (F2 & E2). unfold real in E2.
  assert (M : is_finite (Bmult mode_NE two B) = true /\ B2R (Bmult mode_NE two B) = 2 * B2R B).
  { pose proof (Bmult_correct 53 1024 prec_pos prec_emax mode_NE two B) as C.
    cbn [round_mode] in C. rewrite E2 in C. fold (rd (2 * B2R B)) in C. rewrite rd_double in C.
    rewrite Rlt_bool_true in C by (rewrite Rabs_pos_eq; lra). destruct C as (C1 & C2 & _).
    rewrite F2, FB in C2. now split. }
  destruct M as (FM & EM). set (m := Bmult mode_NE two B) in *.
  assert (D : is_finite (Bdiv mode_NE m T) = true /\ 0 <= B2R (Bdiv mode_NE m T) <= 2).
  { destruct (nonzero_pos T HT NT ZT) as [->|(FT & PT)].
    - destruct m as [s|[|]| |[|] k e Q]; try discriminate; (split; [reflexivity|cbn; lra]).
    - destruct (mul_one T FT) as (G1 & G2). destruct (mul_one B FB) as (G3 & G4).
      rewrite Bleb_correct in Ge by assumption. rewrite G2, G4 in Ge.
      destruct (Rle_bool_spec (B2R T) (B2R B)) as [|L]; [discriminate|].
      pose proof (Bdiv_correct 53 1024 prec_pos prec_emax mode_NE m T ltac:(lra)) as C.
      cbn [round_mode] in C. rewrite EM in C. fold (rd (2 * B2R B / B2R T)) in C.
      assert (I : 0 < / B2R T) by now apply Rinv_0_lt_compat.
      assert (X : 0 <= rd (2 * B2R B / B2R T) <= 2).
      { split; [apply rd_nn; unfold Rdiv; apply Rmult_le_pos; lra|].
        apply Rle_trans with (rd 2); [apply rd_le|rewrite rd_2; lra]. apply Rmult_le_reg_r with (B2R T); [exact PT|].
        unfold Rdiv. rewrite Rmult_assoc, Rinv_l by lra. lra. }
      rewrite small_top in C by (apply Rabs_le; lra). destruct C as (C1 & C2 & _).
      rewrite FM in C2. split; [exact C2|]. now rewrite C1. }
  destruct D as (FD & BD). destruct (one_minus _ FD BD) as (Fr & _ & Br).
  destruct (square_unit _ Fr Br) as (Fs & Bs). exact (one_minus_unit _ Fs Bs).
Qed.

(** A number in a unit of the table: its base value is a number *)
Lemma given_base name (m : b64) reg d b : d <> d_temperature -> is_finite m = true ->
  real m <= 1e290 -> base_arg d (PSeq [ENum m; EStr name]) reg b ->
  is_finite b = true /\ 2 * real b < bpow radix2 1024.
Proof.
  intros Nd Fm Sm (q & P & E & H & D).
  cbn [parse_quant_input quantity_of_items] in P. unfold quant in P.
  pose proof (IeeeP.lookup_sim name) as U. pose proof (IeeeP.lookup_off name) as W.
  destruct (@lookup_unit b64 NB name) as [v|]; [|discriminate].
  destruct (@lookup_unit R IeeeP.ND name) as [v'|]; [|contradiction].
  apply ok_inj in P. subst q. cbn [q_unit] in D.
  assert (O : Pint.u_off v = None).
  { destruct (Pint.u_off v) eqn:O; [|reflexivity]. exfalso. apply Nd. rewrite <- D. apply (W v eq_refl). congruence. }
  destruct U as (_ & (Fs & Rs & Ss) & Ps & _).
  unfold base_mag in E. cbn [q_unit q_mag nmul NB] in E. rewrite O in E.
  rewrite <- Rs in Ps, Ss. unfold real in *.
  destruct (size_nz _ _ Ss ltac:(lra)) as (_ & S32). rewrite Rabs_pos_eq in S32 by lra.
  set (s := u_scale v) in *.
  pose proof (Bmult_correct 53 1024 prec_pos prec_emax mode_NE m s) as C.
  cbn [round_mode] in C. fold (rd (B2R m * B2R s)) in C.
  assert (T0 : B2R m * B2R s <= bpow radix2 1000).
  { destruct (Rle_dec (B2R m) 0) as [N|N].
    - apply Rle_trans with 0; [nra|apply bpow_ge_0].
    - apply Rle_trans with (bpow radix2 968 * bpow radix2 32).
      + apply Rmult_le_compat; try lra. apply Rle_trans with (1 := Sm).
        rewrite Rmult_1_l. rewrite <- (IZR_Zpower radix2 968) by lia. apply IZR_le. vm_compute. discriminate.
      + rewrite <- bpow_plus. apply bpow_le. lia. }
  assert (T1 : rd (B2R m * B2R s) <= bpow radix2 1000).
  { rewrite <- (rd_bpow 1000) by lia. now apply rd_le. }
  assert (T2 : 2 * bpow radix2 1000 < bpow radix2 1024).
  { change 2 with (bpow radix2 1). rewrite <- bpow_plus. apply bpow_lt. lia. }
  pose proof (bpow_gt_0 radix2 1000) as T3.
  destruct (Rlt_bool_spec (Rabs (rd (B2R m * B2R s))) (bpow radix2 1024)) as [L|L].
  - destruct C as (C1 & C2 & _). rewrite Fm, Fs, <- E in C2. rewrite <- E in C1. split; [exact C2|].
    rewrite C1. lra.
  - exfalso. rewrite <- E in C.
    assert (N : rd (B2R m * B2R s) < 0).
    { destruct (Rlt_dec (rd (B2R m * B2R s)) 0) as [Y|Y]; [exact Y|]. rewrite Rabs_pos_eq in L by lra. lra. }
    assert (N' : B2R m * B2R s < 0).
    { destruct (Rlt_dec (B2R m * B2R s) 0) as [Y|Y]; [exact Y|].
      pose proof (rd_nn (B2R m * B2R s) ltac:(lra)). lra. }
    assert (Sg : xorb (Bsign m) (Bsign s) = true).
    { destruct s as [x|[|]| |[|] k e B]; try discriminate; cbn [B2R] in Ps; try lra.
      - pose proof (F2R_lt_0 radix2 (Float radix2 (Zneg k) e) eq_refl). cbn [cond_Zopp Z.opp] in Ps. lra.
      - destruct m as [x'|[|]| |[|] k' e' B']; try discriminate; try reflexivity; exfalso; cbn [B2R] in N'; try lra.
        pose proof (F2R_gt_0 radix2 (Float radix2 (Zpos k') e') eq_refl). cbn [cond_Zopp] in *. nra. }
    rewrite Sg in C. assert (Bi : b = B754_infinity true) by (apply B2SF_inj; rewrite C; reflexivity).
    rewrite Bi in H. discriminate.
Qed.

(** A negative number in a unit of the table is refused, unless its base value is too near
    to 0 for a double. *)
Lemma negative_refused name (m : b64) v reg b dn d : d <> d_temperature -> supported_dimension dn = Some d ->
  is_finite m = true -> real m <= - / 1e290 ->
  @lookup_unit b64 NB name = Some v -> @check_q b64 NB (mkQ m v reg) dn true = Ok b -> False.
Proof.
  intros Nd Sd Fm Sm L H. destruct (check_inv _ _ _ _ H Sd) as (N & D). cbn [q_unit] in D.
  pose proof (IeeeP.lookup_sim name) as U. pose proof (IeeeP.lookup_off name v L) as W. rewrite L in U.
  destruct (@lookup_unit R IeeeP.ND name) as [v'|]; [|contradiction].
  assert (O : Pint.u_off v = None).
  { destruct (Pint.u_off v) eqn:O; [|reflexivity]. exfalso. apply Nd. rewrite <- D. apply W. congruence. }
  destruct U as (_ & (Fs & Rs & Ss) & Ps & _).
  replace B0 with (b64_of_Z 0) in N by (apply B2SF_inj; vm_compute; reflexivity).
  apply nn_not_negative in N. unfold base_mag in N. cbn [q_unit q_mag nmul NB] in N. rewrite O in N.
  rewrite <- Rs in Ps, Ss. unfold real in *.
  destruct (size_nz _ _ Ss ltac:(lra)) as (S32 & _). rewrite Rabs_pos_eq in S32 by lra.
  set (s := u_scale v) in *.
  pose proof (Bmult_correct 53 1024 prec_pos prec_emax mode_NE m s) as C.
  cbn [round_mode] in C. fold (rd (B2R m * B2R s)) in C.
  assert (M : B2R m <= - bpow radix2 (- (964))).
  { apply Rle_trans with (1 := Sm). apply Ropp_le_contravar. rewrite bpow_opp. apply Rinv_le_contravar; [lra|].
    rewrite Rmult_1_l. rewrite <- (IZR_Zpower radix2 964) by lia. apply IZR_le. vm_compute. discriminate. }
  pose proof (bpow_gt_0 radix2 (- (964))) as P1. pose proof (bpow_gt_0 radix2 (- (32))) as P2.
  assert (T0 : B2R m * B2R s <= - bpow radix2 (- (996))).
  { replace (- (996))%Z with (- (964) + - (32))%Z by lia. rewrite bpow_plus. nra. }
  assert (T1 : rd (B2R m * B2R s) <= - bpow radix2 (- (996))).
  { apply Rle_trans with (rd (- bpow radix2 (- (996)))); [now apply rd_le|]. right.
    unfold rd. rewrite round_NE_opp. f_equal. apply rd_bpow. lia. }
  pose proof (bpow_gt_0 radix2 (- (996))) as P3.
  destruct (Rlt_bool_spec (Rabs (rd (B2R m * B2R s))) (bpow radix2 1024)) as [Lt|Lt].
  - destruct C as (C1 & _). pose proof (nn_B2R _ N) as Z. rewrite C1 in Z. lra.
  - assert (Sg : xorb (Bsign m) (Bsign s) = true).
    { destruct s as [x|[|]| |[|] k e B]; try discriminate; cbn [B2R] in Ps; try lra.
      - pose proof (F2R_lt_0 radix2 (Float radix2 (Zneg k) e) eq_refl). cbn [cond_Zopp Z.opp] in Ps. lra.
      - destruct m as [x'|[|]| |[|] k' e' B']; try discriminate; try reflexivity; exfalso; cbn [B2R] in M; try lra.
        pose proof (F2R_gt_0 radix2 (Float radix2 (Zpos k') e') eq_refl). cbn [cond_Zopp] in *. lra. }
    rewrite Sg in C. assert (Bi : Bmult mode_NE m s = B754_infinity true) by (apply B2SF_inj; rewrite C; reflexivity).
    rewrite Bi in N. discriminate.
Qed.

(** ** calculate_blockage_diameter *)
Lemma half_bounds d : is_finite d = true -> 0 <= B2R d ->
  is_finite (Bdiv mode_NE d two) = true /\ 0 <= B2R (Bdiv mode_NE d two).
Proof.
  intros F P. destruct two_real as (F2 & E2). unfold real in E2.
  pose proof (Bdiv_correct 53 1024 prec_pos prec_emax mode_NE d two ltac:(lra)) as C.
  cbn [round_mode] in C. rewrite E2 in C. fold (rd (B2R d / 2)) in C.
  assert (X : 0 <= rd (B2R d / 2) <= B2R d).
  { split; [apply rd_nn; lra|]. apply Rle_trans with (rd (B2R d)); [apply rd_le; lra|right; apply rd_id]. }
  pose proof (abs_B2R_lt_emax 53 1024 d) as A. rewrite Rabs_pos_eq in A by exact P.
  rewrite Rlt_bool_true in C by (rewrite Rabs_pos_eq; lra). destruct C as (C1 & C2 & _).
  rewrite F in C2. split; [exact C2|]. rewrite C1. apply X.
Qed.
Lemma sqrt_unit x : is_finite x = true -> 0 <= B2R x <= 1 ->
  is_finite (Bsqrt mode_NE x) = true /\ 0 <= B2R (Bsqrt mode_NE x) <= 1.
Proof.
  intros F H. destruct (Bsqrt_correct 53 1024 prec_pos prec_emax mode_NE x) as (C1 & C2 & _).
  cbn [round_mode] in C1. fold (rd (sqrt (B2R x))) in C1. split.
  - rewrite C2. pose proof (nn_finite x F ltac:(lra)) as N. destruct x as [s|[|]| |[|] m e B]; try discriminate; reflexivity.
  - rewrite C1. split; [apply rd_nn, sqrt_pos|].
    apply Rle_trans with (rd 1); [apply rd_le|rewrite rd_1; lra]. rewrite <- sqrt_1. apply sqrt_le_1_alt. lra.
Qed.
Lemma blockage_diameter_bounds d name br reg q :
  is_finite d = true -> (real d < 0 -> real d <= - / 1e290) ->
  @calculate_blockage_diameter b64 NB (PSeq [ENum d; EStr name]) (BrNum br) reg = Ok q ->
  is_finite (q_mag q) = true /\ 0 <= real (q_mag q) <= real (Bdiv mode_NE d two)
  /\ @lookup_unit b64 NB name = Some (q_unit q).
Proof.
  intros Fd Pd0 H. unfold calculate_blockage_diameter in H. cbn [br_float bind] in H.
  apply bind_inv in H; destruct H as (u & E & H). cbn [nltb NB] in E.
  destruct (Bltb B0 br) eqn:L0; [|discriminate]. destruct (Bltb br B1) eqn:L1; [|discriminate]. clear E u.
  cbn [parse_quant_input quantity_of_items] in H. unfold quant in H.
  destruct (@lookup_unit b64 NB name) as [v|] eqn:Lk; [|discriminate]. cbn [bind] in H.
  apply bind_inv in H; destruct H as (u & E & H).
  assert (Pd : 0 <= real d).
  { destruct (Rlt_dec (real d) 0) as [Ng|Ng]; [exfalso|lra].
    exact (negative_refused name d v reg u "length" d_length ltac:(discriminate) eq_refl Fd (Pd0 Ng) Lk E). }
  clear E u Pd0.
  apply bind_inv in H; destruct H as (h & E & H). unfold q_divn in E.
  apply bind_inv in E; destruct E as (u & E' & E). cbn [q_mag q_unit q_reg] in E.
  apply bind_inv in E; destruct E as (m & Em & E). apply pydiv_inv in Em. destruct Em as (_ & ->).
  apply ok_inj in E. subst h. unfold q_scale in H.
  apply bind_inv in H; destruct H as (u2 & E2 & H). apply ok_inj in H. subst q. cbn [q_mag q_unit nmul nsub nsqrt NB].
  fold two.
  assert (Nb : is_finite br = true).
  { destruct br as [s|[|]| |s m e B]; try reflexivity; discriminate. }
  destruct B1_real as (F1 & E1). unfold real in E1.
  rewrite Bltb_correct in L0, L1 by (assumption || reflexivity). rewrite E1 in L1.
  replace (B2R B0) with 0 in L0 by reflexivity.
  destruct (Rlt_bool_spec 0 (B2R br)) as [G0|]; [|discriminate].
  destruct (Rlt_bool_spec (B2R br) 1) as [G1|]; [|discriminate].
  destruct (one_minus_unit br Nb ltac:(lra)) as (A1 & A2).
  destruct (sqrt_unit _ A1 A2) as (A3 & A4).
  destruct (one_minus_unit _ A3 A4) as (A5 & A6).
  destruct (half_bounds d Fd Pd) as (A7 & A8).
  set (c := Bminus mode_NE B1 (Bsqrt mode_NE (Bminus mode_NE B1 br))) in *. set (h := Bdiv mode_NE d two) in *.
  pose proof (Bmult_correct 53 1024 prec_pos prec_emax mode_NE c h) as C.
  cbn [round_mode] in C. fold (rd (B2R c * B2R h)) in C.
  assert (X : 0 <= rd (B2R c * B2R h) <= B2R h).
  { split; [apply rd_nn; nra|]. apply Rle_trans with (rd (B2R h)); [apply rd_le; nra|right; apply rd_id]. }
  pose proof (abs_B2R_lt_emax 53 1024 h) as A. rewrite Rabs_pos_eq in A by exact A8.
  rewrite Rlt_bool_true in C by (rewrite Rabs_pos_eq; lra). destruct C as (C1 & C2 & _).
  rewrite A5, A7 in C2. unfold real. repeat split; try assumption; rewrite C1; apply X.
Qed.
