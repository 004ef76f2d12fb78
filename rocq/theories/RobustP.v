(** * RobustP: least-squares parabolas through inexact speeds. *)
From Coq Require Import String ZArith QArith Reals Qreals List Bool Lra Lia Psatz.
From Verif Require Import PyBase Gas GasP FitM QLemmas FitP FitSpec SdM SdSpec SdP SpeedSpec SpeedP.
Import ListNotations.
Local Open Scope R_scope.

(** the residuals of the best parabola are orthogonal to every parabola *)
Lemma linear_zero l q : (forall e, 0 <= 2 * e * l + e * e * q) -> l = 0.
Proof.
  intros H. destruct (Req_dec l 0) as [E|E]; [exact E|exfalso].
  assert (Q : 0 < Rabs q + 1) by (pose proof (Rabs_pos q); lra).
  pose proof (H (- l / (Rabs q + 1))) as K.
  set (k := Rabs q + 1) in *.
  assert (E2 : 2 * (- l / k) * l + - l / k * (- l / k) * q = - (l * l) / k * (2 - q / k))
    by (field; lra).
  rewrite E2 in K.
  assert (q / k <= 1).
  { apply Rmult_le_reg_r with k; [exact Q|]. unfold Rdiv. rewrite Rmult_assoc, Rinv_l by lra.
    pose proof (Rle_abs q). unfold k. lra. }
  assert (0 < l * l / k).
  { apply Rdiv_lt_0_compat; [|exact Q]. nra. }
  assert (E3 : - (l * l) / k = - (l * l / k)) by (field; lra). rewrite E3 in K. nra.
Qed.

Lemma best_orthogonal pts a b c d e f :
  best_parabola pts a b c ->
  total (fun p => resid a b c p * parabola d e f (fst p)) pts = 0.
Proof.
  intros H. apply linear_zero with (q := total (fun p => (parabola d e f (fst p))^2) pts).
  intros k. destruct (H (a - k * d) (b - k * e) (c - k * f)) as (H1 & _).
  rewrite (residual_split pts a b c (a - k * d)) in H1.
  replace (total (fun p => resid a b c p * parabola (a - (a - k * d)) (b - (b - k * e)) (c - (c - k * f)) (fst p)) pts)
    with (k * total (fun p => resid a b c p * parabola d e f (fst p)) pts) in H1.
  2:{ rewrite <- total_scale. apply total_ext. intros p _. unfold parabola. ring. }
  replace (total (fun p => parabola (a - (a - k * d)) (b - (b - k * e)) (c - (c - k * f)) (fst p) ^ 2) pts)
    with (k * k * total (fun p => parabola d e f (fst p) ^ 2) pts) in H1.
  2:{ rewrite <- total_scale. apply total_ext. intros p _. unfold parabola. ring. }
  lra.
Qed.

(** 21 points, as a function of the index *)
Lemma even_as_map (xs ys : list R) lo hi : evenly_spaced lo hi xs -> length ys = 21%nat ->
  combine xs ys
  = map (fun i => ((lo + hi) / 2 + (hi - lo) / 2 * ((INR i - 10) / 10), nth i ys 0)) (seq 0 21).
Proof.
  intros (Hl & Hx) Hy.
  apply nth_ext with (d := (0, 0)) (d' := ((lo + hi) / 2 + (hi - lo) / 2 * ((INR 0 - 10) / 10), nth 0 ys 0)).
  - rewrite combine_length, map_length, seq_length. lia.
  - intros i Hi. rewrite combine_length in Hi.
    rewrite combine_nth by lia.
    rewrite (map_nth (fun i => ((lo + hi) / 2 + (hi - lo) / 2 * ((INR i - 10) / 10), nth i ys 0))).
    rewrite seq_nth by lia. rewrite Hx by lia. cbn [plus]. f_equal. field.
Qed.

(** A polynomial a t^2 + b t + g fitted to 21 numbers of size at most [d] has
    coefficients of that size. *)
Section Small.
  Context (e : nat -> R) (d al be ga : R).
  Context (He : forall i, (i <= 20)%nat -> - d <= e i <= d).
  Let t (i : nat) : R := (INR i - 10) / 10.
  Context (N0 : total (fun i => e i - (al * t i ^ 2 + be * t i + ga)) (seq 0 21) = 0)
          (N1 : total (fun i => (e i - (al * t i ^ 2 + be * t i + ga)) * t i) (seq 0 21) = 0)
          (N2 : total (fun i => (e i - (al * t i ^ 2 + be * t i + ga)) * t i ^ 2) (seq 0 21) = 0).

  Lemma small_coefficients :
    Rabs al <= 2628/1000 * d /\ Rabs be <= 1429/1000 * d /\ Rabs ga <= 1323/1000 * d.
  Proof.
    assert (B : forall i, (i <= 20)%nat -> - d <= e i <= d) by exact He. clear He.
    revert N0 N1 N2. unfold t, total. cbn [seq fold_right].
    repeat rewrite INR_IZR_INZ. cbn [Z.of_nat Pos.of_succ_nat Pos.succ]. intros N0' N1' N2'.
    pose proof (B 0%nat ltac:(lia)). pose proof (B 1%nat ltac:(lia)).
    pose proof (B 2%nat ltac:(lia)). pose proof (B 3%nat ltac:(lia)).
    pose proof (B 4%nat ltac:(lia)). pose proof (B 5%nat ltac:(lia)).
    pose proof (B 6%nat ltac:(lia)). pose proof (B 7%nat ltac:(lia)).
    pose proof (B 8%nat ltac:(lia)). pose proof (B 9%nat ltac:(lia)).
    pose proof (B 10%nat ltac:(lia)). pose proof (B 11%nat ltac:(lia)).
    pose proof (B 12%nat ltac:(lia)). pose proof (B 13%nat ltac:(lia)).
    pose proof (B 14%nat ltac:(lia)). pose proof (B 15%nat ltac:(lia)).
    pose proof (B 16%nat ltac:(lia)). pose proof (B 17%nat ltac:(lia)).
    pose proof (B 18%nat ltac:(lia)). pose proof (B 19%nat ltac:(lia)).
    pose proof (B 20%nat ltac:(lia)). clear B.
    generalize dependent (e 0%nat); intros e0; generalize dependent (e 1%nat); intros e1.
    generalize dependent (e 2%nat); intros e2; generalize dependent (e 3%nat); intros e3.
    generalize dependent (e 4%nat); intros e4; generalize dependent (e 5%nat); intros e5.
    generalize dependent (e 6%nat); intros e6; generalize dependent (e 7%nat); intros e7.
    generalize dependent (e 8%nat); intros e8; generalize dependent (e 9%nat); intros e9.
    generalize dependent (e 10%nat); intros e10; generalize dependent (e 11%nat); intros e11.
    generalize dependent (e 12%nat); intros e12; generalize dependent (e 13%nat); intros e13.
    generalize dependent (e 14%nat); intros e14; generalize dependent (e 15%nat); intros e15.
    generalize dependent (e 16%nat); intros e16; generalize dependent (e 17%nat); intros e17.
    generalize dependent (e 18%nat); intros e18; generalize dependent (e 19%nat); intros e19.
    generalize dependent (e 20%nat); intros e20. clear e t.
    intros.
    split; [|split]; apply Rabs_le; split; lra.
  Qed.
End Small.

(** speeds within [dl] of the parabola a (r - r0)^2 + c *)
Definition close_to (a r0 c dl : R) (r U : R) : Prop := Rabs (U - (a * (r - r0)^2 + c)) <= dl.

(** What the fit over one window differs from the true parabola by. *)
Lemma window_fit a r0 c dl lo hi xs ys A B C : lo < hi ->
  evenly_spaced lo hi xs -> Forall2 (close_to a r0 c dl) xs ys ->
  best_parabola (combine xs ys) A B C ->
  let m := (lo + hi) / 2 in let h := (hi - lo) / 2 in
  exists al be ga,
    Rabs al <= 2628/1000 * dl /\ Rabs be <= 1429/1000 * dl /\ Rabs ga <= 1323/1000 * dl
    /\ A * h^2 = a * h^2 + al
    /\ (2 * A * m + B) * h = 2 * a * h * (m - r0) + be
    /\ A * m^2 + B * m + C = a * (m - r0)^2 + c + ga.
Proof.
  intros Hlt He Hc Hb m h.
  assert (Hy : length ys = 21%nat) by (rewrite <- (Forall2_length _ _ _ Hc); apply He).
  assert (Hi : forall i, (i <= 20)%nat -> close_to a r0 c dl (m + h * ((INR i - 10)/10)) (nth i ys 0)).
  { intros i Hi. destruct He as (Hl & Hx).
    assert (K : forall (l l' : list R), Forall2 (close_to a r0 c dl) l l' -> forall i, (i < length l)%nat ->
       close_to a r0 c dl (nth i l 0) (nth i l' 0)).
    { clear. induction 1 as [|x y l l' H F IH]; intros i Hi; [cbn in Hi; lia|].
      destruct i; [exact H|]. apply IH. cbn in Hi. lia. }
    specialize (K _ _ Hc i ltac:(lia)). rewrite Hx in K by exact Hi.
    replace (m + h * ((INR i - 10) / 10)) with (lo + INR i * (hi - lo) / 20) by (unfold m, h; field).
    exact K. }
  rewrite (even_as_map xs ys lo hi He Hy) in Hb. fold m in Hb. fold h in Hb.
  assert (Hh : 0 < h) by (unfold h; lra).
  exists ((A - a) * h^2), ((2 * A * m + B) * h - 2 * a * h * (m - r0)),
    (A * m^2 + B * m + C - (a * (m - r0)^2 + c)).
  set (al := (A - a) * h^2). set (be := (2 * A * m + B) * h - 2 * a * h * (m - r0)).
  set (ga := A * m^2 + B * m + C - (a * (m - r0)^2 + c)).
  set (e := fun i : nat => nth i ys 0 - (a * (m + h * ((INR i - 10)/10) - r0)^2 + c)).
  assert (Er : forall i, resid A B C (m + h * ((INR i - 10)/10), nth i ys 0)
                = e i - (al * ((INR i - 10)/10)^2 + be * ((INR i - 10)/10) + ga)).
  { intros i. unfold resid, e, al, be, ga, parabola. cbn [fst snd]. ring. }
  assert (D : forall d1 d2 d3 (k : R -> R),
     (forall s, parabola d1 d2 d3 (m + h * s) = k s) ->
     total (fun i => (e i - (al * ((INR i - 10)/10)^2 + be * ((INR i - 10)/10) + ga))
                     * k ((INR i - 10)/10)) (seq 0 21) = 0).
  { intros d1 d2 d3 k Hk. pose proof (best_orthogonal _ A B C d1 d2 d3 Hb) as O.
    rewrite total_map in O. rewrite <- O. apply total_ext. intros i _. rewrite Er. cbn [fst].
    rewrite Hk. reflexivity. }
  destruct (small_coefficients e dl al be ga) as (B1 & B2 & B3).
  - intros i Hi'. specialize (Hi i Hi'). unfold close_to in Hi. fold (e i) in Hi.
    unfold Rabs in Hi; destruct (Rcase_abs (e i)) in Hi; lra.
  - rewrite <- (D 0 0 1 (fun _ => 1)); [|intros s; unfold parabola; ring].
    apply total_ext. intros i _. ring.
  - apply (D 0 (1/h) (- m / h) (fun s => s)). intros s. unfold parabola. field. lra.
  - apply (D (1/h^2) (- 2 * m / h^2) (m^2 / h^2) (fun s => s^2)).
    intros s. unfold parabola. field. lra.
  - split; [exact B1|]. split; [exact B2|]. split; [exact B3|].
    unfold al, be, ga. split; [ring|]. split; ring.
Qed.

Lemma abs_bound x y : Rabs x <= y -> - y <= x <= y.
Proof. unfold Rabs. destruct (Rcase_abs x); lra. Qed.

(** the vertex and the value there *)
Lemma window_vertex a r0 c dl m h A B C al be ga :
  0 < a -> 0 < h -> 0 <= dl -> 9 * dl <= a * h^2 ->
  Rabs al <= 2628/1000 * dl -> Rabs be <= 1429/1000 * dl -> Rabs ga <= 1323/1000 * dl ->
  A * h^2 = a * h^2 + al ->
  (2 * A * m + B) * h = 2 * a * h * (m - r0) + be ->
  A * m^2 + B * m + C = a * (m - r0)^2 + c + ga ->
  0 < A
  /\ Rabs (- B / (2 * A) - r0) * (1416/1000 * (a * h^2))
     <= dl * (5256/1000 * Rabs (m - r0) + 1429/1000 * h)
  /\ (Rabs (m - r0) <= 2001/10000 * h -> Rabs (C - B^2 / (4 * A) - c) <= 2 * dl).
Proof.
  intros Ha Hh Hd Hw B1 B2 B3 E1 E2 E3.
  set (d := m - r0) in *. set (w := a * h^2) in *.
  assert (Hw0 : 0 < w) by (unfold w; apply Rmult_lt_0_compat; [lra|apply pow_lt; lra]).
  pose proof (abs_bound _ _ B1) as (B1a & B1b). pose proof (abs_bound _ _ B2) as (B2a & B2b).
  assert (Hwa : 708/1000 * w <= w + al) by lra.
  assert (Hh2 : 0 < h^2) by (apply pow_lt; lra).
  assert (HA : 0 < A).
  { apply Rmult_lt_reg_r with (h^2); [exact Hh2|]. rewrite Rmult_0_l. lra. }
  split; [exact HA|].
  assert (EA : A = (w + al) / h^2) by (rewrite <- E1; field; lra).
  assert (EB : B = (2 * a * h * d + be) / h - 2 * A * m) by (rewrite <- E2; field; lra).
  assert (N1 : w + al <> 0) by lra.
  assert (Ev : (- B / (2 * A) - r0) * (2 * (w + al)) = 2 * d * al - h * be).
  { rewrite EB, EA. unfold d, w in *. field. repeat split; try lra; try exact N1. }
  assert (Es : (C - B^2 / (4 * A) - c - ga) * (4 * (w + al))
               = 4 * al * (a * d^2) - 4 * (a * h * d) * be - be^2).
  { assert (EC : C = a * d^2 + c + ga - A * m^2 - B * m) by lra.
    rewrite EC, EB, EA. unfold d, w in *. field. repeat split; try lra; try exact N1. }
  split.
  - apply Rle_trans with (Rabs (- B / (2 * A) - r0) * (2 * (w + al))).
    { apply Rmult_le_compat_l; [apply Rabs_pos|lra]. }
    rewrite <- (Rabs_pos_eq (2 * (w + al))) by lra. rewrite <- Rabs_mult, Ev.
    apply Rle_trans with (Rabs (2 * d * al) + Rabs (h * be)).
    { replace (2 * d * al - h * be) with (2 * d * al + - (h * be)) by ring.
      eapply Rle_trans; [apply Rabs_triang|]. rewrite Rabs_Ropp. lra. }
    rewrite !Rabs_mult, (Rabs_pos_eq 2), (Rabs_pos_eq h) by lra.
    pose proof (Rabs_pos d). nra.
  - intros Hdh. set (s := C - B^2 / (4 * A) - c) in *.
    assert (Q : Rabs (s - ga) * (4 * (w + al)) <= 17925/10000 * dl * w).
    { rewrite <- (Rabs_pos_eq (4 * (w + al))) by lra. rewrite <- Rabs_mult, Es.
      assert (D2 : Rabs (a * d^2) <= 401/10000 * w).
      { rewrite Rabs_mult, (Rabs_pos_eq a) by lra. unfold w.
        rewrite (Rabs_pos_eq (d^2)) by apply pow2_ge_0.
        rewrite <- (pow2_abs d). pose proof (Rabs_pos d).
        assert (P : Rabs d ^ 2 <= (2001/10000 * h)^2) by (apply pow_incr; lra).
        apply Rle_trans with (a * (2001/10000 * h)^2); [apply Rmult_le_compat_l; lra|]. nra. }
      assert (D1 : Rabs (a * h * d) <= 2001/10000 * w).
      { rewrite Rabs_mult, (Rabs_pos_eq (a * h)) by (apply Rmult_le_pos; lra). unfold w.
        assert (0 < a * h) by (apply Rmult_lt_0_compat; lra). nra. }
      assert (D0 : be^2 <= 2269/10000 * dl * w).
      { rewrite <- (pow2_abs be). pose proof (Rabs_pos be).
        apply Rle_trans with ((1429/1000 * dl)^2); [apply pow_incr; lra|]. nra. }
      assert (T1 : Rabs (4 * al * (a * d^2)) <= 4216/10000 * dl * w).
      { rewrite !Rabs_mult in *. rewrite (Rabs_pos_eq 4) by lra.
        rewrite <- Rabs_mult in *. pose proof (Rabs_pos al). pose proof (Rabs_pos (a * d^2)).
        apply Rle_trans with (4 * (2628/1000 * dl) * (401/10000 * w)); [|nra].
        apply Rmult_le_compat; nra. }
      assert (T2 : Rabs (4 * (a * h * d) * be) <= 11438/10000 * dl * w).
      { rewrite !(Rabs_mult _ be), (Rabs_mult 4), (Rabs_pos_eq 4) by lra.
        pose proof (Rabs_pos be). pose proof (Rabs_pos (a * h * d)).
        apply Rle_trans with (4 * (2001/10000 * w) * (1429/1000 * dl)); [|nra].
        apply Rmult_le_compat; nra. }
      apply abs_bound in T1. apply abs_bound in T2. pose proof (pow2_ge_0 be).
      apply Rabs_le. split; lra. }
    assert (Q2 : Rabs (s - ga) <= 633/1000 * dl).
    { apply Rmult_le_reg_r with (4 * (w + al)); [lra|].
      eapply Rle_trans; [exact Q|]. pose proof (Rabs_pos (s - ga)). nra. }
    replace s with ((s - ga) + ga) by ring.
    eapply Rle_trans; [apply Rabs_triang|]. lra.
Qed.

(** ** One round of the loop *)
Section Loop.
  Context {G X : Type} (L : cantera R G X) (P T : R) (x : X) (mech : string).

  Lemma speed_step fuel k r2 lo hi acc us f :
    (k <= 4)%nat ->
    Forall2 (cj_velocity L P T x mech) (linspace21 lo hi) us ->
    cj_curve_fit (linspace21 lo hi) us = Ok f -> fit_a f <> 0 ->
    let v := - fit_b f / (2 * fit_a f) in
    value (speed_loop L (S fuel) Serial x T P mech (1/10000) (1/10000) k r2 zero lo hi acc)
    = value (speed_loop L fuel Serial x T P mech (1/10000) (1/10000) (k + 1) (fit_r2 f) zero
               (v * (999/1000)) (v * (1001/1000)) (acc ++ [(linspace21 lo hi, us, f, v)])).
  Proof.
    intros Hk HF Hf Ha v. cbn [speed_loop]. rnum. rewrite loop_condition.
    destruct (Nat.leb_spec k 4) as [_|Hc]; [|lia].
    destruct (serial_round_ok L P T x mech _ _ k HF) as (res & Hres & Es).
    rewrite value_bind, Hres. cbn [bind]. rewrite Es.
    rewrite Hf, bind_pure_ok, lit_2, npdiv_ok by lra. rewrite bind_pure_ok.
    rewrite lit_999, lit_1001. reflexivity.
  Qed.

  Lemma speed_done k r2 lo hi acc :
    (4 < k)%nat ->
    value (speed_loop L 0 Serial x T P mech (1/10000) (1/10000) k r2 zero lo hi acc) = Ok acc.
  Proof.
    intros Hk. cbn [speed_loop]. rnum. rewrite loop_condition.
    destruct (Nat.leb_spec k 4) as [Hc|_]; [lia|]. reflexivity.
  Qed.

  Lemma fit_exists (xs us : list R) : length us = length xs ->
    (forall r, In r xs -> 0 <= r) -> three_distinct xs ->
    exists f, cj_curve_fit xs us = Ok f
      /\ best_parabola (combine xs us) (fit_a f) (fit_b f) (fit_c f).
  Proof.
    intros Hl Hp (x1 & x2 & x3 & I1 & I2 & I3 & N1 & N2 & N3).
    assert (Hin : forall z, In z xs -> exists q, In q (combine xs us) /\ fst q = z).
    { intros z Hz. rewrite <- (map_fst_combine xs us) in Hz by (symmetry; exact Hl).
      apply in_map_iff in Hz. destruct Hz as (q & E & Hq). exists q. auto. }
    destruct (Hin x1 I1) as (q1 & J1 & E1). destruct (Hin x2 I2) as (q2 & J2 & E2).
    destruct (Hin x3 I3) as (q3 & J3 & E3).
    destruct (fit_defined (combine xs us) q1 q2 q3) as (Hn & Hd & Ht); try assumption; try congruence.
    { intros [u w] Hs. apply Hp. exact (in_combine_l _ _ _ _ Hs). }
    pose proof (fit_ok (combine xs us) Hn Hd Ht) as Hf.
    rewrite map_fst_combine, map_snd_combine in Hf by (symmetry; exact Hl).
    eexists. split; [exact Hf|]. apply fit_best; [exact Hl|exact Hf].
  Qed.

  (** ** Speeds near a parabola *)
  Context (a r0 c dl : R) (Ha : 0 < a) (Hr0 : 1 <= r0 <= 3) (Hdl : 0 <= dl <= a / 10000000).
  Context (Hclose : forall r, 3/2 <= r <= 2 \/ Rabs (r - r0) <= 3/2000 * r0 ->
             exists U, cj_velocity L P T x mech r U /\ close_to a r0 c dl r U).

  Definition narrow (lo hi : R) : Prop :=
    exists v, Rabs (v - r0) <= r0 / 5000 /\ lo = v * (999/1000) /\ hi = v * (1001/1000).

  Lemma window_bounds lo hi : (lo = 3/2 /\ hi = 2) \/ narrow lo hi ->
    0 < lo < hi /\ 9 * dl <= a * ((hi - lo)/2)^2
    /\ (forall r, lo <= r <= hi -> exists U, cj_velocity L P T x mech r U /\ close_to a r0 c dl r U)
    /\ (forall v, Rabs (v - r0) * (1416/1000 * (a * ((hi - lo)/2)^2))
          <= dl * (5256/1000 * Rabs ((lo + hi)/2 - r0) + 1429/1000 * ((hi - lo)/2)) ->
          Rabs (v - r0) <= r0 / 5000).
  Proof.
    intros [(-> & ->)|(v0 & Hv & -> & ->)].
    - split; [lra|]. split; [nra|]. split; [intros r Hr; apply Hclose; lra|].
      intros v Hv.
      assert (B : Rabs ((3/2 + 2)/2 - r0) <= 5/4) by (apply Rabs_le; lra).
      replace ((2 - 3/2)/2) with (1/4) in Hv by field.
      assert (K : Rabs (v - r0) * (885/10000 * a) <= a * (7/10000000)).
      { eapply Rle_trans; [|apply Rle_trans with (dl * 7); [|lra]].
        - eapply Rle_trans; [|exact Hv].
          apply Rmult_le_compat_l; [apply Rabs_pos|]. nra.
        - apply Rmult_le_compat_l; lra. }
      apply Rmult_le_reg_r with (885/10000 * a); [lra|]. nra.
    - apply abs_bound in Hv. set (h := (v0 * (1001/1000) - v0 * (999/1000)) / 2).
      assert (Eh : h = v0 / 1000) by (unfold h; field).
      assert (Em : (v0 * (999/1000) + v0 * (1001/1000)) / 2 = v0) by field.
      assert (Hh : 9998/10000000 * r0 <= h <= 10002/10000000 * r0) by (rewrite Eh; lra).
      assert (Hh2 : 9996/10000000000 <= h^2).
      { apply Rle_trans with ((9998/10000000)^2); [lra|]. apply pow_incr. lra. }
      split; [lra|]. split; [nra|]. split.
      + intros r Hr. apply Hclose. right. apply Rabs_le. lra.
      + intros v Hv'. rewrite Em in Hv'.
        assert (B : Rabs (v0 - r0) <= 2001/10000 * h) by (apply Rabs_le; lra).
        assert (K : Rabs (v - r0) * (1416/1000 * (a * h^2)) <= a * h^2 * (2/10000 * r0 * (1416/1000))).
        { eapply Rle_trans; [exact Hv'|].
          apply Rle_trans with (dl * (2481/1000 * h)).
          { apply Rmult_le_compat_l; lra. }
          apply Rle_trans with (a / 10000000 * (2481/1000 * h)).
          { apply Rmult_le_compat_r; lra. }
          assert (E : a / 10000000 * (2481/1000 * h) = a * h * (2481/10000000000)) by field.
          assert (E2 : a * h^2 * (2/10000 * r0 * (1416/1000)) = a * h * (h * r0 * (2832/10000000))) by field.
          rewrite E, E2. apply Rmult_le_compat_l; [apply Rmult_le_pos; lra|].
          assert (9998/10000000 <= h * r0) by nra. lra. }
        assert (W : 0 < a * h^2) by (apply Rmult_lt_0_compat; lra).
        apply Rmult_le_reg_r with (1416/1000 * (a * h^2)); [lra|].
        eapply Rle_trans; [exact K|]. right. field.
  Qed.

  Lemma window_round lo hi fuel k r2 acc :
    (k <= 4)%nat -> (lo = 3/2 /\ hi = 2) \/ narrow lo hi ->
    exists f v us, v = - fit_b f / (2 * fit_a f) /\ 0 < fit_a f
      /\ value (speed_loop L (S fuel) Serial x T P mech (1/10000) (1/10000) k r2 zero lo hi acc)
         = value (speed_loop L fuel Serial x T P mech (1/10000) (1/10000) (k + 1) (fit_r2 f) zero
               (v * (999/1000)) (v * (1001/1000)) (acc ++ [(linspace21 lo hi, us, f, v)]))
      /\ Rabs (v - r0) <= r0 / 5000
      /\ (narrow lo hi -> Rabs (v - r0) <= 2000 * dl / a
            /\ Rabs (fit_c f - (fit_b f)^2 / (4 * fit_a f) - c) <= 2 * dl).
  Proof.
    intros Hk Hw. destruct (window_bounds lo hi Hw) as (Hlo & Hh & Hall & Hnext).
    assert (HU : forall l, (forall r, In r l -> lo <= r <= hi) ->
      exists us, Forall2 (cj_velocity L P T x mech) l us /\ Forall2 (close_to a r0 c dl) l us).
    { induction l as [|r l IH]; intros Hl; [exists []; split; constructor|].
      destruct IH as (us & F1 & F2); [intros z Hz; apply Hl; right; exact Hz|].
      destruct (Hall r (Hl r (or_introl eq_refl))) as (U & HU1 & HU2).
      exists (U :: us). split; constructor; assumption. }
    destruct (HU (linspace21 lo hi)) as (us & F1 & F2).
    { intros r Hr. apply linspace_in; [lra|exact Hr]. }
    destruct (fit_exists (linspace21 lo hi) us) as (f & Hf & Hb).
    { symmetry. exact (Forall2_length _ _ _ F1). }
    { intros r Hr. apply linspace_in in Hr; lra. }
    { apply linspace_three. lra. }
    destruct (window_fit a r0 c dl lo hi _ us _ _ _ (proj2 Hlo) (linspace_even lo hi) F2 Hb)
      as (al & be & ga & B1 & B2 & B3 & E1 & E2 & E3).
    destruct (window_vertex a r0 c dl ((lo+hi)/2) ((hi-lo)/2) _ _ _ al be ga Ha ltac:(lra) (proj1 Hdl) Hh B1 B2 B3 E1 E2 E3)
      as (HA & HV & HS).
    exists f, (- fit_b f / (2 * fit_a f)), us. split; [reflexivity|]. split; [exact HA|].
    split; [apply speed_step; try assumption; lra|].
    split; [apply Hnext; exact HV|].
    intros (v0 & Hv & El & Eh).
    apply abs_bound in Hv.
    set (h := (hi - lo)/2) in *.
    assert (Eh' : h = v0 / 1000) by (unfold h; rewrite El, Eh; field).
    assert (Em : (lo + hi) / 2 = v0) by (rewrite El, Eh; field).
    rewrite Em in *.
    assert (Hh1 : 9998/10000000 * r0 <= h <= 10002/10000000 * r0) by (rewrite Eh'; lra).
    assert (B : Rabs (v0 - r0) <= 2001/10000 * h) by (apply Rabs_le; lra).
    split; [|apply HS; exact B].
    assert (W : 0 < a * h^2) by (apply Rmult_lt_0_compat; [lra|apply pow_lt; lra]).
    apply Rmult_le_reg_r with (1416/1000 * (a * h^2)); [lra|].
    eapply Rle_trans; [exact HV|].
    apply Rle_trans with (dl * (2481/1000 * h)); [apply Rmult_le_compat_l; lra|].
    replace (2000 * dl / a * (1416/1000 * (a * h^2))) with (dl * (2832 * h * h)) by (field; lra).
    apply Rmult_le_compat_l; [lra|]. nra.
  Qed.
End Loop.
