(** * WindowP: lemmas about the window model. *)
From Coq Require Import String ZArith QArith Reals Qreals List Bool Lra Psatz.
From Verif Require Import PyBase Pint UnitsM Spec QLemmas WindowM.
Import ListNotations.
Local Open Scope R_scope.

Lemma wk : @window_k R _ = 3/4.
Proof. unfold window_k; rnum; q2r; lra. Qed.

(** Closed form of the safety factor. *)
Definition sf_formula (L W t P M : R) : R :=
  (t / L) * (t / L) * (2 * M * (1 + (L / W) * (L / W))) / (3/4 * P).

Lemma lit2 : @nofQ R _ 2 = 2. Proof. rnum; q2r; lra. Qed.

Section Win.
  Variables (il iw it ip im : pyin R) (L W t P M : R) (reg : nat).
  Hypothesis HL : denotes il d_length L.
  Hypothesis HW : denotes iw d_length W.
  Hypothesis HP : denotes ip d_pressure P.
  Hypothesis HM : denotes im d_pressure M.
  Hypothesis L0 : 0 < L.
  Hypothesis W0 : 0 < W.
  Hypothesis P0 : 0 < P.

  Lemma sf_closed :
    denotes it d_length t -> 0 <= t -> 0 <= M ->
    safety_factor il iw it ip im reg = Ok (sf_formula L W t P M).
  Proof.
    intros Ht t0 M0; unfold safety_factor.
    repeat dstep. 
    all: try rewrite wk; try nz.
    erewrite q_plain_den by eassumption.
    f_equal; rewrite wk, lit2, one_R; unfold sf_formula; reflexivity.
  Qed.

  Definition thickness_formula (s : R) : R :=
    sqrt (s * (3/4) / 2) * L * sqrt (P / (M * (1 + (L / W) * (L / W)))).

  Lemma mt_closed s :
    0 < M -> 1 <= s ->
    returns (minimum_thickness il iw (SfNum s) ip im reg) d_length
            (thickness_formula s) reg.
  Proof.
    intros M0 s1; unfold minimum_thickness.
    do 8 dstep.
    rewrite one_R; rnum; rewrite Rltb_false by lra; cbn [bind].
    dstep.
    rewrite wk. replace (Q2R 2) with 2 by (q2r; lra).
    unfold npsqrt; rnum; rewrite zero_R, Rltb_false by lra; cbn [bind].
    assert (0 < M * (1 + L / W * (L / W))).
    { apply Rmult_lt_0_compat; auto. pose proof (Rle_0_sqr (L / W)) as S; unfold Rsqr in S; lra. }
    do 5 dstep. dstep.
    { apply Rlt_le, Rdiv_lt_0_compat; assumption. }
    dstep.
    eapply q_to_den; eauto; try reflexivity; apply Hq0.
  Qed.
End Win.

(** ** Consequences *)
Lemma sf_formula_thickness L W P M s :
  0 < L -> 0 < W -> 0 < P -> 0 < M -> 1 <= s ->
  sf_formula L W (thickness_formula L W P M s) P M = s.
Proof.
  intros L0 W0 P0 M0 s1; unfold sf_formula, thickness_formula.
  set (c := 1 + L / W * (L / W)).
  assert (c0 : 0 < c).
  { unfold c; pose proof (Rle_0_sqr (L / W)) as S; unfold Rsqr in S; lra. }
  set (a := sqrt (s * (3 / 4) / 2)). set (b := sqrt (P / (M * c))).
  assert (Ha : a * a = s * (3 / 4) / 2) by (apply sqrt_sqrt; lra).
  assert (Hb : b * b = P / (M * c)).
  { apply sqrt_sqrt. apply Rlt_le, Rdiv_lt_0_compat; auto. now apply Rmult_lt_0_compat. }
  replace (a * L * b / L * (a * L * b / L) * (2 * M * c) / (3 / 4 * P))
    with ((a * a) * (b * b) * (2 * M * c) / (3 / 4 * P)) by (field; lra).
  rewrite Ha, Hb. field. repeat split; lra.
Qed.

Lemma sf_formula_mono L W t1 t2 P M :
  0 < L -> 0 < W -> 0 < P -> 0 < M -> 0 <= t1 -> t1 < t2 ->
  sf_formula L W t1 P M < sf_formula L W t2 P M.
Proof.
  intros; unfold sf_formula.
  set (c := 1 + L / W * (L / W)).
  assert (c0 : 0 < c).
  { unfold c; pose proof (Rle_0_sqr (L / W)) as S; unfold Rsqr in S; lra. }
  unfold Rdiv at 1 4. apply Rmult_lt_compat_r; [apply Rinv_0_lt_compat; lra|].
  apply Rmult_lt_compat_r; [apply Rmult_lt_0_compat; lra|].
  assert (t1 / L < t2 / L)
    by (unfold Rdiv; apply Rmult_lt_compat_r; auto; now apply Rinv_0_lt_compat).
  assert (0 <= t1 / L)
    by (unfold Rdiv; apply Rmult_le_pos; auto; left; now apply Rinv_0_lt_compat).
  nra.
Qed.

Lemma thickness_nonneg L W P M s : 0 < L -> 0 <= thickness_formula L W P M s.
Proof.
  intros; unfold thickness_formula.
  repeat apply Rmult_le_pos; try apply sqrt_pos; lra.
Qed.

Lemma window_roundtrip il iw ip im L W P M s reg reg' :
  denotes il d_length L -> denotes iw d_length W ->
  denotes ip d_pressure P -> denotes im d_pressure M ->
  0 < L -> 0 < W -> 0 < P -> 0 < M -> 1 <= s ->
  exists t, minimum_thickness il iw (SfNum s) ip im reg = Ok t
            /\ safety_factor il iw (PQuant t) ip im reg' = Ok s.
Proof.
  intros HL HW HP HM L0 W0 P0 M0 s1.
  destruct (mt_closed il iw ip im L W P M reg HL HW HP HM L0 W0 P0 s M0 s1)
    as (t & E & St).
  exists t; split; auto.
  erewrite sf_closed; eauto using stands_denotes, thickness_nonneg; try lra.
  f_equal; apply sf_formula_thickness; auto.
Qed.

Lemma window_minimum il iw it ip im L W t P M s reg :
  denotes il d_length L -> denotes iw d_length W -> denotes it d_length t ->
  denotes ip d_pressure P -> denotes im d_pressure M ->
  0 < L -> 0 < W -> 0 < P -> 0 < M -> 0 <= t -> 1 <= s ->
  exists q tmin f,
    minimum_thickness il iw (SfNum s) ip im reg = Ok q
    /\ stands_for q d_length tmin reg
    /\ safety_factor il iw it ip im reg = Ok f
    /\ (s <= f <-> tmin <= t).
Proof.
  intros HL HW Ht HP HM L0 W0 P0 M0 t0 s1.
  destruct (mt_closed il iw ip im L W P M reg HL HW HP HM L0 W0 P0 s M0 s1)
    as (q & E & St).
  exists q, (thickness_formula L W P M s), (sf_formula L W t P M).
  repeat split; try apply St; auto.
  - eapply sf_closed; eauto; lra.
  - intros Hs. destruct (Rle_or_lt (thickness_formula L W P M s) t); auto.
    pose proof (sf_formula_mono L W t _ P M L0 W0 P0 M0 t0 H) as Lt.
    rewrite sf_formula_thickness in Lt by auto. lra.
  - intros Hle.
    rewrite <- (sf_formula_thickness L W P M s) by auto.
    destruct Hle as [Hlt | <-]; [|lra].
    left; apply sf_formula_mono; auto. now apply thickness_nonneg.
Qed.

(** Rejection *)
Ltac check_case H :=
  match goal with
  | Hq : stands_for ?q ?d ?x ?r |- context [bind (check_q ?q ?s true) _] =>
    let V := fresh "V" in
    destruct (check_q_cases q d x r s _ Hq eq_refl) as [(? & ? & V)|[? V]];
    [rewrite V; cbn [bind] | now apply is_value_error_bind]
  end.

Lemma mt_rejects il iw ip im dl dw dp dm L W P M s reg :
  denotes il dl L -> denotes iw dw W -> denotes ip dp P -> denotes im dm M ->
  (dl <> d_length \/ L < 0 \/ dw <> d_length \/ W < 0
   \/ dp <> d_pressure \/ P < 0 \/ dm <> d_pressure \/ M < 0) ->
  is_value_error (minimum_thickness il iw s ip im reg).
Proof.
  intros HL HW HP HM Bad; unfold minimum_thickness.
  do 4 dstep. do 4 check_case tt. exfalso. intuition (subst; congruence || lra).
Qed.

Lemma sf_rejects il iw it ip im dl dw dt dp dm L W t P M reg :
  denotes il dl L -> denotes iw dw W -> denotes it dt t -> denotes ip dp P ->
  denotes im dm M ->
  (dl <> d_length \/ L < 0 \/ dw <> d_length \/ W < 0 \/ dt <> d_length \/ t < 0
   \/ dp <> d_pressure \/ P < 0 \/ dm <> d_pressure \/ M < 0) ->
  is_value_error (safety_factor il iw it ip im reg).
Proof.
  intros HL HW Ht HP HM Bad; unfold safety_factor.
  do 5 dstep. do 5 check_case tt. exfalso. intuition (subst; congruence || lra).
Qed.

Lemma mt_rejects_sf il iw ip im L W P M reg :
  denotes il d_length L -> denotes iw d_length W ->
  denotes ip d_pressure P -> denotes im d_pressure M ->
  0 <= L -> 0 <= W -> 0 <= P -> 0 <= M ->
  (forall s, s < 1 -> is_value_error (minimum_thickness il iw (SfNum s) ip im reg))
  /\ is_type_error (minimum_thickness il iw SfNonNumeric ip im reg).
Proof.
  intros HL HW HP HM L0 W0 P0 M0; split.
  - intros s Hs; unfold minimum_thickness. do 8 dstep.
    rnum; rewrite one_R, Rltb_true by assumption. apply value_error_intro.
  - unfold minimum_thickness. do 8 dstep. unfold is_type_error; cbn; eauto.
Qed.

Lemma window_laws il iw it ip im L W t P M reg :
  denotes il d_length L -> denotes iw d_length W -> denotes it d_length t ->
  denotes ip d_pressure P -> denotes im d_pressure M ->
  0 < L -> 0 < W -> 0 < P -> 0 <= M -> 0 <= t ->
  let f := (t / L)^2 * (2 * M * (1 + (L / W)^2)) / (0.75 * P) in
  safety_factor il iw it ip im reg = Ok f
  /\ safety_factor iw il it ip im reg = Ok f
  /\ (forall k i', 0 < k -> denotes i' d_length (k * t) ->
        safety_factor il iw i' ip im reg = Ok (k^2 * f))
  /\ (forall k i', 0 < k -> denotes i' d_pressure (k * M) ->
        safety_factor il iw it ip i' reg = Ok (k * f))
  /\ (forall k i', 0 < k -> denotes i' d_pressure (k * P) ->
        safety_factor il iw it i' im reg = Ok (f / k)).
Proof.
  intros HL HW Ht HP HM L0 W0 P0 M0 t0 f; unfold f; clear f.
  replace 0.75 with (3/4) by lra.
  assert (forall k x, 0 < k -> 0 <= x -> 0 <= k * x)
    by (intros; apply Rmult_le_pos; lra).
  repeat split; intros;
    (erewrite sf_closed; eauto; try (apply Rmult_lt_0_compat; assumption);
     f_equal; unfold sf_formula; field; repeat split; lra).
Qed.
