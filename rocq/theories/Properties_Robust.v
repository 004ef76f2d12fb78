(** * C110: what cj_speed does with wave speeds that are not exact. *)
From Coq Require Import String ZArith QArith Reals Qreals List Bool Lra Lia Psatz Permutation.
From Verif Require Import PyBase Gas GasP FitM QLemmas FitP FitSpec SdM SdSpec SdP SpeedSpec SpeedP
  ExampleGas BumpGas Properties_Speed RobustP.
Import ListNotations.
Local Open Scope R_scope.

(** the last fit as the result of cj_speed *)
Lemma speed_of_done {G X} (L : cantera R G X) P T x mech rr rs done rat us f v g U :
  value (speed_loop L 4 Serial x T P mech (1/10000) (1/10000) 1 (Ok zero) zero (3/2) 2 [])
  = Ok (done ++ [(rat, us, f, v)])%list ->
  cj_result L P T x mech v g U ->
  value (cj_speed L P T x mech Serial rr rs)
  = Ok ([("cj speed"%string, ENumber (fit_a f * sq v + fit_b f * v + fit_c f))]
        ++ (if rr then [("R^2"%string, EMaybe (fit_r2 f))] else [])
        ++ (if rs then [("cj state"%string, EGas g)] else []))%list.
Proof.
  intros Hval Hg.
  unfold cj_speed, cj_speed_rounds. rnum. rewrite lit_tol, lit_15, lit_20.
  rewrite value_bind, value_pool, value_bind, Hval. cbn [bind]. rewrite value_pool.
  unfold last_round. rewrite rev_app_distr. cbn [rev app].
  destruct rs.
  - destruct Hg as (i & w & (i0 & Hi0 & Hi) & (w0 & Hw0 & Hw) & Hcj).
    rewrite !value_bind.
    change (value (new_solution L mech "")) with (ct_new L mech "").
    rewrite Hi0. cbn [bind]. rewrite !value_bind.
    change (value (new_solution L mech "")) with (ct_new L mech "").
    rewrite Hi0. cbn [bind]. rewrite !value_bind.
    change (value (set_TPX L i0 T P x)) with (ct_set_TPX L i0 T P x).
    rewrite Hi. cbn [bind]. rewrite !value_bind.
    change (value (set_TPX L i0 T P x)) with (ct_set_TPX L i0 T P x).
    rewrite Hi. cbn [bind]. rewrite !value_bind.
    assert (w = i) as -> by congruence.
    rewrite Hcj. cbn [bind].
    destruct rr; rewrite value_ret; reflexivity.
  - destruct rr; rewrite value_ret; reflexivity.
Qed.

(** C110.  Suppose the speeds computed by cj_state, at the density ratios from 1.5 to 2
    and within 0.15 % of [r0], differ by at most [error] from the parabola
    a (r - r0)^2 + c.  Then cj_speed returns, and what it returns differs from the minimum
    [c] by at most twice that error, provided the error is at most 1e-7 times the curvature
    coefficient [a] (m/s per unit of density ratio squared).  The state it returns is one
    at a density ratio within 2000 error/a of [r0]. *)
Theorem C110_errors_not_amplified_partial :
  forall {G X} (L : cantera R G X) P T x mech p a r0 c error
         (return_r_squared return_state : bool),
    any_pool p -> 0 < a -> 1 <= r0 <= 3 -> 0 <= error <= a / 10000000 ->
    (forall r, 3/2 <= r <= 2 \/ Rabs (r - r0) <= 3/2000 * r0 ->
       exists U, cj_velocity L P T x mech r U
                 /\ Rabs (U - (a * (r - r0)^2 + c)) <= error) ->
    exists d speed,
      value (cj_speed L P T x mech p return_r_squared return_state) = Ok d
      /\ In ("cj speed"%string, ENumber speed) d
      /\ Rabs (speed - c) <= 2 * error
      /\ (return_state = true ->
          exists v g U, In ("cj state"%string, EGas g) d
            /\ cj_result L P T x mech v g U /\ Rabs (v - r0) <= 2000 * error / a).
Proof.
  intros * Hp Ha Hr0 He Hc.
  destruct (window_round L P T x mech a r0 c error Ha Hr0 He Hc (3/2) 2 3 1 (Ok zero) [] ltac:(lia))
    as (f1 & v1 & u1 & E1 & A1 & S1 & V1 & _); [left; lra|].
  assert (N1 : narrow r0 (v1 * (999/1000)) (v1 * (1001/1000))) by (exists v1; auto).
  match type of S1 with _ = value (speed_loop _ _ _ _ _ _ _ _ _ ?k ?r _ _ _ ?acc) =>
    destruct (window_round L P T x mech a r0 c error Ha Hr0 He Hc _ _ 2 k r acc ltac:(lia) (or_intror N1))
      as (f2 & v2 & u2 & E2 & A2 & S2 & V2 & _) end.
  rewrite S2 in S1; clear S2.
  assert (N2 : narrow r0 (v2 * (999/1000)) (v2 * (1001/1000))) by (exists v2; auto).
  match type of S1 with _ = value (speed_loop _ _ _ _ _ _ _ _ _ ?k ?r _ _ _ ?acc) =>
    destruct (window_round L P T x mech a r0 c error Ha Hr0 He Hc _ _ 1 k r acc ltac:(lia) (or_intror N2))
      as (f3 & v3 & u3 & E3 & A3 & S3 & V3 & _) end.
  rewrite S3 in S1; clear S3.
  assert (N3 : narrow r0 (v3 * (999/1000)) (v3 * (1001/1000))) by (exists v3; auto).
  match type of S1 with _ = value (speed_loop _ _ _ _ _ _ _ _ _ ?k ?r _ _ _ ?acc) =>
    destruct (window_round L P T x mech a r0 c error Ha Hr0 He Hc _ _ 0 k r acc ltac:(lia) (or_intror N3))
      as (f4 & v4 & u4 & E4 & A4 & S4 & V4 & K4) end.
  rewrite S4 in S1; clear S4. destruct (K4 N3) as (V4' & Q4).
  rewrite speed_done in S1 by lia.
  assert (Hv4 : exists g U, cj_result L P T x mech v4 g U).
  { destruct (Hc v4) as (U & (g & Hg) & _); [right; eapply Rle_trans; [exact V4|lra]|].
    exists g, U. exact Hg. }
  destruct Hv4 as (g & U & Hg).
  pose proof (speed_of_done L P T x mech return_r_squared return_state _ _ _ _ _ g U S1 Hg) as D.
  assert (D' : value (cj_speed L P T x mech p return_r_squared return_state)
               = value (cj_speed L P T x mech Serial return_r_squared return_state)).
  { destruct Hp as [->|(s & -> & Hs)]; [reflexivity|]. rewrite D.
    apply (cj_speed_workers L s); assumption. }
  rewrite D', D.
  eexists _, (fit_a f4 * sq v4 + fit_b f4 * v4 + fit_c f4).
  split; [reflexivity|]. split; [left; reflexivity|]. split.
  - replace (fit_a f4 * sq v4 + fit_b f4 * v4 + fit_c f4 - c)
      with (fit_c f4 - fit_b f4 ^ 2 / (4 * fit_a f4) - c); [exact Q4|].
    rewrite E4. unfold sq. rnum. field. lra.
  - intros ->. exists v4, g, U. split; [|split; [exact Hg|exact V4']].
    apply in_or_app. right. apply in_or_app. right. left. reflexivity.
Qed.
Print Assumptions C110_errors_not_amplified_partial.

(** A gas with inexact speeds that meets the hypotheses: 2000 + (r - 1.8)^2/10, up to a
    hundred-millionth of a metre per second. *)
Definition noisy (r : R) : R :=
  (r - 9/5)^2 / 10 + (if Rlt_dec r (9/5) then 1/100000000 else - (1/100000000)).
Example noisy_gas_speed : forall p P mech, any_pool p -> 0 < P ->
  exists d speed, value (cj_speed (bump_gas noisy) P 300 fresh mech p true true) = Ok d
    /\ In ("cj speed"%string, ENumber speed) d /\ Rabs (speed - 2000) <= 2/100000000.
Proof.
  intros p P mech Hp HP.
  destruct (C110_errors_not_amplified_partial (bump_gas noisy) P 300 fresh mech p
              (1/10) (9/5) 2000 (1/100000000) true true Hp) as (d & s & Hd & Hs & B & _); try lra.
  - intros r Hr.
    assert (B : 1797/1000 <= r <= 18027/10000 \/ 3/2 <= r <= 2).
    { destruct Hr as [Hr|Hr]; [right; exact Hr|left]. apply abs_bound in Hr. lra. }
    assert (B2 : 3/2 <= r <= 2) by lra.
    exists (2000 + noisy r). split.
    + eexists. apply bumped_cj_result; try lra. unfold noisy. apply Rabs_le.
      destruct (Rlt_dec r (9/5)); nra.
    + unfold noisy. apply Rabs_le. destruct (Rlt_dec r (9/5)); lra.
  - exists d, s. split; [exact Hd|]. split; [exact Hs|]. lra.
Qed.

(** ** Without the bound on the error *)
(** Near r = 1.8 the speeds of this gas follow a line that falls by 50 m/s per unit of
    density ratio, everywhere else the parabola. *)
Definition tilted (E r : R) : R :=
  if Rle_dec (Rabs (r - 9/5)) (9/5000)
  then - 50 * (r - 9/5) + 625 / E * (r - 9/5)^2
  else (r - 9/5)^2 / E^2.

Section Tilted.
  Context (E P : R) (HE : 1 <= E) (HP : 0 < P) (mech : string).
  Let gas := bump_gas (tilted E).
  Lemma inv_E : 0 < 1 / E <= 1.
  Proof.
    split; [apply Rdiv_lt_0_compat; lra|]. apply Rmult_le_reg_r with E; [lra|].
    unfold Rdiv. rewrite Rmult_assoc, Rinv_l by lra. lra.
  Qed.
  Lemma tilted_near r : Rabs (r - 9/5) <= 9/5000 ->
    tilted E r = parabola (625 / E) (-50 - 2250 / E) (90 + 2025 / E) r
    /\ Rabs (tilted E r) <= 1/10.
  Proof.
    intros H. unfold tilted. destruct (Rle_dec _ _) as [_|N]; [|contradiction].
    split; [unfold parabola; field; lra|].
    pose proof inv_E as (I1 & I2). apply abs_bound in H.
    replace (625 / E) with (625 * (1 / E)) by (field; lra). generalize dependent (1/E). intros i I1 I2.
    assert (Q : 0 <= (r - 9/5)^2 <= 4/1000000) by (split; [apply pow2_ge_0|nra]).
    assert (0 <= 625 * i * (r - 9/5)^2 <= 625 * 1 * (4/1000000)).
    { split; [apply Rmult_le_pos; lra|]. apply Rmult_le_compat; lra. }
    apply Rabs_le. lra.
  Qed.
  Lemma tilted_far r : 9/5000 < Rabs (r - 9/5) \/ r = 9/5 ->
    tilted E r = parabola (1 / E^2) (- (18/5) / E^2) (81/25 / E^2) r.
  Proof.
    intros H. unfold tilted, parabola. destruct (Rle_dec _ _) as [Y|N].
    - destruct H as [H| -> ]; [lra|]. field. lra.
    - field. lra.
  Qed.
  Lemma tilted_far_small r : 9/5000 < Rabs (r - 9/5) \/ r = 9/5 ->
    3/2 <= r <= 9/5 + E/4 -> Rabs (tilted E r) <= 1/10.
  Proof.
    intros H Hr. unfold tilted. destruct (Rle_dec _ _) as [Y|N].
    - destruct H as [H| -> ]; [lra|]. replace (9/5 - 9/5) with 0 by ring.
      replace (-50 * 0 + 625 / E * 0 ^ 2) with 0 by ring. rewrite Rabs_R0. lra.
    - pose proof inv_E as (I1 & I2).
      replace ((r - 9/5)^2 / E^2) with (((r - 9/5) * (1/E))^2) by (field; lra).
      assert (K : - (3/10) <= (r - 9/5) * (1/E) <= 1/4).
      { split.
        - apply Rle_trans with (- (3/10) * (1/E)); [nra|]. apply Rmult_le_compat_r; lra.
        - apply Rle_trans with (E/4 * (1/E)); [apply Rmult_le_compat_r; lra|].
          right. field. lra. }
      apply Rabs_le. nra.
  Qed.

  Lemma tilted_velocity r : 1 < r -> Rabs (tilted E r) <= 1/10 ->
    cj_velocity gas P 300 fresh mech r (2000 + tilted E r).
  Proof. intros H1 H2. eexists. apply bumped_cj_result; assumption. Qed.

  (** every one of the first 21 ratios is off the tilted part, or its middle *)
  Lemma first_ratios r : In r (linspace21 (3/2) 2) -> 9/5000 < Rabs (r - 9/5) \/ r = 9/5.
  Proof.
    intros H. apply (In_nth _ _ 0) in H. destruct H as (i & Hi & <-).
    destruct (linspace_even (3/2) 2) as (Hl & He). rewrite Hl in Hi. rewrite He by lia.
    assert (D : (i <= 11)%nat \/ (i = 12)%nat \/ (13 <= i)%nat) by lia.
    destruct D as [D|[ -> |D]].
    - left. apply le_INR in D. cbn -[INR] in D. replace (INR 11) with 11 in D by (cbn; lra).
      rewrite Rabs_left1; lra.
    - right. replace (INR 12) with 12 by (cbn; lra). field.
    - left. apply le_INR in D. replace (INR 13) with 13 in D by (cbn; lra).
      rewrite Rabs_pos_eq; lra.
  Qed.

  (** one round on speeds that lie on a parabola *)
  Lemma exact_round a b c lo hi fuel k r2 acc : (k <= 4)%nat -> 1 < lo < hi -> a <> 0 ->
    (forall r, In r (linspace21 lo hi) ->
       cj_velocity gas P 300 fresh mech r (parabola a b c r)) ->
    exists f us, fit_a f = a /\ fit_b f = b /\ fit_c f = c
      /\ value (speed_loop gas (S fuel) Serial fresh 300 P mech (1/10000) (1/10000) k r2 zero lo hi acc)
         = value (speed_loop gas fuel Serial fresh 300 P mech (1/10000) (1/10000) (k + 1) (fit_r2 f) zero
               (- b / (2 * a) * (999/1000)) (- b / (2 * a) * (1001/1000))
               (acc ++ [(linspace21 lo hi, us, f, - b / (2 * a))])).
  Proof.
    intros Hk Hlo Ha Hv. destruct (fit_on_parabola (linspace21 lo hi) a b c) as (f & Hf & Ea & Eb & Ec & _).
    { intros z Hz. apply linspace_in in Hz; lra. }
    { apply linspace_three. lra. }
    { exact Ha. }
    exists f, (map (parabola a b c) (linspace21 lo hi)). split; [exact Ea|]. split; [exact Eb|].
    split; [exact Ec|]. rewrite <- Ea in Hf, Hv, Ha |- *. rewrite <- Eb in Hf, Hv |- *.
    apply speed_step; [exact Hk| |exact Hf|congruence].
    apply Forall2_map. exact Hv.
  Qed.
End Tilted.

(** C110, refuted without the bound: wave speeds within 0.1 m/s (half of what cj_state's own
    tolerance of 1e-4 allows) of a parabola with minimum 2000 m/s, and a result that is off
    by any amount one likes. *)
Theorem C110_errors_not_amplified_refuted :
  forall E P mech, 1 <= E -> 0 < P ->
  exists (L : cantera R gas_state composition) a, 0 < a
    /\ (forall r, 3/2 <= r <= 2 \/ Rabs (r - 9/5) <= 3/2000 * (9/5) ->
         exists U, cj_velocity L P 300 fresh mech r U
                   /\ Rabs (U - (a * (r - 9/5)^2 + 2000)) <= 1/10)
    /\ forall p, any_pool p ->
         value (cj_speed L P 300 fresh mech p false false)
         = Ok [("cj speed"%string, ENumber (2000 - E))].
Proof.
  intros E P mech HE HP. exists (bump_gas (tilted E)), (1/E^2).
  pose proof (inv_E E HE) as (I1 & I2).
  assert (HE2 : 0 < 1 / E^2) by (apply Rdiv_lt_0_compat; [lra|apply pow_lt; lra]).
  split; [exact HE2|]. split.
  - intros r Hr.
    assert (B : 3/2 <= r <= 2) by (destruct Hr as [Hr|Hr]; [exact Hr|apply abs_bound in Hr; lra]).
    exists (2000 + tilted E r).
    assert (Q : (r - 9/5)^2 / E^2 = 1/E^2 * (r - 9/5)^2) by (field; lra).
    assert (I3 : 1/E^2 <= 1).
    { replace (1/E^2) with (1/E * (1/E)) by (field; lra). nra. }
    destruct (Rle_dec (Rabs (r - 9/5)) (9/5000)) as [Hn|Hn].
    + destruct (tilted_near E HE r Hn) as (Et & Bt).
      split; [apply tilted_velocity; lra|].
      unfold tilted. destruct (Rle_dec _ _) as [_|Hx]; [|contradiction].
      apply abs_bound in Hn.
      replace (625 / E) with (625 * (1/E)) by (field; lra).
      assert (Qr : 0 <= (r - 9/5)^2 <= 4/1000000) by (split; [apply pow2_ge_0|nra]).
      assert (0 <= 625 * (1/E) * (r - 9/5)^2 <= 625 * 1 * (4/1000000)).
      { split; [apply Rmult_le_pos; lra|]. apply Rmult_le_compat; lra. }
      assert (0 <= 1/E^2 * (r - 9/5)^2 <= 1 * (4/1000000)).
      { split; [apply Rmult_le_pos; lra|]. apply Rmult_le_compat; lra. }
      apply Rabs_le. lra.
    + split; [apply tilted_velocity; [exact HP|lra|]; apply tilted_far_small; [exact HE|left; lra|lra]|].
      unfold tilted. destruct (Rle_dec _ _) as [Hx|_]; [contradiction|].
      rewrite Q. match goal with |- Rabs ?z <= _ => replace z with 0 by ring end.
      rewrite Rabs_R0. lra.
  - set (gas := bump_gas (tilted E)).
    assert (Far : forall lo hi, (forall r, In r (linspace21 lo hi) ->
        (9/5000 < Rabs (r - 9/5) \/ r = 9/5) /\ 3/2 <= r <= 9/5 + E/4) ->
      forall r, In r (linspace21 lo hi) ->
        cj_velocity gas P 300 fresh mech r
          (parabola (1/E^2) (- (18/5) / E^2) (2000 + 81/25 / E^2) r)).
    { intros lo hi H r Hr. destruct (H r Hr) as (H1 & H2).
      replace (parabola (1/E^2) (- (18/5) / E^2) (2000 + 81/25 / E^2) r)
        with (2000 + parabola (1/E^2) (- (18/5) / E^2) (81/25 / E^2) r) by (unfold parabola; ring).
      rewrite <- (tilted_far E HE r H1). apply tilted_velocity; [exact HP|lra|].
      apply tilted_far_small; assumption. }
    assert (Near : forall r, In r (linspace21 (9/5 * (999/1000)) (9/5 * (1001/1000))) ->
        cj_velocity gas P 300 fresh mech r
          (parabola (625 / E) (-50 - 2250 / E) (2090 + 2025 / E) r)).
    { intros r Hr. apply linspace_in in Hr; [|lra].
      destruct (tilted_near E HE r) as (H1 & H2); [apply Rabs_le; lra|].
      replace (parabola (625 / E) (-50 - 2250 / E) (2090 + 2025 / E) r)
        with (2000 + parabola (625 / E) (-50 - 2250 / E) (90 + 2025 / E) r) by (unfold parabola; ring).
      rewrite <- H1. apply tilted_velocity; [exact HP|lra|exact H2]. }
    assert (Vfar : - (- (18/5) / E^2) / (2 * (1/E^2)) = 9/5) by (field; lra).
    assert (Vnear : - (-50 - 2250 / E) / (2 * (625 / E)) = 9/5 + E/25) by (field; lra).
    assert (N1 : 1/E^2 <> 0) by lra. assert (N2 : 625 / E <> 0).
    { replace (625 / E) with (625 * (1/E)) by (field; lra). lra. }
    assert (F1 : forall r, In r (linspace21 (3/2) 2) ->
        (9/5000 < Rabs (r - 9/5) \/ r = 9/5) /\ 3/2 <= r <= 9/5 + E/4).
    { intros r Hr. split; [apply first_ratios; exact Hr|].
      apply linspace_in in Hr; lra. }
    assert (F3 : forall r, In r (linspace21 ((9/5 + E/25) * (999/1000)) ((9/5 + E/25) * (1001/1000))) ->
        (9/5000 < Rabs (r - 9/5) \/ r = 9/5) /\ 3/2 <= r <= 9/5 + E/4).
    { intros r Hr. apply linspace_in in Hr; [|lra]. split; [|lra].
      left. rewrite Rabs_pos_eq; lra. }
    destruct (exact_round E P mech _ _ _ (3/2) 2 3 1 (Ok zero) [] ltac:(lia) ltac:(lra) N1 (Far _ _ F1))
      as (f1 & u1 & _ & _ & _ & S1). rewrite Vfar in S1.
    match type of S1 with _ = value (speed_loop _ _ _ _ _ _ _ _ _ ?k ?r _ _ _ ?acc) =>
      destruct (exact_round E P mech _ _ _ (9/5 * (999/1000)) (9/5 * (1001/1000)) 2 k r acc ltac:(lia) ltac:(lra) N2 Near)
        as (f2 & u2 & _ & _ & _ & S2) end.
    rewrite S2, Vnear in S1; clear S2.
    match type of S1 with _ = value (speed_loop _ _ _ _ _ _ _ _ _ ?k ?r _ _ _ ?acc) =>
      destruct (exact_round E P mech _ _ _ ((9/5 + E/25) * (999/1000)) ((9/5 + E/25) * (1001/1000)) 1 k r acc ltac:(lia) ltac:(lra) N1 (Far _ _ F3))
        as (f3 & u3 & _ & _ & _ & S3) end.
    rewrite S3, Vfar in S1; clear S3.
    match type of S1 with _ = value (speed_loop _ _ _ _ _ _ _ _ _ ?k ?r _ _ _ ?acc) =>
      destruct (exact_round E P mech _ _ _ (9/5 * (999/1000)) (9/5 * (1001/1000)) 0 k r acc ltac:(lia) ltac:(lra) N2 Near)
        as (f4 & u4 & Ea & Eb & Ec & S4) end.
    rewrite S4, Vnear in S1; clear S4. rewrite speed_done in S1 by lia.
    assert (D : value (cj_speed gas P 300 fresh mech Serial false false)
                = Ok [("cj speed"%string, ENumber (2000 - E))]).
    { destruct (Far _ _ F3 (9/5 + E/25)) as (g & Hg).
      { replace (9/5 + E/25) with ((9/5 + E/25) * (999/1000)
           + INR 10 * ((9/5 + E/25) * (1001/1000) - (9/5 + E/25) * (999/1000)) / 20) at 1
          by (replace (INR 10) with 10 by (cbn; lra); field).
        apply linspace_nth_in. lia. }
      rewrite (speed_of_done gas P 300 fresh mech false false _ _ _ _ _ g _ S1 Hg).
      cbn [app]. rewrite Ea, Eb, Ec. do 4 f_equal. unfold sq. rnum. field. lra. }
    intros p [->|(s & -> & Hs)]; [exact D|]. apply (cj_speed_workers gas s); assumption.
Qed.
Print Assumptions C110_errors_not_amplified_refuted.
