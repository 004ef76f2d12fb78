(** * RunUpAnalysis: the run-up correlations as functions of the blockage ratio. *)
From Coq Require Import String Reals List Bool Lra Lia Psatz.
From Verif Require Import Spec RunUpSpec.
Local Open Scope R_scope.

Lemma gamma_pos S sigma c nu D : 0 < flame_group S sigma c nu D.
Proof. apply exp_pos. Qed.

Lemma root_lt a b : 0 < a -> a < b -> b <= 3/4 -> 1 - sqrt (1 - a) < 1 - sqrt (1 - b).
Proof. intros. assert (sqrt (1 - b) < sqrt (1 - a)) by (apply sqrt_lt_1; lra). lra. Qed.
Lemma root_bounds a : 0 < a <= 3/4 -> 0 < 1 - sqrt (1 - a).
Proof.
  intros H. assert (sqrt (1 - a) < 1) by (rewrite <- sqrt_1 at 2; apply sqrt_lt_1; lra). lra.
Qed.
Lemma doh_falls a b : 0 < a -> a < b -> b <= 3/4 ->
  0 < diameter_over_height b < diameter_over_height a.
Proof.
  intros H0 H1 H2. pose proof (root_lt a b H0 H1 H2). pose proof (root_bounds a ltac:(lra)).
  unfold diameter_over_height. split.
  - apply Rdiv_lt_0_compat; lra.
  - unfold Rdiv. apply Rmult_lt_compat_l; [lra|]. apply Rinv_lt_contravar; [|lra].
    apply Rmult_lt_0_compat; lra.
Qed.

Lemma smooth_falls a b S sigma c nu D : 0 < a -> a < b -> b <= 3/4 -> 0 < D ->
  smooth_tube b S sigma c nu D < smooth_tube a S sigma c nu D.
Proof.
  intros H0 H1 H2 HD. destruct (doh_falls a b H0 H1 H2) as (P & Q).
  pose proof (gamma_pos S sigma c nu D) as Pg. unfold smooth_tube.
  set (g := flame_group S sigma c nu D) in *.
  assert (ln (g * diameter_over_height b) < ln (g * diameter_over_height a)).
  { apply ln_increasing; [apply Rmult_lt_0_compat; lra|]. apply Rmult_lt_compat_l; lra. }
  apply Rmult_lt_compat_r; [exact HD|]. apply Rmult_lt_compat_l; [|lra]. lra.
Qed.
Lemma rough_falls a b S sigma c D : 0 < a -> a < b -> b <= 3/4 ->
  0 < S -> 1 < sigma -> 0 < c -> 0 < D ->
  rough_tube b S sigma c D < rough_tube a S sigma c D.
Proof.
  intros H0 H1 H2 HS Hs Hc HD. unfold rough_tube.
  assert (E : 2 * (1 - b) / (1 + 3/2 * b) < 2 * (1 - a) / (1 + 3/2 * a)).
  { apply Rminus_gt_0_lt.
    replace (2 * (1 - a) / (1 + 3/2 * a) - 2 * (1 - b) / (1 + 3/2 * b))
      with (5 * (b - a) / ((1 + 3/2 * a) * (1 + 3/2 * b))) by (field; lra).
    apply Rdiv_lt_0_compat; [lra|]. apply Rmult_lt_0_compat; lra. }
  unfold Rdiv. apply Rmult_lt_compat_r.
  - apply Rinv_0_lt_compat. repeat apply Rmult_lt_0_compat; lra.
  - apply Rmult_lt_compat_r; [apply Rmult_lt_0_compat; assumption|exact E].
Qed.
Lemma rough_pos a S sigma c D : 0 < a <= 3/4 -> 0 < S -> 1 < sigma -> 0 < c -> 0 < D ->
  0 < rough_tube a S sigma c D.
Proof.
  intros. unfold rough_tube. repeat (apply Rdiv_lt_0_compat || apply Rmult_lt_0_compat); lra.
Qed.

(** the weight of the rough-tube value *)
Definition weight (BR : R) : R := (Rabs ((BR - 1/10) * 5) - Rabs ((BR - 1/10) * 5 - 1) + 1) / 2.
Lemma weight_low BR : BR <= 1/10 -> weight BR = 0.
Proof. intros. unfold weight. rewrite !Rabs_left1 by lra. field. Qed.
Lemma weight_high BR : 3/10 <= BR -> weight BR = 1.
Proof. intros. unfold weight. rewrite !Rabs_right by lra. field. Qed.
Lemma weight_mid BR : 1/10 <= BR <= 3/10 -> weight BR = (BR - 1/10) * 5.
Proof. intros. unfold weight. rewrite (Rabs_right ((BR - 1/10) * 5)), (Rabs_left1 ((BR - 1/10) * 5 - 1)) by lra. field. Qed.
Lemma weight_range BR : 0 <= weight BR <= 1.
Proof.
  destruct (Rle_dec BR (1/10)); [rewrite weight_low; lra|].
  destruct (Rle_dec (3/10) BR); [rewrite weight_high; lra|]. rewrite weight_mid; lra.
Qed.
Lemma weight_mono a b : a <= b -> weight a <= weight b.
Proof.
  intros. destruct (Rle_dec a (1/10)); [rewrite weight_low by lra; apply weight_range|].
  destruct (Rle_dec (3/10) b); [rewrite (weight_high b) by lra; apply weight_range|].
  rewrite !weight_mid by lra. lra.
Qed.

Lemma run_up_blend BR S sigma c nu D :
  run_up_distance BR S sigma c nu D
  = (1 - weight BR) * smooth_tube BR S sigma c nu D + weight BR * rough_tube BR S sigma c D.
Proof.
  unfold run_up_distance, line. cbn [fst snd].
  destruct (Rle_dec BR (1/10)); [rewrite weight_low by lra; ring|].
  destruct (Rle_dec (3/10) BR); [rewrite weight_high by lra; ring|].
  rewrite weight_mid by lra. field.
Qed.

(** ** Continuity *)
Lemma continuity_pt_ext f g x : (forall y, f y = g y) -> continuity_pt f x -> continuity_pt g x.
Proof.
  intros E H eps He. destruct (H eps He) as (a & Ha & Hx). exists a. split; [exact Ha|].
  intros y Hy. rewrite <- !E. apply Hx. exact Hy.
Qed.
Lemma cont_const k x : continuity_pt (fun _ => k) x.
Proof. apply continuity_pt_const. intros a b. reflexivity. Qed.
Lemma cont_id x : continuity_pt (fun y => y) x.
Proof. apply derivable_continuous_pt. apply derivable_pt_id. Qed.
Lemma cont_plus f g x : continuity_pt f x -> continuity_pt g x -> continuity_pt (fun y => f y + g y) x.
Proof. intros. apply (continuity_pt_plus f g); assumption. Qed.
Lemma cont_minus f g x : continuity_pt f x -> continuity_pt g x -> continuity_pt (fun y => f y - g y) x.
Proof. intros. apply (continuity_pt_minus f g); assumption. Qed.
Lemma cont_mult f g x : continuity_pt f x -> continuity_pt g x -> continuity_pt (fun y => f y * g y) x.
Proof. intros. apply (continuity_pt_mult f g); assumption. Qed.
Lemma cont_div f g x : continuity_pt f x -> continuity_pt g x -> g x <> 0 -> continuity_pt (fun y => f y / g y) x.
Proof. intros. apply (continuity_pt_div f g); assumption. Qed.
Lemma cont_comp f g x : continuity_pt f x -> continuity_pt g (f x) -> continuity_pt (fun y => g (f y)) x.
Proof. intros. apply (continuity_pt_comp f g); assumption. Qed.
Lemma cont_sqrt x : 0 <= x -> continuity_pt sqrt x.
Proof. apply continuity_pt_sqrt. Qed.
Lemma cont_ln x : 0 < x -> continuity_pt ln x.
Proof.
  intros H. apply derivable_continuous_pt. exists (/ x). apply derivable_pt_lim_ln. exact H.
Qed.
Lemma cont_abs x : continuity_pt Rabs x.
Proof. apply Rcontinuity_abs. Qed.

Ltac cont :=
  repeat first
    [ apply cont_const | apply cont_id
    | apply (cont_plus (fun y => _) (fun y => _)) | apply (cont_minus (fun y => _) (fun y => _))
    | apply (cont_mult (fun y => _) (fun y => _)) | apply (cont_div (fun y => _) (fun y => _)) ].

Lemma weight_cont x : continuity_pt weight x.
Proof.
  unfold weight. apply cont_div; [|apply cont_const|lra]. apply cont_plus; [|apply cont_const].
  apply cont_minus.
  - apply (cont_comp (fun BR => (BR - 1/10) * 5) Rabs); [|apply cont_abs].
    apply cont_mult; [|apply cont_const]. apply cont_minus; [apply cont_id|apply cont_const].
  - apply (cont_comp (fun BR => (BR - 1/10) * 5 - 1) Rabs); [|apply cont_abs].
    apply cont_minus; [|apply cont_const].
    apply cont_mult; [|apply cont_const]. apply cont_minus; [apply cont_id|apply cont_const].
Qed.
Lemma smooth_cont x S sigma c nu D : 0 < x <= 3/4 ->
  continuity_pt (fun BR => smooth_tube BR S sigma c nu D) x.
Proof.
  intros Hx. unfold smooth_tube. pose proof (gamma_pos S sigma c nu D) as Pg.
  set (g := flame_group S sigma c nu D) in *.
  pose proof (root_bounds x Hx) as Hr.
  apply cont_mult; [|apply cont_const]. apply cont_mult; [apply cont_const|].
  apply cont_plus; [|apply cont_const]. apply cont_mult; [apply cont_const|].
  apply (cont_comp (fun BR => g * diameter_over_height BR) ln).
  - unfold diameter_over_height. apply cont_mult; [apply cont_const|].
    apply cont_div; [apply cont_const| |lra]. apply cont_minus; [apply cont_const|].
    apply (cont_comp (fun BR => 1 - BR) sqrt); [|apply cont_sqrt; lra].
    apply cont_minus; [apply cont_const|apply cont_id].
  - apply cont_ln. apply Rmult_lt_0_compat; [exact Pg|]. apply Rdiv_lt_0_compat; lra.
Qed.
Lemma rough_cont x S sigma c D : 0 < x <= 3/4 ->
  continuity_pt (fun BR => rough_tube BR S sigma c D) x.
Proof.
  intros Hx. unfold rough_tube.
  apply (continuity_pt_ext (fun BR => 2 * (1 - BR) / (1 + 3/2 * BR) * (c * D * / (2 * 10 * S * (sigma - 1))))).
  { intros y. unfold Rdiv. ring. }
  apply cont_mult; [|apply cont_const]. apply cont_div; [| |lra].
  - apply cont_mult; [apply cont_const|]. apply cont_minus; [apply cont_const|apply cont_id].
  - apply cont_plus; [apply cont_const|]. apply cont_mult; [apply cont_const|apply cont_id].
Qed.
Lemma run_up_cont x S sigma c nu D : 0 < x <= 3/4 ->
  continuity_pt (fun BR => run_up_distance BR S sigma c nu D) x.
Proof.
  intros Hx.
  apply (continuity_pt_ext (fun BR => (1 - weight BR) * smooth_tube BR S sigma c nu D
                                      + weight BR * rough_tube BR S sigma c D)).
  { intros y. symmetry. apply run_up_blend. }
  apply cont_plus; apply cont_mult.
  - apply cont_minus; [apply cont_const|apply weight_cont].
  - apply smooth_cont. exact Hx.
  - apply weight_cont.
  - apply rough_cont. exact Hx.
Qed.
Lemma continuity_eps f x eps : continuity_pt f x -> 0 < eps ->
  exists delta, 0 < delta /\ forall y, Rabs (y - x) < delta -> Rabs (f y - f x) < eps.
Proof.
  intros H He. destruct (H eps He) as (a & Ha & Hx). exists a. split; [exact Ha|].
  intros y Hy. destruct (Req_dec y x) as [->|N]; [rewrite Rminus_diag_eq by reflexivity; rewrite Rabs_R0; exact He|].
  apply (Hx y). split; [|exact Hy]. split; [exact I|auto].
Qed.

(** ** Monotonicity of the blend *)
Lemma mix_lt w s r s' r' : 0 <= w <= 1 -> s' < s -> r' < r ->
  (1 - w) * s' + w * r' < (1 - w) * s + w * r.
Proof.
  intros H H1 H2. destruct (Rle_dec w (1/2)).
  - assert ((1 - w) * s' < (1 - w) * s) by (apply Rmult_lt_compat_l; lra).
    assert (w * r' <= w * r) by (apply Rmult_le_compat_l; lra). lra.
  - assert ((1 - w) * s' <= (1 - w) * s) by (apply Rmult_le_compat_l; lra).
    assert (w * r' < w * r) by (apply Rmult_lt_compat_l; lra). lra.
Qed.
Lemma blend_falls w w' s r s' r' :
  0 <= w <= 1 -> w <= w' -> w' <= 1 -> s' < s -> r' < r -> (r <= s \/ r' <= s') ->
  (1 - w') * s' + w' * r' < (1 - w) * s + w * r.
Proof.
  intros H1 H2 H3 H4 H5 [H|H].
  - pose proof (mix_lt w' s r s' r' ltac:(lra) H4 H5). nra.
  - pose proof (mix_lt w s r s' r' ltac:(lra) H4 H5). nra.
Qed.
Lemma run_up_falls a b S sigma c nu D :
  0 < a -> a < b -> b <= 3/4 -> 0 < S -> 1 < sigma -> 0 < c -> 0 < D ->
  (1/10 < b -> a < 3/10 ->
   rough_tube a S sigma c D <= smooth_tube a S sigma c nu D
   \/ rough_tube b S sigma c D <= smooth_tube b S sigma c nu D) ->
  run_up_distance b S sigma c nu D < run_up_distance a S sigma c nu D.
Proof.
  intros H0 H1 H2 HS Hs Hc HD H. rewrite !run_up_blend.
  pose proof (smooth_falls a b S sigma c nu D H0 H1 H2 HD) as Fs.
  pose proof (rough_falls a b S sigma c D H0 H1 H2 HS Hs Hc HD) as Fr.
  pose proof (weight_range a) as Wa. pose proof (weight_range b) as Wb.
  destruct (Rle_dec b (1/10)).
  { rewrite !weight_low by lra. lra. }
  destruct (Rle_dec (3/10) a).
  { rewrite !weight_high by lra. lra. }
  apply blend_falls; auto; try (apply weight_mono; lra); try lra.
Qed.
Lemma line_between s r BR : 1/10 <= BR <= 3/10 ->
  Rmin s r <= line (1/10, s) (3/10, r) BR <= Rmax s r.
Proof.
  intros H. unfold line. cbn [fst snd].
  replace ((BR - 1/10) / (3/10 - 1/10)) with ((BR - 1/10) * 5) by field.
  set (w := (BR - 1/10) * 5). assert (0 <= w <= 1) by (unfold w; lra).
  destruct (Rle_dec s r).
  - rewrite Rmin_left, Rmax_right by lra. nra.
  - rewrite Rmin_right, Rmax_left by lra. nra.
Qed.
