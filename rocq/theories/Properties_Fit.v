(** * C55-C58: cj_curve_fit. *)
From Coq Require Import String ZArith QArith Reals Qreals List Bool Lra Lia.
From Verif Require Import PyBase FitM FitSpec FitP.
Import ListNotations.
Local Open Scope R_scope.

(** C55.  Whatever the data, if the fit returns, no parabola has a smaller sum of
    squared residuals, and R^2 (when it is a number) is 1 - SSE/SST and in [0,1]. *)
Theorem C55_least_squares :
  forall (pts : list (R * R)) f,
    cj_curve_fit (map fst pts) (map snd pts) = Ok f ->
    (forall a b c,
        squared_residuals pts (fit_a f) (fit_b f) (fit_c f) <= squared_residuals pts a b c)
    /\ (forall r, fit_r2 f = Ok r ->
          0 <= r <= 1 /\
          r = 1 - squared_residuals pts (fit_a f) (fit_b f) (fit_c f)
                  / total (fun p => (snd p - mean_y pts)^2) pts).
Proof.
  intros pts f H. destruct (fit_inv pts f H) as (Hn & Hd & Ht & ->).
  cbn [fit_a fit_b fit_c fit_r2]. split.
  - intros. apply fit_optimal; assumption.
  - intros r Hr. split; [exact (r2_range pts r Hn Hd Ht Hr)|].
    unfold r2_of in Hr.
    destruct (Req_EM_T (total (fun p => (snd p - mean_y pts)^2) pts) 0) as [E|E];
      [rewrite npdiv_zero in Hr by exact E; discriminate|].
    rewrite npdiv_ok in Hr by exact E. cbn [bind] in Hr. congruence.
Qed.
Print Assumptions C55_least_squares.

(** The fitted parabola is the only minimiser when three abscissae differ. *)
Theorem C55_unique_minimiser :
  forall (pts : list (R * R)) f a b c,
    cj_curve_fit (map fst pts) (map snd pts) = Ok f ->
    squared_residuals pts a b c <= squared_residuals pts (fit_a f) (fit_b f) (fit_c f) ->
    a = fit_a f /\ b = fit_b f /\ c = fit_c f.
Proof.
  intros pts f a b c H. destruct (fit_inv pts f H) as (Hn & Hd & Ht & ->).
  cbn [fit_a fit_b fit_c]. intros Hle.
  exact (fit_unique pts a b c Hn Hd Ht Hle).
Qed.
Print Assumptions C55_unique_minimiser.

(** C56.  For non-negative abscissae of which three differ, the coefficients are
    always finite, for every y; R^2 is a number exactly when the y are not all equal. *)
Theorem C56_defined :
  forall pts : list (R * R),
    (forall p, In p pts -> 0 <= fst p) -> three_distinct (map fst pts) ->
    exists f, cj_curve_fit (map fst pts) (map snd pts) = Ok f
      /\ ((exists r, fit_r2 f = Ok r) <->
          exists p q, In p pts /\ In q pts /\ snd p <> snd q).
Proof.
  intros pts Hnn (x1 & x2 & x3 & H1 & H2 & H3 & N1 & N2 & N3).
  apply in_map_iff in H1. destruct H1 as (p & <- & Hp).
  apply in_map_iff in H2. destruct H2 as (q & <- & Hq).
  apply in_map_iff in H3. destruct H3 as (r & <- & Hr).
  destruct (fit_defined pts p q r Hnn Hp Hq Hr N1 N2 N3) as (Hn & Hd & Ht).
  exists (mkFit (a_of pts) (b_of pts) (c_of pts) (r2_of pts)).
  split; [apply fit_ok; assumption|]. cbn [fit_r2]. split.
  - intros (r0 & Hr0).
    destruct (Req_EM_T (total (fun p => (snd p - mean_y pts)^2) pts) 0) as [E|E].
    + unfold r2_of in Hr0. rewrite npdiv_zero in Hr0 by exact E. discriminate.
    + exact (sst_nonzero pts E).
  - intros Hne. destruct (r2_of_spec pts Hne) as (E & _). eexists. exact E.
Qed.
Print Assumptions C56_defined.

(** C57.  On data that lie exactly on a parabola the fit returns its coefficients
    (and R^2 = 1 unless the data are constant). *)
Theorem C57_recovers :
  forall (pts : list (R * R)) a b c f,
    (forall p, In p pts -> snd p = parabola a b c (fst p)) ->
    cj_curve_fit (map fst pts) (map snd pts) = Ok f ->
    fit_a f = a /\ fit_b f = b /\ fit_c f = c
    /\ (forall r, fit_r2 f = Ok r -> r = 1).
Proof.
  intros pts a b c f Hex H. destruct (fit_inv pts f H) as (Hn & Hd & Ht & Ef).
  destruct (fit_exact pts a b c Hn Hd Ht Hex) as (Ea & Eb & Ec).
  rewrite Ef. cbn [fit_a fit_b fit_c fit_r2]. repeat split; try assumption.
  intros r Hr. unfold r2_of in Hr. rewrite Ea, Eb, Ec in Hr.
  assert (Ez : squared_residuals pts a b c = 0).
  { unfold squared_residuals. rewrite (total_ext _ (fun _ => 0)).
    - rewrite total_const. ring.
    - intros p Hp. rewrite (Hex p Hp). ring. }
  rewrite Ez in Hr.
  destruct (Req_EM_T (total (fun p => (snd p - mean_y pts)^2) pts) 0) as [E|E];
    [rewrite npdiv_zero in Hr by exact E; discriminate|].
  rewrite npdiv_ok in Hr by exact E. cbn [bind] in Hr.
  assert (E2 : r = 1 - 0 / total (fun p => (snd p - mean_y pts)^2) pts) by congruence.
  rewrite E2. unfold Rdiv. ring.
Qed.
Print Assumptions C57_recovers.

(** Non-negative abscissae: the fit of exact data always succeeds. *)
Theorem C57_recovers_nonneg :
  forall xs a b c,
    (forall x, In x xs -> 0 <= x) -> three_distinct xs ->
    exists f, cj_curve_fit xs (map (parabola a b c) xs) = Ok f
      /\ fit_a f = a /\ fit_b f = b /\ fit_c f = c.
Proof.
  intros xs a b c Hnn H3.
  set (pts := map (fun x => (x, parabola a b c x)) xs).
  assert (E1 : map fst pts = xs) by (unfold pts; rewrite map_map; apply map_id).
  assert (E2 : map snd pts = map (parabola a b c) xs) by (unfold pts; rewrite map_map; reflexivity).
  assert (Hon : forall p, In p pts -> snd p = parabola a b c (fst p)).
  { intros p Hp. unfold pts in Hp. apply in_map_iff in Hp. destruct Hp as (x & <- & _). reflexivity. }
  destruct (C56_defined pts) as (f & Hf & _).
  - intros p Hp. apply Hnn. rewrite <- E1. apply in_map. exact Hp.
  - rewrite E1. exact H3.
  - exists f. destruct (C57_recovers pts a b c f Hon Hf) as (Ha & Hb & Hc & _).
    rewrite <- E1 at 1. rewrite <- E2. auto.
Qed.
Print Assumptions C57_recovers_nonneg.

(** C58 is false: three distinct abscissae are not enough.  For abscissae that are
    symmetric about zero the code divides by zero although the parabola is determined. *)
Theorem C58_every_three_distinct_refuted :
  exists pts : list (R * R),
    three_distinct (map fst pts)
    /\ cj_curve_fit (map fst pts) (map snd pts) = Err NotFinite
    /\ (forall p, In p pts -> snd p = parabola 1 0 0 (fst p)).
Proof.
  exists [(-1, 1); (0, 0); (1, 1)]. repeat split.
  - exists (-1), 0, 1. simpl. repeat split; auto; lra.
  - rewrite fit_unfold.
    rewrite npdiv_ok by (unfold nn; simpl; lra). cbn [bind].
    destruct (npdiv (temp2_of _) _) as [b|e] eqn:Eb; cbn [bind].
    + rewrite npdiv_zero; [reflexivity|]. unfold den_of, S1, S2, S3, nn; simpl; lra.
    + unfold npdiv in Eb. destruct (neqb _ _); congruence.
  - intros p [<-|[<-|[<-|[]]]]; unfold parabola; simpl; lra.
Qed.
Print Assumptions C58_every_three_distinct_refuted.

(** What does hold: three distinct abscissae suffice whenever the code's first
    denominator n*sum(x^3) - sum(x^2)*sum(x) is not zero. *)
Theorem C58_partial :
  forall pts : list (R * R),
    three_distinct (map fst pts) ->
    INR (length pts) * total (fun p => fst p ^ 3) pts
      <> total (fun p => fst p ^ 2) pts * total fst pts ->
    exists f, cj_curve_fit (map fst pts) (map snd pts) = Ok f.
Proof.
  intros pts (x1 & x2 & x3 & H1 & H2 & H3 & N1 & N2 & N3) Hne.
  apply in_map_iff in H1. destruct H1 as (p & <- & Hp).
  apply in_map_iff in H2. destruct H2 as (q & <- & Hq).
  apply in_map_iff in H3. destruct H3 as (r & <- & Hr).
  eexists. apply fit_ok.
  - pose proof (nn_pos _ _ Hp). lra.
  - unfold den_of, S1, S2, S3, nn. lra.
  - rewrite temp_det. pose proof (nn_pos _ _ Hp).
    pose proof (det3_pos _ _ _ _ Hp Hq Hr N1 N2 N3).
    apply Rmult_integral_contrapositive. lra.
Qed.
Print Assumptions C58_partial.

(** A concrete data set that meets the hypotheses (not on a parabola). *)
Example fit_example :
  exists f, cj_curve_fit [1; 2; 3; 4] [1; 0; 0; 2] = Ok f
    /\ fit_a f = 3/4 /\ exists r, fit_r2 f = Ok r.
Proof.
  pose (pts := [(1,1); (2,0); (3,0); (4,2)] : list (R*R)).
  destruct (C56_defined pts) as (f & Hf & Hr).
  - intros p [<-|[<-|[<-|[<-|[]]]]]; simpl; lra.
  - exists 1, 2, 3. simpl. repeat split; auto; lra.
  - exists f. split; [exact Hf|]. split.
    + destruct (fit_inv pts f Hf) as (_ & _ & _ & ->). cbn [fit_a].
      unfold a_of, b_of, temp2_of, temp_of, den_of, S1, S2, S3, S4, Sy, Sxy, Sx2y, nn; simpl. field.
    + apply Hr. exists (1,1), (2,0). simpl. repeat split; auto; lra.
Qed.
