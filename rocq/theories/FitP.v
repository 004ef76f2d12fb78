(** * FitP: lemmas about cj_curve_fit in exact arithmetic. *)
From Coq Require Import String ZArith QArith Reals Qreals List Bool Lra Lia.
From Verif Require Import PyBase FitM FitSpec QLemmas.
Import ListNotations.
Local Open Scope R_scope.

Lemma fold_left_total : forall l a, fold_left Rplus l a = a + total (fun x => x) l.
Proof.
  induction l as [|x l IH]; intros a; simpl; [lra|]. rewrite IH. simpl. lra.
Qed.
Lemma np_sum_total : forall l : list R, np_sum l = total (fun x => x) l.
Proof.
  intros l. unfold np_sum. cbn [nadd Num_R]. rewrite fold_left_total.
  unfold zero. cbn [nofQ Num_R]. unfold Q2R; simpl. lra.
Qed.
Lemma total_map {P Q} (g : P -> Q) (f : Q -> R) l :
  total f (map g l) = total (fun p => f (g p)) l.
Proof. induction l; simpl; congruence. Qed.
Lemma total_ext {P} (f g : P -> R) l :
  (forall p, In p l -> f p = g p) -> total f l = total g l.
Proof.
  induction l; simpl; intros H; [reflexivity|].
  rewrite (H a), IHl; auto.
Qed.
Lemma total_add {P} (f g : P -> R) l :
  total (fun p => f p + g p) l = total f l + total g l.
Proof. induction l; simpl; lra. Qed.
Lemma total_scale {P} k (f : P -> R) l :
  total (fun p => k * f p) l = k * total f l.
Proof. induction l; simpl; lra. Qed.
Lemma total_const {P} k (l : list P) : total (fun _ => k) l = INR (length l) * k.
Proof.
  induction l; [simpl; lra|]. cbn [total fold_right length]. rewrite S_INR.
  fold (total (fun _ => k) l). rewrite IHl. lra.
Qed.
Lemma total_nonneg {P} (f : P -> R) l : (forall p, In p l -> 0 <= f p) -> 0 <= total f l.
Proof.
  induction l; simpl; intros H; [lra|].
  assert (0 <= f a) by auto. assert (0 <= total f l) by auto. unfold total in *. lra.
Qed.
Lemma total_pos {P} (f : P -> R) l p :
  (forall p, In p l -> 0 <= f p) -> In p l -> 0 < f p -> 0 < total f l.
Proof.
  induction l; simpl; intros H Hin Hp; [tauto|].
  destruct Hin as [->|Hin].
  - assert (0 <= total f l) by (apply total_nonneg; auto). unfold total in *. lra.
  - assert (0 <= f a) by auto. assert (0 < total f l) by auto. unfold total in *. lra.
Qed.

(** sums used by the code, over points *)
Definition S1 (pts : list (R*R)) := total fst pts.
Definition S2 (pts : list (R*R)) := total (fun p => (fst p)^2) pts.
Definition S3 (pts : list (R*R)) := total (fun p => (fst p)^3) pts.
Definition S4 (pts : list (R*R)) := total (fun p => (fst p)^4) pts.
Definition Sy (pts : list (R*R)) := total snd pts.
Definition Sxy (pts : list (R*R)) := total (fun p => snd p * fst p) pts.
Definition Sx2y (pts : list (R*R)) := total (fun p => snd p * (fst p)^2) pts.
Definition nn (pts : list (R*R)) := INR (length pts).

Definition den_of pts := S3 pts * nn pts - S2 pts * S1 pts.
Definition temp_of pts :=
  den_of pts * (S1 pts * S2 pts - S3 pts * nn pts)
  + S2 pts * S2 pts * (S1 pts * S1 pts - nn pts * S2 pts)
  - S4 pts * nn pts * (S1 pts * S1 pts - S2 pts * nn pts).
Definition temp2_of pts :=
  den_of pts * (Sy pts * S2 pts - Sx2y pts * nn pts)
  + (Sxy pts * nn pts - Sy pts * S1 pts) * (S4 pts * nn pts - S2 pts * S2 pts).
Definition b_of pts := temp2_of pts / temp_of pts.
Definition a_of pts :=
  1 / den_of pts * (nn pts * Sxy pts - Sy pts * S1 pts
                    - b_of pts * (S2 pts * nn pts - S1 pts * S1 pts)).
Definition c_of pts := 1 / nn pts * (Sy pts - a_of pts * S2 pts - b_of pts * S1 pts).

Lemma combine_fst_snd {P Q} (l : list (P*Q)) : combine (map fst l) (map snd l) = l.
Proof. induction l as [|[x y] l IH]; simpl; congruence. Qed.
Lemma combine_snd_map {P Q S} (f : P -> S) (l : list (P*Q)) :
  combine (map snd l) (map f (map fst l)) = map (fun p => (snd p, f (fst p))) l.
Proof. induction l as [|[x y] l IH]; simpl; congruence. Qed.

Lemma n_of_nat_R n : n_of_nat n = INR n.
Proof.
  unfold n_of_nat. cbn [nofQ Num_R]. unfold Q2R, inject_Z; simpl.
  rewrite Rinv_1, Rmult_1_r. symmetry. apply INR_IZR_INZ.
Qed.

Lemma Reqb_false x y : x <> y -> Reqb x y = false.
Proof. intros H. unfold Reqb. destruct (Req_EM_T x y); congruence. Qed.
Lemma Reqb_true x y : x = y -> Reqb x y = true.
Proof. intros H. unfold Reqb. destruct (Req_EM_T x y); congruence. Qed.

Lemma zero_R : (zero : R) = 0.
Proof. unfold zero. cbn [nofQ Num_R]. unfold Q2R; simpl; lra. Qed.
Lemma one_R : (one : R) = 1.
Proof. unfold one. cbn [nofQ Num_R]. unfold Q2R; simpl; lra. Qed.
Lemma npdiv_ok (x y : R) : y <> 0 -> npdiv x y = Ok (x / y).
Proof.
  intros H. unfold npdiv. cbn [neqb ndiv Num_R]. rewrite zero_R, Reqb_false; auto.
Qed.
Lemma npdiv_zero (x y : R) : y = 0 -> npdiv x y = Err NotFinite.
Proof.
  intros H. unfold npdiv. cbn [neqb ndiv Num_R]. rewrite zero_R, Reqb_true; auto.
Qed.
Lemma pydiv_ok (x y : R) : y <> 0 -> pydiv x y = Ok (x / y).
Proof.
  intros H. unfold pydiv. cbn [neqb ndiv Num_R]. rewrite zero_R, Reqb_false; auto.
Qed.
Lemma pydiv_zero (x y : R) : y = 0 -> pydiv x y = Err ZeroDivisionError.
Proof.
  intros H. unfold pydiv. cbn [neqb ndiv Num_R]. rewrite zero_R, Reqb_true; auto.
Qed.

Definition r2_of pts : result R :=
  let* ratio := npdiv (squared_residuals pts (a_of pts) (b_of pts) (c_of pts))
                      (total (fun p => (snd p - mean_y pts)^2) pts) in
  Ok (1 - ratio).

(** What the code computes, in terms of sums over the points. *)
Lemma fit_unfold (pts : list (R*R)) :
  cj_curve_fit (map fst pts) (map snd pts) =
  (let* m := npdiv (Sy pts) (nn pts) in
   let* b := npdiv (temp2_of pts) (temp_of pts) in
   let* i := npdiv 1 (den_of pts) in
   let* k := pydiv 1 (nn pts) in
   let a := i * (nn pts * Sxy pts - Sy pts * S1 pts
                 - b * (S2 pts * nn pts - S1 pts * S1 pts)) in
   let c := k * (Sy pts - a * S2 pts - b * S1 pts) in
   Ok (mkFit a b c
     (let* ratio := npdiv (squared_residuals pts a b c)
                          (total (fun p => (snd p - m)^2) pts) in Ok (1 - ratio)))).
Proof.
  unfold cj_curve_fit, cj_curve_fit_by.
  rewrite !map_length, Nat.eqb_refl. cbn [bind].
  unfold zip_with. rewrite combine_fst_snd.
  cbn [nadd nsub nmul ndiv Num_R]. rewrite ?one_R, ?n_of_nat_R, !np_sum_total.
  rewrite !total_map.
  fold (nn pts).
  replace (total (fun p => pow2 (fst p)) pts) with (S2 pts)
    by (apply total_ext; intros; unfold pow2; cbn [nmul Num_R]; ring).
  replace (total (fun p => pow3 (fst p)) pts) with (S3 pts)
    by (apply total_ext; intros; unfold pow3; cbn [nmul Num_R]; ring).
  replace (total (fun p => pow4 (fst p)) pts) with (S4 pts)
    by (apply total_ext; intros; unfold pow4; cbn [nmul Num_R]; ring).
  replace (total (fun p => snd p * pow2 (fst p)) pts) with (Sx2y pts)
    by (apply total_ext; intros; unfold pow2; cbn [nmul Num_R]; ring).
  change (total (fun p => fst p) pts) with (S1 pts).
  change (total (fun p => snd p) pts) with (Sy pts).
  change (total (fun p => snd p * fst p) pts) with (Sxy pts).
  fold (den_of pts). fold (temp_of pts). fold (temp2_of pts).
  destruct (npdiv (Sy pts) (nn pts)) as [m|]; [cbn [bind]|reflexivity].
  destruct (npdiv (temp2_of pts) (temp_of pts)) as [b|]; [cbn [bind]|reflexivity].
  destruct (npdiv 1 (den_of pts)) as [i|]; [cbn [bind]|reflexivity].
  destruct (pydiv 1 (nn pts)) as [k|]; [cbn [bind]|reflexivity].
  cbv zeta.
  set (a := i * _). set (c := k * _).
  rewrite combine_snd_map, !np_sum_total, !total_map. cbn [fst snd].
  unfold squared_residuals.
  rewrite (total_ext (fun p => pow2 (snd p - (a * pow2 (fst p) + b * fst p + c)))
                     (fun p => (snd p - parabola a b c (fst p))^2))
    by (intros; unfold pow2, parabola; cbn [nmul Num_R]; ring).
  rewrite (total_ext (fun p => pow2 (snd p - m)) (fun p => (snd p - m)^2))
    by (intros; unfold pow2; cbn [nmul Num_R]; ring).
  reflexivity.
Qed.

Lemma fit_ok (pts : list (R*R)) :
  nn pts <> 0 -> den_of pts <> 0 -> temp_of pts <> 0 ->
  cj_curve_fit (map fst pts) (map snd pts)
  = Ok (mkFit (a_of pts) (b_of pts) (c_of pts) (r2_of pts)).
Proof.
  intros Hn Hd Ht. rewrite fit_unfold.
  rewrite !npdiv_ok by assumption. cbn [bind].
  rewrite pydiv_ok by assumption. cbn [bind]. reflexivity.
Qed.

Lemma fit_inv (pts : list (R*R)) f :
  cj_curve_fit (map fst pts) (map snd pts) = Ok f ->
  nn pts <> 0 /\ den_of pts <> 0 /\ temp_of pts <> 0
  /\ f = mkFit (a_of pts) (b_of pts) (c_of pts) (r2_of pts).
Proof.
  intros H. rewrite fit_unfold in H.
  destruct (Req_EM_T (nn pts) 0) as [e|Hn]; [rewrite npdiv_zero in H by exact e; discriminate|].
  rewrite (npdiv_ok _ _ Hn) in H. cbn [bind] in H.
  destruct (Req_EM_T (temp_of pts) 0) as [e|Ht]; [rewrite npdiv_zero in H by exact e; discriminate|].
  rewrite (npdiv_ok _ _ Ht) in H. cbn [bind] in H.
  destruct (Req_EM_T (den_of pts) 0) as [e|Hd]; [rewrite npdiv_zero in H by exact e; discriminate|].
  rewrite (npdiv_ok _ _ Hd) in H. cbn [bind] in H.
  rewrite (pydiv_ok _ _ Hn) in H. cbn [bind] in H.
  repeat split; auto. cbv zeta in H. injection H as <-. reflexivity.
Qed.

(** Normal equations. *)
Lemma normal_equations pts :
  nn pts <> 0 -> den_of pts <> 0 -> temp_of pts <> 0 ->
  let a := a_of pts in let b := b_of pts in let c := c_of pts in
  Sy pts = a * S2 pts + b * S1 pts + c * nn pts
  /\ Sxy pts = a * S3 pts + b * S2 pts + c * S1 pts
  /\ Sx2y pts = a * S4 pts + b * S3 pts + c * S2 pts.
Proof.
  intros Hn Hd Ht. cbv zeta.
  assert (E1 : Sy pts = a_of pts * S2 pts + b_of pts * S1 pts + c_of pts * nn pts).
  { unfold c_of. field. exact Hn. }
  assert (Ha : a_of pts * den_of pts
               = nn pts * Sxy pts - Sy pts * S1 pts
                 - b_of pts * (S2 pts * nn pts - S1 pts * S1 pts)).
  { unfold a_of. field. exact Hd. }
  assert (Hb : b_of pts * temp_of pts = temp2_of pts).
  { unfold b_of. field. exact Ht. }
  assert (Hc : c_of pts * nn pts = Sy pts - a_of pts * S2 pts - b_of pts * S1 pts) by lra.
  split; [exact E1|].
  assert (E2 : nn pts * Sxy pts = nn pts * (a_of pts * S3 pts + b_of pts * S2 pts + c_of pts * S1 pts)).
  { replace (nn pts * (a_of pts * S3 pts + b_of pts * S2 pts + c_of pts * S1 pts))
      with (a_of pts * S3 pts * nn pts + b_of pts * S2 pts * nn pts
            + (c_of pts * nn pts) * S1 pts) by ring.
    rewrite Hc. unfold den_of in Ha. nra. }
  assert (E2' : Sxy pts = a_of pts * S3 pts + b_of pts * S2 pts + c_of pts * S1 pts).
  { apply Rmult_eq_reg_l with (nn pts); auto. }
  split; [exact E2'|].
  apply Rmult_eq_reg_l with (nn pts * den_of pts);
    [|apply Rmult_integral_contrapositive; auto].
  replace (nn pts * den_of pts * (a_of pts * S4 pts + b_of pts * S3 pts + c_of pts * S2 pts))
    with ((a_of pts * den_of pts) * (nn pts * S4 pts)
          + b_of pts * S3 pts * nn pts * den_of pts
          + (c_of pts * nn pts) * S2 pts * den_of pts) by ring.
  rewrite Hc.
  replace ((a_of pts * den_of pts) * (nn pts * S4 pts)
          + b_of pts * S3 pts * nn pts * den_of pts
          + (Sy pts - a_of pts * S2 pts - b_of pts * S1 pts) * S2 pts * den_of pts)
   with ((a_of pts * den_of pts) * (nn pts * S4 pts - S2 pts * S2 pts)
          + b_of pts * (S3 pts * nn pts - S1 pts * S2 pts) * den_of pts
          + Sy pts * S2 pts * den_of pts) by ring.
  rewrite Ha.
  unfold temp_of, temp2_of in Hb.
  assert (Hd' : S3 pts * nn pts = den_of pts + S2 pts * S1 pts) by (unfold den_of; ring).
  nra.
Qed.

Lemma pow2_gt_0 x : x <> 0 -> 0 < x^2.
Proof. intros H. pose proof (pow2_ge_0 x). pose proof (pow_nonzero x 2 H). lra. Qed.

(** ** Optimality *)
Definition resid a b c (p : R * R) := snd p - parabola a b c (fst p).

Lemma total_linear2 {P} k1 (f1 : P -> R) k2 (f2 : P -> R) l :
  total (fun p => k1 * f1 p + k2 * f2 p) l = k1 * total f1 l + k2 * total f2 l.
Proof. rewrite total_add, !total_scale. reflexivity. Qed.

(** cross term between residuals and any parabola *)
Lemma cross_term pts a b c d e f :
  total (fun p => resid a b c p * parabola d e f (fst p)) pts
  = d * (Sx2y pts - (a * S4 pts + b * S3 pts + c * S2 pts))
    + e * (Sxy pts - (a * S3 pts + b * S2 pts + c * S1 pts))
    + f * (Sy pts - (a * S2 pts + b * S1 pts + c * nn pts)).
Proof.
  unfold Sx2y, Sxy, Sy, S1, S2, S3, S4, nn, resid, parabola.
  induction pts as [|[x y] l IH]; [simpl; ring|].
  cbn [total fold_right length fst snd]. rewrite S_INR.
  fold (total (fun p : R * R => (snd p - (a * fst p ^ 2 + b * fst p + c)) * (d * fst p ^ 2 + e * fst p + f)) l).
  rewrite IH.
  fold (total (fun p : R * R => snd p * fst p ^ 2) l).
  fold (total (fun p : R * R => fst p ^ 4) l).
  fold (total (fun p : R * R => fst p ^ 3) l).
  fold (total (fun p : R * R => fst p ^ 2) l).
  fold (total (fun p : R * R => snd p * fst p) l).
  fold (total (@fst R R) l). fold (total (@snd R R) l). ring.
Qed.

Lemma residual_split pts a b c a' b' c' :
  squared_residuals pts a' b' c'
  = squared_residuals pts a b c
    + 2 * total (fun p => resid a b c p * parabola (a - a') (b - b') (c - c') (fst p)) pts
    + total (fun p => (parabola (a - a') (b - b') (c - c') (fst p))^2) pts.
Proof.
  unfold squared_residuals, resid.
  rewrite <- total_scale, <- !total_add. apply total_ext. intros p _. unfold parabola. ring.
Qed.

Lemma fit_optimal pts a' b' c' :
  nn pts <> 0 -> den_of pts <> 0 -> temp_of pts <> 0 ->
  squared_residuals pts (a_of pts) (b_of pts) (c_of pts) <= squared_residuals pts a' b' c'.
Proof.
  intros Hn Hd Ht. destruct (normal_equations pts Hn Hd Ht) as (E1 & E2 & E3). cbv zeta in *.
  rewrite (residual_split pts (a_of pts) (b_of pts) (c_of pts) a' b' c'), cross_term.
  rewrite <- E1, <- E2, <- E3.
  assert (0 <= total (fun p => (parabola (a_of pts - a') (b_of pts - b') (c_of pts - c') (fst p))^2) pts)
    by (apply total_nonneg; intros; apply pow2_ge_0).
  lra.
Qed.

(** ** The denominators *)
Definition A2 pts := nn pts * S2 pts - S1 pts * S1 pts.
Definition B2 pts := nn pts * S3 pts - S1 pts * S2 pts.
Definition C2 pts := S1 pts * S3 pts - S2 pts * S2 pts.
Definition det3 pts := A2 pts * S4 pts - B2 pts * S3 pts + C2 pts * S2 pts.

Lemma temp_det pts : temp_of pts = nn pts * det3 pts.
Proof. unfold temp_of, den_of, det3, A2, B2, C2. ring. Qed.

Lemma total_parabola_sq pts d e f :
  total (fun p => (parabola d e f (fst p))^2) pts
  = d * (d * S4 pts + e * S3 pts + f * S2 pts)
    + e * (d * S3 pts + e * S2 pts + f * S1 pts)
    + f * (d * S2 pts + e * S1 pts + f * nn pts).
Proof.
  unfold S1, S2, S3, S4, nn, parabola.
  induction pts as [|[x y] l IH]; [simpl; ring|].
  cbn [total fold_right length fst snd]. rewrite S_INR.
  fold (total (fun p : R * R => (d * fst p ^ 2 + e * fst p + f)^2) l). rewrite IH.
  fold (total (fun p : R * R => fst p ^ 4) l).
  fold (total (fun p : R * R => fst p ^ 3) l).
  fold (total (fun p : R * R => fst p ^ 2) l).
  fold (total (@fst R R) l). ring.
Qed.

Lemma gram_square pts :
  total (fun p => (parabola (A2 pts) (- B2 pts) (C2 pts) (fst p))^2) pts = A2 pts * det3 pts.
Proof. rewrite total_parabola_sq. unfold det3, A2, B2, C2. ring. Qed.

Lemma A2_square pts :
  total (fun p => (parabola 0 (nn pts) (- S1 pts) (fst p))^2) pts = nn pts * A2 pts.
Proof. rewrite total_parabola_sq. unfold A2. ring. Qed.

Lemma nn_pos pts p : In p pts -> 0 < nn pts.
Proof.
  intros H. unfold nn. destruct pts as [|q l]; [inversion H|].
  apply lt_0_INR. simpl. lia.
Qed.

Lemma A2_pos pts p q : In p pts -> In q pts -> fst p <> fst q -> 0 < A2 pts.
Proof.
  intros Hp Hq Hne. pose proof (nn_pos _ _ Hp) as Hn.
  assert (H : 0 < nn pts * A2 pts).
  { rewrite <- A2_square.
    destruct (Req_dec (parabola 0 (nn pts) (- S1 pts) (fst p)) 0) as [E|E].
    - assert (E' : parabola 0 (nn pts) (- S1 pts) (fst q) <> 0).
      { intros E'. apply Hne. unfold parabola in *.
        assert (nn pts * (fst p - fst q) = 0) by lra.
        apply Rmult_integral in H. lra. }
      apply total_pos with q; auto; intros; [apply pow2_ge_0|].
      apply pow2_gt_0; auto.
    - apply total_pos with p; auto; intros; [apply pow2_ge_0|]. apply pow2_gt_0; auto. }
  apply Rmult_lt_reg_l with (nn pts); lra.
Qed.

Lemma quad_three_roots a b c x y z :
  a * x^2 + b * x + c = 0 -> a * y^2 + b * y + c = 0 -> a * z^2 + b * z + c = 0 ->
  x <> y -> x <> z -> y <> z -> a = 0.
Proof.
  intros H1 H2 H3 N1 N2 N3.
  assert (E1 : (x - y) * (a * (x + y) + b) = 0) by nra.
  assert (E2 : (x - z) * (a * (x + z) + b) = 0) by nra.
  apply Rmult_integral in E1. apply Rmult_integral in E2.
  destruct E1 as [E1|E1]; [lra|]. destruct E2 as [E2|E2]; [lra|].
  assert (E3 : a * (y - z) = 0) by nra.
  apply Rmult_integral in E3. lra.
Qed.

Lemma det3_pos pts p q r :
  In p pts -> In q pts -> In r pts -> fst p <> fst q -> fst p <> fst r -> fst q <> fst r ->
  0 < det3 pts.
Proof.
  intros Hp Hq Hr N1 N2 N3.
  pose proof (A2_pos pts p q Hp Hq N1) as HA.
  assert (H : 0 < A2 pts * det3 pts).
  { rewrite <- gram_square.
    set (f := fun s : R * R => parabola (A2 pts) (- B2 pts) (C2 pts) (fst s)).
    assert (Hnz : f p <> 0 \/ f q <> 0 \/ f r <> 0).
    { destruct (Req_dec (f p) 0) as [E1|]; [|tauto].
      destruct (Req_dec (f q) 0) as [E2|]; [|tauto].
      destruct (Req_dec (f r) 0) as [E3|]; [|tauto].
      unfold f, parabola in *.
      pose proof (quad_three_roots _ _ _ _ _ _ E1 E2 E3 N1 N2 N3). lra. }
    destruct Hnz as [E|[E|E]].
    - apply total_pos with p; auto; intros; [apply pow2_ge_0|]. apply pow2_gt_0; auto.
    - apply total_pos with q; auto; intros; [apply pow2_ge_0|]. apply pow2_gt_0; auto.
    - apply total_pos with r; auto; intros; [apply pow2_ge_0|]. apply pow2_gt_0; auto. }
  apply Rmult_lt_reg_l with (A2 pts); lra.
Qed.

Lemma den_square pts : nn pts <> 0 ->
  total (fun p => (fst p + S1 pts / nn pts) * (fst p - S1 pts / nn pts)^2) pts
  = den_of pts / nn pts.
Proof.
  intros Hn. set (m := S1 pts / nn pts).
  assert (H : total (fun p => (fst p + m) * (fst p - m)^2) pts
              = S3 pts - m * S2 pts - m^2 * S1 pts + m^3 * nn pts).
  { unfold S1, S2, S3, nn. clear. generalize m. intros k. clear m.
    induction pts as [|[x y] l IH]; [simpl; ring|].
    cbn [total fold_right length fst snd]. rewrite S_INR.
    fold (total (fun p : R * R => (fst p + k) * (fst p - k) ^ 2) l). rewrite IH.
    fold (total (fun p : R * R => fst p ^ 3) l).
    fold (total (fun p : R * R => fst p ^ 2) l).
    fold (total (@fst R R) l). ring. }
  rewrite H. unfold m, den_of. field. exact Hn.
Qed.

Lemma S1_nonneg pts : (forall p, In p pts -> 0 <= fst p) -> 0 <= S1 pts.
Proof. intros H. apply total_nonneg; auto. Qed.

Lemma den_pos pts p q :
  (forall s, In s pts -> 0 <= fst s) -> In p pts -> In q pts -> fst p <> fst q ->
  0 < den_of pts.
Proof.
  intros Hnn Hp Hq Hne. pose proof (nn_pos _ _ Hp) as Hn.
  assert (Hm : 0 <= S1 pts / nn pts).
  { apply Rmult_le_pos; [apply S1_nonneg; auto|]. left. apply Rinv_0_lt_compat; auto. }
  assert (H : 0 < den_of pts / nn pts).
  { rewrite <- den_square by lra. set (m := S1 pts / nn pts) in *.
    assert (Hall : forall s, In s pts -> 0 <= (fst s + m) * (fst s - m)^2).
    { intros s Hs. apply Rmult_le_pos; [specialize (Hnn s Hs); lra|apply pow2_ge_0]. }
    assert (Hz : forall s, In s pts -> fst s <> m -> 0 < (fst s + m) * (fst s - m)^2).
    { intros s Hs E. specialize (Hnn s Hs). apply Rmult_lt_0_compat; [lra|].
      apply pow2_gt_0. lra. }
    destruct (Req_dec (fst p) m) as [E|E].
    - apply total_pos with q; auto. apply Hz; auto. congruence.
    - apply total_pos with p; auto. }
  apply Rmult_lt_reg_r with (/ nn pts); [apply Rinv_0_lt_compat; auto|].
  unfold Rdiv in H. lra.
Qed.

Lemma fit_defined pts p q r :
  (forall s, In s pts -> 0 <= fst s) ->
  In p pts -> In q pts -> In r pts -> fst p <> fst q -> fst p <> fst r -> fst q <> fst r ->
  nn pts <> 0 /\ den_of pts <> 0 /\ temp_of pts <> 0.
Proof.
  intros Hnn Hp Hq Hr N1 N2 N3.
  pose proof (nn_pos _ _ Hp). pose proof (den_pos _ _ _ Hnn Hp Hq N1).
  pose proof (det3_pos _ _ _ _ Hp Hq Hr N1 N2 N3).
  repeat split; try lra. rewrite temp_det. apply Rmult_integral_contrapositive. lra.
Qed.

(** ** R^2 *)
Lemma sst_zero_iff pts :
  total (fun p => (snd p - mean_y pts)^2) pts = 0 <->
  (forall p q, In p pts -> In q pts -> snd p = snd q).
Proof.
  split.
  - intros H p q Hp Hq.
    assert (Hall : forall s, In s pts -> snd s = mean_y pts).
    { intros s Hs. destruct (Req_dec (snd s) (mean_y pts)) as [|E]; auto.
      exfalso. assert (0 < total (fun p => (snd p - mean_y pts)^2) pts); [|lra].
      apply total_pos with s; auto; intros; [apply pow2_ge_0|]. apply pow2_gt_0. lra. }
    rewrite (Hall p), (Hall q); auto.
  - intros H. destruct pts as [|p0 l]; [reflexivity|].
    assert (Hm : mean_y (p0 :: l) = snd p0).
    { unfold mean_y.
      rewrite (total_ext snd (fun _ => snd p0)) by (intros s Hs; apply H; simpl; auto).
      rewrite total_const. field. pose proof (nn_pos (p0::l) p0 (or_introl eq_refl)).
      unfold nn in *. lra. }
    rewrite Hm.
    rewrite (total_ext _ (fun _ => 0)).
    + rewrite total_const. ring.
    + intros s Hs. rewrite (H s p0) by (simpl; auto). ring.
Qed.

Lemma r2_of_spec pts :
  (exists p q, In p pts /\ In q pts /\ snd p <> snd q) ->
  r2_of pts = Ok (1 - squared_residuals pts (a_of pts) (b_of pts) (c_of pts)
                      / total (fun p => (snd p - mean_y pts)^2) pts)
  /\ 0 < total (fun p => (snd p - mean_y pts)^2) pts.
Proof.
  intros (p & q & Hp & Hq & Hne).
  assert (Hnz : total (fun p => (snd p - mean_y pts)^2) pts <> 0).
  { intros E. apply Hne. revert E p q Hp Hq Hne. intros E p q Hp Hq _.
    apply (proj1 (sst_zero_iff pts) E); auto. }
  unfold r2_of. rewrite npdiv_ok by exact Hnz. split; [reflexivity|].
  assert (0 <= total (fun p => (snd p - mean_y pts)^2) pts)
    by (apply total_nonneg; intros; apply pow2_ge_0). lra.
Qed.

Lemma r2_of_const pts :
  (forall p q, In p pts -> In q pts -> snd p = snd q) -> r2_of pts = Err NotFinite.
Proof. intros H. apply sst_zero_iff in H. unfold r2_of. rewrite npdiv_zero; auto. Qed.

Lemma squared_residuals_nonneg pts a b c : 0 <= squared_residuals pts a b c.
Proof. apply total_nonneg. intros. apply pow2_ge_0. Qed.

Lemma r2_range pts r :
  nn pts <> 0 -> den_of pts <> 0 -> temp_of pts <> 0 ->
  r2_of pts = Ok r -> 0 <= r <= 1.
Proof.
  intros Hn Hd Ht H. unfold r2_of in H.
  destruct (Req_EM_T (total (fun p => (snd p - mean_y pts)^2) pts) 0) as [E|E];
    [rewrite npdiv_zero in H by exact E; discriminate|].
  rewrite npdiv_ok in H by exact E. cbn [bind] in H.
  match type of H with Ok ?x = _ => assert (Hr : r = x) by congruence end. clear H. subst r.
  assert (Hs : 0 < total (fun p => (snd p - mean_y pts)^2) pts).
  { assert (0 <= total (fun p => (snd p - mean_y pts)^2) pts)
      by (apply total_nonneg; intros; apply pow2_ge_0). lra. }
  pose proof (squared_residuals_nonneg pts (a_of pts) (b_of pts) (c_of pts)) as H0.
  pose proof (fit_optimal pts 0 0 (mean_y pts) Hn Hd Ht) as H1.
  assert (E2 : squared_residuals pts 0 0 (mean_y pts) = total (fun p => (snd p - mean_y pts)^2) pts).
  { apply total_ext. intros. unfold parabola. f_equal. ring. }
  rewrite E2 in H1.
  assert (0 <= squared_residuals pts (a_of pts) (b_of pts) (c_of pts)
               / total (fun p => (snd p - mean_y pts)^2) pts <= 1).
  { split; [apply Rmult_le_pos; [auto|left; apply Rinv_0_lt_compat; auto]|].
    apply Rmult_le_reg_r with (total (fun p => (snd p - mean_y pts)^2) pts); auto.
    unfold Rdiv. rewrite Rmult_assoc, Rinv_l by lra. lra. }
  match goal with H : 0 <= ?q <= 1 |- _ => generalize dependent q end.
  intros q Hq. lra.
Qed.

(** ** Exact parabolas *)
Lemma fit_exact pts a b c :
  nn pts <> 0 -> den_of pts <> 0 -> temp_of pts <> 0 ->
  (forall p, In p pts -> snd p = parabola a b c (fst p)) ->
  a_of pts = a /\ b_of pts = b /\ c_of pts = c.
Proof.
  intros Hn Hd Ht H.
  assert (Ey : Sy pts = a * S2 pts + b * S1 pts + c * nn pts
          /\ Sxy pts = a * S3 pts + b * S2 pts + c * S1 pts
          /\ Sx2y pts = a * S4 pts + b * S3 pts + c * S2 pts).
  { clear Hn Hd Ht. unfold Sy, Sxy, Sx2y, S1, S2, S3, S4, nn, parabola in *.
    induction pts as [|[x y] l IH]; [simpl; repeat split; ring|].
    destruct IH as (I1 & I2 & I3); [intros; apply H; simpl; auto|].
    pose proof (H (x, y) (or_introl eq_refl)) as Hy. cbn [fst snd] in Hy.
    cbn [total fold_right length fst snd] in *. rewrite S_INR.
    unfold total in I1, I2, I3. rewrite I1, I2, I3, Hy. repeat split; ring. }
  destruct Ey as (Ey & Exy & Ex2y).
  assert (Eb : b_of pts = b).
  { unfold b_of. assert (temp2_of pts = b * temp_of pts).
    { unfold temp2_of, temp_of. rewrite Ey, Exy, Ex2y. unfold den_of. ring. }
    rewrite H0. field. exact Ht. }
  assert (Ea : a_of pts = a).
  { unfold a_of. rewrite Eb.
    assert (nn pts * Sxy pts - Sy pts * S1 pts - b * (S2 pts * nn pts - S1 pts * S1 pts)
            = a * den_of pts).
    { rewrite Ey, Exy. unfold den_of. ring. }
    rewrite H0. field. exact Hd. }
  split; [exact Ea|split; [exact Eb|]].
  unfold c_of. rewrite Ea, Eb, Ey. field. exact Hn.
Qed.

(** ** Uniqueness *)
Lemma total_sq_zero {P} (f : P -> R) l p :
  total (fun q => (f q)^2) l <= 0 -> In p l -> f p = 0.
Proof.
  intros H Hp. destruct (Req_dec (f p) 0) as [|E]; auto. exfalso.
  assert (0 < total (fun q => (f q)^2) l); [|lra].
  apply total_pos with p; auto; intros; [apply pow2_ge_0|]. apply pow2_gt_0; auto.
Qed.

Lemma fit_unique pts a b c :
  nn pts <> 0 -> den_of pts <> 0 -> temp_of pts <> 0 ->
  squared_residuals pts a b c <= squared_residuals pts (a_of pts) (b_of pts) (c_of pts) ->
  a = a_of pts /\ b = b_of pts /\ c = c_of pts.
Proof.
  intros Hn Hd Ht Hle.
  destruct (normal_equations pts Hn Hd Ht) as (E1 & E2 & E3). cbv zeta in *.
  rewrite (residual_split pts (a_of pts) (b_of pts) (c_of pts) a b c), cross_term in Hle.
  rewrite <- E1, <- E2, <- E3 in Hle.
  assert (Hz : total (fun p => (parabola (a_of pts - a) (b_of pts - b) (c_of pts - c) (fst p))^2) pts <= 0)
    by lra.
  assert (Hon : forall p, In p pts -> parabola (a_of pts - a) (b_of pts - b) (c_of pts - c) (fst p) = 0).
  { intros p Hp.
    exact (total_sq_zero (fun p : R * R => parabola (a_of pts - a) (b_of pts - b) (c_of pts - c) (fst p)) pts p Hz Hp). }
  assert (Hxs : forall (qs : list (R*R)), (forall p, In p qs -> parabola (a_of pts - a) (b_of pts - b) (c_of pts - c) (fst p) = 0) ->
     0 = (a_of pts - a) * S2 qs + (b_of pts - b) * S1 qs + (c_of pts - c) * nn qs
     /\ 0 = (a_of pts - a) * S3 qs + (b_of pts - b) * S2 qs + (c_of pts - c) * S1 qs
     /\ 0 = (a_of pts - a) * S4 qs + (b_of pts - b) * S3 qs + (c_of pts - c) * S2 qs).
  { generalize (a_of pts - a) (b_of pts - b) (c_of pts - c). intros d e f.
    unfold S1, S2, S3, S4, nn, parabola.
    induction qs as [|[x y] l IH]; intros HH; [simpl; repeat split; ring|].
    destruct IH as (I1 & I2 & I3); [intros; apply HH; simpl; auto|].
    pose proof (HH (x, y) (or_introl eq_refl)) as Hy. cbn [fst snd] in Hy.
    cbn [total fold_right length fst snd] in *. rewrite S_INR.
    unfold total in I1, I2, I3.
    repeat split.
    - transitivity ((d * x ^ 2 + e * x + f) + 0); [lra|]. rewrite I1 at 1. ring.
    - transitivity ((d * x ^ 2 + e * x + f) * x + 0); [rewrite Hy; ring|]. rewrite I2 at 1. ring.
    - transitivity ((d * x ^ 2 + e * x + f) * x^2 + 0); [rewrite Hy; ring|]. rewrite I3 at 1. ring. }
  destruct (Hxs pts Hon) as (F1 & F2 & F3).
  set (d := a_of pts - a) in *. set (e := b_of pts - b) in *. set (f := c_of pts - c) in *.
  assert (Ee : e * temp_of pts = 0).
  { transitivity (den_of pts * ((d * S2 pts + e * S1 pts + f * nn pts) * S2 pts
                                - (d * S4 pts + e * S3 pts + f * S2 pts) * nn pts)
      + ((d * S3 pts + e * S2 pts + f * S1 pts) * nn pts
         - (d * S2 pts + e * S1 pts + f * nn pts) * S1 pts)
        * (S4 pts * nn pts - S2 pts * S2 pts)).
    - unfold temp_of, den_of. ring.
    - rewrite <- F1, <- F2, <- F3. ring. }
  apply Rmult_integral in Ee. destruct Ee as [Ee|Ee]; [|contradiction].
  assert (Ed : d * den_of pts = 0).
  { transitivity (nn pts * (d * S3 pts + e * S2 pts + f * S1 pts)
                  - (d * S2 pts + e * S1 pts + f * nn pts) * S1 pts
                  - e * (S2 pts * nn pts - S1 pts * S1 pts)).
    - unfold den_of. ring.
    - rewrite <- F1, <- F2, Ee. ring. }
  apply Rmult_integral in Ed. destruct Ed as [Ed|Ed]; [|contradiction].
  assert (Ef : f * nn pts = 0) by (rewrite Ee, Ed in F1; lra).
  apply Rmult_integral in Ef. destruct Ef as [Ef|Ef]; [|contradiction].
  unfold d, e, f in *. lra.
Qed.

Lemma sst_nonzero pts :
  total (fun p => (snd p - mean_y pts)^2) pts <> 0 ->
  exists p q, In p pts /\ In q pts /\ snd p <> snd q.
Proof.
  intros E. destruct pts as [|p0 l]; [exfalso; apply E; reflexivity|].
  destruct (Forall_Exists_dec (fun q : R*R => snd q = snd p0)
              (fun q => Req_EM_T (snd q) (snd p0)) (p0 :: l)) as [H|H].
  - exfalso. apply E. apply sst_zero_iff. intros p q Hp Hq.
    rewrite Forall_forall in H. rewrite (H p Hp), (H q Hq). reflexivity.
  - apply Exists_exists in H. destruct H as (q & Hq & Hne).
    exists q, p0. split; [exact Hq|]. split; [left; reflexivity|exact Hne].
Qed.
