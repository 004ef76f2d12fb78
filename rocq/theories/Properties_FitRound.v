(** * Properties_FitRound: C114 (cj_curve_fit: order of summation and rounding). *)
From Coq Require Import ZArith QArith Qreals Reals Lra Lia List Bool Permutation.
From Verif Require Import PyBase QLemmas NumQ RoundM RoundSpec DoubleQ FitM FitSpec FitP FitRoundP.
Import ListNotations.
Local Open Scope R_scope.

(** In exact arithmetic the fit does not depend on the order in which numpy adds, so
    C55-C58 hold for every order. *)
Theorem C114_any_order_of_summation :
  forall (sum : list R -> R) (x y : list R),
    (forall l, added Rplus 0 l (sum l)) -> cj_curve_fit_by sum x y = cj_curve_fit x y.
Proof. exact fit_by_order. Qed.
Print Assumptions C114_any_order_of_summation.
(** numpy's own order is one, and so is left to right, in any arithmetic. *)
Theorem C114_numpy_order :
  forall (A : Type) (NA : Num A) (l : list A),
    added nadd zero l (numpy_sum l) /\ added nadd zero l (np_sum l).
Proof. intros A NA l. split; [apply numpy_sum_added | apply np_sum_added]. Qed.
Print Assumptions C114_numpy_order.

(** Partial: whatever the rounding, the order of summation and the data, the reported R^2
    is at most one.  Missing: that it is close to one on a parabola (refuted below). *)
Theorem C114_r_squared_at_most_one_partial :
  forall (u : R) (rnd : R -> R) (sum : list R -> R) (x y : list R) (f : fit R) (r : R),
    rounding u rnd ->
    (forall l, added (fun a b => rnd (a + b)) 0 l (sum l)) ->
    @cj_curve_fit_by R (Num_rounded rnd) sum x y = Ok f -> fit_r2 f = Ok r -> r <= 1.
Proof.
  intros u rnd sum x y f r Rn S E E2.
  apply (r2_at_most_one u rnd Rn sum x y f r); [|exact E | exact E2].
  intros l. rewrite (rzero u rnd Rn). exact (S l).
Qed.
Print Assumptions C114_r_squared_at_most_one_partial.

(** Refuted in double precision.  21 density ratios from 999/512 - 10/8192 to
    999/512 + 10/8192, evenly spaced (the half width is 0.0626 % of the ratio; cj_speed
    uses 0.1 %), and the speeds 2000 + 2048 (x - 999/512)^2: all data are doubles and lie on
    the parabola without any rounding.  In double precision, added left to right or in
    numpy's order, the fitted curvature is off by more than 2 %, and R^2 is below the
    0.99999 that cj_speed compares it with. *)
Definition ratios : list Q :=
  map (fun k => Qred ((999#512) + inject_Z (Z.of_nat k - 10) * (1#8192))%Q) (seq 0 21).
Definition speeds : list Q :=
  map (fun x => Qred (2000 + 2048 * ((x - (999#512)) * (x - (999#512))))%Q) ratios.
Theorem C114_double_precision_refuted :
  let v := 999/512 in
  (forall x, In x ratios -> double (Q2R x) = Q2R x)
  /\ (forall y, In y speeds -> double (Q2R y) = Q2R y)
  /\ map Q2R speeds = map (fun x => 2000 + 2048 * (x - v)^2) (map Q2R ratios)
  /\ length ratios = 21%nat
  /\ (forall x, In x ratios -> v * (1 - 1/1000) <= Q2R x <= v * (1 + 1/1000))
  /\ forall sum, sum = @np_sum R (Num_rounded double) \/ sum = @numpy_sum R (Num_rounded double) ->
     exists f r,
       @cj_curve_fit_by R (Num_rounded double) sum (map Q2R ratios) (map Q2R speeds) = Ok f
       /\ Rabs (fit_a f - 2048) > 2048 * (2/100)
       /\ fit_r2 f = Ok r /\ r < 0.9996.
Proof.
  cbv zeta.
  assert (Ex : forall l, forallb (fun q => Qeq_bool (doubleQ q) q) l = true ->
                forall q, In q l -> double (Q2R q) = Q2R q).
  { intros l H q I. rewrite forallb_forall in H. specialize (H q I).
    rewrite doubleQ_ok. apply Qeq_eqR, Qeq_bool_iff, H. }
  split; [apply Ex; vm_compute; reflexivity|]. split; [apply Ex; vm_compute; reflexivity|].
  split.
  { unfold speeds. rewrite !map_map. apply map_ext. intros q.
    rewrite Q2R_red, Q2R_plus, !Q2R_mult, !Q2R_minus.
    replace (Q2R 2000) with 2000 by (q2r; lra). replace (Q2R 2048) with 2048 by (q2r; lra).
    replace (Q2R (999#512)) with (999/512) by (q2r; lra). ring. }
  split; [reflexivity|]. split.
  { intros q I.
    assert (H : forallb (fun q => Qle_bool ((999#512) * (999#1000)) q
                                  && Qle_bool q ((999#512) * (1001#1000)))%bool ratios = true)
      by (vm_compute; reflexivity).
    rewrite forallb_forall in H. specialize (H q I). apply andb_true_iff in H as [H1 H2].
    apply Qle_bool_le in H1, H2. rewrite Q2R_mult in H1, H2. revert H1 H2. q2r. lra. }
  assert (Cmp : forall sumQ, sumQ = @np_sum Q Num_doubleQ \/ sumQ = @numpy_sum Q Num_doubleQ ->
    match @cj_curve_fit_by Q Num_doubleQ sumQ ratios speeds with
    | Ok f => match fit_r2 f with
              | Ok r => (Qle_bool (2089#1) (fit_a f) && Qltb r (9996#10000))%bool
              | Err _ => false end
    | Err _ => false end = true).
  { intros sumQ [-> | ->]; vm_compute; reflexivity. }
  intros sum Hs.
  assert (T : exists sumQ, (sumQ = @np_sum Q Num_doubleQ \/ sumQ = @numpy_sum Q Num_doubleQ)
                           /\ forall l, sum (map Q2R l) = Q2R (sumQ l)).
  { destruct Hs as [-> | ->].
    - exists (@np_sum Q Num_doubleQ). split; [now left | exact tr_sum].
    - exists (@numpy_sum Q Num_doubleQ). split; [now right | exact tr_numpy]. }
  destruct T as (sumQ & Hq & T). specialize (Cmp sumQ Hq).
  rewrite (fit_transfer sum sumQ _ _ T).
  destruct (@cj_curve_fit_by Q Num_doubleQ sumQ ratios speeds) as [f|]; [|discriminate].
  destruct (fit_r2 f) as [r|] eqn:Er; [|discriminate].
  apply andb_true_iff in Cmp as [C1 C2]. apply Qle_bool_le in C1. apply Qltb_lt in C2.
  exists (fit_R f), (Q2R r). split; [reflexivity|]. unfold fit_R; cbn [fit_a fit_r2].
  rewrite Er. cbn [res_map]. split; [|split; [reflexivity|]].
  - revert C1. q2r. intros C1. rewrite Rabs_pos_eq; lra.
  - revert C2. q2r. lra.
Qed.
Print Assumptions C114_double_precision_refuted.
(** The partial theorem's hypotheses are met: double precision is a rounding
    (RoundSpec.double_rounding), numpy's order is an order (C114_numpy_order), and the fit
    above returns. *)
Example C114_case :
  rounding double_unit double
  /\ (forall l, added (fun a b => double (a + b)) 0 l (@numpy_sum R (Num_rounded double) l)).
Proof.
  split; [exact double_rounding|]. intros l.
  pose proof (@numpy_sum_added R (Num_rounded double) l) as H.
  rewrite (rzero double_unit double double_rounding) in H. exact H.
Qed.
