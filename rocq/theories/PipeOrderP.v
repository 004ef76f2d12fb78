(** * PipeOrderP: walls of one size are equal or a thousandth of an inch apart. *)
From Coq Require Import String ZArith QArith Reals Qreals List Bool Lra Lia.
From Verif Require Import PyBase Pint UnitsM Spec QLemmas Csv TableSpec Tables NumQ
  TubeM TubeP StressP PipeP DesignP RoundM RoundSpec RoundPipeSpec RoundPipeP.
Import ListNotations.
Local Open Scope R_scope.

Definition gap_facts : bool :=
  forallb (fun row =>
    match num_cell (f_cols PIPE_SCHEDULES) row "OD" with
    | Some od => Qle_bool od 48
    | None => true
    end && forallb (fun c => forallb (fun c' =>
    match num_cell (f_cols PIPE_SCHEDULES) row c, num_cell (f_cols PIPE_SCHEDULES) row c' with
    | Some w, Some w' => (Qle_bool w' w || Qle_bool (1#1000) (w' - w))%bool
    | _, _ => true
    end) schedule_columns) schedule_columns)%bool (f_rows PIPE_SCHEDULES).
Lemma gap_facts_true : gap_facts = true.
Proof. vm_compute. reflexivity. Qed.

Lemma wall_gap size sc1 sc2 od w1 w2 :
  entry PIPE_SCHEDULES size "OD" od ->
  entry PIPE_SCHEDULES size sc1 w1 -> entry PIPE_SCHEDULES size sc2 w2 ->
  sc1 <> "Size"%string -> sc1 <> "OD"%string -> sc2 <> "Size"%string -> sc2 <> "OD"%string ->
  Q2R od <= 48 /\ (Q2R w1 < Q2R w2 -> 1/1000 <= Q2R w2 - Q2R w1).
Proof.
  intros Eo E1 E2 A1 B1 A2 B2.
  apply entry_row in Eo as (row & Rw & Co); [|exact pipe_labels].
  apply entry_row in E1 as (row1 & Rw1 & C1); [|exact pipe_labels].
  apply entry_row in E2 as (row2 & Rw2 & C2); [|exact pipe_labels].
  rewrite Rw in Rw1, Rw2. injection Rw1 as <-. injection Rw2 as <-.
  assert (I1 : In sc1 schedule_columns) by (apply schedule_columns_iff; apply num_cell_col in C1; auto).
  assert (I2 : In sc2 schedule_columns) by (apply schedule_columns_iff; apply num_cell_col in C2; auto).
  pose proof gap_facts_true as F. unfold gap_facts in F.
  rewrite forallb_forall in F. specialize (F _ (proj1 (row_of_some _ _ _ Rw))). cbn beta in F.
  rewrite Co in F. apply andb_true_iff in F as (F0 & F).
  rewrite forallb_forall in F. specialize (F _ I1). cbn beta in F.
  rewrite forallb_forall in F. specialize (F _ I2). cbn beta in F. rewrite C1, C2 in F.
  apply Qle_bool_le in F0. assert (H40 : Q2R 48 = 48) by (q2r; lra). split; [lra|]. intros L.
  apply orb_true_iff in F as [F|F]; apply Qle_bool_le in F; [lra|].
  rewrite Q2R_minus in F. assert (Q2R (1#1000) = 1/1000) by (q2r; lra). lra.
Qed.

(** The gap between the ratings. *)
Lemma rating_gap S sf od w1 w2 : 1 <= S -> 0 < sf -> 0 < w1 -> w1 + 1/1000 <= w2 -> 2 * w2 < od -> od <= 48 ->
  S * (2 * w1) / (sf * (od - w1)) + 4.1e-5 / sf <= S * (2 * w2) / (sf * (od - w2)).
Proof.
  intros HS F W1 G W2 O.
  assert (P1 : 0 < od - w1) by lra. assert (P2 : 0 < od - w2) by lra.
  replace (S * (2 * w1) / (sf * (od - w1))) with (2 * S * (w1 / (od - w1)) / sf) by (field; lra).
  replace (S * (2 * w2) / (sf * (od - w2))) with (2 * S * (w2 / (od - w2)) / sf) by (field; lra).
  assert (K : 2.05e-5 <= w2 / (od - w2) - w1 / (od - w1)).
  { replace (w2 / (od - w2) - w1 / (od - w1)) with (od * (w2 - w1) / ((od - w1) * (od - w2))) by (field; lra).
    apply Rmult_le_reg_r with ((od - w1) * (od - w2)); [apply Rmult_lt_0_compat; lra|].
    replace (od * (w2 - w1) / ((od - w1) * (od - w2)) * ((od - w1) * (od - w2))) with (od * (w2 - w1)) by (field; lra).
    apply Rle_trans with (2.05e-5 * (od * od)).
    - apply Rmult_le_compat_l; [lra|]. apply Rmult_le_compat; lra.
    - replace (2.05e-5 * (od * od)) with (od * (2.05e-5 * od)) by ring. apply Rmult_le_compat_l; lra. }
  unfold Rdiv. rewrite <- Rmult_plus_distr_r. apply Rmult_le_compat_r; [left; now apply Rinv_0_lt_compat|].
  set (a := w1 * / (od - w1)) in *. set (b := w2 * / (od - w2)) in *. unfold Rdiv in K. fold a b in K.
  assert (1 * (b - a) <= S * (b - a)) by (apply Rmult_le_compat_r; lra). lra.
Qed.

(** The same wall: the same call in any rounded arithmetic. *)
Lemma same_wall rnd size sc1 sc2 w1 w2 temp m w sf reg :
  entry PIPE_SCHEDULES size sc1 w1 -> entry PIPE_SCHEDULES size sc2 w2 ->
  sc1 <> "Size"%string -> sc1 <> "OD"%string -> sc2 <> "Size"%string -> sc2 <> "OD"%string ->
  Q2R w1 = Q2R w2 -> (exists v, @lookup_unit R (Num_rounded rnd) "in" = Some v) ->
  @rated_pipe R (Num_rounded rnd) size sc1 temp m w sf reg = @rated_pipe R (Num_rounded rnd) size sc2 temp m w sf reg.
Proof.
  intros E1 E2 A1 B1 A2 B2 Q (v & Lv).
  apply entry_row in E1 as (row & Rw & C1); [|exact pipe_labels].
  apply entry_row in E2 as (row2 & Rw2 & C2); [|exact pipe_labels].
  rewrite Rw in Rw2. injection Rw2 as <-.
  assert (I1 : In sc1 schedule_columns) by (apply schedule_columns_iff; apply num_cell_col in C1; auto).
  assert (I2 : In sc2 schedule_columns) by (apply schedule_columns_iff; apply num_cell_col in C2; auto).
  destruct (pipe_row_facts _ _ Rw) as [(od & Co & _) _].
  unfold rated_pipe.
  rewrite (get_dimensions_any (Num_rounded rnd) _ _ _ _ _ reg v Rw I1 Co C1 Lv).
  rewrite (get_dimensions_any (Num_rounded rnd) _ _ _ _ _ reg v Rw I2 Co C2 Lv).
  cbn [bind inner_diameter outer_diameter nofQ Num_rounded]. rewrite Q. reflexivity.
Qed.
