(** * FlangeCellP: every rating of the tables is between 0 and 500 bar, and at least 1 bar but for class 150. *)
From Coq Require Import String ZArith QArith Reals Qreals List Bool Lra Lia.
From Flocq Require Import Core.
From Verif Require Import PyBase Pint UnitsM Spec QLemmas Csv TableSpec Tables StressP InterpP NumQ
  FlangeM FlangeP FlangeT FlangeRoundP FlangeGapP RoundM RoundSpec.
Import ListNotations.
Local Open Scope R_scope.

Definition cell_row (tab : flange_table) (row : list Q) : bool :=
  forallb (fun c => Qle_bool (if String.eqb c "150" then 0 else 1) (fnum tab row c)
    && Qle_bool (fnum tab row c) 500) class_names.
Definition cell_facts (m : string) : bool :=
  match group_of m with
  | Ok g => match FLANGE_LIMITS g with
            | Ok tab => forallb (cell_row tab) (fl_rows tab)
            | Err _ => false
            end
  | Err _ => false
  end.
Lemma cell_facts_hold : forallb cell_facts available_materials = true.
Proof. vm_compute. reflexivity. Qed.
Local Opaque TUBE_MATERIALS flange_file FLANGE_LIMITS.

Lemma cell_bounds m f tab row c : rates m f tab -> In row (f_rows f) -> In c class_names ->
  (if String.eqb c "150" then 0 else 1) <= Q2R (fnum tab (map num_or_zero row) c) <= 500.
Proof.
  intros H Ir Ic.
  pose proof cell_facts_hold as K. rewrite forallb_forall in K.
  specialize (K m (ra_in _ _ _ H)). unfold cell_facts in K.
  destruct (ra_group _ _ _ H) as (g & G & Lt). rewrite G, Lt in K.
  rewrite forallb_forall in K. specialize (K (map num_or_zero row)).
  rewrite (ra_rows _ _ _ H) in K.
  specialize (K (in_map (map num_or_zero) _ _ Ir)).
  unfold cell_row in K. rewrite forallb_forall in K. specialize (K c Ic). cbv beta in K.
  apply andb_true_iff in K. destruct K as [K1 K2]. apply Qle_bool_le in K1, K2.
  assert (X : Q2R 1 = 1) by (q2r; lra). assert (Y : Q2R 500 = 500) by (q2r; lra).
  assert (Z : Q2R 0 = 0) by (q2r; lra).
  destruct (String.eqb c "150"); lra.
Qed.

Lemma line_between T1 T2 a b t lo hi : T1 < T2 -> T1 <= t <= T2 -> lo <= a <= hi -> lo <= b <= hi ->
  lo <= line (T1, a) (T2, b) t <= hi.
Proof.
  intros L X A B. split.
  - pose proof (line_gap T1 T2 lo lo a b t 0 L X ltac:(lra) ltac:(lra)) as K.
    rewrite line_const in K. lra.
  - pose proof (line_gap T1 T2 a b hi hi t 0 L X ltac:(lra) ltac:(lra)) as K.
    rewrite line_const in K. lra.
Qed.

Lemma rating_bounds strict m f c temp x q :
  In m available_materials -> rated_by TUBE_MATERIALS flange_file m f ->
  In c (pressure_classes f) -> denotes temp d_temperature x ->
  get_max_pressure strict c temp (NStr m) = Ok q ->
  (if String.eqb c "150" then 0 else 100000) <= q_mag q <= 50000000.
Proof.
  intros I Rb P1 D E1.
  destruct (rates_of m f I Rb) as (tab & H).
  pose proof P1 as I1. rewrite (rates_classes _ _ _ H) in I1.
  destruct (rated_segment _ _ _ _ _ _ _ _ H I1 D E1) as
    (r1 & r2 & T1 & T2 & C & B1 & B2 & Lt & Ex & X).
  assert (J : In r1 (f_rows f) /\ In r2 (f_rows f)).
  { destruct C as (u & v & ->). split; apply in_or_app; right; [now left | now right; left]. }
  destruct J as [J1 J2].
  rewrite Ex in D.
  destruct (row_tabulated _ _ _ r1 c H I1 J1) as [_ F11].
  destruct (row_tabulated _ _ _ r2 c H I1 J2) as [_ F21].
  destruct (max_pressure_line strict m f c temp _ _ _ _ _ _ _ I Rb P1 C B1 F11 B2 F21 D X)
    as (q1' & E1' & (_ & M1 & _)).
  rewrite E1 in E1'; injection E1' as <-.
  rewrite M1. pose proof (cell_bounds _ _ _ _ _ H J1 I1). pose proof (cell_bounds _ _ _ _ _ H J2 I1).
  apply line_between; try assumption; destruct (String.eqb c "150"); lra.
Qed.

Lemma double_of_double x : double (double x) = double x.
Proof.
  unfold double. apply round_generic; [apply valid_rnd_N|].
  apply generic_format_round; [apply FLX_exp_valid; unfold Prec_gt_0; lia|apply valid_rnd_N].
Qed.
