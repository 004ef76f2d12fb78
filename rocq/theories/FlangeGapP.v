(** * FlangeGapP: ratings of two flange classes are at least a tenth of a bar apart. *)
From Coq Require Import String ZArith QArith Reals Qreals List Bool Lra Lia.
From Verif Require Import PyBase Pint UnitsM Spec QLemmas Csv TableSpec Tables StressP InterpP NumQ
  FlangeM FlangeP FlangeT FlangeRoundP.
Import ListNotations.
Local Open Scope R_scope.

Definition gap_row (tab : flange_table) (row : list Q) : bool :=
  forallb (fun c1 => forallb (fun c2 =>
    match int_of c1, int_of c2 with
    | Ok a, Ok b => if Z.ltb a b then Qle_bool (1#10) (fnum tab row c2 - fnum tab row c1) else true
    | _, _ => false
    end) class_names) class_names.
Definition class_gap_facts (m : string) : bool :=
  match group_of m with
  | Ok g => match FLANGE_LIMITS g with
            | Ok tab => forallb (gap_row tab) (fl_rows tab)
            | Err _ => false
            end
  | Err _ => false
  end.
Lemma class_gap_facts_hold : forallb class_gap_facts available_materials = true.
Proof. vm_compute. reflexivity. Qed.
Local Opaque TUBE_MATERIALS flange_file FLANGE_LIMITS.

Lemma row_gap m f tab row c1 c2 a b : rates m f tab -> In row (f_rows f) ->
  In c1 class_names -> In c2 class_names -> int_of c1 = Ok a -> int_of c2 = Ok b ->
  (a < b)%Z ->
  Q2R (fnum tab (map num_or_zero row) c1) + 1/10 <= Q2R (fnum tab (map num_or_zero row) c2).
Proof.
  intros H Ir I1 I2 A B L.
  pose proof class_gap_facts_hold as K. rewrite forallb_forall in K.
  specialize (K m (ra_in _ _ _ H)). unfold class_gap_facts in K.
  destruct (ra_group _ _ _ H) as (g & G & Lt). rewrite G, Lt in K.
  rewrite forallb_forall in K. specialize (K (map num_or_zero row)).
  rewrite (ra_rows _ _ _ H) in K.
  specialize (K (in_map (map num_or_zero) _ _ Ir)).
  unfold gap_row in K. rewrite forallb_forall in K. specialize (K c1 I1). cbv beta in K.
  rewrite forallb_forall in K. specialize (K c2 I2). cbv beta in K.
  rewrite A, B in K. rewrite (proj2 (Z.ltb_lt a b) L) in K.
  apply Qle_bool_le in K. rewrite Q2R_minus in K. assert (X : Q2R (1#10) = 1/10) by (q2r; lra). lra.
Qed.

Lemma line_gap T1 T2 a1 a2 b1 b2 t g : T1 < T2 -> T1 <= t <= T2 -> a1 + g <= b1 -> a2 + g <= b2 ->
  line (T1, a1) (T2, a2) t + g <= line (T1, b1) (T2, b2) t.
Proof.
  intros L X A B. unfold line; cbn [fst snd].
  assert (S : 0 <= (t - T1) / (T2 - T1) <= 1).
  { split; [apply Rmult_le_pos; [lra | left; apply Rinv_0_lt_compat; lra]|].
    apply Rmult_le_reg_r with (T2 - T1); [lra|].
    unfold Rdiv. rewrite Rmult_assoc, Rinv_l by lra. lra. }
  set (s := (t - T1) / (T2 - T1)) in *.
  assert (0 <= (1 - s) * (b1 - a1 - g)) by (apply Rmult_le_pos; lra).
  assert (0 <= s * (b2 - a2 - g)) by (apply Rmult_le_pos; lra). lra.
Qed.

Lemma rating_class_gap strict m f c1 c2 n1 n2 temp x q1 q2 :
  In m available_materials -> rated_by TUBE_MATERIALS flange_file m f ->
  In c1 (pressure_classes f) -> In c2 (pressure_classes f) ->
  parse_number c1 = Some n1 -> parse_number c2 = Some n2 -> (n1 < n2)%Q ->
  denotes temp d_temperature x ->
  get_max_pressure strict c1 temp (NStr m) = Ok q1 ->
  get_max_pressure strict c2 temp (NStr m) = Ok q2 ->
  q_mag q1 + 10000 <= q_mag q2.
Proof.
  intros I Rb P1 P2 A1 A2 L D E1 E2.
  destruct (rates_of m f I Rb) as (tab & H).
  pose proof P1 as I1. pose proof P2 as I2. rewrite (rates_classes _ _ _ H) in I1, I2.
  destruct (class_number _ _ I1 A1) as [Z1 Y1], (class_number _ _ I2 A2) as [Z2 Y2].
  assert (Lz : (Qnum n1 < Qnum n2)%Z) by (unfold Qlt in L; rewrite Y1, Y2 in L; lia).
  destruct (rated_segment _ _ _ _ _ _ _ _ H I1 D E1) as
    (r1 & r2 & T1 & T2 & C & B1 & B2 & Lt & Ex & X).
  assert (J : In r1 (f_rows f) /\ In r2 (f_rows f)).
  { destruct C as (u & v & ->). split; apply in_or_app; right; [now left | now right; left]. }
  destruct J as [J1 J2].
  rewrite Ex in D.
  destruct (row_tabulated _ _ _ r1 c1 H I1 J1) as [_ F11].
  destruct (row_tabulated _ _ _ r2 c1 H I1 J2) as [_ F21].
  destruct (row_tabulated _ _ _ r1 c2 H I2 J1) as [_ F12].
  destruct (row_tabulated _ _ _ r2 c2 H I2 J2) as [_ F22].
  destruct (max_pressure_line strict m f c1 temp _ _ _ _ _ _ _ I Rb P1 C B1 F11 B2 F21 D X)
    as (q1' & E1' & (_ & M1 & _)).
  destruct (max_pressure_line strict m f c2 temp _ _ _ _ _ _ _ I Rb P2 C B1 F12 B2 F22 D X)
    as (q2' & E2' & (_ & M2 & _)).
  rewrite E1 in E1'; injection E1' as <-. rewrite E2 in E2'; injection E2' as <-.
  rewrite M1, M2. apply line_gap; try assumption.
  - pose proof (row_gap _ _ _ _ _ _ _ _ H J1 I1 I2 Z1 Z2 Lz). lra.
  - pose proof (row_gap _ _ _ _ _ _ _ _ H J2 I1 I2 Z1 Z2 Lz). lra.
Qed.
