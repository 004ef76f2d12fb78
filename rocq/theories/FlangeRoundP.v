(** * FlangeRoundP: round trips through the three flange functions. *)
From Coq Require Import String ZArith QArith Reals Qreals List Bool Lra Lia.
From Verif Require Import PyBase Pint UnitsM Spec QLemmas Csv TableSpec Tables StressP InterpP NumQ
  FlangeM FlangeP FlangeT.
Import ListNotations.
Local Open Scope R_scope.

(** In every row of every applicable rating file a larger class has a larger rating. *)
Definition strict_row (tab : flange_table) (row : list Q) : bool :=
  forallb (fun c1 => forallb (fun c2 =>
    match int_of c1, int_of c2 with
    | Ok a, Ok b => if Z.ltb a b then Qltb (fnum tab row c1) (fnum tab row c2) else true
    | _, _ => false
    end) class_names) class_names.
Definition strict_facts (m : string) : bool :=
  match group_of m with
  | Ok g => match FLANGE_LIMITS g with
            | Ok tab => forallb (strict_row tab) (fl_rows tab)
            | Err _ => false
            end
  | Err _ => false
  end.
Lemma strict_facts_hold : forallb strict_facts available_materials = true.
Proof. vm_compute. reflexivity. Qed.
Local Opaque TUBE_MATERIALS flange_file FLANGE_LIMITS.

Lemma row_strict m f tab row c1 c2 a b : rates m f tab -> In row (f_rows f) ->
  In c1 class_names -> In c2 class_names -> int_of c1 = Ok a -> int_of c2 = Ok b ->
  (a < b)%Z ->
  Q2R (fnum tab (map num_or_zero row) c1) < Q2R (fnum tab (map num_or_zero row) c2).
Proof.
  intros H Ir I1 I2 A B L.
  pose proof strict_facts_hold as K. rewrite forallb_forall in K.
  specialize (K m (ra_in _ _ _ H)). unfold strict_facts in K.
  destruct (ra_group _ _ _ H) as (g & G & Lt). rewrite G, Lt in K.
  rewrite forallb_forall in K. specialize (K (map num_or_zero row)).
  rewrite (ra_rows _ _ _ H) in K.
  specialize (K (in_map (map num_or_zero) _ _ Ir)).
  unfold strict_row in K. rewrite forallb_forall in K. specialize (K c1 I1). cbv beta in K.
  rewrite forallb_forall in K. specialize (K c2 I2). cbv beta in K.
  rewrite A, B in K. rewrite (proj2 (Z.ltb_lt a b) L) in K.
  apply Qltb_lt in K. exact K.
Qed.

(** A rating that exists lies on the segment between two neighbouring rows. *)
Lemma rated_segment strict m f tab c temp x q :
  rates m f tab -> In c class_names -> denotes temp d_temperature x ->
  get_max_pressure strict c temp (NStr m) = Ok q ->
  exists row1 row2 T1 T2, consecutive (f_rows f) row1 row2
    /\ tabulated f row1 "Temperature" T1 /\ tabulated f row2 "Temperature" T2
    /\ Q2R T1 < Q2R T2
    /\ x = celsius (x - 27315/100) /\ Q2R T1 <= x - 27315/100 <= Q2R T2.
Proof.
  intros H Ic D. destruct (max_pressure_rates strict _ _ _ c _ _ H Ic D) as (p0 & l & E & N & ->).
  assert (Inc : increasing (curve tab c)) by (apply H; assumption).
  destruct (Rltb_spec x (fst p0)) as [a|a]; [discriminate|]. cbn [orb].
  destruct (Rltb_spec (fst (last (p0 :: l) p0)) x) as [b|b]; [discriminate|]. intros _.
  destruct (find_interval p0 l x N ltac:(lra) ltac:(lra)) as (u & v & C & X).
  rewrite <- E in C. pose proof (Inc _ _ C) as Luv.
  destruct (curve_consecutive_rows _ _ _ _ _ _ H Ic C) as
    (r1 & r2 & t1 & q1 & t2 & q2 & C' & A1 & _ & A2 & _ & -> & ->).
  exists r1, r2, t1, t2. split; [exact C'|]. split; [exact A1|]. split; [exact A2|].
  cbn in X, Luv. unfold celsius in *. repeat split; lra.
Qed.

Lemma line_lt T1 T2 a1 a2 b1 b2 t : T1 < T2 -> T1 <= t <= T2 -> a1 < b1 -> a2 < b2 ->
  line (T1, a1) (T2, a2) t < line (T1, b1) (T2, b2) t.
Proof.
  intros L X A B. unfold line; cbn [fst snd].
  assert (S : 0 <= (t - T1) / (T2 - T1) <= 1).
  { split; [apply Rmult_le_pos; [lra | left; apply Rinv_0_lt_compat; lra]|].
    apply Rmult_le_reg_r with (T2 - T1); [lra|].
    unfold Rdiv. rewrite Rmult_assoc, Rinv_l by lra. lra. }
  set (s := (t - T1) / (T2 - T1)) in *.
  assert (0 < (1 - s) * (b1 - a1) + s * (b2 - a2)); [|lra].
  destruct (Req_dec s 0) as [-> | Ns]; [lra|].
  apply Rplus_le_lt_0_compat; [apply Rmult_le_pos; lra | apply Rmult_lt_0_compat; lra].
Qed.

Lemma rating_strict strict m f c1 c2 n1 n2 temp x q1 q2 :
  In m available_materials -> rated_by TUBE_MATERIALS flange_file m f ->
  In c1 (pressure_classes f) -> In c2 (pressure_classes f) ->
  parse_number c1 = Some n1 -> parse_number c2 = Some n2 -> (n1 < n2)%Q ->
  denotes temp d_temperature x ->
  get_max_pressure strict c1 temp (NStr m) = Ok q1 ->
  get_max_pressure strict c2 temp (NStr m) = Ok q2 ->
  q_mag q1 < q_mag q2.
Proof.
  intros I Rb P1 P2 A1 A2 L D E1 E2.
  destruct (rates_of m f I Rb) as (tab & H).
  pose proof P1 as I1. pose proof P2 as I2. rewrite (rates_classes _ _ _ H) in I1, I2.
  destruct (class_number _ _ I1 A1) as [Z1 Y1], (class_number _ _ I2 A2) as [Z2 Y2].
  assert (Lz : (Qnum n1 < Qnum n2)%Z) by (unfold Qlt in L; rewrite Y1, Y2 in L; lia).
  destruct (rated_segment _ _ _ _ _ _ _ _ H I1 D E1) as
    (r1 & r2 & T1 & T2 & C & B1 & B2 & Lt & Ex & X).
  assert (J : In r1 (f_rows f) /\ In r2 (f_rows f)).
  { destruct C as (u & v & ->). split; apply in_or_app; right; [now left | now right; left]. }
  destruct J as [J1 J2].
  rewrite Ex in D.
  destruct (row_tabulated _ _ _ r1 c1 H I1 J1) as [_ F11].
  destruct (row_tabulated _ _ _ r2 c1 H I1 J2) as [_ F21].
  destruct (row_tabulated _ _ _ r1 c2 H I2 J1) as [_ F12].
  destruct (row_tabulated _ _ _ r2 c2 H I2 J2) as [_ F22].
  destruct (max_pressure_line strict m f c1 temp _ _ _ _ _ _ _ I Rb P1 C B1 F11 B2 F21 D X)
    as (q1' & E1' & (_ & M1 & _)).
  destruct (max_pressure_line strict m f c2 temp _ _ _ _ _ _ _ I Rb P2 C B1 F12 B2 F22 D X)
    as (q2' & E2' & (_ & M2 & _)).
  rewrite E1 in E1'; injection E1' as <-. rewrite E2 in E2'; injection E2' as <-.
  rewrite M1, M2. apply line_lt; try assumption.
  - apply Rmult_lt_compat_r; [lra|]. eapply row_strict; eauto.
  - apply Rmult_lt_compat_r; [lra|]. eapply row_strict; eauto.
Qed.

Lemma pascal_denotes q reg : is_in q (q_mag q) "Pa" reg -> denotes (PQuant q) d_pressure (q_mag q).
Proof.
  intros (L & _ & _). apply denotes_quantity; cbn in L; injection L as L; rewrite <- L; cbn.
  - split; cbn; [rewrite one_R; lra | intros X; now destruct X].
  - reflexivity.
  - unfold worth; cbn. rewrite one_R. lra.
Qed.

Lemma class_eq c c' n : In c class_names -> In c' class_names ->
  parse_number c = Some n -> parse_number c' = Some n -> c = c'.
Proof.
  intros I I'. unfold class_names in I, I'.
  repeat (destruct I as [<-|I];
    [repeat (destruct I' as [<-|I']; [intros [= <-]; (reflexivity || discriminate)|]); destruct I'|]).
  destruct I.
Qed.
Lemma class_num c : In c class_names -> exists n, parse_number c = Some n /\ Qden n = 1%positive.
Proof.
  intros I. destruct (largest_class c I) as (n & N & _). exists n. split; [exact N|].
  exact (proj2 (class_number c n I N)).
Qed.
Lemma line_const T1 T2 a t : line (T1, a) (T2, a) t = a.
Proof. unfold line; cbn [fst snd]. ring. Qed.

Lemma class_round_trip strict m f cls temp T q reg :
  In m available_materials -> rated_by TUBE_MATERIALS flange_file m f ->
  In cls (pressure_classes f) -> denotes temp d_temperature T ->
  get_max_pressure strict cls temp (NStr m) = Ok q ->
  get_class strict (PQuant q) temp (NStr m) reg = Ok cls.
Proof.
  intros I Rb Pc D E.
  destruct (rates_of m f I Rb) as (tab & H).
  pose proof Pc as Ic. rewrite (rates_classes _ _ _ H) in Ic.
  destruct (max_pressure_ok _ _ _ _ _ _ _ _ H Ic D E) as (_ & Iq).
  pose proof (pascal_denotes _ _ Iq) as Dq.
  assert (X0 : 0 <= q_mag q)
    by (exact (proj1 (proj1 (max_pressure_falls strict m f cls temp temp T T q q I Rb Pc D D (Rle_refl T) E E)))).
  destruct (rated_segment _ _ _ _ _ _ _ _ H Ic D E) as
    (r1 & r2 & T1 & T2 & C & B1 & B2 & Lt & Ex & X).
  assert (J : In r1 (f_rows f) /\ In r2 (f_rows f)).
  { destruct C as (u & v & ->). split; apply in_or_app; right; [now left | now right; left]. }
  destruct J as [J1 J2].
  pose proof (warm m f tab cls r1 T1 H Ic J1 B1) as Wm.
  assert (T0 : 0 <= T) by lra.
  assert (I25 : In "2500"%string class_names) by (cbn; tauto).
  assert (P25 : In "2500"%string (pressure_classes f)) by (rewrite (rates_classes _ _ _ H); exact I25).
  destruct (row_tabulated _ _ _ r1 "2500" H I25 J1) as [_ F1].
  destruct (row_tabulated _ _ _ r2 "2500" H I25 J2) as [_ F2].
  pose proof D as D'. rewrite Ex in D'.
  destruct (max_pressure_line strict m f "2500" temp _ _ _ _ _ _ _ I Rb P25 C B1 F1 B2 F2 D' X)
    as (q25 & E25 & (_ & M25 & _)).
  destruct (class_num cls Ic) as (n & N & Dn).
  destruct (largest_class cls Ic) as (n' & N' & Ln). rewrite N in N'; injection N' as <-.
  destruct (max_pressure_class strict m f cls "2500" n 2500 temp T q q25 I Rb Pc P25 N eq_refl Ln D E E25)
    as [Mono _].
  destruct (get_class_outcome strict (PQuant q) temp m f reg (q_mag q) T I Rb Dq D X0 T0)
    as [(q' & Eq' & O)|[(msg & O) _]]; [|rewrite E25 in O; discriminate].
  rewrite E25 in Eq'. injection Eq' as <-.
  destruct O as [(_ & c & G)|[(O & _)|(O & _)]].
  - rewrite G. f_equal.
    destruct (parse_denotes _ _ _ reg Dq) as (pq & Ep & Pq).
    destruct (get_class_any strict _ temp m reg c pq G Ep) as (_ & Icc & (qc & Ec & _ & Lc) & S).
    rewrite (parsed_base_mag _ _ _ _ Pq) in *.
    destruct (class_num c Icc) as (k & K & Dk).
    assert (Pcc : In c (pressure_classes f)) by (rewrite (rates_classes _ _ _ H); exact Icc).
    destruct (Z.lt_trichotomy (Qnum k) (Qnum n)) as [L|[L|L]].
    + exfalso. assert (Lq : (k < n)%Q) by (unfold Qlt; rewrite Dk, Dn; lia).
      pose proof (rating_strict strict m f c cls k n temp T qc q I Rb Pcc Pc K N Lq D Ec E).
      revert Lc; rnum. destruct (Rleb_spec (q_mag q) (q_mag qc)); intros; [lra|discriminate].
    + apply (class_eq c cls k Icc Ic K). rewrite N. f_equal.
      destruct k, n; cbn in *; subst; reflexivity.
    + exfalso. assert (Lq : (n < k)%Q) by (unfold Qlt; rewrite Dk, Dn; lia).
      destruct (S cls k n Ic K N Lq) as (q'' & E'' & _ & F).
      rewrite E in E''; injection E'' as <-.
      revert F; rnum. destruct (Rleb_spec (q_mag q) (q_mag q)); intros; [discriminate|lra].
  - exfalso; lra.
  - exfalso. pose proof (O r1 _ J1 F1) as O1. pose proof (O r2 _ J2 F2) as O2.
    pose proof (line_lt (Q2R T1) (Q2R T2) _ _ _ _ (T - 27315/100) Lt X O1 O2) as L.
    rewrite line_const in L. lra.
Qed.

(** ** Temperature round trip *)
Definition room_row (tab : flange_table) : bool :=
  match fl_rows tab with
  | r0 :: r1 :: _ =>
    Qeq_bool (fnum tab r0 "Temperature") (-29) && Qeq_bool (fnum tab r1 "Temperature") 38
    && forallb (fun c => Qeq_bool (fnum tab r0 c) (fnum tab r1 c)
                 && forallb (fun r => Qle_bool (fnum tab r c) (fnum tab r0 c)) (fl_rows tab))
               class_names
  | _ => false
  end.
Definition room_facts (m : string) : bool :=
  match group_of m with
  | Ok g => match FLANGE_LIMITS g with
            | Ok tab => room_row tab
            | Err _ => false
            end
  | Err _ => false
  end.
Local Transparent TUBE_MATERIALS flange_file FLANGE_LIMITS.
Lemma room_facts_hold : forallb room_facts available_materials = true.
Proof. vm_compute. reflexivity. Qed.
Local Opaque TUBE_MATERIALS flange_file FLANGE_LIMITS.

Lemma tabulated_fun f row c a b : tabulated f row c a -> tabulated f row c b -> a = b.
Proof. intros (s & E & ->) (s' & E' & ->). rewrite E in E'. now injection E' as <-. Qed.

Lemma room_rows m f tab c : rates m f tab -> In c class_names ->
  exists r0 r1 T0 T1 P0 P1, consecutive (f_rows f) r0 r1 /\ In r0 (f_rows f)
    /\ tabulated f r0 "Temperature" T0 /\ tabulated f r1 "Temperature" T1
    /\ tabulated f r0 c P0 /\ tabulated f r1 c P1
    /\ Q2R T0 = -29 /\ Q2R T1 = 38 /\ Q2R P0 = Q2R P1
    /\ forall row P, In row (f_rows f) -> tabulated f row c P -> Q2R P <= Q2R P0.
Proof.
  intros H Ic. pose proof room_facts_hold as K. rewrite forallb_forall in K.
  specialize (K m (ra_in _ _ _ H)). unfold room_facts in K.
  destruct (ra_group _ _ _ H) as (g & G & L). rewrite G, L in K.
  unfold room_row in K. rewrite (ra_rows _ _ _ H) in K.
  destruct (f_rows f) as [|r0 [|r1 rest]] eqn:Er; cbn [map] in K; try discriminate.
  apply andb_true_iff in K as [K K3]. apply andb_true_iff in K as [K1 K2].
  rewrite forallb_forall in K3. specialize (K3 c Ic). apply andb_true_iff in K3 as [K3 K4].
  assert (I0 : In r0 (f_rows f)) by (rewrite Er; now left).
  assert (I1 : In r1 (f_rows f)) by (rewrite Er; right; now left).
  destruct (row_tabulated _ _ _ r0 c H Ic I0) as [A0 B0].
  destruct (row_tabulated _ _ _ r1 c H Ic I1) as [A1 B1].
  eexists r0, r1, _, _, _, _.
  split; [exists (@nil (list string)), rest; reflexivity|]. split; [now left|].
  split; [exact A0|]. split; [exact A1|]. split; [exact B0|]. split; [exact B1|].
  split; [apply Qeq_R in K1; rewrite K1; q2r; lra|].
  split; [apply Qeq_R in K2; rewrite K2; q2r; lra|].
  split; [apply Qeq_R; exact K3|].
  intros row P Ir Tp. rewrite <- Er in Ir.
  destruct (row_tabulated _ _ _ row c H Ic Ir) as [_ B].
  rewrite (tabulated_fun _ _ _ _ _ Tp B).
  rewrite forallb_forall in K4. specialize (K4 (map num_or_zero row)).
  apply Qle_bool_le. apply K4.
  change (map num_or_zero r0 :: map num_or_zero r1 :: map (map num_or_zero) rest)
    with (map (map num_or_zero) (r0 :: r1 :: rest)). rewrite <- Er. now apply in_map.
Qed.

Lemma room_round_trip (strict s : bool) m f cls temp t :
  In m available_materials -> rated_by TUBE_MATERIALS flange_file m f ->
  In cls (pressure_classes f) -> denotes temp d_temperature (celsius t) -> -29 <= t <= 38 ->
  exists q, get_max_pressure s cls temp (NStr m) = Ok q /\
    if strict then is_value_error (get_max_temperature strict cls (PQuant q) (NStr m))
    else exists q', get_max_temperature strict cls (PQuant q) (NStr m) = Ok q'
                    /\ is_in q' 0 "K" (out_reg temp).
Proof.
  intros I Rb Pc D X.
  destruct (rates_of m f I Rb) as (tab & H).
  pose proof Pc as Ic. rewrite (rates_classes _ _ _ H) in Ic.
  destruct (room_rows m f tab cls H Ic) as
    (r0 & r1 & T0 & T1 & P0 & P1 & C & I0 & A0 & A1 & B0 & B1 & V0 & V1 & Ev & Mx).
  destruct (max_pressure_line s m f cls temp t _ _ _ _ _ _ I Rb Pc C A0 B0 A1 B1 D ltac:(lra))
    as (q & E & Iq).
  exists q. split; [exact E|].
  assert (M : q_mag q = Q2R P0 * 100000).
  { destruct Iq as (_ & -> & _). rewrite <- Ev. apply line_const. }
  assert (Rg : q_reg q = out_reg temp) by (apply Iq).
  assert (Dq : denotes (PQuant q) d_pressure (Q2R P0 * 100000)).
  { rewrite <- M. apply (pascal_denotes q (out_reg temp)). destruct Iq as (U & _ & ?). repeat split; auto. }
  pose proof (max_temp_top strict m f cls (PQuant q) r0 P0 I Rb Pc I0 B0 Mx Dq) as Tp.
  destruct strict; [exact Tp|]. destruct Tp as (q' & E' & Iq'). exists q'. split; [exact E'|].
  cbn [out_reg] in Iq'. rewrite Rg in Iq'. exact Iq'.
Qed.

Lemma temperature_round_trip s s' m f cls temp T q row1 row2 row3 P1 P2 P3 :
  In m available_materials -> rated_by TUBE_MATERIALS flange_file m f ->
  In cls (pressure_classes f) -> denotes temp d_temperature T ->
  get_max_pressure s cls temp (NStr m) = Ok q ->
  In row1 (f_rows f) -> tabulated f row1 cls P1 -> 0 < Q2R P1 * 100000 <= q_mag q ->
  In row2 (f_rows f) -> tabulated f row2 cls P2 -> q_mag q < Q2R P2 * 100000 ->
  In row3 (f_rows f) -> tabulated f row3 cls P3 -> Q2R P2 < Q2R P3 ->
  exists q2 T2, get_max_temperature false cls (PQuant q) (NStr m) = Ok q2
    /\ is_in q2 T2 "K" (q_reg q) /\ T <= T2
    /\ forall temp2, denotes temp2 d_temperature T2 ->
       exists q', get_max_pressure s' cls temp2 (NStr m) = Ok q' /\ q_mag q' = q_mag q.
Proof.
  intros I Rb Pc D E I1 A1 X1 I2 A2 X2 I3 A3 X3.
  destruct (rates_of m f I Rb) as (tab & H).
  pose proof Pc as Ic. rewrite (rates_classes _ _ _ H) in Ic.
  destruct (max_pressure_ok _ _ _ _ _ _ _ _ H Ic D E) as (_ & Iq).
  pose proof (pascal_denotes _ _ Iq) as Dq.
  destruct (max_temp_exact s m f cls (PQuant q) (q_mag q) row1 P1 row2 P2 row3 P3
              I Rb Pc Dq I1 A1 X1 I2 A2 X2 I3 A3 X3) as (q2 & T2 & E2 & Iq2 & Ex).
  exists q2, T2. split; [exact E2|]. split; [exact Iq2|].
  assert (D2 : denotes (PSeq [ENum (T2 - 27315/100); EStr "degC"]) d_temperature T2).
  { eapply denotes_pair; [reflexivity|reflexivity|]. unfold worth; cbn; rnum; rewrite ?one_R; q2r; lra. }
  split.
  - destruct (Ex _ D2) as (q' & _ & _ & Hot).
    destruct (Rle_dec T T2) as [L|L]; [exact L|]. exfalso.
    pose proof (Hot temp T q D ltac:(lra) E). lra.
  - intros temp2 Dt.
    destruct (max_temp_exact s' m f cls (PQuant q) (q_mag q) row1 P1 row2 P2 row3 P3
              I Rb Pc Dq I1 A1 X1 I2 A2 X2 I3 A3 X3) as (q2' & T2' & E2' & Iq2' & Ex').
    rewrite E2 in E2'; injection E2' as <-.
    assert (T2' = T2) as -> by (destruct Iq2 as (_ & <- & _), Iq2' as (_ & <- & _); reflexivity).
    destruct (Ex' _ Dt) as (q' & Eq' & Mq' & _). exists q'. split; assumption.
Qed.
