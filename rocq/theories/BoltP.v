(** * BoltP: lemmas about the bolt model. *)
From Coq Require Import String Ascii ZArith QArith Reals Qreals List Bool Lra Lia Psatz.
From Verif Require Import PyBase Pint UnitsM Spec QLemmas Csv Tables NumQ StressP BoltSpec StrLemmas BoltM.
Import ListNotations.
Local Open Scope R_scope.
Local Opaque THREAD_SPECS.

Lemma thread_rows_eq internal size cls :
  thread_rows internal size cls = rows_for (THREAD_SPECS internal) size cls.
Proof.
  unfold thread_rows, rows_for. apply filter_ext. intros [|a [|b r]]; reflexivity.
Qed.

Lemma thread_cell_ok internal prop size cls row v :
  In prop (thread_properties (THREAD_SPECS internal)) ->
  rows_for (THREAD_SPECS internal) size cls = [row] ->
  num_cell (f_cols (THREAD_SPECS internal)) row prop = Some v ->
  thread_cell internal prop size cls = Ok v.
Proof.
  intros I Er Ev. unfold thread_cell. rewrite thread_rows_eq, Er, Ev.
  assert (S : str_mem prop (tl (tl (f_cols (THREAD_SPECS internal)))) = true).
  { apply str_mem_In. revert I. unfold thread_properties.
    destruct (f_cols (THREAD_SPECS internal)) as [|a [|b l]]; cbn; auto. }
  rewrite S. reflexivity.
Qed.

(** ** The shipped numbers *)
Definition tpi_of (size : string) : option Q := parse_number (last (split_on "-" size) ""%string).

Definition good_pair (rB rA : list string) : bool :=
  let cB := f_cols (THREAD_SPECS true) in
  let cA := f_cols (THREAD_SPECS false) in
  if String.eqb (nth 0 rB ""%string) (nth 0 rA ""%string) then
    match num_cell cB rB "minor diameter max", num_cell cB rB "pitch diameter max",
          num_cell cA rA "pitch diameter min", num_cell cA rA "major diameter min",
          num_cell cA rA "basic diameter", tpi_of (nth 0 rA ""%string) with
    | Some kn, Some en, Some es, Some ds, Some D, Some n =>
      (Qltb 0 n && Qltb 0 kn && Qltb 0 ds
       && Qltb 0 (1 + 2 * n * (0.57735 * (es - kn)))
       && Qltb 0 (1 + 2 * n * (0.57735 * (ds - en)))
       && Qltb 0 (D * n - 0.9742785) && Qltb 0 (es * n - 2 * 0.16238))%bool
    | _, _, _, _, _, _ => false
    end
  else true.
Lemma all_good_pairs :
  forallb (fun rB => forallb (good_pair rB) (f_rows (THREAD_SPECS false)))
          (f_rows (THREAD_SPECS true)) = true.
Proof. vm_compute. reflexivity. Qed.

Definition sound (t : thread) : Prop :=
  0 < t_tpi t /\ 0 < t_minor_int t /\ 0 < t_major_ext t
  /\ 0 < 1 / (2 * t_tpi t) + 57735/100000 * (t_pitch_ext t - t_minor_int t)
  /\ 0 < 1 / (2 * t_tpi t) + 57735/100000 * (t_major_ext t - t_pitch_int t)
  /\ 0 < t_basic t - 9742785/10000000 / t_tpi t
  /\ 0 < t_pitch_ext t / 2 - 16238/100000 / t_tpi t.

Lemma rows_for_in f size cls row :
  In row (rows_for f size cls) -> In row (f_rows f) /\ nth 0 row ""%string = size
  /\ nth 1 row ""%string = cls.
Proof.
  unfold rows_for. intros H. apply filter_In in H as (I & H).
  apply andb_true_iff in H as (A & B). apply String.eqb_eq in A, B. auto.
Qed.

Lemma pos_scaled n a : 0 < n -> 0 < 1 + 2 * n * a -> 0 < 1 / (2 * n) + a.
Proof.
  intros P H. replace (1 / (2 * n) + a) with ((1 + 2 * n * a) / (2 * n)) by (field; lra).
  apply Rdiv_lt_0_compat; lra.
Qed.
Lemma pos_scaled2 n D a : 0 < n -> 0 < D * n - a -> 0 < D - a / n.
Proof.
  intros P H. replace (D - a / n) with ((D * n - a) / n) by (field; lra).
  apply Rdiv_lt_0_compat; lra.
Qed.
Lemma dash_tpi size n : written_after_last_dash size n -> tpi_of size = Some n.
Proof.
  intros (b & d & -> & N & P). unfold tpi_of. rewrite (split_last "-" b d N). exact P.
Qed.

Lemma Q2R_lit : forall z p, Q2R (z # p) = IZR z / IZR (Zpos p).
Proof. reflexivity. Qed.

Lemma table_sound size grade t :
  thread_in_tables (THREAD_SPECS true) (THREAD_SPECS false) size grade t -> sound t.
Proof.
  intros (rB & rA & kn & en & es & ds & D & n & EB & EA & Hkn & Hen & Hes & Hds & HD & Hn & ->).
  assert (IB : In rB (rows_for (THREAD_SPECS true) size (grade ++ "B"))) by (rewrite EB; left; reflexivity).
  assert (IA : In rA (rows_for (THREAD_SPECS false) size (grade ++ "A"))) by (rewrite EA; left; reflexivity).
  apply rows_for_in in IB as (IB & SB & _). apply rows_for_in in IA as (IA & SA & _).
  pose proof all_good_pairs as G. rewrite forallb_forall in G. specialize (G _ IB).
  rewrite forallb_forall in G. specialize (G _ IA). unfold good_pair in G.
  rewrite SB, SA, String.eqb_refl, Hkn, Hen, Hes, Hds, HD, (dash_tpi _ _ Hn) in G.
  rewrite !andb_true_iff in G. destruct G as ((((((G1 & G2) & G3) & G4) & G5) & G6) & G7).
  apply Qltb_lt in G1, G2, G3, G4, G5, G6, G7.
  rewrite ?Q2R_plus, ?Q2R_minus, ?Q2R_mult, ?Q2R_plus, ?Q2R_minus, ?Q2R_mult in *.
  rewrite ?Q2R_minus in *.
  assert (E0 : Q2R 0 = 0) by (q2r; lra). assert (E1 : Q2R 1 = 1) by (q2r; lra).
  assert (E2 : Q2R 2 = 2) by (q2r; lra).
  assert (E3 : Q2R 0.57735 = 57735/100000) by (q2r; lra).
  assert (E4 : Q2R 0.9742785 = 9742785/10000000) by (q2r; lra).
  assert (E5 : Q2R 0.16238 = 16238/100000) by (q2r; lra).
  rewrite E0, ?E1, ?E2, ?E3, ?E4, ?E5 in *.
  unfold sound; cbn [t_minor_int t_pitch_int t_pitch_ext t_major_ext t_basic t_tpi].
  repeat split; try assumption.
  - apply pos_scaled; assumption.
  - apply pos_scaled; assumption.
  - apply pos_scaled2; lra.
  - replace (Q2R es / 2 - 16238/100000 / Q2R n) with ((Q2R es - (2 * (16238/100000)) / Q2R n) / 2)
      by (field; lra).
    apply Rdiv_lt_0_compat; [|lra]. apply pos_scaled2; lra.
Qed.

(** ** Stress areas *)
Lemma inch_scale : @s_inch R _ = inch.
Proof. unfold s_inch, inch; rnum; q2r; lra. Qed.
Lemma inch_pos : 0 < inch. Proof. unfold inch; lra. Qed.
Lemma psi_scale : @s_psi R _ = psi.
Proof. unfold s_psi, psi. rewrite inch_scale. rnum. q2r. unfold inch. field. Qed.
Lemma psi_pos : 0 < psi.
Proof. rewrite <- psi_scale. apply s_psi_pos. Qed.
Lemma quant_in m reg : returns (quant reg m "in") d_length (m * inch) reg.
Proof. rewrite <- inch_scale. apply (quant_den m "in" _ reg eq_refl eq_refl). Qed.
Lemma quant_per_in m reg : returns (quant reg m "1/in") d_invlength (m / inch) reg.
Proof.
  replace (m / inch) with (m * (one / s_inch)).
  - apply (quant_den m "1/in" _ reg eq_refl eq_refl).
  - rewrite inch_scale, one_R. rnum. field. pose proof inch_pos; lra.
Qed.
Lemma quant_psi m reg : returns (quant reg m "psi") d_pressure (m * psi) reg.
Proof. rewrite <- psi_scale. apply (quant_den m "psi" _ reg eq_refl eq_refl). Qed.
Lemma quant_atm m reg : returns (quant reg m "atm") d_pressure (m * atmosphere) reg.
Proof.
  replace (m * atmosphere) with (m * @nofQ R _ 101325).
  - apply (quant_den m "atm" _ reg eq_refl eq_refl).
  - unfold atmosphere; rnum; q2r; lra.
Qed.
Lemma stands_eq q d d' x x' r : stands_for q d x r -> d = d' -> x = x' -> stands_for q d' x' r.
Proof. intros H <- <-; exact H. Qed.
Lemma returns_eq q d d' x x' r : returns q d x r -> d = d' -> x = x' -> returns q d' x' r.
Proof. intros H <- <-; exact H. Qed.
Lemma rereg_stands q d x r reg : stands_for q d x r -> stands_for (rereg q reg) d x reg.
Proof. intros (? & ? & ? & ? & _). unfold rereg; repeat split; cbn; auto. Qed.

Lemma tensile_area_ok (t : thread) b D es n xb reg :
  sound t ->
  stands_for b d_pressure xb reg -> stands_for D d_length (t_basic t * inch) reg ->
  stands_for es d_length (t_pitch_ext t * inch) reg ->
  stands_for n d_invlength (t_tpi t / inch) reg ->
  returns (tensile_area b D es n reg) d_area (area_in_tension t xb) reg.
Proof.
  intros (Pn & _) Hb HD He Hn. pose proof inch_pos as Pi. pose proof psi_pos as Pp.
  assert (Nn : t_tpi t / inch <> 0).
  { apply Rgt_not_eq, Rdiv_lt_0_compat; assumption. }
  unfold tensile_area, area_in_tension.
  den_use (quant_psi (@nofQ R _ 100000) reg).
  rewrite (q_cmp_den nltb _ _ _ _ _ _ Hb Hq : q_lt _ _ = _); cbn [bind].
  replace (@nofQ R _ 100000 * psi) with (100000 * psi) by (rnum; q2r; lra).
  rnum. destruct (Rlt_dec xb (100000 * psi)) as [L|L].
  - rewrite Rltb_true by assumption. do 3 dstep.
    eapply returns_eq; [eapply q_scale_den; eassumption|reflexivity|].
    q2r. field. split; lra.
  - rewrite Rltb_false by lra. do 4 dstep.
    eapply returns_eq; [eapply q_scale_den; eassumption|reflexivity|].
    q2r. field. split; lra.
Qed.

Lemma shear_area_ok n e d x y vn ve vd vx vy reg :
  0 < vn ->
  stands_for n d_invlength (vn / inch) reg -> stands_for e d_length ve reg ->
  stands_for d d_length (vd * inch) reg -> stands_for x d_length (vx * inch) reg ->
  stands_for y d_length (vy * inch) reg ->
  returns (shear_area n e d x y) d_area
    (PI * vn * vd * (1 / (2 * vn) + 57735/100000 * (vx - vy)) * inch * ve) reg.
Proof.
  intros Pn Hn He Hd Hx Hy. pose proof inch_pos as Pi.
  assert (Nn : @nofQ R _ 2 * (vn / inch) <> 0).
  { apply Rgt_not_eq. apply Rmult_lt_0_compat; [rnum; q2r; lra|apply Rdiv_lt_0_compat; lra]. }
  unfold shear_area. do 5 dstep.
  do 3 dstep.
  eapply returns_eq; [eapply q_mul_den; eassumption|reflexivity|].
  rewrite one_R. rnum. q2r. field. split; lra.
Qed.

Lemma listed_props :
  In "minor diameter max"%string (thread_properties (THREAD_SPECS true))
  /\ In "pitch diameter max"%string (thread_properties (THREAD_SPECS true))
  /\ In "pitch diameter min"%string (thread_properties (THREAD_SPECS false))
  /\ In "major diameter min"%string (thread_properties (THREAD_SPECS false))
  /\ In "basic diameter"%string (thread_properties (THREAD_SPECS false)).
Proof. repeat split; apply str_mem_In; vm_compute; reflexivity. Qed.

Lemma tension_pos t xb : sound t -> 0 < area_in_tension t xb.
Proof.
  intros (Pn & _ & _ & _ & _ & P1 & P2). pose proof inch_pos. pose proof PI_RGT_0.
  unfold area_in_tension. apply Rmult_lt_0_compat; [|now apply pow_lt].
  destruct (Rlt_dec _ _); apply Rmult_lt_0_compat; try lra; now apply pow_lt.
Qed.
Lemma screw_shear_pos t : sound t -> 0 < screw_shear_per_length t.
Proof.
  intros (Pn & Pk & _ & P & _). pose proof inch_pos. pose proof PI_RGT_0.
  unfold screw_shear_per_length. repeat first [assumption | apply Rmult_lt_0_compat].
Qed.
Lemma plate_shear_pos t : sound t -> 0 < plate_shear_per_length t.
Proof.
  intros (Pn & _ & Pd & _ & P & _). pose proof inch_pos. pose proof PI_RGT_0.
  unfold plate_shear_per_length. repeat first [assumption | apply Rmult_lt_0_compat].
Qed.

Definition engagement_for_tension (t : thread) (xb xp : R) : R :=
  2 * area_in_tension t xb * xb / (plate_shear_per_length t * xp).

Lemma stress_areas_ok size grade t bolt plate len xb xp xl rb rp rl reg :
  thread_in_tables (THREAD_SPECS true) (THREAD_SPECS false) size grade t ->
  stands_for bolt d_pressure xb rb -> stands_for plate d_pressure xp rp ->
  stands_for len d_length xl rl -> 0 <= xb -> 0 < xp -> 0 < xl ->
  exists r, calculate_stress_areas size grade bolt plate len reg = Ok r
    /\ stands_for (screw_area r) d_area
         (Rmin (area_in_tension t xb) (area_in_shear t xl)) reg
    /\ stands_for (plate_area r) d_area (area_of_plate t xl) reg
    /\ stands_for (minimum_engagement r) d_length (engagement_for_tension t xb xp) reg
    /\ (shear_warning r = true <-> area_in_shear t xl < area_in_tension t xb).
Proof.
  intros T Hb Hp Hl Pb Pp Pl.
  pose proof (table_sound _ _ _ T) as S.
  destruct T as (rB & rA & kn & en & es & ds & D & n & EB & EA & Hkn & Hen & Hes & Hds & HD & Hn & ->).
  destruct listed_props as (L1 & L2 & L3 & L4 & L5).
  pose proof (thread_cell_ok true _ _ _ _ _ L1 EB Hkn) as C1.
  pose proof (thread_cell_ok true _ _ _ _ _ L2 EB Hen) as C2.
  pose proof (thread_cell_ok false _ _ _ _ _ L3 EA Hes) as C3.
  pose proof (thread_cell_ok false _ _ _ _ _ L4 EA Hds) as C4.
  pose proof (thread_cell_ok false _ _ _ _ _ L5 EA HD) as C5.
  set (t := mkThreadDims (Q2R kn) (Q2R en) (Q2R es) (Q2R ds) (Q2R D) (Q2R n)) in *.
  pose proof (tension_pos t xb S) as At0. pose proof (screw_shear_pos t S) as As0.
  pose proof (plate_shear_pos t S) as Ap0. pose proof inch_pos as Pi.
  pose proof S as (Pn & Pk & Pd & Psh & Pps & _).
  unfold calculate_stress_areas.
  rewrite (check_q_ok bolt "pressure" _ _ _ true Hb eq_refl) by (intros _; lra).
  rewrite (check_q_ok plate "pressure" _ _ _ true Hp eq_refl) by (intros _; lra).
  rewrite (check_q_ok len "length" _ _ _ true Hl eq_refl) by (intros _; lra).
  cbn [bind].
  apply (rereg_stands _ _ _ _ reg) in Hb, Hp, Hl.
  rewrite C1; cbn [bind]. den_use (quant_in (@nofQ R _ kn) reg). rename q into qkn, Hq into Hqkn.
  rewrite C3; cbn [bind]. den_use (quant_in (@nofQ R _ es) reg). rename q into qes, Hq into Hqes.
  rewrite C2; cbn [bind]. den_use (quant_in (@nofQ R _ en) reg). rename q into qen, Hq into Hqen.
  rewrite C4; cbn [bind]. den_use (quant_in (@nofQ R _ ds) reg). rename q into qds, Hq into Hqds.
  pose proof (dash_tpi _ _ Hn) as En. unfold tpi_of in En. unfold threads_per_inch. rewrite En; cbn [bind].
  den_use (quant_per_in (@nofQ R _ n) reg). rename q into qn, Hq into Hqn.
  rewrite C5; cbn [bind]. den_use (quant_in (@nofQ R _ D) reg). rename q into qD, Hq into HqD.
  change (@nofQ R _ kn) with (t_minor_int t) in *. change (@nofQ R _ en) with (t_pitch_int t) in *.
  change (@nofQ R _ es) with (t_pitch_ext t) in *. change (@nofQ R _ ds) with (t_major_ext t) in *.
  change (@nofQ R _ n) with (t_tpi t) in *. change (@nofQ R _ D) with (t_basic t) in *.
  den_use (tensile_area_ok t _ _ _ _ _ _ S Hb HqD Hqes Hqn). rename q into qt, Hq into Hqt.
  den_use (shear_area_ok _ _ _ _ _ _ _ _ _ _ _ Pn Hqn Hl Hqkn Hqes Hqkn). rename q into qs, Hq into Hqs.
  fold (screw_shear_per_length t) in Hqs. fold (area_in_shear t xl) in Hqs.
  rewrite (q_cmp_den nltb _ _ _ _ _ _ Hqs Hqt : q_lt _ _ = _); cbn [bind].
  den_use (shear_area_ok _ _ _ _ _ _ _ _ _ _ _ Pn Hqn Hl Hqds Hqds Hqen). rename q into qp, Hq into Hqp.
  fold (plate_shear_per_length t) in Hqp. fold (area_of_plate t xl) in Hqp.
  assert (Npl : area_of_plate t xl * xp <> 0).
  { apply Rgt_not_eq. unfold area_of_plate. repeat first [assumption | apply Rmult_lt_0_compat]. }
  do 3 dstep. dstep. dstep. dstep. dstep. dstep. dstep. dstep.
  match goal with H : stands_for ?q (dim_mul d_length d_none) ?v reg |- _ =>
    assert (Nd : v <> 0) end.
  { clear - Pn Pk Psh Pi. rnum. q2r. apply Rgt_not_eq. unfold Rgt.
    apply Rmult_lt_0_compat; [apply Rmult_lt_0_compat; [apply PI_RGT_0|nra]|].
    replace (one / _ + _) with (t_tpi t * (1 / (2 * t_tpi t) + 57735/100000 * (t_pitch_ext t - t_minor_int t))).
    - apply Rmult_lt_0_compat; assumption.
    - rewrite one_R. field. split; lra. }
  dstep. dstep.
  eexists; split; [reflexivity|].
  cbn [screw_area plate_area minimum_engagement shear_warning].
  rnum. split; [|split; [exact Hqp|split]].
  - unfold Rmin. destruct (Rltb_spec (area_in_shear t xl) (area_in_tension t xb)) as [L|L];
      destruct (Rle_dec (area_in_tension t xb) (area_in_shear t xl)); try lra; assumption.
  - match goal with H : stands_for ?q ?d _ reg |- stands_for ?q d_length _ reg =>
      eapply stands_eq; [exact H|reflexivity|] end.
    unfold engagement_for_tension, area_in_shear, area_of_plate.
    assert (NB : 1 / (2 * t_tpi t) + 57735 / 100000 * (t_pitch_ext t - t_minor_int t) <> 0) by lra.
    rewrite one_R. q2r.
    replace (1 / (2 * / 1) + 57735 * / 100000 * (t_tpi t / inch) *
             (t_pitch_ext t * inch - t_minor_int t * inch))
      with (t_tpi t * (1 / (2 * t_tpi t) + 57735/100000 * (t_pitch_ext t - t_minor_int t)))
      by (field; split; lra).
    unfold screw_shear_per_length.
    set (B := 1 / (2 * t_tpi t) + _) in *.
    pose proof PI_RGT_0.
    field. repeat split; try lra. 
  - destruct (Rltb_spec (area_in_shear t xl) (area_in_tension t xb)); split; intros; try lra; try discriminate; reflexivity.
Qed.

(** ** Safety factors *)
Lemma safety_factors_ok size grade t mp wa N bolt plate len xP xA xb xp xl reg :
  thread_in_tables (THREAD_SPECS true) (THREAD_SPECS false) size grade t ->
  denotes mp d_pressure xP -> denotes wa d_area xA ->
  denotes bolt d_pressure xb -> denotes plate d_pressure xp -> denotes len d_length xl ->
  0 <= xP -> xP <> atmosphere -> 0 < xA -> N <> 0 -> 0 <= xb -> 0 < xp -> 0 < xl ->
  exists f, calculate_safety_factors mp wa N size grade bolt plate len reg = Ok f
    /\ sf_bolt f = xb * Rmin (area_in_tension t xb) (area_in_shear t xl)
                   / ((xP - atmosphere) * xA / N)
    /\ sf_plate f = xp * area_of_plate t xl / ((xP - atmosphere) * xA / N)
    /\ (sf_warning f = true <-> area_in_shear t xl < area_in_tension t xb).
Proof.
  intros T HP HA Hb Hp Hl P1 P2 P3 P4 P5 P6 P7.
  pose proof (table_sound _ _ _ T) as S.
  pose proof (tension_pos t xb S) as At0. pose proof (screw_shear_pos t S) as As0.
  pose proof (plate_shear_pos t S) as Ap0.
  unfold calculate_safety_factors.
  den_use (parse_quant_den mp d_pressure xP reg HP ltac:(discriminate)). rename q into qP, Hq into HqP.
  den_use (parse_quant_den wa d_area xA reg HA ltac:(discriminate)). rename q into qA, Hq into HqA.
  den_use (parse_quant_den bolt d_pressure xb reg Hb ltac:(discriminate)). rename q into qb, Hq into Hqb.
  den_use (parse_quant_den plate d_pressure xp reg Hp ltac:(discriminate)). rename q into qp, Hq into Hqp.
  den_use (parse_quant_den len d_length xl reg Hl ltac:(discriminate)). rename q into ql, Hq into Hql.
  rewrite (check_q_ok qP "pressure" _ _ _ true HqP eq_refl) by (intros _; lra).
  rewrite (check_q_ok qA "area" _ _ _ true HqA eq_refl) by (intros _; lra).
  rewrite (check_q_ok qb "pressure" _ _ _ true Hqb eq_refl) by (intros _; lra).
  rewrite (check_q_ok qp "pressure" _ _ _ true Hqp eq_refl) by (intros _; lra).
  rewrite (check_q_ok ql "length" _ _ _ true Hql eq_refl) by (intros _; lra).
  cbn [bind].
  den_use (quant_atm one reg). rename q into qatm, Hq into Hqatm.
  den_use (q_sub_den _ _ _ _ _ _ HqP Hqatm). rename q into qg, Hq into Hqg.
  den_use (q_mul_den _ _ _ _ _ _ _ Hqg HqA). rename q into qf, Hq into Hqf.
  den_use (q_divn_den pydiv N _ _ _ _ pydiv_ok P4 Hqf). rename q into qw, Hq into Hqw.
  destruct (stress_areas_ok size grade t qb qp ql xb xp xl reg reg reg reg T Hqb Hqp Hql P5 P6 P7)
    as (r & -> & Hs & Hpl & _ & W). cbn [bind].
  apply (rereg_stands _ _ _ _ reg) in Hs, Hpl.
  rewrite one_R, Rmult_1_l in Hqw.
  assert (Nw : (xP - atmosphere) * xA / N <> 0).
  { unfold Rdiv. apply Rmult_integral_contrapositive_currified; [|now apply Rinv_neq_0_compat].
    apply Rmult_integral_contrapositive_currified; lra. }
  assert (Pm : 0 < Rmin (area_in_tension t xb) (area_in_shear t xl)).
  { apply Rmin_glb_lt; [assumption|]. unfold area_in_shear. now apply Rmult_lt_0_compat. }
  assert (Pa : 0 < area_of_plate t xl) by (unfold area_of_plate; now apply Rmult_lt_0_compat).
  den_use (q_div_den npdiv _ _ _ _ _ _ _ npdiv_ok (Rgt_not_eq _ _ Pm) Hqw Hs).
  assert (N1 : (xP - atmosphere) * xA / N / Rmin (area_in_tension t xb) (area_in_shear t xl) <> 0).
  { unfold Rdiv at 1. apply Rmult_integral_contrapositive_currified; [exact Nw|].
    apply Rinv_neq_0_compat; lra. }
  den_use (q_div_den npdiv _ _ _ _ _ _ _ npdiv_ok N1 Hqb Hq).
  rewrite (q_plain_den _ _ _ Hq0); cbn [bind].
  den_use (q_div_den npdiv _ _ _ _ _ _ _ npdiv_ok (Rgt_not_eq _ _ Pa) Hqw Hpl).
  assert (N2 : (xP - atmosphere) * xA / N / area_of_plate t xl <> 0).
  { unfold Rdiv at 1. apply Rmult_integral_contrapositive_currified; [exact Nw|].
    apply Rinv_neq_0_compat; lra. }
  den_use (q_div_den npdiv _ _ _ _ _ _ _ npdiv_ok N2 Hqp Hq1).
  rewrite (q_plain_den _ _ _ Hq2); cbn [bind].
  eexists; split; [reflexivity|]. cbn [sf_bolt sf_plate sf_warning].
  set (F := (xP - atmosphere) * xA / N) in *.
  split; [field; split; lra|]. split; [field; split; lra|]. exact W.
Qed.

(** ** Property lookup *)
Lemma grade_iff cls :
  (contains "2" cls || contains "3" cls)%bool = true <-> occurs_in "2" cls \/ occurs_in "3" cls.
Proof. rewrite orb_true_iff, !contains_iff. reflexivity. Qed.

Lemma choose_table A (NA : Num A) cls internal prop size reg :
  table_for cls internal ->
  get_thread_property (A:=A) prop size cls reg =
  let specs := THREAD_SPECS internal in
    let* _ := raise_if (negb (str_mem prop (tl (tl (f_cols specs)))))
                       (KeyError ("Thread property '" ++ prop ++ "' not found.")) in
    let* _ := raise_if (negb (str_mem size (index_of specs)))
                       (KeyError ("Thread size '" ++ size ++ "' not found")) in
    let* v := thread_cell internal prop size cls in
    quant reg (nofQ v) "in".
Proof.
  intros (G & H). unfold get_thread_property. apply grade_iff in G. rewrite G.
  destruct internal.
  - destruct H as (B & NA'). apply contains_iff in B. apply contains_false in NA'.
    rewrite B, NA'. reflexivity.
  - apply contains_iff in H. rewrite H. reflexivity.
Qed.

Lemma tl_skipn {A} (l : list A) : tl (tl l) = skipn 2 l.
Proof. destruct l as [|a [|b l]]; reflexivity. Qed.
Lemma hd_nth (r : list string) : hd ""%string r = nth 0 r ""%string.
Proof. destruct r; reflexivity. Qed.
Lemma index_size_listed f size : str_mem size (index_of f) = true <-> size_listed f size.
Proof.
  rewrite str_mem_In. unfold index_of, size_listed. rewrite in_map_iff.
  split; intros (r & A & B); exists r; [rewrite <- hd_nth | rewrite <- hd_nth in B]; auto.
Qed.

Lemma thread_property_value A (NA : Num A) cls internal prop size row v reg :
  table_for cls internal -> In prop (thread_properties (THREAD_SPECS internal)) ->
  rows_for (THREAD_SPECS internal) size cls = [row] ->
  num_cell (f_cols (THREAD_SPECS internal)) row prop = Some v ->
  get_thread_property (A:=A) prop size cls reg = quant reg (nofQ v) "in".
Proof.
  intros T I Er Ev. rewrite (choose_table A NA cls internal) by assumption. cbv zeta.
  rewrite tl_skipn. fold (thread_properties (THREAD_SPECS internal)).
  pose proof I as I'. apply str_mem_In in I'. rewrite I'. cbn [negb raise_if bind].
  assert (L : str_mem size (index_of (THREAD_SPECS internal)) = true).
  { apply index_size_listed. assert (J : In row (rows_for (THREAD_SPECS internal) size cls))
      by (rewrite Er; left; reflexivity).
    apply rows_for_in in J as (J1 & J2 & _). exists row; auto. }
  rewrite L. cbn [negb raise_if bind]. rewrite (thread_cell_ok _ _ _ _ _ _ I Er Ev). reflexivity.
Qed.

Lemma thread_property_errors A (NA : Num A) cls internal prop size reg :
  table_for cls internal ->
  (~ In prop (thread_properties (THREAD_SPECS internal)) ->
   is_key_error (get_thread_property (A:=A) prop size cls reg))
  /\ (rows_for (THREAD_SPECS internal) size cls = [] ->
   is_key_error (get_thread_property (A:=A) prop size cls reg)).
Proof.
  intros T. rewrite (choose_table A NA cls internal) by assumption. cbv zeta.
  rewrite tl_skipn. fold (thread_properties (THREAD_SPECS internal)).
  destruct (str_mem prop (thread_properties (THREAD_SPECS internal))) eqn:E.
  - split; [intros N; apply str_mem_In in E; contradiction|]. intros Er.
    cbn [negb raise_if bind].
    destruct (str_mem size (index_of (THREAD_SPECS internal))); cbn [negb raise_if bind];
      [|eexists; reflexivity].
    unfold thread_cell. rewrite tl_skipn. fold (thread_properties (THREAD_SPECS internal)).
    rewrite E, thread_rows_eq, Er. eexists; reflexivity.
  - split; intros _; eexists; reflexivity.
Qed.

Lemma thread_property_duplicate A (NA : Num A) cls internal prop size reg r1 r2 rs :
  table_for cls internal -> rows_for (THREAD_SPECS internal) size cls = r1 :: r2 :: rs ->
  raises (get_thread_property (A:=A) prop size cls reg).
Proof.
  intros T Er. rewrite (choose_table A NA cls internal) by assumption. cbv zeta.
  destruct (str_mem prop _) eqn:E; [|eexists; reflexivity]. cbn [negb raise_if bind].
  destruct (str_mem size _); [|eexists; reflexivity]. cbn [negb raise_if bind].
  unfold thread_cell. rewrite E, thread_rows_eq, Er. eexists; reflexivity.
Qed.

Lemma bad_thread_class A (NA : Num A) cls prop size reg :
  ~ (exists internal, table_for cls internal) ->
  is_value_error (get_thread_property (A:=A) prop size cls reg).
Proof.
  intros N. unfold get_thread_property.
  destruct ((contains "2" cls || contains "3" cls)%bool) eqn:G.
  2:{ rewrite !andb_false_r. eexists; reflexivity. }
  apply grade_iff in G. rewrite !andb_true_r.
  destruct (contains "A" cls) eqn:EA.
  { exfalso. apply N. exists false. split; [exact G|]. now apply contains_iff. }
  destruct (contains "B" cls) eqn:EB.
  { exfalso. apply N. exists true. split; [exact G|].
    split; [now apply contains_iff|now apply contains_false]. }
  eexists; reflexivity.
Qed.

(** Every listed property of every row is a number. *)
Definition all_numeric (f : frame) : bool :=
  forallb (fun row => forallb (fun p => match num_cell (f_cols f) row p with
                                        | Some q => Qltb 0 q | None => false end)
                              (thread_properties f)) (f_rows f).
Lemma threads_numeric internal : all_numeric (THREAD_SPECS internal) = true.
Proof. destruct internal; vm_compute; reflexivity. Qed.
Lemma thread_cells internal row prop :
  In row (f_rows (THREAD_SPECS internal)) -> In prop (thread_properties (THREAD_SPECS internal)) ->
  exists v, num_cell (f_cols (THREAD_SPECS internal)) row prop = Some v /\ (0 < v)%Q.
Proof.
  intros I J. pose proof (threads_numeric internal) as H. unfold all_numeric in H.
  rewrite forallb_forall in H. specialize (H _ I). rewrite forallb_forall in H. specialize (H _ J).
  destruct (num_cell _ _ _) as [v|]; [|discriminate]. exists v. split; [reflexivity|].
  apply Qltb_lt in H. apply Rlt_Qlt. exact H.
Qed.

(** ** Which threads can be used *)
Lemma last_part c s : occurs_in (String c "") s ->
  exists b d, s = (b ++ String c "" ++ d)%string /\ ~ occurs_in (String c "") d.
Proof.
  induction s as [|a s IH]; intros H.
  - destruct H as (b & r & H). destruct b; discriminate.
  - destruct (contains (String c "") s) eqn:E.
    + apply contains_iff in E. destruct (IH E) as (b & d & -> & N).
      exists (String a b), d. split; [reflexivity|exact N].
    + apply contains_false in E. destruct H as (b & r & H). destruct b as [|x b].
      * cbn in H. injection H as -> ->. exists ""%string, r. split; [reflexivity|exact E].
      * cbn in H. injection H as -> H. exfalso. apply E. exists b, r. exact H.
Qed.

Lemma sizes_have_tpi : forallb (fun row => (contains "-" (nth 0 row ""%string)
    && match tpi_of (nth 0 row ""%string) with Some _ => true | None => false end)%bool)
  (f_rows (THREAD_SPECS false)) = true.
Proof. vm_compute. reflexivity. Qed.

Lemma single_rows_usable size grade rB rA :
  rows_for (THREAD_SPECS true) size (grade ++ "B") = [rB] ->
  rows_for (THREAD_SPECS false) size (grade ++ "A") = [rA] ->
  exists t, thread_in_tables (THREAD_SPECS true) (THREAD_SPECS false) size grade t.
Proof.
  intros EB EA.
  assert (IB : In rB (rows_for (THREAD_SPECS true) size (grade ++ "B"))) by (rewrite EB; left; reflexivity).
  assert (IA : In rA (rows_for (THREAD_SPECS false) size (grade ++ "A"))) by (rewrite EA; left; reflexivity).
  apply rows_for_in in IB as (IB & SB & _). apply rows_for_in in IA as (IA & SA & _).
  destruct listed_props as (L1 & L2 & L3 & L4 & L5).
  destruct (thread_cells true rB _ IB L1) as (kn & Hkn & _).
  destruct (thread_cells true rB _ IB L2) as (en & Hen & _).
  destruct (thread_cells false rA _ IA L3) as (es & Hes & _).
  destruct (thread_cells false rA _ IA L4) as (ds & Hds & _).
  destruct (thread_cells false rA _ IA L5) as (D & HD & _).
  pose proof sizes_have_tpi as H. rewrite forallb_forall in H. specialize (H _ IA).
  rewrite SA in H. apply andb_true_iff in H as (C & P).
  apply contains_iff in C. apply last_part in C as (b & d & Es & N).
  destruct (tpi_of size) as [n|] eqn:En; [|discriminate].
  exists (mkThreadDims (Q2R kn) (Q2R en) (Q2R es) (Q2R ds) (Q2R D) (Q2R n)).
  exists rB, rA, kn, en, es, ds, D, n.
  split; [exact EB|]. split; [exact EA|]. split; [exact Hkn|]. split; [exact Hen|].
  split; [exact Hes|]. split; [exact Hds|]. split; [exact HD|]. split; [|reflexivity].
  exists b, d. split; [exact Es|]. split; [exact N|].
  unfold tpi_of in En. rewrite Es, (split_last "-" b d N) in En. exact En.
Qed.

Lemma thread_cell_single internal prop size cls v :
  thread_cell internal prop size cls = Ok v ->
  exists row, rows_for (THREAD_SPECS internal) size cls = [row].
Proof.
  unfold thread_cell. destruct (negb _); [discriminate|]. rewrite thread_rows_eq.
  destruct (rows_for (THREAD_SPECS internal) size cls) as [|r [|r2 rs]]; try discriminate.
  intros _. exists r. reflexivity.
Qed.

Lemma stress_areas_needs A (NA : Num A) size grade bolt plate len reg r :
  calculate_stress_areas (A:=A) size grade bolt plate len reg = Ok r ->
  exists t, thread_in_tables (THREAD_SPECS true) (THREAD_SPECS false) size grade t.
Proof.
  intros H. unfold calculate_stress_areas in H.
  apply bind_inv in H as (? & _ & H). apply bind_inv in H as (? & _ & H).
  apply bind_inv in H as (? & _ & H).
  apply bind_inv in H as (v & C1 & H). apply bind_inv in H as (? & _ & H).
  apply bind_inv in H as (v2 & C2 & _).
  apply thread_cell_single in C1 as (rB & EB). apply thread_cell_single in C2 as (rA & EA).
  exact (single_rows_usable _ _ _ _ EB EA).
Qed.

Lemma unlisted_rows f size cls : ~ size_listed f size -> rows_for f size cls = [].
Proof.
  intros N. destruct (rows_for f size cls) as [|r rs] eqn:E; [reflexivity|].
  exfalso. assert (I : In r (rows_for f size cls)) by (rewrite E; left; reflexivity).
  apply rows_for_in in I as (I & S & _). apply N. exists r; auto.
Qed.

Definition single (f : frame) (size cls : string) : bool :=
  match rows_for f size cls with [_] => true | _ => false end.
Lemma grade2_single :
  forallb (fun row => let s := nth 0 row ""%string in
    (negb (str_mem s (index_of (THREAD_SPECS true))) || String.eqb s "2-6"
     || (single (THREAD_SPECS true) s "2B" && single (THREAD_SPECS false) s "2A"))%bool)
    (f_rows (THREAD_SPECS false)) = true.
Proof. vm_compute. reflexivity. Qed.

Lemma grade2_usable size :
  size_listed (THREAD_SPECS true) size -> size_listed (THREAD_SPECS false) size ->
  size <> "2-6"%string ->
  exists t, thread_in_tables (THREAD_SPECS true) (THREAD_SPECS false) size "2" t.
Proof.
  intros LB (row & I & S) N. apply index_size_listed in LB.
  pose proof grade2_single as H. rewrite forallb_forall in H. specialize (H _ I).
  cbv zeta in H. rewrite S, LB in H. cbn [negb orb] in H.
  apply String.eqb_neq in N. rewrite N in H. cbn [orb] in H.
  apply andb_true_iff in H as (H1 & H2). unfold single in H1, H2.
  destruct (rows_for (THREAD_SPECS true) size "2B") as [|rB [|? ?]] eqn:EB; try discriminate.
  destruct (rows_for (THREAD_SPECS false) size "2A") as [|rA [|? ?]] eqn:EA; try discriminate.
  exact (single_rows_usable size "2" rB rA EB EA).
Qed.

Lemma two_six_rows :
  forallb (fun row => (negb (String.eqb (nth 0 row ""%string) "2-6")
                       || String.eqb (nth 1 row ""%string) "2A")%bool)
    (f_rows (THREAD_SPECS false)) = true
  /\ length (rows_for (THREAD_SPECS false) "2-6" "2A") = 2%nat.
Proof. split; vm_compute; reflexivity. Qed.
Lemma two_six_unusable grade t :
  ~ thread_in_tables (THREAD_SPECS true) (THREAD_SPECS false) "2-6" grade t.
Proof.
  intros (rB & rA & kn & en & es & ds & D & n & _ & EA & _).
  destruct two_six_rows as (F & L).
  assert (I : In rA (rows_for (THREAD_SPECS false) "2-6" (grade ++ "A")))
    by (rewrite EA; left; reflexivity).
  apply rows_for_in in I as (I & S0 & S1).
  rewrite forallb_forall in F. specialize (F _ I). rewrite S0 in F.
  rewrite String.eqb_refl in F. cbn [negb orb] in F. apply String.eqb_eq in F.
  rewrite S1 in F. rewrite F in EA. rewrite EA in L. discriminate.
Qed.

(** ** Order of the tabulated limits *)
Definition ordered_col (f : frame) (lo hi : string) : bool :=
  forallb (fun row => match num_cell (f_cols f) row lo, num_cell (f_cols f) row hi with
                      | Some a, Some b => Qle_bool a b | _, _ => false end) (f_rows f).
Lemma ordered_col_ok f lo hi : ordered_col f lo hi = true ->
  forall row a b, In row (f_rows f) -> num_cell (f_cols f) row lo = Some a ->
  num_cell (f_cols f) row hi = Some b -> (a <= b)%Q.
Proof.
  intros H row a b I Ea Eb. unfold ordered_col in H. rewrite forallb_forall in H.
  specialize (H _ I). rewrite Ea, Eb in H. now apply Qle_bool_iff.
Qed.
Lemma cols_ordered :
  ordered_col (THREAD_SPECS true) "minor diameter min" "minor diameter max" = true
  /\ ordered_col (THREAD_SPECS true) "pitch diameter min" "pitch diameter max" = true
  /\ ordered_col (THREAD_SPECS false) "pitch diameter min" "pitch diameter max" = true
  /\ ordered_col (THREAD_SPECS false) "major diameter max" "major diameter min" = true.
Proof. repeat split; vm_compute; reflexivity. Qed.
