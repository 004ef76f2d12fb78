(** * RoundRunUpP: sound speed and rough-tube run-up distance under rounding. *)
From Coq Require Import String ZArith QArith Reals Qreals List Bool Lra Lia Psatz.
From Verif Require Import PyBase Pint UnitsM Spec QLemmas Gas GasP FitM SdM ThermoM ThermoSpec RunUpM RunUpSpec
  RoundM RoundSpec RoundP RoundWindowP RoundMonoP RoundDdtP RoundTubeP RoundTempSpec RoundRunUpSpec.
Import ListNotations.
Local Open Scope R_scope.

Section RR.
  Variables (u : R) (rnd : R -> R).
  Hypothesis Hr : rounding u rnd.
  Notation N := (Num_rounded rnd).
  Let Hu : 0 <= u <= 1/1024. Proof. exact (proj1 Hr). Qed.
  Notation approx := (approx u).

  (** *** Quantities in units of scale 1 *)
  Lemma rnd1 x : rnd x = x -> rnd (x * 1) = x /\ rnd (x / 1) = x.
  Proof. intros H. rewrite Rmult_1_r. replace (x / 1) with x by field. tauto. Qed.

  Definition plain_unit (d : dim) (v : unit_ R) : Prop := v = mult_unit d 1.
  Lemma given_parse i m name d reg : @lookup_unit R N name = Some (mult_unit d 1) -> given rnd i m name ->
    @parse_quant_input R N i reg = Ok (mkQ m (mult_unit d 1) reg).
  Proof.
    intros L [->|(q & -> & M & L')].
    - cbn [parse_quant_input quantity_of_items]. unfold quant. rewrite L. reflexivity.
    - cbn [parse_quant_input]. assert (E : q_unit q = mult_unit d 1) by congruence. rewrite M, E. reflexivity.
  Qed.
  Lemma unit_K : @lookup_unit R N "K" = Some (mult_unit d_temperature 1).
  Proof. unfold lookup_unit, unit_table. cbn [assoc String.eqb Ascii.eqb Bool.eqb]. rewrite (one_rnd u rnd Hr). reflexivity. Qed.
  Lemma unit_Pa : @lookup_unit R N "Pa" = Some (mult_unit d_pressure 1).
  Proof. unfold lookup_unit, unit_table. cbn [assoc String.eqb Ascii.eqb Bool.eqb]. rewrite (one_rnd u rnd Hr). reflexivity. Qed.
  Lemma unit_ms : @lookup_unit R N "m/s" = Some (mult_unit d_velocity 1).
  Proof. unfold lookup_unit, unit_table. cbn [assoc String.eqb Ascii.eqb Bool.eqb]. rewrite (one_rnd u rnd Hr). reflexivity. Qed.

  Lemma plain_check m d reg name : supported_dimension name = Some d -> rnd m = m -> 0 <= m ->
    @check_q R N (mkQ m (mult_unit d 1) reg) name true = Ok true.
  Proof.
    intros Sd M P. unfold check_q, check_pint_quantity. cbn [bind q_mag q_unit]. rewrite Sd.
    unfold base_mag. cbn [q_unit mult_unit Pint.u_off q_mag u_scale nmul nltb Num_rounded].
    rewrite (zero_rnd u rnd Hr), (proj1 (rnd1 m M)), Rltb_false by lra.
    rewrite andb_false_r. cbn [raise_if bind]. cbn [mult_unit u_dim]. rewrite dim_eqb_refl. reflexivity.
  Qed.
  Lemma plain_in m d reg name : @lookup_unit R N name = Some (mult_unit d 1) -> rnd m = m ->
    @in_unit R N (mkQ m (mult_unit d 1) reg) name = Ok m.
  Proof.
    intros L M. unfold in_unit, q_to_str. rewrite L. unfold q_to. cbn [q_unit mult_unit u_dim].
    rewrite dim_eqb_refl. unfold base_mag.
    cbn [q_unit mult_unit Pint.u_off q_mag u_scale nmul ndiv Num_rounded bind].
    rewrite (proj1 (rnd1 m M)), (proj2 (rnd1 m M)). reflexivity.
  Qed.

  (** *** Sound speed *)
  Lemma sqrt_dev d : -1 <= d -> Rabs (sqrt (1 + d) - 1) <= Rabs d.
  Proof.
    intros H. assert (S0 : 0 <= sqrt (1 + d)) by apply sqrt_pos.
    assert (E : (sqrt (1 + d) - 1) * (sqrt (1 + d) + 1) = d).
    { replace ((sqrt (1 + d) - 1) * (sqrt (1 + d) + 1)) with (sqrt (1 + d) * sqrt (1 + d) - 1) by ring.
      rewrite sqrt_sqrt by lra. ring. }
    rewrite <- E at 2. rewrite Rabs_mult.
    rewrite <- (Rmult_1_r (Rabs (sqrt (1 + d) - 1))) at 1.
    apply Rmult_le_compat_l; [apply Rabs_pos|]. rewrite Rabs_pos_eq; lra.
  Qed.

  Lemma sound_value p0 dr : 45000 * u <= 1/100 -> 0 < p0 -> 0 < dr ->
    let p1 := rnd (rnd (Q2R 1.0001) * p0) in
    within (4 * u) (10001/10000 * p0) p1
    /\ exists c e, 0 < c /\ c^2 * dr = 1/10000 * p0
         /\ 0 <= rnd (rnd (p1 - p0) / rnd dr)
         /\ rnd dr <> 0
         /\ rnd (sqrt (rnd (rnd (p1 - p0) / rnd dr))) = c * e /\ Rabs (e - 1) <= 45000 * u.
  Proof.
    intros Su P D p1. assert (L : Q2R 1.0001 = 10001/10000) by (q2r; lra).
    assert (N1 : near u 2 (10001/10000 * p0) p1).
    { unfold p1. apply rnd_near; [exact Hr|]. rewrite <- L.
      replace 1%nat with (1 + 0)%nat by lia.
      apply near_mul; [exact Hu|apply rnd_near, near_refl; [exact Hr|exact Hu]|apply near_refl; exact Hu]. }
    pose proof (near_err u rnd Hr 2 _ _ ltac:(lia) N1) as E1. replace (INR 2) with 2 in E1 by (cbn; lra).
    assert (W : within (4 * u) (10001/10000 * p0) p1).
    { unfold within. eapply Rle_trans; [exact E1|]. lra. }
    split; [exact W|].
    rewrite (Rabs_pos_eq (10001/10000 * p0)) in E1 by lra.
    set (d := (p1 - p0) / (1/10000 * p0) - 1).
    assert (Ed : p1 - p0 = 1/10000 * p0 * (1 + d)) by (unfold d; field; lra).
    assert (Bd : Rabs d <= 40004 * u).
    { replace d with ((p1 - 10001/10000 * p0) * (/ (1/10000 * p0))) by (unfold d; field; lra).
      rewrite Rabs_mult, (Rabs_pos_eq (/ _)) by (apply Rlt_le, Rinv_0_lt_compat; lra).
      apply Rmult_le_reg_r with (1/10000 * p0); [lra|].
      rewrite Rmult_assoc, Rinv_l by lra. lra. }
    assert (Bd' : -1/100 <= d <= 1/100).
    { assert (40004 * u <= 1/100) by lra. unfold Rabs in Bd. destruct (Rcase_abs d); lra. }
    set (c := sqrt (1/10000 * p0 / dr)).
    assert (Q0 : 0 < 1/10000 * p0 / dr) by (apply Rdiv_lt_0_compat; lra).
    assert (C0 : 0 < c) by (apply sqrt_lt_R0; exact Q0).
    assert (C2 : c^2 * dr = 1/10000 * p0).
    { unfold c. rewrite pow2_sqrt by lra. field. lra. }
    set (w := (p1 - p0) / dr).
    assert (Ew : w = 1/10000 * p0 / dr * (1 + d)) by (unfold w; rewrite Ed; field; lra).
    assert (W0 : 0 < w) by (rewrite Ew; apply Rmult_lt_0_compat; lra).
    assert (Sw : sqrt w = c * sqrt (1 + d)) by (rewrite Ew; unfold c; apply sqrt_mult; lra).
    assert (Nv : near u 4 (sqrt w) (rnd (sqrt (rnd (rnd (p1 - p0) / rnd dr))))).
    { apply rnd_near; [exact Hr|]. apply near_sqrt; [exact Hu|lra|]. apply rnd_near; [exact Hr|].
      unfold w. replace 2%nat with (1 + 1)%nat by lia.
      apply near_div; [exact Hu| |]; (apply rnd_near, near_refl; [exact Hr|exact Hu]). }
    assert (Nw : near u 3 w (rnd (rnd (p1 - p0) / rnd dr))).
    { apply rnd_near; [exact Hr|]. unfold w. replace 2%nat with (1 + 1)%nat by lia.
      apply near_div; [exact Hu| |]; (apply rnd_near, near_refl; [exact Hr|exact Hu]). }
    pose proof (near_err u rnd Hr 4 _ _ ltac:(lia) Nv) as Ev. replace (INR 4) with 4 in Ev by (cbn; lra).
    destruct Nv as (e & Ee & _).
    exists c, (sqrt (1 + d) * e). split; [exact C0|]. split; [exact C2|].
    split; [eapply near_nonneg; [exact Hu|exact Nw|lra]|].
    split. { apply Rgt_not_eq. apply (rnd_pos u rnd Hr). exact D. }
    split; [rewrite Ee, Sw; ring|].
    rewrite Ee in Ev.
    assert (S0 : 0 < sqrt w) by (apply sqrt_lt_R0; exact W0).
    assert (Be : Rabs (e - 1) <= 8 * u).
    { apply Rmult_le_reg_r with (sqrt w); [exact S0|]. rewrite <- (Rabs_pos_eq (sqrt w)) at 1 by lra.
      rewrite <- Rabs_mult. replace ((e - 1) * sqrt w) with (sqrt w * e - sqrt w) by ring.
      eapply Rle_trans; [exact Ev|]. rewrite Rabs_pos_eq by lra. lra. }
    pose proof (sqrt_dev d ltac:(lra)) as Bs.
    set (s := sqrt (1 + d)) in *.
    replace (s * e - 1) with ((s - 1) + (s - 1) * (e - 1) + (e - 1)) by ring.
    eapply Rle_trans; [apply Rabs_triang|]. eapply Rle_trans; [apply Rplus_le_compat_r, Rabs_triang|].
    rewrite Rabs_mult. pose proof (Rabs_pos (s - 1)). pose proof (Rabs_pos (e - 1)).
    assert (Rabs (s - 1) * Rabs (e - 1) <= 1/100 * (8 * u)) by (apply Rmult_le_compat; lra). lra.
  Qed.

  Lemma vact {B} (e : event R) (r : result B) : value (act e r) = r.
  Proof. reflexivity. Qed.

  (** *** Equation 4.4 *)
  Lemma q_div_np p q : q_mag q <> 0 -> @q_div R N (@npdiv R N) p q = @q_div R N (@pydiv R N) p q.
  Proof.
    intros M. unfold q_div, npdiv, pydiv. cbn [neqb Num_rounded].
    rewrite (zero_rnd u rnd Hr), Reqb_false by exact M. reflexivity.
  Qed.
  Lemma approx_mag k q d x reg : approx k q d x reg -> x <> 0 -> q_mag q <> 0.
  Proof.
    intros (_ & _ & S0 & H & _) X Z. apply X. eapply near_zero; [exact Hu|exact H|]. rewrite Z. ring.
  Qed.
  Lemma ndivq_approx k k' c c' q d x reg : near u k c c' -> approx k' q d x reg -> x <> 0 ->
    exists r, @n_divq R N (@npdiv R N) c' q = Ok r /\ approx (2 + k + k') r (dim_div d_none d) (c / x) reg.
  Proof.
    intros C A Nz. pose proof (approx_mag _ _ _ _ _ A Nz) as M. destruct A as (D & O & S0 & H & E).
    unfold n_divq, offset_free. rewrite O. cbn [bind].
    unfold npdiv. cbn [neqb Num_rounded]. rewrite (zero_rnd u rnd Hr), Reqb_false by exact M. cbn [bind].
    eexists. split; [reflexivity|]. unfold RoundP.approx, mult_unit. cbn [q_mag q_unit q_reg u_dim u_off u_scale].
    rewrite D, (one_rnd u rnd Hr). cbn [ndiv Num_rounded].
    assert (S1 : 0 < 1 / u_scale (q_unit q)) by (apply Rdiv_lt_0_compat; lra).
    repeat split; try assumption.
    - apply (rnd_pos u rnd Hr). exact S1.
    - replace (2 + k + k')%nat with (k + k' + (1 + 1))%nat by lia.
      eapply (near_trans u Hu (k + k') (1 + 1)); [apply (near_div u Hu); [exact C|exact H]|].
      replace (c' / (q_mag q * u_scale (q_unit q))) with ((c' / q_mag q) * (1 / u_scale (q_unit q))) by (field; split; lra).
      apply near_mul; [exact Hu| |]; (apply rnd_near, (near_refl u Hu 0); exact Hr).
  Qed.

  Lemma self_ms m reg : approx 0 (mkQ m (mult_unit d_velocity 1) reg) d_velocity m reg.
  Proof.
    unfold RoundP.approx, mult_unit. cbn [q_mag q_unit q_reg u_dim u_off u_scale]. rewrite Rmult_1_r.
    repeat split; try reflexivity; [lra|apply near_refl; exact Hu].
  Qed.

  Lemma rough_near (BR s S v D : R) (qD : quantity R) reg :
    let z := rnd (s - 1) in
    3/10 <= BR <= 3/4 -> approx 10 qD d_length D reg -> 0 < D -> 0 < S -> 0 < v -> 0 < z ->
    exists q y, @eq4_4 R N BR qD (mkQ S (mult_unit d_velocity 1) reg) s (mkQ v (mult_unit d_velocity 1) reg) = Ok q
      /\ stands_for q d_length y reg
      /\ near u 30 (2 * (1 - BR) / (1 + 3/2 * BR) / (z * (20 * S) / (v * D))) y.
  Proof.
    intros z HB AD D0 S0 V0 Z0. unfold eq4_4. rewrite (one_rnd u rnd Hr).
    assert (L20 : near u 3 20 (@nmul R N (@nofQ R N 2) (@nofQ R N 10))).
    { replace 20 with (Q2R 2 * Q2R 10) by (q2r; lra). apply (nmul_near u rnd Hr 1 1); apply (lit_near u rnd Hr). }
    destruct (scale_approx u rnd Hr 3 0 _ _ _ _ _ _ L20 (self_ms S reg)) as (t1 & -> & A1). cbn [bind].
    change (@nsub R N s 1) with z.
    destruct (scale_approx u rnd Hr 0 _ z z _ _ _ _ (near_refl u Hu 0 z) A1) as (t2 & -> & A2). cbn [bind].
    destruct (mul_approx u rnd Hr _ _ _ _ _ _ _ _ _ (self_ms v reg) AD) as (b & -> & Ab). cbn [bind].
    assert (VD : v * D <> 0) by (apply Rgt_not_eq, Rmult_lt_0_compat; assumption).
    rewrite q_div_np by exact (approx_mag _ _ _ _ _ Ab VD).
    destruct (div_approx u rnd Hr _ _ _ _ _ _ _ _ _ A2 Ab VD) as (l & -> & Al). cbn [bind].
    assert (B1 : near u 3 (2 * (1 - BR)) (@nmul R N (@nofQ R N 2) (@nsub R N 1 BR))).
    { replace 2 with (Q2R 2) at 1 by (q2r; lra). apply (nmul_near u rnd Hr 1 1); [apply (lit_near u rnd Hr)|].
      cbn [nsub Num_rounded]. apply rnd_near, near_refl; [exact Hr|exact Hu]. }
    assert (B2 : near u 3 (1 + 3/2 * BR) (@nadd R N 1 (@nmul R N (@nofQ R N 1.5) BR))).
    { apply (nadd_near u rnd Hr 0 2); [lra|lra|apply near_refl; exact Hu|].
      replace (3/2) with (Q2R 1.5) by (q2r; lra). apply (nmul_near u rnd Hr 1 0); [apply (lit_near u rnd Hr)|apply near_refl; exact Hu]. }
    unfold pydiv at 1. cbn [neqb Num_rounded]. rewrite (zero_rnd u rnd Hr).
    rewrite Reqb_false by (eapply near_nz; [exact Hu|exact B2|lra]). cbn [bind].
    pose proof (ndiv_near u rnd Hr _ _ _ _ _ _ B1 B2) as B3.
    assert (Zl : z * (20 * S) / (v * D) <> 0).
    { apply Rgt_not_eq, Rdiv_lt_0_compat; apply Rmult_lt_0_compat; lra. }
    destruct (ndivq_approx _ _ _ _ _ _ _ _ B3 Al Zl) as (r & -> & Ar). cbn [bind].
    pose proof AD as (DD & DO & DS & _ & _).
    destruct (to_approx u rnd Hr _ _ _ _ _ (q_unit qD) Ar DD DO DS) as (q & -> & Aq & _).
    exists q, (q_mag q * u_scale (q_unit q)). split; [reflexivity|].
    destruct Aq as (Q1 & Q2 & Q3 & Q4 & Q5). split.
    - repeat split; assumption.
    - eapply near_weaken; [exact Hu| |exact Q4]. cbn. lia.
  Qed.

  Lemma sigma_near rho0 rho1 K : 0 < rho0 -> 0 < rho1 -> 0 < K -> 1 + / K <= rho0 / rho1 ->
    6 * (1 + K) * u <= 1/100 ->
    let sigma := rho0 / rho1 in let z := rnd (rnd (rho0 * rnd (1 / rho1)) - 1) in
    0 < z /\ exists e, z = (sigma - 1) * e /\ Rabs (e - 1) <= 6 * (1 + K) * u.
  Proof.
    intros R0 R1 K0 HS Su sigma z. fold sigma in HS.
    assert (P : 0 < / K) by (apply Rinv_0_lt_compat; exact K0).
    set (s' := rnd (rho0 * rnd (1 / rho1))) in *.
    assert (Ns : near u 2 sigma s').
    { apply rnd_near; [exact Hr|]. unfold sigma. replace (rho0 / rho1) with (rho0 * (1 / rho1)) by (field; lra).
      replace 1%nat with (0 + 1)%nat by lia. apply near_mul; [exact Hu|apply near_refl; exact Hu|].
      apply rnd_near, near_refl; [exact Hr|exact Hu]. }
    pose proof (near_err u rnd Hr 2 _ _ ltac:(lia) Ns) as E1. replace (INR 2) with 2 in E1 by (cbn; lra).
    rewrite (Rabs_pos_eq sigma) in E1 by lra.
    pose proof (rnd_err u rnd Hr (s' - 1)) as E2. fold z in E2.
    assert (Sg : sigma <= (1 + K) * (sigma - 1)).
    { assert (K * / K = 1) by (apply Rinv_r; lra). nra. }
    assert (A : Rabs (z - (sigma - 1)) <= 6 * u * sigma).
    { replace (z - (sigma - 1)) with ((z - (s' - 1)) + (s' - sigma)) by ring.
      eapply Rle_trans; [apply Rabs_triang|].
      assert (Rabs (s' - 1) <= (sigma - 1) + 4 * u * sigma).
      { replace (s' - 1) with ((sigma - 1) + (s' - sigma)) by ring. eapply Rle_trans; [apply Rabs_triang|].
        rewrite (Rabs_pos_eq (sigma - 1)) by lra. lra. }
      assert (u * Rabs (s' - 1) <= u * ((sigma - 1) + 4 * u * sigma)) by (apply Rmult_le_compat_l; lra).
      assert (0 <= u * sigma) by (apply Rmult_le_pos; lra).
      assert (u * (4 * u * sigma) <= u * sigma) by nra. nra. }
    assert (B : Rabs (z / (sigma - 1) - 1) <= 6 * (1 + K) * u).
    { replace (z / (sigma - 1) - 1) with ((z - (sigma - 1)) * / (sigma - 1)) by (field; lra).
      rewrite Rabs_mult, (Rabs_pos_eq (/ _)) by (apply Rlt_le, Rinv_0_lt_compat; lra).
      apply Rmult_le_reg_r with (sigma - 1); [lra|]. rewrite Rmult_assoc, Rinv_l by lra.
      rewrite Rmult_1_r. eapply Rle_trans; [exact A|].
      assert (6 * u * sigma <= 6 * u * ((1 + K) * (sigma - 1))) by (apply Rmult_le_compat_l; lra). lra. }
    split.
    - assert (0 < z / (sigma - 1)) by (unfold Rabs in B; destruct (Rcase_abs (z / (sigma - 1) - 1)); lra).
      replace z with (z / (sigma - 1) * (sigma - 1)) by (field; lra). apply Rmult_lt_0_compat; lra.
    - exists (z / (sigma - 1)). split; [field; lra|exact B].
  Qed.

  Lemma combine (t e1 e2 e3 K y : R) : 0 < K -> (50000 + 10 * K) * u <= 1/100 -> 0 <= t ->
    y = t * e1 * e2 / e3 -> Rabs (e1 - 1) <= 60 * u -> Rabs (e2 - 1) <= 45000 * u ->
    Rabs (e3 - 1) <= 6 * (1 + K) * u -> within ((50000 + 10 * K) * u) t y.
  Proof.
    intros K0 Su T0 -> B1 B2 B3. unfold within. rewrite (Rabs_pos_eq t T0).
    assert (Uk : 0 <= u * K) by (apply Rmult_le_pos; lra).
    assert (E3 : 99/100 <= e3) by (unfold Rabs in B3; destruct (Rcase_abs (e3 - 1)); nra).
    replace (t * e1 * e2 / e3 - t) with (t * ((e1 * e2 - e3) / e3)) by (field; lra).
    rewrite Rabs_mult, (Rabs_pos_eq t T0), Rmult_comm. apply Rmult_le_compat_r; [exact T0|].
    unfold Rdiv. rewrite Rabs_mult, (Rabs_pos_eq (/ e3)) by (apply Rlt_le, Rinv_0_lt_compat; lra).
    apply Rmult_le_reg_r with e3; [lra|]. rewrite Rmult_assoc, Rinv_l, Rmult_1_r by lra.
    replace (e1 * e2 - e3) with ((e1 - 1) + (e2 - 1) + (e1 - 1) * (e2 - 1) + - (e3 - 1)) by ring.
    assert (M : Rabs ((e1 - 1) * (e2 - 1)) <= 60 * u * (1/100)).
    { rewrite Rabs_mult. apply Rmult_le_compat; try apply Rabs_pos; lra. }
    eapply Rle_trans; [apply Rabs_triang|]. rewrite Rabs_Ropp.
    eapply Rle_trans; [apply Rplus_le_compat_r, Rabs_triang|].
    eapply Rle_trans; [apply Rplus_le_compat_r, Rplus_le_compat_r, Rabs_triang|].
    assert (0 <= (50000 + 10 * K) * u) by nra.
    assert ((50000 + 10 * K) * u * (99/100) <= (50000 + 10 * K) * u * e3) by (apply Rmult_le_compat_l; lra).
    nra.
  Qed.

  Section Gas.
    Context {G X : Type} (L : cantera R G X).

    Lemma sound_rounded x mech phase iT iP T P reg : 45000 * u <= 1/100 ->
      given rnd iT T "K" -> given rnd iP P "Pa" ->
      machine_number rnd T -> machine_number rnd P -> 0 <= T -> 0 <= P ->
      compressible L x mech phase u T P ->
      exists c e, speed_of_sound L x mech phase u T P c
        /\ value (@get_eq_sound_speed R G X N L iT iP x mech phase reg)
           = Ok (mkQ (c * e) (mult_unit d_velocity 1) reg)
        /\ 0 < c /\ Rabs (e - 1) <= 45000 * u.
    Proof.
      intros Su GT GP MT MP T0 P0 (g & g0 & (gn & En & Es) & Eq & Pp & K).
      destruct (sound_value (ct_P L g0) 1 Su Pp Rlt_0_1) as (W & _).
      set (p1 := rnd (rnd (Q2R 1.0001) * ct_P L g0)) in *.
      destruct (K p1 W) as (h & g1 & E1 & E2 & Dr).
      destruct (sound_value (ct_P L g0) (ct_density L g1 - ct_density L g0) Su Pp ltac:(lra)) as (_ & c & e & C0 & C2 & V0 & Nz & V & B).
      fold p1 in V0, V. exists c, e. split; [|split; [|split; assumption]].
      { exists g0, g1. split; [|split; assumption]. exists g, h, p1. repeat (split; [assumption||now exists gn|]). assumption. }
      unfold get_eq_sound_speed, new_solution, set_TPX, set_SP, equilibrate.
      rewrite (given_parse iP P "Pa" d_pressure reg unit_Pa GP), bind_pure_ok.
      rewrite (given_parse iT T "K" d_temperature reg unit_K GT), bind_pure_ok.
      rewrite (plain_check P d_pressure reg "pressure" eq_refl MP P0), bind_pure_ok.
      rewrite (plain_check T d_temperature reg "temperature" eq_refl MT T0), bind_pure_ok.
      rewrite value_bind. rewrite vact. rewrite En. cbn [bind].
      rewrite (plain_in T d_temperature reg "K" unit_K MT), bind_pure_ok.
      rewrite (plain_in P d_pressure reg "Pa" unit_Pa MP), bind_pure_ok.
      rewrite value_bind. rewrite vact. rewrite Es. cbn [bind].
      rewrite value_bind. rewrite vact. rewrite Eq. cbn [bind].
      rewrite value_bind. cbn [nmul nofQ nsub Num_rounded].
      rewrite vact. fold p1.
      rewrite E1. cbn [bind].
      rewrite value_bind. rewrite vact. rewrite E2. cbn [bind].
      unfold npdiv, npsqrt. cbn [neqb nltb ndiv nsqrt Num_rounded]. rewrite (zero_rnd u rnd Hr).
      rewrite Reqb_false by exact Nz. rewrite bind_pure_ok.
      rewrite Rltb_false by exact V0. rewrite bind_pure_ok. rewrite value_pure.
      unfold quant. rewrite unit_ms, V. reflexivity.
    Qed.
  End Gas.
End RR.
