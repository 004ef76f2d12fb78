(** * RoundPipeP: rating a catalogue pipe under rounding. *)
From Coq Require Import String ZArith QArith Reals Qreals List Bool Lra Lia Psatz.
From Verif Require Import PyBase Pint UnitsM Spec QLemmas Csv TableSpec Tables Interp InterpP
  NumQ TubeM TubeP StressP PipeP DesignP RoundM RoundSpec RoundTempSpec RoundP RoundWindowP RoundMonoP
  RoundDdtP RoundStressP RoundTubeP RoundPipeSpec.
Import ListNotations.
Local Open Scope R_scope.

Lemma rated_exact size schedule temp m w sf reg :
  @rated_pipe R Num_R size schedule temp m w sf reg = pipe_limit size schedule temp m w sf reg.
Proof. unfold rated_pipe, pipe_limit. reflexivity. Qed.

(** The dimensions in any arithmetic. *)
Lemma get_dimensions_any {A} (N : Num A) size schedule row od w reg v :
  row_of PIPE_SCHEDULES size = Some row -> In schedule schedule_columns ->
  num_cell (f_cols PIPE_SCHEDULES) row "OD" = Some od ->
  num_cell (f_cols PIPE_SCHEDULES) row schedule = Some w ->
  @lookup_unit A N "in" = Some v ->
  @get_dimensions A N size schedule reg
  = Ok (mkDims (mkQ (nsub (nofQ od) (nmul (nofQ 2) (nofQ w))) v reg) (mkQ (nofQ od) v reg) (mkQ (nofQ w) v reg)).
Proof.
  intros E I Co Cw L. unfold get_dimensions.
  rewrite (schedules_ok _ _ E); cbn [bind].
  replace (str_mem schedule _) with true.
  2:{ symmetry. apply str_mem_In, filter_In; split; auto.
      unfold has_number; now rewrite Cw. }
  cbn [negb raise_if bind]. unfold pipe_cell. rewrite E, Co, Cw. cbn [bind].
  unfold quant. rewrite L. reflexivity.
Qed.

(** No stress of the tables is above 20 ksi. *)
Definition small_stress : bool :=
  forallb (fun m => forallb (fun p => Qle_bool (snd p) 20) (limitsQ m true)
                    && forallb (fun p => Qle_bool (snd p) 20) (limitsQ m false))%bool available_materials.
Lemma small_stress_true : small_stress = true.
Proof. vm_compute. reflexivity. Qed.

Lemma limits_small m w p : In m available_materials -> In p (limits m w) -> snd p <= 20.
Proof.
  intros I H. pose proof small_stress_true as F. unfold small_stress in F. rewrite forallb_forall in F.
  specialize (F _ I). apply andb_true_iff in F as [F1 F2].
  apply in_map_iff in H as (q & <- & Hq). cbn [pt2R snd].
  replace 20 with (Q2R 20) by (q2r; lra).
  destruct w; [rewrite forallb_forall in F1; specialize (F1 _ Hq); now apply Qle_bool_le in F1
              |rewrite forallb_forall in F2; specialize (F2 _ Hq); now apply Qle_bool_le in F2].
Qed.
Lemma stress_small m w t : In m available_materials -> interp (limits m w) t <= 20.
Proof.
  intros I. destruct (stress_ok_of m w I) as [_ _ _ Inc Fal _ _ (p & l & mid & El & _)].
  assert (H : interp (limits m w) (Rmin t (fst p)) <= 20).
  { rewrite El. rewrite interp_low; [|rewrite <- El; exact Inc|apply Rmin_r].
    apply (limits_small m w); [exact I|]. rewrite El. now left. }
  eapply Rle_trans; [|exact H]. apply interp_falls; [rewrite El; discriminate|exact Inc|exact Fal|apply Rmin_l].
Qed.

(** No bore of the catalogue is below a tenth of the outside diameter, except 28/10. *)
Definition bore_facts : bool :=
  forallb (fun row => forallb (fun c =>
    match num_cell (f_cols PIPE_SCHEDULES) row "OD", num_cell (f_cols PIPE_SCHEDULES) row c with
    | Some od, Some w => (Qle_bool od (2 * w) || Qle_bool ((1#10) * od) (od - 2 * w))%bool
    | _, _ => true
    end) schedule_columns) (f_rows PIPE_SCHEDULES).
Lemma bore_facts_true : bore_facts = true.
Proof. vm_compute. reflexivity. Qed.
Lemma bore_size size schedule row od w :
  row_of PIPE_SCHEDULES size = Some row -> In schedule schedule_columns ->
  num_cell (f_cols PIPE_SCHEDULES) row "OD" = Some od ->
  num_cell (f_cols PIPE_SCHEDULES) row schedule = Some w ->
  2 * Q2R w < Q2R od -> Q2R od / 10 <= Q2R od - 2 * Q2R w.
Proof.
  intros E I Co Cw L. pose proof bore_facts_true as F. unfold bore_facts in F.
  rewrite forallb_forall in F. specialize (F _ (proj1 (row_of_some _ _ _ E))).
  rewrite forallb_forall in F. specialize (F _ I). cbn beta in F. rewrite Co, Cw in F.
  apply orb_true_iff in F as [F|F]; apply Qle_bool_le in F.
  - rewrite Q2R_mult in F. assert (Q2R 2 = 2) by (q2r; lra). nra.
  - rewrite Q2R_mult, Q2R_minus, Q2R_mult in F. assert (Q2R 2 = 2) by (q2r; lra). assert (Q2R (1#10) = 1/10) by (q2r; lra). nra.
Qed.

Lemma Rabs_le_inv x y : Rabs x <= y -> - y <= x <= y.
Proof. unfold Rabs. destruct (Rcase_abs x); lra. Qed.
Lemma ratio_err u od w a b : 0 <= u <= 1/1024 -> 0 < w -> 2 * w < od ->
  Rabs (a - od) <= u * od -> Rabs (b - (od - 2 * w)) <= 6 * u * od -> 0 <= b ->
  0 < a + b /\ Rabs ((a - b) / (a + b) - w / (od - w)) <= 15 * u.
Proof.
  intros U W L A B Pb.
  assert (O : 0 < od) by lra.
  apply Rabs_le_inv in A, B.
  assert (D' : od * (1 - 7 * u) <= a + b) by nra.
  assert (P : 0 < a + b) by nra.
  split; [exact P|].
  replace (w / (od - w)) with (2 * w / (2 * (od - w))) by (field; lra).
  set (n := a - b) in *. set (d := a + b) in *.
  assert (Dn : Rabs (n - 2 * w) <= 7 * u * od) by (apply Rabs_le; unfold n; lra).
  assert (Dd : Rabs (d - 2 * (od - w)) <= 7 * u * od) by (apply Rabs_le; unfold d; lra).
  replace (n / d - 2 * w / (2 * (od - w)))
    with (((n - 2 * w) + - (w / (od - w)) * (d - 2 * (od - w))) / d) by (field; lra).
  unfold Rdiv at 1. rewrite Rabs_mult, Rabs_inv, (Rabs_pos_eq d) by lra.
  apply Rmult_le_reg_r with d; [exact P|]. rewrite Rmult_assoc, Rinv_l, Rmult_1_r by lra.
  assert (R1 : 0 <= w / (od - w) <= 1).
  { split; [apply Rmult_le_pos; [lra|left; apply Rinv_0_lt_compat; lra]|].
    apply Rmult_le_reg_r with (od - w); [lra|]. unfold Rdiv. rewrite Rmult_assoc, Rinv_l by lra. lra. }
  eapply Rle_trans; [apply Rabs_triang|]. rewrite Rabs_mult, Rabs_Ropp, (Rabs_pos_eq (w / (od - w))) by lra.
  pose proof (Rabs_pos (d - 2 * (od - w))).
  apply Rle_trans with (14 * u * od); [nra|].
  apply Rle_trans with (15 * u * (od * (1 - 7 * u))); [nra|].
  apply Rmult_le_compat_l; lra.
Qed.

Section RP.
  Variables (u : R) (rnd : R -> R).
  Hypothesis Hr : rounding u rnd.
  Notation N := (Num_rounded rnd).
  Let Hu : 0 <= u <= 1/1024. Proof. exact (proj1 Hr). Qed.

  (** Maximum pressure, whatever the sign of the stress. *)
  Lemma mp_rounded_any qi qo qs ID OD sg sf reg :
    stands_for qi d_length ID reg -> stands_for qo d_length OD reg -> stands_for qs d_pressure sg reg ->
    0 <= ID -> 0 <= OD -> 0 < OD + ID -> 0 < sf ->
    exists q h, @calculate_max_pressure R N qi qo qs sf = Ok q
      /\ Rabs (h - (OD - ID)) <= 6 * u * (OD + ID)
      /\ approx u 20 q d_pressure (sg * (2 * (h / 2)) / (sf * ((OD + ID) / 2))) reg.
  Proof.
    intros Hi Ho Hs I0 O0 G0 sf0. unfold calculate_max_pressure.
    destruct (add_approx u rnd Hr 0 0 _ _ d_length OD ID reg O0 I0 (stands_approx u rnd Hr _ _ _ _ _ Ho) (stands_approx u rnd Hr _ _ _ _ _ Hi))
      as (s & -> & As). cbn [bind].
    assert (T2 : near u 0 2 (@nofQ R N 2)) by apply (two_near u rnd Hr).
    destruct (divn_approx u rnd Hr _ _ 2 _ s _ _ reg T2 ltac:(lra) As) as (m & -> & Am). cbn [bind].
    destruct (sub_approx u rnd Hr qo qi d_length OD ID reg O0 I0 Ho Hi) as (d & -> & Dd & Od & Sd & Rd & Ed). cbn [bind].
    set (h := q_mag d * u_scale (q_unit d)) in *.
    assert (Ad : approx u 0 d d_length h reg) by (repeat split; try assumption; apply near_refl; exact Hu).
    destruct (divn_approx u rnd Hr _ _ 2 _ d _ _ reg T2 ltac:(lra) Ad) as (w & -> & Aw). cbn [bind].
    destruct (scale_approx u rnd Hr _ _ 2 _ w _ _ reg T2 Aw) as (w2 & -> & Aw2). cbn [bind].
    destruct (mul_approx u rnd Hr 0 _ qs w2 _ _ _ _ reg (stands_approx u rnd Hr _ _ _ _ _ Hs) Aw2) as (nu & -> & An). cbn [bind].
    destruct (scale_approx u rnd Hr 0 _ sf sf m _ _ reg (near_refl u Hu 0 sf) Am) as (de & -> & Ade). cbn [bind].
    destruct (div_approx u rnd Hr _ _ nu de _ _ _ _ reg An Ade) as (r & -> & Ar); [nra|].
    exists r, h. split; [reflexivity|]. split; [exact Ed|].
    eapply approx_weaken; [exact Hr| |exact Ar]. cbn. lia.
  Qed.

  Lemma bore_err od w : 0 < w -> 2 * w < od -> od / 10 <= od - 2 * w ->
    let a := rnd od in let b := rnd (rnd od - rnd (2 * rnd w)) in
    Rabs (a - od) <= u * od /\ Rabs (b - (od - 2 * w)) <= 6 * u * od /\ 0 <= b.
  Proof.
    intros W L K a b.
    assert (O : 0 < od) by lra.
    pose proof (rnd_err u rnd Hr od) as A. rewrite (Rabs_pos_eq od) in A by lra. fold a in A.
    pose proof (rnd_err u rnd Hr w) as Y. rewrite (Rabs_pos_eq w) in Y by lra.
    set (y := rnd w) in *.
    pose proof (Rabs_le_inv _ _ A) as A'. pose proof (Rabs_le_inv _ _ Y) as Y'.
    assert (Py : 0 <= y) by nra.
    pose proof (rnd_err u rnd Hr (2 * y)) as Z. rewrite (Rabs_pos_eq (2 * y)) in Z by lra.
    set (z := rnd (2 * y)) in *. pose proof (Rabs_le_inv _ _ Z) as Z'.
    assert (Yb : y <= w * (1 + u)) by lra.
    assert (Zb : - (3 * (u * od)) <= z - 2 * w <= 3 * (u * od)).
    { assert (H : 0 <= u * (od - 2 * w)) by (apply Rmult_le_pos; lra). assert (Y2 : u * (2 * y) <= u * (2 * w * (1 + u))) by (apply Rmult_le_compat_l; lra).
      assert (u * u * w <= u * w) by (apply Rmult_le_compat_r; nra). nra. }
    assert (X : Rabs (a - z - (od - 2 * w)) <= 4 * (u * od)) by (apply Rabs_le; lra).
    assert (U0 : 0 <= u * od) by (apply Rmult_le_pos; lra).
    assert (U1 : u * od <= od / 1024) by nra.
    pose proof (Rabs_le_inv _ _ X) as X'.
    pose proof (rnd_err u rnd Hr (a - z)) as B. rewrite (Rabs_pos_eq (a - z)) in B by lra. fold a in b. fold b in B.
    change (rnd (a - z)) with b in B.
    assert (B1 : u * (a - z) <= 2 * (u * od)).
    { replace (2 * (u * od)) with (u * (2 * od)) by ring. apply Rmult_le_compat_l; lra. }
    pose proof (Rabs_le_inv _ _ B) as B'.
    split; [exact A|]. split.
    - apply Rabs_le; lra.
    - unfold b. apply (rnn u rnd Hr). lra.
  Qed.

  Lemma rated_rounded size schedule m w a name t temp sf reg :
    offered_pipe size schedule -> (size, schedule) <> ("28"%string, "10"%string) ->
    In m available_materials ->
    denotes (PSeq [ENum a; EStr name]) d_temperature (fahrenheit t) ->
    given rnd temp a name -> 0 < sf ->
    exists p p',
      returns (@rated_pipe R Num_R size schedule (PSeq [ENum a; EStr name]) m w sf reg) d_pressure p reg
      /\ returns (@rated_pipe R N size schedule temp m w sf reg) d_pressure p' reg
      /\ Rabs (p' - p) <= 1e11 * u / sf.
  Proof.
    intros O N28 I D G F.
    destruct (pipe_limit_closed size schedule _ t m w sf reg O I D F)
      as (dims & od & wl & stress & S & Gd & Eo & Ew & Pw & Po & L & Es & Is & Ps & St & Ret).
    specialize (L N28). specialize (Ret ltac:(lra)).
    exists (S * (2 * Q2R wl) / (sf * (Q2R od - Q2R wl))).
    (* the row of the table *)
    destruct O as (w0 & E0 & N1 & N2).
    pose proof E0 as Ec. apply entry_row in Ec as (row & Rw & Cw0); [|exact pipe_labels].
    assert (Ic : In schedule schedule_columns) by (apply schedule_columns_iff; apply num_cell_col in Cw0; auto).
    apply entry_row in Eo as (row1 & Rw1 & Co); [|exact pipe_labels].
    apply entry_row in Ew as (row2 & Rw2 & Cw); [|exact pipe_labels].
    assert (row1 = row) by congruence. assert (row2 = row) by congruence. subst row1 row2.
    pose proof (bore_size _ _ _ _ _ Rw Ic Co Cw L) as K10.
    destruct (bore_err _ _ Pw L K10) as (Ea & Eb & Pb).
    set (a' := rnd (Q2R od)) in *. set (b' := rnd (a' - rnd (2 * rnd (Q2R wl)))) in *.
    destruct (ratio_err u _ _ a' b' Hu Pw L Ea Eb Pb) as (Pab & Er).
    (* the units *)
    assert (Uin : exists v, @lookup_unit R Num_R "in" = Some v /\ u_off v = None /\ u_dim v = d_length)
      by (eexists; repeat split; reflexivity).
    destruct Uin as (v & Lv & Ov & Dv).
    destruct (lookup_near u rnd Hr _ _ Lv Ov) as (v' & Lv' & Dv' & _ & Ov' & Sv & Nv).
    assert (Sv' : 0 < u_scale v') by (eapply near_pos; [exact Hu|exact Nv|exact Sv]).
    assert (Uk : exists k, @lookup_unit R Num_R "ksi" = Some k /\ u_off k = None /\ u_dim k = d_pressure
       /\ 0 < u_scale k <= 7000000).
    { eexists. repeat split; try reflexivity; cbn; rnum; unfold s_psi, s_inch; rnum; q2r; lra. }
    destruct Uk as (k & Lk & Ok_ & Dk & Pk).
    destruct (lookup_near u rnd Hr _ _ Lk Ok_) as (k' & Lk' & Dk' & _ & Ok' & Sk & Nk).
    assert (Sk' : 0 < u_scale k') by (eapply near_pos; [exact Hu|exact Nk|exact Sk]).
    apply (near_err u rnd Hr) in Nk; [|lia]. replace (INR 10) with 10 in Nk by (rewrite INR_IZR_INZ; reflexivity).
    rewrite (Rabs_pos_eq (u_scale k)) in Nk by lra.
    (* the stress *)
    destruct (stress_ok_of m w I) as [_ _ _ _ _ _ _ (pp & ll & mid & El & _)].
    assert (Ne : limits m w <> []) by (rewrite El; discriminate).
    destruct (max_stress_value _ t m w reg _ I D (interp_ok _ t Ne)) as (q & E & U).
    assert (q = stress) by congruence. subst q.
    destruct (stress_rounded u rnd Hr m w a name t reg temp I D G) as (q' & E' & Kq & Rg & B).
    assert (k' = q_unit q') by congruence.
    assert (SS : S = interp (limits m w) t * u_scale k).
    { destruct U as (U1 & U2 & _), St as (_ & _ & _ & St & _). rewrite <- St, U2. f_equal. congruence. }
    pose proof (stress_small m w t I) as Hs. set (s := interp (limits m w) t) in *.
    assert (Ps2 : 0 <= s) by (destruct U as (_ & U2 & _); rewrite <- U2; exact Ps).
    set (s' := q_mag q') in *. set (S' := s' * u_scale k').
    assert (St' : stands_for q' d_pressure S' reg).
    { unfold stands_for. rewrite <- H. repeat split; try assumption; congruence. }
    (* the call *)
    pose proof (get_dimensions_any N _ _ _ _ _ reg v' Rw Ic Co Cw Lv') as Gd'.
    cbn [nsub nmul nofQ Num_rounded] in Gd'.
    replace (rnd (Q2R 2)) with 2 in Gd' by (rewrite <- (rnd_int u rnd Hr 2) by lia; f_equal; q2r; lra).
    fold a' in Gd'. fold b' in Gd'.
    assert (Hi : stands_for (mkQ b' v' reg) d_length (b' * u_scale v') reg)
      by (unfold stands_for; cbn; repeat split; congruence || assumption).
    assert (Ho : stands_for (mkQ a' v' reg) d_length (a' * u_scale v') reg)
      by (unfold stands_for; cbn; repeat split; congruence || assumption).
    assert (Pa : 0 <= a') by (apply Rabs_le_inv in Ea; nra).
    destruct (mp_rounded_any _ _ _ _ _ _ sf reg Hi Ho St') as (r & h & Er' & Eh & Ar);
      [apply Rmult_le_pos; lra|apply Rmult_le_pos; lra|rewrite <- Rmult_plus_distr_r; apply Rmult_lt_0_compat; lra|exact F|].
    exists (q_mag r * u_scale (q_unit r)).
    split; [rewrite rated_exact; exact Ret|]. split.
    { exists r. split.
      - unfold rated_pipe. rewrite Gd'. cbn [bind]. rewrite E'. cbn [bind inner_diameter outer_diameter]. exact Er'.
      - destruct Ar as (A1 & A2 & A3 & _ & A5). repeat split; assumption. }
    destruct Ar as (_ & _ & _ & Nr & _). apply (near_err u rnd Hr) in Nr; [|lia].
    replace (INR 20) with 20 in Nr by (rewrite INR_IZR_INZ; reflexivity).
    set (y := q_mag r * u_scale (q_unit r)) in *.
    (* the arithmetic *)
    assert (Sb : Rabs (S' - S) <= 3.2e10 * u /\ Rabs S' <= 1.8e8).
    { assert (X : Rabs (S' - S) <= 3.2e10 * u).
      { unfold S'. rewrite SS. set (k1 := u_scale k') in *. set (k0 := u_scale k) in *.
        replace (s' * k1 - s * k0) with ((s' - s) * k1 + s * (k1 - k0)) by ring.
        eapply Rle_trans; [apply Rabs_triang|]. rewrite !Rabs_mult, (Rabs_pos_eq k1), (Rabs_pos_eq s) by lra.
        assert (K0 : 0 <= u * k0 <= 7000000 * u) by (split; [apply Rmult_le_pos; lra|nra]).
        assert (K1 : k1 <= 7150000).
        { apply Rabs_le_inv in Nk. nra. }
        assert (Rabs (s' - s) * k1 <= 4000 * u * 7150000).
        { apply Rmult_le_compat; try lra. apply Rabs_pos. }
        assert (s * Rabs (k1 - k0) <= 20 * (2 * 10 * u * k0)).
        { apply Rmult_le_compat; try lra. apply Rabs_pos. }
        lra. }
      split; [exact X|]. replace S' with ((S' - S) + S) by ring.
      eapply Rle_trans; [apply Rabs_triang|]. rewrite (Rabs_pos_eq S) by (rewrite SS; apply Rmult_le_pos; lra).
      assert (S <= 20 * 7000000) by (rewrite SS; apply Rmult_le_compat; lra). lra. }
    destruct Sb as (Sb1 & Sb2).
    set (rho := Q2R wl / (Q2R od - Q2R wl)) in *.
    assert (Rho : 0 <= rho <= 1).
    { unfold rho. split; [apply Rmult_le_pos; [lra|left; apply Rinv_0_lt_compat; lra]|].
      apply Rmult_le_reg_r with (Q2R od - Q2R wl); [lra|]. unfold Rdiv. rewrite Rmult_assoc, Rinv_l by lra. lra. }
    set (c' := u_scale v') in *.
    set (g := h / (a' * c' + b' * c')).
    assert (Dp : 0 < a' * c' + b' * c') by (rewrite <- Rmult_plus_distr_r; apply Rmult_lt_0_compat; lra).
    assert (Gb : Rabs (g - rho) <= 21 * u).
    { replace (g - rho) with ((g - (a' - b') / (a' + b')) + ((a' - b') / (a' + b') - rho)) by ring.
      eapply Rle_trans; [apply Rabs_triang|].
      assert (Rabs (g - (a' - b') / (a' + b')) <= 6 * u); [|lra].
      replace (g - (a' - b') / (a' + b')) with ((h - (a' * c' - b' * c')) / (a' * c' + b' * c'))
        by (unfold g; field; split; lra).
      unfold Rdiv. rewrite Rabs_mult, Rabs_inv, (Rabs_pos_eq (a' * c' + b' * c')) by lra.
      apply Rmult_le_reg_r with (a' * c' + b' * c'); [exact Dp|]. rewrite Rmult_assoc, Rinv_l by lra. lra. }
    set (x' := S' * (2 * (h / 2)) / (sf * ((a' * c' + b' * c') / 2))) in *.
    assert (Ex : x' = 2 * (S' * g) / sf) by (unfold x', g; field; split; lra).
    replace (S * (2 * Q2R wl) / (sf * (Q2R od - Q2R wl))) with (2 * (S * rho) / sf) by (unfold rho; field; split; lra).
    replace (y - 2 * (S * rho) / sf) with ((y - x') + 2 * (S' * g - S * rho) / sf) by (rewrite Ex; field; lra).
    eapply Rle_trans; [apply Rabs_triang|].
    assert (X1 : Rabs x' <= 3.7e8 / sf).
    { rewrite Ex. unfold Rdiv. rewrite Rabs_mult, Rabs_inv, (Rabs_pos_eq sf) by lra.
      apply Rmult_le_compat_r; [left; now apply Rinv_0_lt_compat|].
      rewrite !Rabs_mult, (Rabs_pos_eq 2) by lra.
      assert (Gg : Rabs g <= 1.0206).
      { replace g with ((g - rho) + rho) by ring. eapply Rle_trans; [apply Rabs_triang|]. rewrite (Rabs_pos_eq rho) by lra. lra. }
      assert (Rabs S' * Rabs g <= 1.8e8 * 1.0206) by (apply Rmult_le_compat; try apply Rabs_pos; assumption). lra. }
    assert (X2 : Rabs (2 * (S' * g - S * rho) / sf) <= 7.2e10 * u / sf).
    { unfold Rdiv. rewrite Rabs_mult, Rabs_inv, (Rabs_pos_eq sf) by lra.
      apply Rmult_le_compat_r; [left; now apply Rinv_0_lt_compat|].
      rewrite Rabs_mult, (Rabs_pos_eq 2) by lra.
      replace (S' * g - S * rho) with (S' * (g - rho) + (S' - S) * rho) by ring.
      assert (Rabs (S' * (g - rho)) <= 1.8e8 * (21 * u)).
      { rewrite Rabs_mult. apply Rmult_le_compat; try apply Rabs_pos; assumption. }
      assert (Rabs ((S' - S) * rho) <= 3.2e10 * u * 1).
      { rewrite Rabs_mult, (Rabs_pos_eq rho) by lra. apply Rmult_le_compat; try apply Rabs_pos; lra. }
      pose proof (Rabs_triang (S' * (g - rho)) ((S' - S) * rho)). lra. }
    assert (X3 : 2 * 20 * u * Rabs x' <= 1.48e10 * u / sf).
    { replace (1.48e10 * u / sf) with (2 * 20 * u * (3.7e8 / sf)) by (unfold Rdiv; lra). apply Rmult_le_compat_l; lra. }
    replace (1e11 * u / sf) with (1.48e10 * u / sf + 7.2e10 * u / sf + 1.32e10 * u / sf) by (unfold Rdiv; lra).
    assert (0 <= 1.32e10 * u / sf) by (apply Rmult_le_pos; [lra|left; now apply Rinv_0_lt_compat]). lra.
  Qed.
End RP.
