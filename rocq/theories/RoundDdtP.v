(** * RoundDdtP: the blockage functions under rounding. *)
From Coq Require Import String ZArith QArith Reals Qreals List Bool Lra Lia Psatz.
From Verif Require Import PyBase Pint UnitsM Spec QLemmas WindowM WindowP DdtM DdtP
  RoundM RoundSpec RoundP RoundWindowP RoundMonoP.
Import ListNotations.
Local Open Scope R_scope.

Section RD.
  Variables (u : R) (rnd : R -> R).
  Hypothesis Hr : rounding u rnd.
  Notation N := (Num_rounded rnd).
  Let Hu : 0 <= u <= 1/1024. Proof. exact (proj1 Hr). Qed.
  Notation approx := (approx u).

  Lemma rnd_err x : Rabs (rnd x - x) <= u * Rabs x.
  Proof. apply Hr. Qed.
  Lemma near_err n x y : (n <= 500)%nat -> near u n x y -> Rabs (y - x) <= 2 * INR n * u * Rabs x.
  Proof.
    intros Hn H. apply (near_within u Hu n); [|lra|exact H].
    apply le_INR in Hn. rewrite (INR_IZR_INZ 500) in Hn. cbn in Hn. pose proof (pos_INR n). nra.
  Qed.

  Lemma rle1 x : x <= 1 -> rnd x <= 1.
  Proof. intros H. pose proof (rnd_mono u rnd Hr _ _ H) as X. now rewrite (r1 u rnd Hr) in X. Qed.
  Lemma rle2 x : x <= 2 -> rnd x <= 2.
  Proof. intros H. pose proof (rnd_mono u rnd Hr _ _ H) as X. now rewrite (r2 u rnd Hr) in X. Qed.
  Lemma rge_m1 x : -1 <= x -> -1 <= rnd x.
  Proof.
    intros H. pose proof (rnd_mono u rnd Hr _ _ H) as X.
    rewrite (rnd_int u rnd Hr (-1)) in X by lia. exact X.
  Qed.

  (** 1 - sqrt (1 - b) *)
  Definition frac (b : R) : R := rnd (1 - rnd (sqrt (rnd (1 - b)))).
  Lemma root_range b : 0 < b < 1 -> 0 <= rnd (sqrt (rnd (1 - b))) <= 1.
  Proof.
    intros (B0 & B1). split; [apply (rnn u rnd Hr), sqrt_pos|].
    apply rle1. apply Rle_trans with (sqrt 1); [|rewrite sqrt_1; lra].
    apply sqrt_le_1_alt. apply rle1. lra.
  Qed.
  Lemma frac_range b : 0 < b < 1 -> 0 <= frac b <= 1.
  Proof.
    intros B. pose proof (root_range b B) as S0. unfold frac. split; [apply (rnn u rnd Hr); lra|].
    apply rle1. lra.
  Qed.
  Lemma frac_mono b b' : 0 < b -> b <= b' -> b' < 1 -> frac b <= frac b'.
  Proof.
    intros. unfold frac. apply (rnd_mono u rnd Hr).
    assert (rnd (sqrt (rnd (1 - b'))) <= rnd (sqrt (rnd (1 - b)))); [|lra].
    apply (rnd_mono u rnd Hr), sqrt_le_1_alt, (rnd_mono u rnd Hr). lra.
  Qed.
  Lemma frac_err b : 0 < b < 1 -> Rabs (frac b - (1 - sqrt (1 - b))) <= 5 * u.
  Proof.
    intros B. pose proof (root_range b B) as S0. unfold frac.
    set (s' := rnd (sqrt (rnd (1 - b)))) in *.
    assert (Ns : near u 2 (sqrt (1 - b)) s').
    { unfold s'. apply rnd_near; [exact Hr|]. apply near_sqrt; [exact Hu|lra|].
      apply rnd_near; [exact Hr|]. apply near_refl. exact Hu. }
    apply near_err in Ns; [|lia]. change (INR 2) with (1 + 1) in Ns.
    assert (S1 : 0 <= sqrt (1 - b) <= 1).
    { split; [apply sqrt_pos|]. apply Rle_trans with (sqrt 1); [|rewrite sqrt_1; lra]. apply sqrt_le_1_alt. lra. }
    rewrite (Rabs_pos_eq (sqrt (1 - b))) in Ns by lra.
    pose proof (rnd_err (1 - s')) as E. rewrite (Rabs_pos_eq (1 - s')) in E by lra.
    replace (rnd (1 - s') - (1 - sqrt (1 - b))) with ((rnd (1 - s') - (1 - s')) + - (s' - sqrt (1 - b))) by ring.
    eapply Rle_trans; [apply Rabs_triang|]. rewrite Rabs_Ropp. nra.
  Qed.
  Lemma frac_denotes b : @nsub R N (@one R N) (@nsqrt R N (@nsub R N (@one R N) b)) = frac b.
  Proof. unfold frac. cbn [nsub nsqrt Num_rounded]. now rewrite !(one_rnd u rnd Hr). Qed.

  (** calculate_blockage_diameter *)
  Lemma bd_rounded k i D b reg : arg_approx u rnd k i d_length D -> 0 <= D -> 0 < b < 1 ->
    exists q, @calculate_blockage_diameter R N i (BrNum b) reg = Ok q
      /\ approx (2 + k) q d_length (frac b * (D / 2)) reg.
  Proof.
    intros A D0 (B0 & B1). unfold calculate_blockage_diameter. cbn [br_float bind nltb Num_rounded].
    rewrite (one_rnd u rnd Hr), (zero_rnd u rnd Hr), !Rltb_true by assumption. cbn [negb andb raise_if bind].
    destruct (A reg) as (q & -> & Aq). cbn [bind].
    rewrite (check_approx u rnd Hr _ q d_length D reg "length" true eq_refl Aq) by lra. cbn [bind].
    destruct (divn_approx u rnd Hr _ _ 2 _ q _ _ reg (two_near u rnd Hr) ltac:(lra) Aq) as (h & -> & Ah).
    cbn [bind].
    pose proof (frac_denotes b) as F. rewrite (one_rnd u rnd Hr) in F. rewrite F.
    destruct (scale_approx u rnd Hr _ _ _ _ h _ _ reg (near_refl u Hu 0 (frac b)) Ah) as (r & -> & Ar).
    exists r. split; [reflexivity|]. eapply approx_weaken; [exact Hr| |exact Ar]. lia.
  Qed.

  Lemma bd_mono_rounded i D b b2 reg : denotes i d_length D -> 0 < D -> 0 < b < 1 -> b <= b2 -> b2 < 1 ->
    exists q q2 x x2,
      @calculate_blockage_diameter R N i (BrNum b) reg = Ok q /\ stands_for q d_length x reg
      /\ @calculate_blockage_diameter R N i (BrNum b2) reg = Ok q2 /\ stands_for q2 d_length x2 reg
      /\ 0 <= x <= x2.
  Proof.
    intros Hi D0 B B2 B3.
    assert (A : arg_approx u rnd 10 i d_length D) by (apply arg_denotes; [exact Hr|discriminate|exact Hi]).
    destruct (A reg) as (q & E & Aq).
    destruct (divn_approx u rnd Hr _ _ 2 _ q _ _ reg (two_near u rnd Hr) ltac:(lra) Aq) as (h & Eh & Ah).
    assert (F : forall c, 0 < c < 1 -> @calculate_blockage_diameter R N i (BrNum c) reg
                 = Ok (mkQ (rnd (frac c * q_mag h)) (q_unit h) reg)).
    { intros c (C0 & C1). unfold calculate_blockage_diameter. cbn [br_float bind nltb Num_rounded].
      rewrite (one_rnd u rnd Hr), (zero_rnd u rnd Hr), !Rltb_true by assumption. cbn [negb andb raise_if bind].
      rewrite E. cbn [bind].
      rewrite (check_approx u rnd Hr _ q d_length D reg "length" true eq_refl Aq) by lra. cbn [bind].
      rewrite Eh. cbn [bind].
      pose proof (frac_denotes c) as Fc. rewrite (one_rnd u rnd Hr) in Fc. rewrite Fc.
      destruct Ah as (a1 & a2 & a3 & a4 & a5).
      unfold q_scale, offset_free. rewrite a2, a5. reflexivity. }
    destruct Ah as (a1 & a2 & a3 & a4 & a5).
    assert (M0 : 0 <= q_mag h).
    { assert (0 < q_mag h * u_scale (q_unit h)) by (eapply near_pos; [exact Hu|exact a4|lra]).
      destruct (Rle_or_lt 0 (q_mag h)); [assumption|nra]. }
    do 2 eexists. exists (rnd (frac b * q_mag h) * u_scale (q_unit h)), (rnd (frac b2 * q_mag h) * u_scale (q_unit h)).
    split; [apply F; exact B|]. split; [repeat split; assumption|].
    split; [apply F; lra|]. split; [repeat split; assumption|].
    pose proof (frac_range b B). pose proof (frac_mono b b2 (proj1 B) B2 B3).
    split; [apply Rmult_le_pos; [apply (rnn u rnd Hr); nra|lra]|].
    apply Rmult_le_compat_r; [lra|]. apply (rnd_mono u rnd Hr). nra.
  Qed.

  (** Base magnitudes are rounded numbers. *)
  Lemma arg_loads k i d x reg : arg_approx u rnd k i d x ->
    exists z, @parse_base R N i reg = Ok (bq (rnd z) d reg) /\ near u (S k) x (rnd z).
  Proof.
    intros A. destruct (A reg) as (q & E & (D & O & S0 & H & G)).
    exists (q_mag q * u_scale (q_unit q)). split; [|now apply rnd_near].
    unfold parse_base. rewrite E. cbn [bind]. unfold to_base_units, mult_unit, bq, base_mag.
    rewrite O, D, G, (one_rnd u rnd Hr). reflexivity.
  Qed.
  Definition ratio' (D d : R) : R :=
    let w := rnd (1 - rnd (rnd (2 * d) / D)) in rnd (1 - rnd (w * w)).
  Lemma br_form kD kd iD id D d reg :
    arg_approx u rnd kD iD d_length D -> arg_approx u rnd kd id d_length d -> 0 < D -> 0 <= d ->
    exists z y, near u (S kD) D (rnd z) /\ near u (S kd) d (rnd y)
      /\ @calculate_blockage_ratio R N iD id reg
         = (if Rleb (rnd (rnd z * 1)) (rnd (rnd y * 1))
            then Err (ValueError "blockage diameter >= tube diameter")
            else Ok (ratio' (rnd z) (rnd y))).
  Proof.
    intros AD Ad D0 d0. unfold calculate_blockage_ratio.
    destruct (arg_loads _ _ _ _ reg AD) as (z & -> & Nz). destruct (arg_loads _ _ _ _ reg Ad) as (y & -> & Ny).
    exists z, y. split; [exact Nz|]. split; [exact Ny|]. cbn [bind].
    assert (Z0 : 0 < rnd z) by (eapply near_pos; eauto).
    assert (Y0 : 0 <= rnd y) by (eapply near_nonneg; eauto).
    rewrite (b_check u rnd Hr (rnd z) d_length reg "length" true eq_refl) by lra. cbn [bind].
    rewrite (b_check u rnd Hr (rnd y) d_length reg "length" true eq_refl) by lra. cbn [bind].
    unfold bq at 1. cbn [q_mag neqb Num_rounded]. rewrite (zero_rnd u rnd Hr), Reqb_false by lra.
    cbn [raise_if bind]. unfold q_ge, q_cmp, bq. cbn [q_unit u_dim q_reg]. 
    unfold same_reg. cbn [q_reg]. rewrite Nat.eqb_refl. cbn [bind].
    rewrite dim_eqb_refl. unfold base_mag. cbn [q_unit u_off u_scale q_mag nleb nmul Num_rounded bind].
    destruct (Rleb _ _); cbn [raise_if bind]; [reflexivity|].
    unfold pydiv. cbn [neqb Num_rounded]. rewrite (zero_rnd u rnd Hr), Reqb_false by lra. cbn [bind].
    unfold sq, ratio'. cbn [nsub nmul ndiv nofQ Num_rounded]. rewrite (one_rnd u rnd Hr).
    replace (Q2R 2) with 2 by (q2r; lra). now rewrite (r2 u rnd Hr).
  Qed.
  (** error of 1 - (1 - r)^2 when r is known to be in [0, 2] and carries the error [e] *)
  Lemma tail_err r r' e : 0 <= r <= 2 -> 0 <= r' <= 2 -> Rabs (r' - r) <= e ->
    let w := rnd (1 - r') in
    0 <= rnd (1 - rnd (w * w)) <= 1
    /\ Rabs (rnd (1 - rnd (w * w)) - (1 - (1 - r) * (1 - r))) <= 2 * e + 4 * u.
  Proof.
    intros (R0 & R1) (R0' & R1') E w.
    assert (W : -1 <= w <= 1) by (split; [apply rge_m1; lra|apply rle1; lra]).
    pose proof (rnd_err (1 - r')) as E1. fold w in E1.
    assert (A1 : Rabs (1 - r') <= 1) by (apply Rabs_le; lra).
    assert (E2 : Rabs (w - (1 - r)) <= e + u).
    { replace (w - (1 - r)) with ((w - (1 - r')) + - (r' - r)) by ring.
      eapply Rle_trans; [apply Rabs_triang|]. rewrite Rabs_Ropp. nra. }
    assert (Q0 : 0 <= w * w <= 1) by nra.
    assert (E3 : Rabs (w * w - (1 - r) * (1 - r)) <= 2 * (e + u)).
    { replace (w * w - (1 - r) * (1 - r)) with ((w - (1 - r)) * (w + (1 - r))) by ring.
      rewrite Rabs_mult, Rmult_comm. apply Rmult_le_compat; try apply Rabs_pos; [apply Rabs_le; lra|exact E2]. }
    pose proof (rnd_err (w * w)) as E4. rewrite (Rabs_pos_eq (w * w)) in E4 by lra.
    assert (V : 0 <= rnd (w * w) <= 1) by (split; [apply (rnn u rnd Hr); lra|apply rle1; lra]).
    set (v := rnd (w * w)) in *.
    pose proof (rnd_err (1 - v)) as E5. rewrite (Rabs_pos_eq (1 - v)) in E5 by lra.
    split; [split; [apply (rnn u rnd Hr); lra|apply rle1; lra]|].
    replace (rnd (1 - v) - (1 - (1 - r) * (1 - r)))
      with ((rnd (1 - v) - (1 - v)) + - ((v - w * w) + (w * w - (1 - r) * (1 - r)))) by ring.
    eapply Rle_trans; [apply Rabs_triang|]. rewrite Rabs_Ropp.
    pose proof (Rabs_triang (v - w * w) (w * w - (1 - r) * (1 - r))).
    nra.
  Qed.
  Lemma ratio_num_range z y : 0 < rnd z -> 0 <= rnd y -> rnd y < rnd z ->
    0 <= rnd (rnd (2 * rnd y) / rnd z) <= 2.
  Proof.
    intros Z Y H. rewrite (rnd_double u rnd Hr). split.
    - apply (rnn u rnd Hr), div_nn; lra.
    - apply rle2.
      apply Rmult_le_reg_r with (rnd z); [exact Z|]. unfold Rdiv. rewrite Rmult_assoc, Rinv_l by lra. lra.
  Qed.
  (** Any ratio returned lies between 0 and 1; any failure is a ValueError. *)
  Lemma br_range_rounded kD kd iD id D d reg :
    arg_approx u rnd kD iD d_length D -> arg_approx u rnd kd id d_length d -> 0 < D -> 0 <= d ->
    (exists b, @calculate_blockage_ratio R N iD id reg = Ok b /\ 0 <= b <= 1)
    \/ is_value_error (@calculate_blockage_ratio R N iD id reg).
  Proof.
    intros AD Ad D0 d0. destruct (br_form _ _ _ _ _ _ reg AD Ad D0 d0) as (z & y & Nz & Ny & ->).
    assert (Z0 : 0 < rnd z) by (eapply near_pos; eauto).
    assert (Y0 : 0 <= rnd y) by (eapply near_nonneg; eauto).
    destruct (Rleb_spec (rnd (rnd z * 1)) (rnd (rnd y * 1))) as [H|H]; [right; eexists; reflexivity|left].
    eexists. split; [reflexivity|].
    assert (L : rnd y < rnd z).
    { destruct (Rlt_or_le (rnd y) (rnd z)) as [X|X]; [exact X|]. exfalso. apply H.
      apply (rnd_mono u rnd Hr). lra. }
    pose proof (ratio_num_range z y Z0 Y0 L) as B. unfold ratio'.
    refine (proj1 (tail_err 0 _ 3 _ B _)); [lra|]. apply Rabs_le. lra.
  Qed.
  (** Away from the edge the check decides as it should. *)
  Lemma br_edge kD kd iD id D d reg : (kD <= 12)%nat -> (kd <= 12)%nat ->
    arg_approx u rnd kD iD d_length D -> arg_approx u rnd kd id d_length d -> 0 < D -> 0 <= d ->
    ((1 + 30 * u) * D <= d -> is_value_error (@calculate_blockage_ratio R N iD id reg))
    /\ (d < (1 - 30 * u) * D ->
        exists r' b, near u 27 (2 * d / D) r' /\ 0 <= r' <= 2
          /\ b = (let w := rnd (1 - r') in rnd (1 - rnd (w * w)))
          /\ @calculate_blockage_ratio R N iD id reg = Ok b).
  Proof.
    intros KD Kd AD Ad D0 d0. destruct (br_form _ _ _ _ _ _ reg AD Ad D0 d0) as (z & y & Nz & Ny & ->).
    assert (Z0 : 0 < rnd z) by (eapply near_pos; eauto).
    assert (Y0 : 0 <= rnd y) by (eapply near_nonneg; eauto).
    rewrite !Rmult_1_r.
    assert (N2z : near u 14 D (rnd (rnd z))) by (apply near_weaken with (S (S kD)); [exact Hu|lia|now apply rnd_near]).
    assert (N2y : near u 14 d (rnd (rnd y))) by (apply near_weaken with (S (S kd)); [exact Hu|lia|now apply rnd_near]).
    destruct N2z as (ez & Ez & Lz & Uz). destruct N2y as (ey & Ey & Ly & Uy). rewrite Ez, Ey.
    pose proof (bernoulli u Hu 14) as B14. rewrite INR_IZR_INZ in B14. cbn -[Rmult pow] in B14.
    pose proof (pow_pos_u u Hu 14) as P14. set (p := (1 - u)^14) in *.
    assert (Ip : / p * p = 1) by (apply Rinv_l; lra).
    assert (Ep : (1 - 28 * u) <= p * p) by nra.
    split; intros H.
    - destruct (Rleb_spec (D * ez) (d * ey)) as [X|X]; [eexists; reflexivity|]. exfalso. apply X.
      apply Rle_trans with (D * / p); [apply Rmult_le_compat_l; lra|].
      apply Rle_trans with (d * p); [|apply Rmult_le_compat_l; lra].
      apply Rmult_le_reg_r with p; [exact P14|]. rewrite Rmult_assoc, Ip, Rmult_1_r.
      apply Rle_trans with ((1 + 30 * u) * D * (1 - 28 * u)).
      + assert (0 <= u * (2 - 840 * u)) by (apply Rmult_le_pos; lra). nra.
      + replace (d * p * p) with (d * (p * p)) by ring.
        apply Rmult_le_compat; [apply Rmult_le_pos|lra|exact H|exact Ep]; lra.
    - assert (X : ~ D * ez <= d * ey).
      { intros X.
        assert (Y1 : D * p <= d * / p).
        { apply Rle_trans with (D * ez); [apply Rmult_le_compat_l; lra|].
          eapply Rle_trans; [exact X|]. apply Rmult_le_compat_l; lra. }
        apply Rmult_le_compat_r with (r := p) in Y1; [|lra]. rewrite !Rmult_assoc, Ip in Y1. nra. }
      destruct (Rleb_spec (D * ez) (d * ey)) as [Y|Y]; [contradiction|]. clear Y.
      exists (rnd (rnd (2 * rnd y) / rnd z)), (ratio' (rnd z) (rnd y)).
      split; [|split; [|split; [reflexivity|reflexivity]]].
      + rewrite (rnd_double u rnd Hr).
        apply near_weaken with (S (0 + S kd + S kD)); [exact Hu|lia|].
        apply rnd_near; [exact Hr|]. apply near_div; [exact Hu| |exact Nz].
        apply near_mul; [exact Hu|apply near_refl; exact Hu|exact Ny].
      + apply ratio_num_range; try assumption.
        destruct (Rlt_or_le (rnd y) (rnd z)) as [G|G]; [exact G|]. exfalso. apply X.
        rewrite <- Ez, <- Ey. now apply (rnd_mono u rnd Hr).
  Qed.
End RD.
