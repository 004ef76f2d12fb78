(** * RoundMonoP: order facts that survive rounding exactly. *)
From Coq Require Import String ZArith QArith Reals Qreals List Bool Lra Lia Psatz.
From Verif Require Import PyBase Pint UnitsM Spec QLemmas WindowM WindowP RoundM RoundSpec RoundP RoundWindowP.
Import ListNotations.
Local Open Scope R_scope.

Section Mono.
  Variables (u : R) (rnd : R -> R).
  Hypothesis Hr : rounding u rnd.
  Notation N := (Num_rounded rnd).
  Let Hu : 0 <= u <= 1/1024. Proof. exact (proj1 Hr). Qed.

  Definition bq (m : R) (d : dim) (reg : nat) : quantity R := mkQ m (mkUnit d 1 None) reg.
  Lemma r1 : rnd 1 = 1. Proof. apply (rnd_int u rnd Hr 1). lia. Qed.
  Lemma r0 : rnd 0 = 0. Proof. apply (rnd_int u rnd Hr 0). lia. Qed.
  Lemma r2 : rnd 2 = 2. Proof. apply (rnd_int u rnd Hr 2). lia. Qed.
  Lemma rnn x : 0 <= x -> 0 <= rnd x.
  Proof. intros H. rewrite <- r0. now apply (rnd_mono u rnd Hr). Qed.

  Lemma b_mul a b d d' reg : @q_mul R N (bq a d reg) (bq b d' reg) = Ok (bq (rnd (a * b)) (dim_mul d d') reg).
  Proof.
    unfold q_mul, same_reg, offset_free, bq, mult_unit. cbn [q_reg q_unit q_mag u_off u_dim u_scale].
    rewrite Nat.eqb_refl. cbn [bind nmul Num_rounded]. now rewrite Rmult_1_r, r1.
  Qed.
  Lemma b_div a b d d' reg : b <> 0 ->
    @q_div R N (@pydiv R N) (bq a d reg) (bq b d' reg) = Ok (bq (rnd (a / b)) (dim_div d d') reg).
  Proof.
    intros Nb. unfold q_div, same_reg, offset_free, bq, mult_unit. cbn [q_reg q_unit q_mag u_off u_dim u_scale].
    rewrite Nat.eqb_refl. cbn [bind]. unfold pydiv. cbn [neqb Num_rounded].
    rewrite (zero_rnd u rnd Hr), Reqb_false by exact Nb. cbn [bind ndiv Num_rounded].
    unfold Rdiv at 2. now rewrite Rinv_1, Rmult_1_r, r1.
  Qed.
  Lemma b_sq a d reg : @q_sq R N (bq a d reg) = Ok (bq (rnd (a * a)) (dim_mul d d) reg).
  Proof.
    unfold q_sq, offset_free, bq, mult_unit, sq. cbn [q_reg q_unit q_mag u_off u_dim u_scale bind nmul Num_rounded].
    now rewrite Rmult_1_r, r1.
  Qed.
  Lemma b_scale c a d reg : @q_scale R N c (bq a d reg) = Ok (bq (rnd (c * a)) d reg).
  Proof. reflexivity. Qed.
  Lemma b_addn c a reg : @n_addq R N c (bq a d_none reg) = Ok (bq (rnd (c + rnd (a * 1))) d_none reg).
  Proof.
    unfold n_addq, bq, mult_unit. cbn [q_unit u_dim q_reg]. rewrite dim_eqb_refl.
    unfold base_mag. cbn [q_unit u_off u_scale q_mag nadd nmul Num_rounded]. now rewrite (one_rnd u rnd Hr).
  Qed.
  Lemma b_plain a reg : @q_plain R N (bq a d_none reg) = Ok (rnd (rnd (a * 1) / 1)).
  Proof.
    unfold q_plain, q_to, bq, mult_unit, base_mag. cbn [q_unit u_dim q_reg u_off u_scale q_mag].
    rewrite dim_eqb_refl. cbn [bind q_mag ndiv nmul Num_rounded]. now rewrite (one_rnd u rnd Hr).
  Qed.
  Lemma b_check a d reg name pos : supported_dimension name = Some d -> 0 <= a ->
    @check_q R N (bq a d reg) name pos = Ok true.
  Proof.
    intros S A. unfold check_q, check_pint_quantity, bq. cbn [bind q_mag q_unit]. rewrite S.
    unfold base_mag. cbn [q_unit u_off u_scale q_mag nmul nltb Num_rounded].
    rewrite (zero_rnd u rnd Hr), Rltb_false by (apply rnn; lra). rewrite andb_false_r. cbn [raise_if bind u_dim].
    now rewrite dim_eqb_refl.
  Qed.

  (** The number an argument of a multiplicative unit is turned into. *)
  Definition loads (i : pyin R) (d : dim) (x : R) : Prop :=
    forall reg, @parse_base R N i reg = Ok (bq x d reg).
  Lemma loads_approx i d x : d <> d_temperature -> denotes i d x ->
    exists y, loads i d y /\ near u 11 x y.
  Proof.
    intros Nd H. destruct (parse_base_approx u rnd Hr i d x 0 Nd H) as (q & E & (D & O & S & Ne & Rg) & S1).
    exists (q_mag q). rewrite S1, Rmult_1_r in Ne. split; [|exact Ne]. intros reg.
    destruct H as [q0 d x W D0 Wo|m s v d x L D0 W].
    - unfold parse_base in *. cbn [parse_quant_input bind] in *. injection E as <-.
      unfold to_base_units, mult_unit, bq, base_mag in *. cbn [q_mag q_unit q_reg u_dim u_scale] in *.
      rewrite D, (one_rnd u rnd Hr). reflexivity.
    - unfold parse_base in *. cbn [parse_quant_input quantity_of_items] in *. unfold quant in *.
      destruct (@lookup_unit R N s) as [v'|]; [|discriminate]. cbn [bind] in *. injection E as <-.
      unfold to_base_units, mult_unit, bq, base_mag in *. cbn [q_mag q_unit q_reg u_dim u_scale] in *.
      rewrite D, (one_rnd u rnd Hr). reflexivity.
  Qed.

  Definition sfF (L W t P M : R) : R :=
    let r := rnd (L / W) in
    let tl := rnd (t / L) in
    let o := rnd (1 + rnd (rnd (r * r) * 1)) in
    let nu := rnd (rnd (tl * tl) * rnd (rnd (2 * M) * o)) in
    rnd (rnd (rnd (nu / rnd (@window_k R N * P)) * 1) / 1).

  Lemma sf_form il iw it ip im L W t P M reg :
    loads il d_length L -> loads iw d_length W -> loads it d_length t ->
    loads ip d_pressure P -> loads im d_pressure M ->
    0 < L -> 0 < W -> 0 <= t -> 0 < P -> 0 <= M ->
    @safety_factor R N il iw it ip im reg = Ok (sfF L W t P M).
  Proof.
    intros Hl Hw Ht Hp Hm L0 W0 t0 P0 M0. unfold safety_factor.
    rewrite (Hl reg), (Hw reg), (Ht reg), (Hp reg), (Hm reg). cbn [bind].
    rewrite (b_check L d_length reg "length" true eq_refl) by lra.
    rewrite (b_check W d_length reg "length" true eq_refl) by lra.
    rewrite (b_check t d_length reg "length" true eq_refl) by lra.
    rewrite (b_check P d_pressure reg "pressure" true eq_refl) by lra.
    rewrite (b_check M d_pressure reg "pressure" true eq_refl) by lra. cbn [bind].
    rewrite b_div by lra. cbn [bind]. rewrite b_div by lra. cbn [bind].
    rewrite b_sq. cbn [bind]. rewrite b_scale. cbn [bind]. rewrite b_sq. cbn [bind].
    change (dim_mul (dim_div d_length d_length) (dim_div d_length d_length)) with d_none.
    rewrite b_addn. cbn [bind]. rewrite b_mul. cbn [bind]. rewrite b_mul. cbn [bind].
    rewrite b_scale. cbn [bind].
    assert (K : 0 < @window_k R N) by (eapply near_pos; [exact Hu|apply (wk_near u rnd Hr)|lra]).
    rewrite b_div.
    2:{ apply Rgt_not_eq. apply (rnd_pos u rnd Hr). nra. }
    cbn [bind].
    change (dim_div (dim_mul d_none (dim_mul d_pressure d_none)) d_pressure) with d_none.
    rewrite b_plain. unfold sfF. cbn [nofQ Num_rounded]. rewrite (one_rnd u rnd Hr).
    replace (Q2R 2) with 2 by (q2r; lra). rewrite r2. reflexivity.
  Qed.

  Ltac mono := repeat first [assumption | apply rnn | apply (rnd_mono u rnd Hr)
     | apply Rmult_le_compat | apply Rmult_le_compat_l | apply Rle_refl
     | apply Rmult_le_pos].

  Lemma div_le a b c : 0 < c -> a <= b -> a / c <= b / c.
  Proof. intros C H. unfold Rdiv. apply Rmult_le_compat_r; [apply Rlt_le, Rinv_0_lt_compat, C|exact H]. Qed.
  Lemma div_nn a c : 0 < c -> 0 <= a -> 0 <= a / c.
  Proof. intros C H. apply Rmult_le_pos; [exact H|apply Rlt_le, Rinv_0_lt_compat, C]. Qed.
  Lemma o_pos L W : 0 < rnd (1 + rnd (rnd (rnd (L / W) * rnd (L / W)) * 1)).
  Proof.
    apply (rnd_pos u rnd Hr).
    assert (0 <= rnd (rnd (rnd (L / W) * rnd (L / W)) * 1)).
    { apply rnn. rewrite Rmult_1_r. apply rnn. apply Rle_0_sqr. }
    lra.
  Qed.
  Lemma k_pos : 0 < @window_k R N.
  Proof. eapply near_pos; [exact Hu|apply (wk_near u rnd Hr)|lra]. Qed.

  Lemma sfF_thickness L W t t' P M : 0 < L -> 0 < P -> 0 <= M -> 0 <= t <= t' ->
    sfF L W t P M <= sfF L W t' P M.
  Proof.
    intros L0 P0 M0 (t0 & T). unfold sfF. cbv zeta.
    pose proof (o_pos L W) as O. pose proof k_pos as K.
    assert (D : 0 < rnd (@window_k R N * P)) by (apply (rnd_pos u rnd Hr); nra).
    assert (A : 0 <= rnd (t / L)) by (apply rnn, div_nn; assumption).
    assert (B : rnd (t / L) <= rnd (t' / L)) by (apply (rnd_mono u rnd Hr), div_le; assumption).
    assert (C : rnd (rnd (t / L) * rnd (t / L)) <= rnd (rnd (t' / L) * rnd (t' / L)))
      by (apply (rnd_mono u rnd Hr), Rmult_le_compat; assumption).
    assert (G : 0 <= rnd (rnd (2 * M) * rnd (1 + rnd (rnd (rnd (L / W) * rnd (L / W)) * 1))))
      by (apply rnn, Rmult_le_pos; [apply rnn; lra|lra]).
    apply (rnd_mono u rnd Hr), div_le; [lra|].
    apply (rnd_mono u rnd Hr). rewrite !Rmult_1_r.
    apply (rnd_mono u rnd Hr), div_le; [exact D|]. rewrite !Rmult_1_r in G.
    apply (rnd_mono u rnd Hr), Rmult_le_compat_r; [exact G|exact C].
  Qed.
  Lemma sfF_modulus L W t P M M' : 0 < P -> 0 <= M <= M' ->
    sfF L W t P M <= sfF L W t P M'.
  Proof.
    intros P0 (M0 & T). unfold sfF. cbv zeta.
    pose proof (o_pos L W) as O. pose proof k_pos as K.
    assert (D : 0 < rnd (@window_k R N * P)) by (apply (rnd_pos u rnd Hr); nra).
    assert (A : 0 <= rnd (rnd (t / L) * rnd (t / L))) by (apply rnn, Rle_0_sqr).
    apply (rnd_mono u rnd Hr), div_le; [lra|].
    apply (rnd_mono u rnd Hr). rewrite !Rmult_1_r in *.
    apply (rnd_mono u rnd Hr), div_le; [exact D|].
    apply (rnd_mono u rnd Hr), Rmult_le_compat_l; [exact A|].
    apply (rnd_mono u rnd Hr), Rmult_le_compat_r; [lra|].
    apply (rnd_mono u rnd Hr). lra.
  Qed.
  Lemma sfF_pressure L W t P P' M : 0 < P <= P' -> 0 <= M ->
    sfF L W t P' M <= sfF L W t P M.
  Proof.
    intros (P0 & T) M0. unfold sfF. cbv zeta.
    pose proof (o_pos L W) as O. pose proof k_pos as K.
    assert (D : 0 < rnd (@window_k R N * P)) by (apply (rnd_pos u rnd Hr); nra).
    assert (D' : rnd (@window_k R N * P) <= rnd (@window_k R N * P')) by (apply (rnd_mono u rnd Hr); nra).
    rewrite !Rmult_1_r in *.
    assert (A : 0 <= rnd (rnd (rnd (t / L) * rnd (t / L)) * rnd (rnd (2 * M) * rnd (1 + rnd (rnd (rnd (L / W) * rnd (L / W))))))).
    { apply rnn, Rmult_le_pos; [apply rnn, Rle_0_sqr|]. apply rnn, Rmult_le_pos; [apply rnn; lra|lra]. }
    apply (rnd_mono u rnd Hr), div_le; [lra|].
    do 2 apply (rnd_mono u rnd Hr). unfold Rdiv. apply Rmult_le_compat_l; [exact A|].
    apply Rinv_le_contravar; assumption.
  Qed.
End Mono.
