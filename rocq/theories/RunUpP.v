(** * RunUpP: lemmas about the model of DDT.calculate_run_up over the reals. *)
From Coq Require Import String ZArith QArith Reals Qreals List Bool Lra Lia Psatz.
From Verif Require Import PyBase Pint UnitsM Spec Interp InterpP Gas GasP QLemmas FitM SdM SdSpec SdP
  ThermoM ThermoSpec ThermoP RunUpM RunUpSpec.
Import ListNotations.
Local Open Scope R_scope.

(** ** Powers and logarithms of quantities *)
Lemma npow_pos x y : 0 < x -> npow x y = Rpower x y.
Proof. intros H. cbn. destruct (Req_EM_T x 0); [lra|reflexivity]. Qed.
Lemma npow_nonneg x y : 0 <= npow x y.
Proof. cbn. destruct (Req_EM_T x 0); [lra|]. left. apply exp_pos. Qed.
Lemma npow_zero y : npow 0 y = 0.
Proof. cbn. destruct (Req_EM_T 0 0); [reflexivity|lra]. Qed.
Lemma npow_mult x s y : 0 <= x -> 0 < s -> npow (x * s) y = npow x y * npow s y.
Proof.
  intros Hx Hs. destruct (Req_dec x 0) as [->|N].
  - rewrite Rmult_0_l, npow_zero. ring.
  - assert (0 < x) by lra.
    rewrite !npow_pos by (try apply Rmult_lt_0_compat; assumption).
    symmetry. apply Rpower_mult_distr; assumption.
Qed.

Lemma q_pow_den q e x r : stands_for q d_none x r -> 0 <= x ->
  returns (q_pow q e) d_none (npow x e) r.
Proof.
  intros Hq Hx. unfold q_pow. rewrite (offset_free_ok _ _ _ _ Hq). cbn [bind].
  destruct Hq as (D & F & S & E & Rg). rewrite D, dim_eqb_refl. rnum. rewrite zero_R.
  assert (0 <= q_mag q) by nra. rewrite Rltb_false by assumption.
  eexists. split; [reflexivity|]. repeat split; cbn [q_unit q_mag q_reg mult_unit u_dim u_off u_scale]; auto.
  - rewrite npow_pos by exact S. apply exp_pos.
  - rewrite <- E. symmetry. apply npow_mult; assumption.
Qed.
Lemma q_pow_inv q e x r q' : stands_for q d_none x r -> q_pow q e = Ok q' ->
  0 <= x /\ stands_for q' d_none (npow x e) r.
Proof.
  intros Hq H. assert (Hx : 0 <= x).
  { unfold q_pow in H. rewrite (offset_free_ok _ _ _ _ Hq) in H. cbn [bind] in H.
    destruct Hq as (D & F & S & E & Rg). rewrite D, dim_eqb_refl in H. rnum. rewrite zero_R in H.
    destruct (Rltb_spec (q_mag q) 0); [discriminate|]. rewrite <- E. apply Rmult_le_pos; lra. }
  split; [exact Hx|]. destruct (q_pow_den q e x r Hq Hx) as (q2 & E2 & S2). congruence.
Qed.
Lemma q_log_den q x r : stands_for q d_none x r -> 0 < x ->
  returns (q_log q) d_none (ln x) r.
Proof.
  intros Hq Hx. unfold q_log. rewrite (stands_base _ _ _ _ Hq).
  destruct Hq as (D & F & S & E & Rg). rewrite D, dim_eqb_refl. rnum. rewrite zero_R, Rltb_true by exact Hx.
  eexists. split; [reflexivity|].
  repeat split; cbn [q_unit q_mag q_reg mult_unit u_dim u_off u_scale]; auto; rewrite ?one_R; cbn [nln Trans_R]; lra.
Qed.
Lemma q_log_inv q x r q' : stands_for q d_none x r -> q_log q = Ok q' ->
  0 < x /\ stands_for q' d_none (ln x) r.
Proof.
  intros Hq H. assert (Hx : 0 < x).
  { unfold q_log in H. rewrite (stands_base _ _ _ _ Hq) in H.
    destruct Hq as (D & F & S & E & Rg). rewrite D, dim_eqb_refl in H. rnum. rewrite zero_R in H.
    destruct (Rltb_spec 0 x); [assumption|discriminate]. }
  split; [exact Hx|]. destruct (q_log_den q x r Hq Hx) as (q2 & E2 & S2). congruence.
Qed.

(** ** What a successful operation tells *)
Lemma returns_inv r d x reg q : returns r d x reg -> r = Ok q -> stands_for q d x reg.
Proof. intros (q' & -> & H) [= <-]. exact H. Qed.
Lemma npdiv_div_ok : is_div npdiv. Proof. right. reflexivity. Qed.
Lemma pydiv_div_ok : is_div pydiv. Proof. left. reflexivity. Qed.
Lemma div_ok_of div : is_div div -> QLemmas.div_ok div.
Proof. intros [->| ->]; [exact pydiv_ok|exact npdiv_ok]. Qed.
Lemma q_div_inv div p q d1 d2 x y r q' : is_div div ->
  stands_for p d1 x r -> stands_for q d2 y r -> q_div div p q = Ok q' ->
  y <> 0 /\ stands_for q' (dim_div d1 d2) (x / y) r.
Proof.
  intros Hd Hp Hq H. assert (Hy : y <> 0).
  { intros E. unfold q_div in H.
    apply bind_inv in H. destruct H as (? & _ & H). apply bind_inv in H. destruct H as (? & _ & H).
    apply bind_inv in H. destruct H as (? & _ & H). apply bind_inv in H. destruct H as (m & Hm & _).
    apply div_inv in Hm; [|exact Hd]. destruct Hm as (N & _). apply N.
    apply (stands_mag_sign _ _ _ _ Hq). exact E. }
  split; [exact Hy|]. eapply returns_inv; [|exact H]. apply q_div_den; auto using div_ok_of.
Qed.
Lemma n_divq_inv div k q d x r q' : is_div div ->
  stands_for q d x r -> n_divq div k q = Ok q' ->
  x <> 0 /\ stands_for q' (dim_div d_none d) (k / x) r.
Proof.
  intros Hd Hq H. assert (Hy : x <> 0).
  { intros E. unfold n_divq in H.
    apply bind_inv in H. destruct H as (? & _ & H). apply bind_inv in H. destruct H as (m & Hm & _).
    apply div_inv in Hm; [|exact Hd]. destruct Hm as (N & _). apply N.
    apply (stands_mag_sign _ _ _ _ Hq). exact E. }
  split; [exact Hy|]. eapply returns_inv; [|exact H]. apply n_divq_den; auto using div_ok_of.
Qed.

(** ** Literals *)
Lemma lit_075 : Q2R 0.75 = 3/4. Proof. unfold Q2R; simpl; lra. Qed.
Lemma lit_03 : Q2R 0.3 = 3/10. Proof. unfold Q2R; simpl; lra. Qed.
Lemma lit_01 : Q2R 0.1 = 1/10. Proof. unfold Q2R; simpl; lra. Qed.
Lemma lit_04 : Q2R 0.4 = 4/10. Proof. unfold Q2R; simpl; lra. Qed.
Lemma lit_55 : Q2R 5.5 = 55/10. Proof. unfold Q2R; simpl; lra. Qed.
Lemma lit_018 : Q2R (-0.18) = -18/100. Proof. unfold Q2R; simpl; lra. Qed.
Lemma lit_21 : Q2R 2.1 = 21/10. Proof. unfold Q2R; simpl; lra. Qed.
Lemma lit_15 : Q2R 1.5 = 3/2. Proof. unfold Q2R; simpl; lra. Qed.
Lemma lit_2' : Q2R 2 = 2. Proof. unfold Q2R; simpl; lra. Qed.
Lemma lit_3 : Q2R 3 = 3. Proof. unfold Q2R; simpl; lra. Qed.
Lemma lit_7 : Q2R 7 = 7. Proof. unfold Q2R; simpl; lra. Qed.
Lemma lit_10 : Q2R 10 = 10. Proof. unfold Q2R; simpl; lra. Qed.
Lemma lit_02' : Q2R 0.2 = 2/10. Proof. unfold Q2R; simpl; lra. Qed.

(** ** Geometry of the blockage *)
Lemma root_range BR : 0 < BR <= 3/4 -> 0 < 1 - sqrt (1 - BR) < 1.
Proof.
  intros H. assert (0 < sqrt (1 - BR)) by (apply sqrt_lt_R0; lra).
  assert (sqrt (1 - BR) < 1) by (rewrite <- sqrt_1 at 2; apply sqrt_lt_1; lra). lra.
Qed.
Lemma doh_pos BR : 0 < BR <= 3/4 -> 0 < diameter_over_height BR.
Proof. intros H. apply root_range in H. apply Rdiv_lt_0_compat; lra. Qed.

(** ** The two correlations *)
Section Correlations.
  Variables (BR : R) (qD qS qc : quantity R) (D S c sigma : R) (reg : nat).
  Hypothesis HBR : 0 < BR <= 3/4.
  Hypothesis HD : stands_for qD d_length D reg.
  Hypothesis HS : stands_for qS d_velocity S reg.
  Hypothesis Hc : stands_for qc d_velocity c reg.

  Lemma rough_inv q : eq4_4 BR qD qS sigma qc = Ok q ->
    c <> 0 /\ D <> 0 /\ S <> 0 /\ sigma <> 1
    /\ q_unit q = q_unit qD /\ stands_for q d_length (rough_tube BR S sigma c D) reg.
  Proof.
    unfold eq4_4. rnum. rewrite one_R, lit_2', lit_10, lit_15. intros H.
    apply bind_inv in H. destruct H as (t1 & H1 & H).
    apply (returns_inv _ _ _ _ _ (q_scale_den _ _ _ _ _ HS)) in H1.
    apply bind_inv in H. destruct H as (t2 & H2 & H).
    apply (returns_inv _ _ _ _ _ (q_scale_den _ _ _ _ _ H1)) in H2.
    apply bind_inv in H. destruct H as (b & Hb & H).
    apply (returns_inv _ _ _ _ _ (q_mul_den _ _ _ _ _ _ _ Hc HD)) in Hb.
    apply bind_inv in H. destruct H as (l & Hl & H).
    apply (q_div_inv _ _ _ _ _ _ _ _ _ npdiv_div_ok H2 Hb) in Hl. destruct Hl as (N1 & Hl).
    apply bind_inv in H. destruct H as (k & Hk & H).
    apply div_inv in Hk; [|exact pydiv_div_ok]. destruct Hk as (_ & ->).
    apply bind_inv in H. destruct H as (r & Hr & H).
    apply (n_divq_inv _ _ _ _ _ _ _ npdiv_div_ok Hl) in Hr. destruct Hr as (N2 & Hr).
    assert (Nc : c <> 0) by (intros ->; apply N1; ring).
    assert (ND : D <> 0) by (intros ->; apply N1; ring).
    assert (NS : S <> 0) by (intros ->; apply N2; field; split; assumption).
    assert (Ns : sigma <> 1) by (intros ->; apply N2; field; split; assumption).
    repeat (split; [assumption|]).
    split; [exact (q_to_unit _ _ _ H)|].
    eapply returns_inv; [|exact H].
    replace (rough_tube BR S sigma c D)
      with (2 * (1 - BR) / (1 + 3 / 2 * BR) / ((sigma - 1) * (2 * 10 * S) / (c * D))).
    - apply q_to_den; [exact Hr|apply HD|apply HD|apply HD].
    - unfold rough_tube. field. repeat split; lra.
  Qed.

  Lemma rough_ok : c <> 0 -> D <> 0 -> S <> 0 -> sigma <> 1 ->
    exists q, eq4_4 BR qD qS sigma qc = Ok q.
  Proof.
    intros Nc ND NS Ns. unfold eq4_4. rnum. rewrite one_R, lit_2', lit_10, lit_15.
    destruct (q_scale_den (2 * 10) _ _ _ _ HS) as (t1 & -> & H1). cbn [bind].
    destruct (q_scale_den (sigma - 1) _ _ _ _ H1) as (t2 & -> & H2). cbn [bind].
    destruct (q_mul_den _ _ _ _ _ _ _ Hc HD) as (b & -> & Hb). cbn [bind].
    assert (N1 : c * D <> 0) by (apply Rmult_integral_contrapositive; auto).
    destruct (q_div_den npdiv _ _ _ _ _ _ _ npdiv_ok N1 H2 Hb) as (l & -> & Hl). cbn [bind].
    rewrite pydiv_ok by lra. cbn [bind].
    assert (N2 : (sigma - 1) * (2 * 10 * S) / (c * D) <> 0).
    { unfold Rdiv. repeat (apply Rmult_integral_contrapositive; split); try lra.
      apply Rinv_neq_0_compat. exact N1. }
    destruct (n_divq_den npdiv (2 * (1 - BR) / (1 + 3 / 2 * BR)) _ _ _ _ npdiv_ok N2 Hl) as (r & -> & Hr). cbn [bind].
    edestruct q_to_den as (q & -> & _); [exact Hr| | | |eauto]; apply HD.
  Qed.

  (** the arithmetic of [eq4_1], from the viscosity and density on *)
  Definition smooth_arith (mu rho : R) : result (quantity R) :=
    let* qr := quant reg rho "kg/m^3" in
    let* qm := quant reg mu "Pa*s" in
    let* nu := q_div pydiv qm qr in
    let* delta := q_div npdiv nu qS in
    let delta := to_base_units delta in
    let* den := q_scale (21/10 * sq (sigma - 1)) qS in
    let* front := q_div npdiv qc den in
    let* thin := q_div npdiv delta qD in
    let* thin := q_pow thin (1 / 3) in
    let* gamma := q_mul front thin in
    let* gamma := q_pow gamma (1 / (2 * (-18/100) + 7 / 3)) in
    let* root := npsqrt (1 - BR) in
    let* d_over_h := npdiv 2 (1 - root) in
    let* scaled := q_divn pydiv gamma (2/10) in
    let* gd := q_scale d_over_h gamma in
    let* lg := q_log gd in
    let* lg := q_scale (1 / (4/10)) lg in
    let* lg := n_addq (55/10) lg in
    let* runup := q_mul scaled lg in
    let* runup := q_mul runup qD in
    q_to runup (q_unit qD).

  Lemma base_stands q d x r : stands_for q d x r -> stands_for (to_base_units q) d x r.
  Proof.
    intros H. pose proof (stands_base _ _ _ _ H) as B. destruct H as (E1 & _ & _ & _ & E5).
    unfold to_base_units. repeat split; cbn; auto; rewrite ?one_R; try lra.
  Qed.
  Lemma quant_rho v : returns (quant reg v "kg/m^3") d_density v reg.
  Proof.
    eexists. split; [reflexivity|]. repeat split; cbn; rewrite ?one_R; lra.
  Qed.
  Lemma quant_mu v : returns (quant reg v "Pa*s") d_viscosity v reg.
  Proof.
    eexists. split; [reflexivity|]. repeat split; cbn; rewrite ?one_R; lra.
  Qed.

  Lemma smooth_inv mu rho q : 0 <= c -> 0 <= D -> smooth_arith mu rho = Ok q ->
    0 < c /\ 0 < D /\ 0 < S /\ sigma <> 1 /\ rho <> 0 /\ 0 < mu / rho
    /\ q_unit q = q_unit qD
    /\ stands_for q d_length (smooth_tube BR S sigma c (mu / rho) D) reg.
  Proof.
    intros Pc PD H. unfold smooth_arith in H.
    apply bind_inv in H. destruct H as (qr & Hr & H). apply (returns_inv _ _ _ _ _ (quant_rho rho)) in Hr.
    apply bind_inv in H. destruct H as (qm & Hm & H). apply (returns_inv _ _ _ _ _ (quant_mu mu)) in Hm.
    apply bind_inv in H. destruct H as (nu & Hn & H).
    apply (q_div_inv _ _ _ _ _ _ _ _ _ pydiv_div_ok Hm Hr) in Hn. destruct Hn as (Nr & Hn).
    apply bind_inv in H. destruct H as (delta & Hd & H).
    apply (q_div_inv _ _ _ _ _ _ _ _ _ npdiv_div_ok Hn HS) in Hd. destruct Hd as (NS & Hd).
    apply base_stands in Hd.
    apply bind_inv in H. destruct H as (den & Hden & H).
    apply (returns_inv _ _ _ _ _ (q_scale_den _ _ _ _ _ HS)) in Hden.
    apply bind_inv in H. destruct H as (front & Hf & H).
    apply (q_div_inv _ _ _ _ _ _ _ _ _ npdiv_div_ok Hc Hden) in Hf. destruct Hf as (Nd & Hf).
    apply bind_inv in H. destruct H as (thin & Ht & H).
    apply (q_div_inv _ _ _ _ _ _ _ _ _ npdiv_div_ok Hd HD) in Ht. destruct Ht as (ND & Ht).
    apply bind_inv in H. destruct H as (thin' & Ht' & H).
    apply (q_pow_inv _ _ _ _ _ Ht) in Ht'. destruct Ht' as (Pt & Ht').
    apply bind_inv in H. destruct H as (gamma & Hg & H).
    apply (returns_inv _ _ _ _ _ (q_mul_den _ _ _ _ _ _ _ Hf Ht')) in Hg.
    apply bind_inv in H. destruct H as (gamma' & Hg' & H).
    apply (q_pow_inv _ _ _ _ _ Hg) in Hg'. destruct Hg' as (Pg & Hg').
    apply bind_inv in H. destruct H as (root & Hroot & H).
    assert (Er : root = sqrt (1 - BR)).
    { unfold npsqrt in Hroot. rnum. rewrite zero_R, Rltb_false in Hroot by lra. congruence. }
    subst root. clear Hroot. pose proof (root_range BR HBR) as Rr.
    rewrite npdiv_ok in H by lra. cbn [bind] in H.
    apply bind_inv in H. destruct H as (scaled & Hsc & H).
    apply (returns_inv _ _ _ _ _ (q_divn_den _ (2/10) _ _ _ _ pydiv_ok ltac:(lra) Hg')) in Hsc.
    apply bind_inv in H. destruct H as (gd & Hgd & H).
    apply (returns_inv _ _ _ _ _ (q_scale_den _ _ _ _ _ Hg')) in Hgd.
    apply bind_inv in H. destruct H as (lg & Hlg & H).
    apply (q_log_inv _ _ _ _ Hgd) in Hlg. destruct Hlg as (Pl & Hlg).
    apply bind_inv in H. destruct H as (lg2 & Hlg2 & H).
    apply (returns_inv _ _ _ _ _ (q_scale_den _ _ _ _ _ Hlg)) in Hlg2.
    apply bind_inv in H. destruct H as (lg3 & Hlg3 & H).
    apply (returns_inv _ _ _ _ _ (n_addq_den _ _ _ _ Hlg2)) in Hlg3.
    apply bind_inv in H. destruct H as (ru & Hru & H).
    apply (returns_inv _ _ _ _ _ (q_mul_den _ _ _ _ _ _ _ Hsc Hlg3)) in Hru.
    apply bind_inv in H. destruct H as (ru2 & Hru2 & H).
    apply (returns_inv _ _ _ _ _ (q_mul_den _ _ _ _ _ _ _ Hru HD)) in Hru2.
    (* signs *)
    set (front_v := c / (21 / 10 * sq (sigma - 1) * S)) in *.
    set (thin_v := mu / rho / S / D) in *.
    assert (Pgamma : 0 < npow (front_v * npow thin_v (1 / 3)) (1 / (2 * (-18 / 100) + 7 / 3))).
    { assert (0 < 2 / (1 - sqrt (1 - BR))) by (apply Rdiv_lt_0_compat; lra).
      pose proof (npow_nonneg (front_v * npow thin_v (1 / 3)) (1 / (2 * (-18 / 100) + 7 / 3))). nra. }
    assert (Pin : 0 < front_v * npow thin_v (1 / 3)).
    { destruct Pg as [Pg|Pg]; [exact Pg|]. rewrite <- Pg, npow_zero in Pgamma. lra. }
    assert (Pth : 0 < npow thin_v (1 / 3)).
    { pose proof (npow_nonneg thin_v (1/3)) as [N|N]; [exact N|]. rewrite <- N in Pin. lra. }
    assert (Ptv : 0 < thin_v).
    { destruct Pt as [Pt|Pt]; [exact Pt|]. rewrite <- Pt, npow_zero in Pth. lra. }
    assert (Pfv : 0 < front_v) by nra.
    assert (Ns : sigma <> 1) by (intros ->; apply Nd; unfold sq; rnum; ring).
    assert (Psq : 0 < sq (sigma - 1)) by (unfold sq; rnum; nra).
    assert (PD' : 0 < D) by lra.
    assert (Pc' : 0 < c).
    { destruct Pc as [Pc|Pc]; [exact Pc|]. unfold front_v in Pfv. rewrite <- Pc in Pfv.
      unfold Rdiv in Pfv. rewrite Rmult_0_l in Pfv. lra. }
    assert (PS : 0 < S).
    { destruct (Rtotal_order S 0) as [Sn|[S0|Sp]]; [exfalso|contradiction|exact Sp].
      assert (E : front_v * (21 / 10 * sq (sigma - 1) * S) = c) by (unfold front_v; field; split; [exact NS|lra]).
      assert (21 / 10 * sq (sigma - 1) * S < 0) by nra. nra. }
    assert (Pnu : 0 < mu / rho).
    { assert (E : mu / rho = thin_v * (S * D)) by (unfold thin_v; field; repeat split; lra).
      rewrite E. apply Rmult_lt_0_compat; [exact Ptv|]. apply Rmult_lt_0_compat; assumption. }
    repeat (split; [assumption|]). split; [exact (q_to_unit _ _ _ H)|].
    eapply returns_inv; [|exact H].
    rewrite npow_pos in Hru2 by exact Pin. rewrite npow_pos in Hru2 by exact Ptv.
    match type of Hru2 with stands_for _ _ ?v _ =>
      replace (smooth_tube BR S sigma c (mu / rho) D) with v end.
    - apply q_to_den; [exact Hru2|apply HD|apply HD|apply HD].
    - unfold smooth_tube, flame_group, diameter_over_height, front_v, thin_v, sq. rnum.
      replace ((sigma - 1) * (sigma - 1)) with ((sigma - 1)^2) by ring.
      rewrite (Rmult_comm (2 / (1 - sqrt (1 - BR)))). ring.
  Qed.

  Lemma smooth_ok mu rho : 0 < c -> 0 < D -> 0 < S -> sigma <> 1 -> rho <> 0 -> 0 < mu / rho ->
    exists q, smooth_arith mu rho = Ok q.
  Proof.
    intros Pc PD PS Ns Nr Pnu. unfold smooth_arith.
    destruct (quant_rho rho) as (qr & -> & Hr). cbn [bind].
    destruct (quant_mu mu) as (qm & -> & Hm). cbn [bind].
    destruct (q_div_den pydiv _ _ _ _ _ _ _ pydiv_ok Nr Hm Hr) as (nu & -> & Hn). cbn [bind].
    destruct (q_div_den npdiv _ _ _ _ _ _ _ npdiv_ok (Rgt_not_eq _ _ PS) Hn HS) as (delta & -> & Hd). cbn [bind].
    apply base_stands in Hd.
    destruct (q_scale_den (21 / 10 * sq (sigma - 1)) _ _ _ _ HS) as (den & -> & Hden). cbn [bind].
    assert (Psq : 0 < sq (sigma - 1)) by (unfold sq; rnum; nra).
    assert (Nd : 0 < 21 / 10 * sq (sigma - 1) * S) by (apply Rmult_lt_0_compat; [apply Rmult_lt_0_compat; [lra|exact Psq]|exact PS]).
    destruct (q_div_den npdiv _ _ _ _ _ _ _ npdiv_ok (Rgt_not_eq _ _ Nd) Hc Hden) as (front & -> & Hf). cbn [bind].
    destruct (q_div_den npdiv _ _ _ _ _ _ _ npdiv_ok (Rgt_not_eq _ _ PD) Hd HD) as (thin & -> & Ht). cbn [bind].
    assert (Ptv : 0 < mu / rho / S / D) by (apply Rdiv_lt_0_compat; [apply Rdiv_lt_0_compat; assumption|assumption]).
    destruct (q_pow_den thin (1/3) _ reg Ht (Rlt_le _ _ Ptv)) as (thin' & -> & Ht'). cbn [bind].
    destruct (q_mul_den _ _ _ _ _ _ _ Hf Ht') as (gamma & -> & Hg). cbn [bind].
    assert (Pin : 0 < c / (21 / 10 * sq (sigma - 1) * S) * npow (mu / rho / S / D) (1/3)).
    { apply Rmult_lt_0_compat; [apply Rdiv_lt_0_compat; assumption|]. rewrite npow_pos by exact Ptv. apply exp_pos. }
    destruct (q_pow_den gamma (1 / (2 * (-18 / 100) + 7 / 3)) _ reg Hg (Rlt_le _ _ Pin)) as (gamma' & -> & Hg').
    cbn [bind]. pose proof (root_range BR HBR) as Rr.
    unfold npsqrt. rnum. rewrite zero_R, Rltb_false by lra. cbn [bind].
    rewrite npdiv_ok by lra. cbn [bind].
    destruct (q_divn_den pydiv (2/10) _ _ _ _ pydiv_ok ltac:(lra) Hg') as (scaled & -> & Hsc). cbn [bind].
    destruct (q_scale_den (2 / (1 - sqrt (1 - BR))) _ _ _ _ Hg') as (gd & -> & Hgd). cbn [bind].
    assert (Pl : 0 < 2 / (1 - sqrt (1 - BR)) *
      npow (c / (21 / 10 * sq (sigma - 1) * S) * npow (mu / rho / S / D) (1/3)) (1 / (2 * (-18 / 100) + 7 / 3))).
    { apply Rmult_lt_0_compat; [apply Rdiv_lt_0_compat; lra|]. rewrite npow_pos by exact Pin. apply exp_pos. }
    destruct (q_log_den gd _ reg Hgd Pl) as (lg & -> & Hlg). cbn [bind].
    destruct (q_scale_den (1 / (4/10)) _ _ _ _ Hlg) as (lg2 & -> & Hlg2). cbn [bind].
    destruct (n_addq_den (55/10) _ _ _ Hlg2) as (lg3 & -> & Hlg3). cbn [bind].
    destruct (q_mul_den _ _ _ _ _ _ _ Hsc Hlg3) as (ru & -> & Hru). cbn [bind].
    destruct (q_mul_den _ _ _ _ _ _ _ Hru HD) as (ru2 & -> & Hru2). cbn [bind].
    edestruct q_to_den as (q & -> & _); [exact Hru2| | | |eauto]; apply HD.
  Qed.
End Correlations.

(** ** The whole function *)
Lemma range_ok BR : 0 < BR <= 3/4 ->
  orb (@nleb R _ BR zero) (@nltb R _ (nofQ 0.75) BR) = false.
Proof. intros H. rnum. rewrite zero_R, lit_075, Rleb_false, Rltb_false by lra. reflexivity. Qed.

Lemma velocity_stands q v reg : is_in q v "m/s" reg -> stands_for q d_velocity v reg.
Proof.
  intros (H & <- & <-). change (Some (mult_unit d_velocity (@one R _)) = Some (q_unit q)) in H.
  injection H as H. repeat split; rewrite <- ?H; cbn; rewrite ?one_R; try reflexivity; lra.
Qed.

Section Whole.
  Context {G X : Type} (L : cantera R G X).

  Lemma eq4_1_value BR qD qT qP T P x reg h qS sigma qc :
    parsed qT d_temperature T reg -> parsed qP d_pressure P reg ->
    value (eq4_1 L BR qD qT qP x reg h qS sigma qc)
    = (let* g := ct_set_TPX L h T P x in
       let* mu := ct_viscosity L g in
       smooth_arith BR qD qS qc sigma reg mu (ct_density L g)).
  Proof.
    intros HT HP. unfold eq4_1, smooth_arith.
    rewrite (in_unit_K qT T reg HT), bind_pure_ok, (in_unit_Pa qP P reg HP), bind_pure_ok.
    rewrite value_bind. change (value (set_TPX L h T P x)) with (ct_set_TPX L h T P x).
    destruct (ct_set_TPX L h T P x) as [g|e]; cbn [bind]; [|reflexivity].
    destruct (quant_rho reg (ct_density L g)) as (qr & -> & _). rewrite bind_pure_ok. cbn [bind].
    rewrite value_bind, value_pure.
    destruct (ct_viscosity L g) as [mu|e]; cbn [bind]; [|reflexivity].
    rewrite value_pure. rnum. rewrite one_R, lit_21, lit_3, lit_2', lit_018, lit_7, lit_04, lit_55, lit_02'.
    reflexivity.
  Qed.

  (** the part after the chemistry *)
  Definition pick BR (qD qT qP : quantity R) (x : X) reg (h : G) (qS : quantity R) sigma (qc : quantity R)
    : io R (quantity R) :=
    if Rleb (3/10) BR then pure (eq4_4 BR qD qS sigma qc)
    else if Rleb BR (1/10) then eq4_1 L BR qD qT qP x reg h qS sigma qc
    else
      do smooth <- eq4_1 L BR qD qT qP x reg h qS sigma qc;
      do rough <- pure (eq4_4 BR qD qS sigma qc);
      do v <- pure (np_interp BR [(1/10, q_mag smooth); (3/10, q_mag rough)]);
      ret (mkQ v (q_unit qD) reg).

  Definition run_up_run BR (qD qT qP : quantity R) T P x mech phase reg : io R (quantity R) :=
    do qS <- flame_run L T P x mech phase reg;
    do g <- new_solution L mech phase;
    do g <- set_TPX L g T P x;
    do h <- equilibrate L g "HP";
    do inv <- pure (pydiv 1 (ct_density L h));
    do qc <- get_eq_sound_speed L (PSeq [ENum (ct_T L h); EStr "K"])
               (PSeq [ENum (ct_P L h); EStr "Pa"]) x mech phase reg;
    pick BR qD qT qP x reg h qS (ct_density L g * inv) qc.

  Lemma run_up_eq BR iD iT iP D T P x mech phase reg :
    0 < BR <= 3/4 ->
    denotes iD d_length D -> denotes iT d_temperature T -> denotes iP d_pressure P ->
    0 <= D -> 0 <= T -> 0 <= P ->
    exists qD qT qP,
      parse_quant_input iD reg = Ok qD
      /\ parsed qD d_length D reg /\ parsed qT d_temperature T reg /\ parsed qP d_pressure P reg
      /\ calculate_run_up L BR iD iT iP x mech reg phase
         = run_up_run BR qD qT qP T P x mech phase reg.
  Proof.
    intros HBR ED ET EP H0 H1 H2.
    destruct (parse_denotes _ _ _ reg ED) as (qD & PD & SD).
    destruct (parse_denotes _ _ _ reg ET) as (qT & PT & ST).
    destruct (parse_denotes _ _ _ reg EP) as (qP & PP & SP).
    exists qD, qT, qP. repeat (split; [assumption|]).
    unfold calculate_run_up. rewrite (range_ok BR HBR), PD, PT, PP, !bind_pure_ok.
    rewrite (check_parsed qD "length" d_length D reg eq_refl SD H0), bind_pure_ok.
    rewrite (check_parsed qT "temperature" d_temperature T reg eq_refl ST H1), bind_pure_ok.
    rewrite (check_parsed qP "pressure" d_pressure P reg eq_refl SP H2), bind_pure_ok.
    assert (DT : denotes (PQuant qT) d_temperature T) by (constructor; apply ST).
    assert (DP : denotes (PQuant qP) d_pressure P) by (constructor; apply SP).
    rewrite (flame_run_eq L _ _ _ _ x mech phase reg DT DP H1 H2).
    unfold run_up_run. apply io_bind_ext. intros qS. apply io_bind_ext. intros g0.
    rewrite (in_unit_K qT T reg ST), bind_pure_ok, (in_unit_Pa qP P reg SP), bind_pure_ok.
    apply io_bind_ext. intros g. apply io_bind_ext. intros h. rewrite one_R.
    apply io_bind_ext. intros inv. apply io_bind_ext. intros qc.
    unfold pick. rnum. rewrite lit_03, lit_01, lit_075, (Rleb_true BR (3/4)), andb_true_r by lra.
    reflexivity.
  Qed.

  Lemma sound_check T P x mech phase reg q :
    value (get_eq_sound_speed L (PSeq [ENum T; EStr "K"]) (PSeq [ENum P; EStr "Pa"]) x mech phase reg)
      = Ok q -> 0 <= T /\ 0 <= P.
  Proof.
    intros H. unfold get_eq_sound_speed in H.
    pose proof (denotes_K T) as DT. pose proof (denotes_Pa P) as DP.
    destruct (parse_denotes _ _ _ reg DT) as (qT & ET & PT).
    destruct (parse_denotes _ _ _ reg DP) as (qP & EP & PP).
    rewrite ET, EP, !bind_pure_ok in H.
    apply value_bind_ok in H. destruct H as (b1 & H1 & H & _).
    apply value_bind_ok in H. destruct H as (b2 & H2 & _).
    rewrite value_pure in H1, H2.
    apply (check_q_inv _ _ d_pressure) in H1; [|reflexivity].
    apply (check_q_inv _ _ d_temperature) in H2; [|reflexivity].
    rewrite (parsed_base_mag _ _ _ _ PT) in H2. rewrite (parsed_base_mag _ _ _ _ PP) in H1.
    destruct H1, H2; auto.
  Qed.

  (** what a successful run went through *)
  Lemma run_up_run_inv BR qD qT qP T P x mech phase reg q :
    value (run_up_run BR qD qT qP T P x mech phase reg) = Ok q ->
    exists S sigma c h qS qc,
      burns L x mech phase T P S sigma c h
      /\ stands_for qS d_velocity S reg /\ stands_for qc d_velocity c reg
      /\ value (pick BR qD qT qP x reg h qS sigma qc) = Ok q.
  Proof.
    intros H. unfold run_up_run in H.
    apply value_bind_ok in H. destruct H as (qS & HS & H & _).
    apply value_bind_ok in H. destruct H as (a & Ha & H & _).
    apply value_bind_ok in H. destruct H as (g & Hg & H & _).
    apply value_bind_ok in H. destruct H as (h & Hh & H & _).
    apply value_bind_ok in H. destruct H as (inv & Hi & H & _). rewrite value_pure in Hi.
    apply div_inv in Hi; [|exact pydiv_div_ok]. destruct Hi as (Nh & ->).
    apply value_bind_ok in H. destruct H as (qc & Hc & H & _).
    destruct (sound_check _ _ _ _ _ _ _ Hc) as (PT & PP).
    rewrite (sound_run_eq L _ _ _ _ x mech phase reg (denotes_K _) (denotes_Pa _) PT PP) in Hc.
    apply sound_run_inv in Hc. destruct Hc as (g0 & g1 & c & Hp & Nd & Pc & Ec & Qc).
    change (ct_new L mech phase = Ok a) in Ha. change (ct_set_TPX L a T P x = Ok g) in Hg.
    change (ct_equilibrate L g "HP" = Ok h) in Hh.
    unfold flame_run in HS.
    apply value_bind_ok in HS. destruct HS as (a' & Ha' & HS & _).
    change (ct_new L mech phase = Ok a') in Ha'. replace a' with a in * by congruence.
    apply value_bind_ok in HS. destruct HS as (g' & Hg' & HS & _).
    change (ct_set_TPX L a T P x = Ok g') in Hg'. replace g' with g in * by congruence.
    apply value_bind_ok in HS. destruct HS as (S & HS & HS' & _). rewrite value_pure in HS'.
    exists S, (ct_density L g / ct_density L h), c, h, qS, qc. split.
    - exists g, g0, g1. split; [exists a; auto|].
      split; [exact HS|]. split; [exact Hh|]. split; [exact Nh|]. split; [reflexivity|].
      split; [exact PT|]. split; [exact PP|]. split; [exact Hp|]. split; [exact Nd|]. split; [exact Pc|exact Ec].
    - split; [apply velocity_stands; apply quant_ms_inv; exact HS'|].
      split; [apply velocity_stands; exact Qc|].
      replace (ct_density L g / ct_density L h) with (ct_density L g * (1 / ct_density L h)) by (field; exact Nh).
      exact H.
  Qed.

  (** ... and a mixture that burns gets through the chemistry *)
  Lemma isentropic_pair_unique x mech phase T P g0 g1 g0' g1' :
    isentropic_pair L x mech phase T P g0 g1 -> isentropic_pair L x mech phase T P g0' g1' ->
    g0 = g0' /\ g1 = g1'.
  Proof.
    intros (g & h & (a & E1 & E2) & E3 & E4 & E5) (g' & h' & (a' & F1 & F2) & F3 & F4 & F5).
    assert (a = a') by congruence. subst a'. assert (g = g') by congruence. subst g'.
    assert (g0 = g0') by congruence. subst g0'. assert (h = h') by congruence. subst h'.
    split; congruence.
  Qed.
  Lemma sound_speed_ok x mech phase T P reg g0 g1 c :
    0 <= T -> 0 <= P -> isentropic_pair L x mech phase T P g0 g1 ->
    ct_density L g1 <> ct_density L g0 ->
    0 <= c -> c^2 * (ct_density L g1 - ct_density L g0) = 1/10000 * ct_P L g0 ->
    exists qc, value (get_eq_sound_speed L (PSeq [ENum T; EStr "K"]) (PSeq [ENum P; EStr "Pa"]) x mech phase reg)
               = Ok qc /\ stands_for qc d_velocity c reg.
  Proof.
    intros HT HP Hpair Nd Pc Ec.
    rewrite (sound_run_eq L _ _ _ _ x mech phase reg (denotes_K _) (denotes_Pa _) HT HP).
    assert (Hq : exists qc, value (sound_run L T P x mech phase reg) = Ok qc).
    { pose proof Hpair as (g & h & (a & Ea & Eg) & E0 & Eh & E1).
      unfold sound_run, new_solution, set_TPX, equilibrate, set_SP.
      rewrite value_bind. change (value (act (EvNew mech phase) (ct_new L mech phase))) with (ct_new L mech phase).
      rewrite Ea. cbn [bind]. rewrite value_bind. unfold act, value at 1. cbn [snd]. rewrite Eg. cbn [bind].
      rewrite value_bind. unfold value at 1. cbn [snd]. rewrite E0. cbn [bind].
      rewrite value_bind. unfold value at 1. cbn [snd]. rewrite Eh. cbn [bind].
      rewrite value_bind. unfold value at 1. cbn [snd]. rewrite E1. cbn [bind].
      rewrite npdiv_ok by lra. rewrite bind_pure_ok.
      replace ((10001 / 10000 * ct_P L g0 - ct_P L g0) / (ct_density L g1 - ct_density L g0)) with (c^2).
      2:{ apply (Rmult_eq_reg_r (ct_density L g1 - ct_density L g0)); [|lra]. rewrite Ec. field. lra. }
      unfold npsqrt. rnum. rewrite zero_R, Rltb_false by nra. rewrite bind_pure_ok. eexists. reflexivity. }
    destruct Hq as (qc & Hq). exists qc. split; [exact Hq|].
    apply sound_run_inv in Hq. destruct Hq as (h0 & h1 & c' & Hpair' & Nd' & Pc' & Ec' & Qc).
    destruct (isentropic_pair_unique _ _ _ _ _ _ _ _ _ Hpair Hpair') as (-> & ->).
    apply velocity_stands in Qc. replace c with c'; [exact Qc|].
    assert (E2 : c'^2 = c^2).
    { apply (Rmult_eq_reg_r (ct_density L h1 - ct_density L h0)); [|lra]. rewrite Ec, Ec'. reflexivity. }
    apply Rsqr_inj; [exact Pc'|exact Pc|]. unfold Rsqr. lra.
  Qed.

  Lemma run_up_run_pick BR qD qT qP T P x mech phase reg S sigma c h :
    burns L x mech phase T P S sigma c h ->
    exists qS qc, stands_for qS d_velocity S reg /\ stands_for qc d_velocity c reg
      /\ value (run_up_run BR qD qT qP T P x mech phase reg)
         = value (pick BR qD qT qP x reg h qS sigma qc).
  Proof.
    intros (g & g0 & g1 & (a & Ea & Eg) & ES & Eh & Nh & -> & PT & PP & Hpair & Nd & Pc & Ec).
    destruct (sound_speed_ok x mech phase _ _ reg g0 g1 c PT PP Hpair Nd Pc Ec) as (qc & Hqc & Sqc).
    destruct (quant_ms reg S) as (qS & HqS & IqS).
    exists qS, qc. split; [apply velocity_stands; exact IqS|]. split; [exact Sqc|].
    unfold run_up_run. rewrite value_bind.
    assert (EF : value (flame_run L T P x mech phase reg) = Ok qS).
    { unfold flame_run, new_solution, set_TPX, flame_speed.
      rewrite value_bind. change (value (act (EvNew mech phase) (ct_new L mech phase))) with (ct_new L mech phase).
      rewrite Ea. cbn [bind]. rewrite value_bind. unfold act, value at 1. cbn [snd]. rewrite Eg. cbn [bind].
      rewrite value_bind. unfold value at 1. cbn [snd]. rewrite ES. cbn [bind]. rewrite value_pure. exact HqS. }
    rewrite EF. cbn [bind]. rewrite value_bind.
    change (value (new_solution L mech phase)) with (ct_new L mech phase). rewrite Ea. cbn [bind].
    rewrite value_bind. change (value (set_TPX L a T P x)) with (ct_set_TPX L a T P x). rewrite Eg. cbn [bind].
    rewrite value_bind. change (value (equilibrate L g "HP")) with (ct_equilibrate L g "HP"). rewrite Eh. cbn [bind].
    rewrite pydiv_ok by exact Nh. rewrite bind_pure_ok.
    rewrite value_bind, Hqc. cbn [bind].
    replace (ct_density L g / ct_density L h) with (ct_density L g * (1 / ct_density L h)) by (field; exact Nh).
    reflexivity.
  Qed.

  (** [burns] determines the numbers *)
  Lemma burns_unique x mech phase T P S sigma c h S' sigma' c' h' :
    burns L x mech phase T P S sigma c h -> burns L x mech phase T P S' sigma' c' h' ->
    S = S' /\ sigma = sigma' /\ c = c' /\ h = h'.
  Proof.
    intros (g & g0 & g1 & (a & Ea & Eg) & ES & Eh & Nh & -> & PT & PP & Hpair & Nd & Pc & Ec)
      (k & k0 & k1 & (a' & Ea' & Eg') & ES' & Eh' & Nh' & -> & PT' & PP' & Hpair' & Nd' & Pc' & Ec').
    assert (a = a') by congruence. subst a'. assert (g = k) by congruence. subst k.
    assert (h = h') by congruence. subst h'.
    destruct (isentropic_pair_unique _ _ _ _ _ _ _ _ _ Hpair Hpair') as (-> & ->).
    split; [congruence|]. split; [reflexivity|]. split; [|reflexivity].
    assert (E2 : c'^2 = c^2).
    { apply (Rmult_eq_reg_r (ct_density L k1 - ct_density L k0)); [|lra]. rewrite Ec, Ec'. reflexivity. }
    symmetry. apply Rsqr_inj; [exact Pc'|exact Pc|]. unfold Rsqr. lra.
  Qed.
  Lemma viscosity_unique x T P h nu nu' :
    kinematic_viscosity L x T P h nu -> kinematic_viscosity L x T P h nu' -> nu = nu'.
  Proof.
    intros (g & mu & E1 & E2 & N & ->) (g' & mu' & F1 & F2 & N' & ->).
    assert (g = g') by congruence. subst g'. congruence.
  Qed.

  Section Pick.
    Variables (BR D T P S sigma c : R) (x : X) (reg : nat) (h : G) (qD qT qP qS qc : quantity R).
    Hypothesis HBR : 0 < BR <= 3/4.
    Hypothesis HD : parsed qD d_length D reg.
    Hypothesis HT : parsed qT d_temperature T reg.
    Hypothesis HP : parsed qP d_pressure P reg.
    Hypothesis HS : stands_for qS d_velocity S reg.
    Hypothesis Hc : stands_for qc d_velocity c reg.
    Hypothesis PD : 0 <= D.
    Hypothesis Pc : 0 <= c.

    Let SD : stands_for qD d_length D reg := parsed_stands _ _ _ _ HD ltac:(discriminate).

    Lemma smooth_value_inv q :
      value (eq4_1 L BR qD qT qP x reg h qS sigma qc) = Ok q ->
      exists nu, kinematic_viscosity L x T P h nu
        /\ 0 < c /\ 0 < D /\ 0 < S /\ sigma <> 1 /\ 0 < nu
        /\ q_unit q = q_unit qD /\ stands_for q d_length (smooth_tube BR S sigma c nu D) reg.
    Proof.
      intros H. rewrite (eq4_1_value _ _ _ _ _ _ _ _ _ _ _ _ HT HP) in H.
      apply bind_inv in H. destruct H as (g & Hg & H).
      apply bind_inv in H. destruct H as (mu & Hmu & H).
      apply (smooth_inv _ _ _ _ D S c sigma reg HBR SD HS Hc mu (ct_density L g) q Pc PD) in H.
      destruct H as (H1 & H2 & H3 & H4 & H5 & H6 & H7 & H8).
      exists (mu / ct_density L g). split; [exists g, mu; auto|]. auto 10.
    Qed.
    Lemma smooth_value_ok nu : kinematic_viscosity L x T P h nu ->
      0 < c -> 0 < D -> 0 < S -> sigma <> 1 -> 0 < nu ->
      exists q, value (eq4_1 L BR qD qT qP x reg h qS sigma qc) = Ok q.
    Proof.
      intros (g & mu & Hg & Hmu & Nr & ->) H1 H2 H3 H4 H5.
      rewrite (eq4_1_value _ _ _ _ _ _ _ _ _ _ _ _ HT HP), Hg. cbn [bind]. rewrite Hmu. cbn [bind].
      apply (smooth_ok _ _ _ _ D S c sigma reg HBR SD HS Hc); assumption.
    Qed.

    Lemma interp_line s r : 1/10 < BR -> BR < 3/10 ->
      @np_interp R _ BR [(1/10, s); (3/10, r)] = Ok (line (1/10, s) (3/10, r) BR).
    Proof.
      intros H1 H2. unfold np_interp, np_interp_from, line. cbn [fst snd]. rnum.
      rewrite (Reqb_true BR BR eq_refl); cbn [negb]. rewrite Rltb_false, Rltb_true by lra. f_equal. field.
    Qed.
    Lemma line_scale k s r : line (1/10, s * k) (3/10, r * k) BR = line (1/10, s) (3/10, r) BR * k.
    Proof. unfold line. cbn [fst snd]. field. Qed.

    Lemma pick_inv q : value (pick BR qD qT qP x reg h qS sigma qc) = Ok q ->
      c <> 0 /\ D <> 0 /\ S <> 0 /\ sigma <> 1 /\ q_unit q = q_unit qD
      /\ (BR < 3/10 -> 0 < S /\ exists nu, kinematic_viscosity L x T P h nu /\ 0 < nu)
      /\ (forall nu, (BR < 3/10 -> kinematic_viscosity L x T P h nu) ->
           stands_for q d_length (run_up_distance BR S sigma c nu D) reg).
    Proof.
      unfold pick, run_up_distance. intros H.
      destruct (Rleb_spec (3/10) BR) as [H3|H3].
      - rewrite value_pure in H.
        apply (rough_inv _ _ _ _ D S c sigma reg HBR SD HS Hc) in H.
        destruct H as (H1 & H2 & H4 & H5 & H6 & H7).
        repeat (split; [assumption|]). split; [intros; lra|]. intros nu _.
        destruct (Rle_dec BR (1/10)); [lra|]. destruct (Rle_dec (3/10) BR); [|lra]. exact H7.
      - destruct (Rleb_spec BR (1/10)) as [H1|H1].
        + apply smooth_value_inv in H. destruct H as (nu & Hv & K1 & K2 & K3 & K4 & K5 & K6 & K7).
          split; [lra|]. split; [lra|]. split; [lra|]. split; [assumption|]. split; [assumption|].
          split; [intros _; split; [assumption|]; exists nu; auto|].
          intros nu' Hv'. specialize (Hv' ltac:(lra)). rewrite (viscosity_unique _ _ _ _ _ _ Hv' Hv).
          destruct (Rle_dec BR (1/10)); [|lra]. exact K7.
        + apply value_bind_ok in H. destruct H as (s & Hs & H & _).
          apply value_bind_ok in H. destruct H as (r & Hr & H & _). rewrite value_pure in Hr.
          apply smooth_value_inv in Hs. destruct Hs as (nu & Hv & K1 & K2 & K3 & K4 & K5 & K6 & K7).
          apply (rough_inv _ _ _ _ D S c sigma reg HBR SD HS Hc) in Hr.
          destruct Hr as (_ & _ & _ & _ & M6 & M7).
          rewrite interp_line, bind_pure_ok, value_ret in H by lra. injection H as <-.
          split; [lra|]. split; [lra|]. split; [lra|]. split; [assumption|]. split; [reflexivity|].
          split; [intros _; split; [assumption|]; exists nu; auto|].
          intros nu' Hv'. specialize (Hv' ltac:(lra)). rewrite (viscosity_unique _ _ _ _ _ _ Hv' Hv).
          destruct (Rle_dec BR (1/10)); [lra|]. destruct (Rle_dec (3/10) BR); [lra|].
          destruct SD as (D1 & D2 & D3 & D4 & D5).
          destruct K7 as (_ & _ & _ & <- & _). destruct M7 as (_ & _ & _ & <- & _).
          rewrite K6, M6. rewrite line_scale. repeat split; cbn; auto.
    Qed.

    Lemma pick_ok nu : (BR < 3/10 -> kinematic_viscosity L x T P h nu) ->
      0 < c -> 0 < D -> 0 < S -> sigma <> 1 -> 0 < nu ->
      exists q, value (pick BR qD qT qP x reg h qS sigma qc) = Ok q.
    Proof.
      intros Hv H1 H2 H3 H4 H5. unfold pick.
      destruct (rough_ok BR _ _ _ D S c sigma reg HBR SD HS Hc) as (r & Hr); try lra.
      destruct (Rleb_spec (3/10) BR) as [H6|H6].
      { exists r. rewrite value_pure. exact Hr. }
      destruct (smooth_value_ok nu (Hv ltac:(lra)) H1 H2 H3 H4 H5) as (s & Hs).
      destruct (Rleb_spec BR (1/10)) as [H7|H7]; [exists s; exact Hs|].
      rewrite value_bind, Hs. cbn [bind]. rewrite Hr, bind_pure_ok, interp_line, bind_pure_ok by lra.
      eexists. reflexivity.
    Qed.

    Lemma pick_viscosity_error g e :
      BR < 3/10 -> ct_set_TPX L h T P x = Ok g -> ct_viscosity L g = Err e ->
      value (pick BR qD qT qP x reg h qS sigma qc) = Err e.
    Proof.
      intros H3 Hg Hv. unfold pick. rewrite Rleb_false by lra.
      assert (E : value (eq4_1 L BR qD qT qP x reg h qS sigma qc) = Err e).
      { rewrite (eq4_1_value _ _ _ _ _ _ _ _ _ _ _ _ HT HP), Hg. cbn [bind]. rewrite Hv. reflexivity. }
      destruct (Rleb_spec BR (1/10)); [exact E|]. rewrite value_bind, E. reflexivity.
    Qed.
  End Pick.
End Whole.
