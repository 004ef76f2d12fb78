(** * RoundTubeP: maximum pressure and dynamic load factor under rounding. *)
From Coq Require Import String ZArith QArith Reals Qreals List Bool Lra Lia Psatz.
From Verif Require Import PyBase Pint UnitsM Spec QLemmas TubeM TubeP
  RoundM RoundSpec RoundP RoundWindowP RoundMonoP RoundDdtP.
Import ListNotations.
Local Open Scope R_scope.

Section RT.
  Variables (u : R) (rnd : R -> R).
  Hypothesis Hr : rounding u rnd.
  Notation N := (Num_rounded rnd).
  Let Hu : 0 <= u <= 1/1024. Proof. exact (proj1 Hr). Qed.
  Notation approx := (approx u).

  Lemma stands_approx k q d x reg : stands_for q d x reg -> approx k q d x reg.
  Proof.
    intros (a & b & c & e & f). repeat split; try assumption. rewrite e. apply near_refl. exact Hu.
  Qed.
  Lemma self_approx k q d x reg : approx k q d x reg -> approx 0 q d (q_mag q * u_scale (q_unit q)) reg.
  Proof. intros (a & b & c & e & f). repeat split; try assumption. apply near_refl. exact Hu. Qed.

  (** Back from a relative error to a number of roundings. *)
  Lemma pow_up n : 1 + INR n * u <= (1 + u)^n.
  Proof.
    induction n as [|n IH]; [cbn; lra|]. rewrite S_INR. cbn [pow]. pose proof (pos_INR n).
    assert (0 <= INR n * u) by (apply Rmult_le_pos; lra).
    apply Rle_trans with ((1 + u) * (1 + INR n * u)); [nra|]. apply Rmult_le_compat_l; lra.
  Qed.
  Lemma pow_inv_up n : 1 + INR n * u <= / (1 - u)^n.
  Proof.
    pose proof (pow_pos_u u Hu n) as P. apply Rmult_le_reg_r with ((1 - u)^n); [exact P|].
    rewrite Rinv_l by lra. apply Rle_trans with ((1 + u)^n * (1 - u)^n).
    - apply Rmult_le_compat_r; [lra|apply pow_up].
    - rewrite <- Rpow_mult_distr. replace ((1 + u) * (1 - u)) with (1 - u * u) by ring.
      apply Rle_trans with (1 ^ n); [apply pow_incr; nra|rewrite pow1; lra].
  Qed.
  Lemma err_near k x y : 0 < x -> INR k * u <= 1/2 -> Rabs (y - x) <= INR k * u * x -> near u (2 * k) x y.
  Proof.
    intros X K E. exists (y / x). split; [field; lra|].
    assert (T0 : 0 <= INR k * u) by (apply Rmult_le_pos; [apply pos_INR|lra]).
    assert (B : 1 - INR k * u <= y / x <= 1 + INR k * u).
    { assert (E2 : - (INR k * u * x) <= y - x <= INR k * u * x)
        by (unfold Rabs in E; destruct (Rcase_abs (y - x)); lra).
      split; apply Rmult_le_reg_r with x; try exact X; unfold Rdiv; rewrite Rmult_assoc, Rinv_l by lra; lra. }
    pose proof (pow_inv_up (2 * k)) as U. rewrite mult_INR in U. change (INR 2) with 2 in U.
    set (t := INR k * u) in *. replace (2 * INR k * u) with (2 * t) in U by (unfold t; ring).
    pose proof (pow_pos_u u Hu (2 * k)) as P. set (p := (1 - u)^(2 * k)) in *.
    split; [|lra].
    assert (p * / p = 1) by (apply Rinv_r; lra).
    assert (p * (1 + 2 * t) <= 1).
    { apply Rle_trans with (p * / p); [apply Rmult_le_compat_l; lra|lra]. }
    assert (p <= 1 - t); [|lra].
    apply Rmult_le_reg_r with (1 + 2 * t); [lra|].
    assert (0 <= t * (1 - 2 * t)) by (apply Rmult_le_pos; lra). nra.
  Qed.

  (** quantity - quantity: absolute error *)
  Lemma sub_approx q q' d x x' reg : 0 <= x -> 0 <= x' ->
    stands_for q d x reg -> stands_for q' d x' reg ->
    exists r, @q_sub R N q q' = Ok r /\ u_dim (q_unit r) = d /\ u_off (q_unit r) = None
      /\ 0 < u_scale (q_unit r) /\ q_reg r = reg
      /\ Rabs (q_mag r * u_scale (q_unit r) - (x - x')) <= 6 * u * (x + x').
  Proof.
    intros X X' (D & O & S0 & H & E) (D' & O' & S0' & H' & E').
    unfold q_sub, q_addsub, same_reg, offset_free. rewrite E, E', Nat.eqb_refl, O, O'. cbn [bind].
    unfold q_to. rewrite D, D', dim_eqb_refl, O. unfold base_mag. rewrite O'. cbn [bind].
    eexists. split; [reflexivity|]. cbn [q_mag q_unit q_reg].
    split; [exact D|]. split; [exact O|]. split; [exact S0|]. split; [reflexivity|].
    cbn [nsub ndiv nmul Num_rounded]. set (s := u_scale (q_unit q)) in *.
    set (v := rnd (rnd (q_mag q' * u_scale (q_unit q')) / s)).
    assert (V : near u 2 (x' / s) v).
    { unfold v. apply rnd_near; [exact Hr|]. replace 1%nat with (1 + 0)%nat by lia.
      apply near_div; [exact Hu|rewrite H'; apply rnd_near, (near_refl u Hu 0); exact Hr|apply near_refl; exact Hu]. }
    apply (near_err u rnd Hr) in V; [|lia]. change (INR 2) with 2 in V.
    assert (P : 0 <= x' / s) by (apply div_nn; assumption). rewrite (Rabs_pos_eq (x' / s)) in V by exact P.
    pose proof (rnd_err u rnd Hr (q_mag q - v)) as G.
    assert (Mx : q_mag q = x / s) by (rewrite <- H; field; lra).
    assert (P2 : 0 <= x / s) by (apply div_nn; assumption).
    assert (A : Rabs (q_mag q - v) <= x / s + 2 * (x' / s)).
    { replace (q_mag q - v) with (x / s + - (x' / s) + - (v - x' / s)) by (rewrite Mx; ring).
      eapply Rle_trans; [apply Rabs_triang|]. rewrite Rabs_Ropp.
      assert (Rabs (x / s + - (x' / s)) <= x / s + x' / s) by (apply Rabs_le; lra). nra. }
    replace (rnd (q_mag q - v) * s - (x - x')) with (s * ((rnd (q_mag q - v) - (q_mag q - v)) + - (v - x' / s)))
      by (rewrite Mx; field; lra).
    rewrite Rabs_mult, (Rabs_pos_eq s) by lra.
    replace (6 * u * (x + x')) with (s * (6 * u * (x / s + x' / s))) by (field; lra).
    apply Rmult_le_compat_l; [lra|].
    eapply Rle_trans; [apply Rabs_triang|]. rewrite Rabs_Ropp. nra.
  Qed.

  Lemma lit_int_near (z : Z) q : Q2R q = IZR z -> (-1024 <= z <= 1024)%Z -> near u 0 (IZR z) (@nofQ R N q).
  Proof. intros E B. cbn [nofQ Num_rounded]. rewrite E, (rnd_int u rnd Hr z B). apply near_refl. exact Hu. Qed.

  Lemma mp_rounded qi qo qs ID OD sg sf reg :
    stands_for qi d_length ID reg -> stands_for qo d_length OD reg -> stands_for qs d_pressure sg reg ->
    0 <= ID -> 0 <= OD -> 0 < OD + ID -> 0 <= sg -> 0 < sf ->
    exists q h, @calculate_max_pressure R N qi qo qs sf = Ok q
      /\ Rabs (h - (OD - ID)) <= 6 * u * (OD + ID)
      /\ approx 20 q d_pressure (sg * (2 * (h / 2)) / (sf * ((OD + ID) / 2))) reg.
  Proof.
    intros Hi Ho Hs I0 O0 G0 s0 sf0. unfold calculate_max_pressure.
    destruct (add_approx u rnd Hr 0 0 _ _ d_length OD ID reg O0 I0 (stands_approx _ _ _ _ _ Ho) (stands_approx _ _ _ _ _ Hi))
      as (s & -> & As). cbn [bind].
    assert (T2 : near u 0 2 (@nofQ R N 2)) by apply (two_near u rnd Hr).
    destruct (divn_approx u rnd Hr _ _ 2 _ s _ _ reg T2 ltac:(lra) As) as (m & -> & Am). cbn [bind].
    destruct (sub_approx qo qi d_length OD ID reg O0 I0 Ho Hi) as (d & -> & Dd & Od & Sd & Rd & Ed). cbn [bind].
    set (h := q_mag d * u_scale (q_unit d)) in *.
    assert (Ad : approx 0 d d_length h reg) by (repeat split; try assumption; apply near_refl; exact Hu).
    destruct (divn_approx u rnd Hr _ _ 2 _ d _ _ reg T2 ltac:(lra) Ad) as (w & -> & Aw). cbn [bind].
    destruct (scale_approx u rnd Hr _ _ 2 _ w _ _ reg T2 Aw) as (w2 & -> & Aw2). cbn [bind].
    destruct (mul_approx u rnd Hr 0 _ qs w2 _ _ _ _ reg (stands_approx _ _ _ _ _ Hs) Aw2) as (nu & -> & An). cbn [bind].
    destruct (scale_approx u rnd Hr 0 _ sf sf m _ _ reg (near_refl u Hu 0 sf) Am) as (de & -> & Ade). cbn [bind].
    destruct (div_approx u rnd Hr _ _ nu de _ _ _ _ reg An Ade) as (r & -> & Ar); [nra|].
    exists r, h. split; [reflexivity|]. split; [exact Ed|].
    eapply approx_weaken; [exact Hr| |exact Ar]. cbn. lia.
  Qed.
  Lemma poisson_near nu : 0 <= nu <= 1/2 ->
    near u 4 (1 - nu * nu) (@nsub R N (@one R N) (@sq R N nu)).
  Proof.
    intros B. unfold sq. cbn [nsub nmul Num_rounded]. rewrite (one_rnd u rnd Hr).
    change 4%nat with (2 * 2)%nat. apply err_near; [nra|change (INR 2) with 2; lra|]. change (INR 2) with 2.
    pose proof (rnd_err u rnd Hr (nu * nu)) as E1. rewrite (Rabs_pos_eq (nu * nu)) in E1 by nra.
    set (z := rnd (nu * nu)) in *.
    pose proof (rnd_err u rnd Hr (1 - z)) as E2.
    assert (Z : 0 <= z <= 1/2).
    { split; [apply (rnn u rnd Hr); nra|]. assert (z - nu * nu <= u * (nu * nu)) by (eapply Rle_trans; [apply Rle_abs|exact E1]). nra. }
    rewrite (Rabs_pos_eq (1 - z)) in E2 by lra.
    replace (rnd (1 - z) - (1 - nu * nu)) with ((rnd (1 - z) - (1 - z)) + - (z - nu * nu)) by ring.
    eapply Rle_trans; [apply Rabs_triang|]. rewrite Rabs_Ropp.
    assert (Z2 : z - nu * nu >= - (u * (nu * nu))).
    { apply Rle_ge. unfold Rabs in E1. destruct (Rcase_abs (z - nu * nu)); nra. }
    assert (nu * nu <= 1/4) by nra. nra.
  Qed.
  Lemma root4_approx k q d d' x reg : dim_root 4 d = Some d' -> 0 <= x -> approx k q d x reg ->
    exists r, @q_root4 R N q = Ok r /\ approx (4 + k) r d' (sqrt (sqrt x)) reg.
  Proof.
    intros Dr X (D & O & S0 & H & E). unfold q_root4, offset_free. rewrite O, D, Dr. cbn [bind].
    assert (M : 0 <= q_mag q).
    { pose proof (near_nonneg u Hu _ _ _ H X) as Y. destruct (Rle_or_lt 0 (q_mag q)); [assumption|nra]. }
    cbn [nltb nsqrt Num_rounded]. rewrite (zero_rnd u rnd Hr), Rltb_false by exact M.
    eexists. split; [reflexivity|]. unfold approx, mult_unit. cbn [q_mag q_unit q_reg u_dim u_off u_scale].
    assert (R2 : forall z, 0 <= z -> near u 2 (sqrt (sqrt z)) (rnd (sqrt (rnd (sqrt z))))).
    { intros z Z. apply rnd_near; [exact Hr|]. apply near_sqrt; [exact Hu|apply sqrt_pos|].
      apply rnd_near; [exact Hr|]. apply near_refl. exact Hu. }
    unfold RoundP.approx. cbn [q_mag q_unit q_reg u_dim u_off u_scale].
    repeat split; try assumption.
    - apply (rnd_pos u rnd Hr), sqrt_lt_R0, (rnd_pos u rnd Hr), sqrt_lt_R0, S0.
    - replace (4 + k)%nat with (k + (2 + 2))%nat by lia.
      eapply (near_trans u Hu k (2 + 2)).
      + apply near_sqrt; [exact Hu|apply sqrt_pos|]. apply near_sqrt; [exact Hu|exact X|exact H].
      + rewrite sqrt_mult by lra. rewrite sqrt_mult by apply sqrt_pos.
        apply near_mul; [exact Hu|apply R2; exact M|apply R2; lra].
  Qed.

  Lemma cv_rounded T qi qo qe qr ID OD E rho nu reg :
    stands_for qi d_length ID reg -> stands_for qo d_length OD reg ->
    stands_for qe d_pressure E reg -> stands_for qr d_density rho reg ->
    0 <= ID -> ID < OD -> 0 <= E -> 0 < rho -> 0 <= nu <= 1/2 ->
    OD + ID <= INR T * (OD - ID) -> 6 * INR T * u <= 1/2 ->
    exists q, @critical_velocity R N qi qo qe qr nu = Ok q
      /\ approx (24 * T + 34) q d_velocity (sqrt (sqrt (vcrit4 ID OD E rho nu))) reg.
  Proof.
    intros Hi Ho He Hd I0 IO E0 r0 n0 TT Tu. unfold critical_velocity.
    assert (O0 : 0 <= OD) by lra.
    destruct (add_approx u rnd Hr 0 0 _ _ d_length OD ID reg O0 I0 (stands_approx _ _ _ _ _ Ho) (stands_approx _ _ _ _ _ Hi))
      as (s & -> & As). cbn [bind].
    assert (T2 : near u 0 2 (@nofQ R N 2)) by apply (two_near u rnd Hr).
    assert (T4 : near u 0 4 (@nofQ R N 4)) by (apply (lit_int_near 4); [q2r; lra|lia]).
    assert (T3 : near u 0 3 (@nofQ R N 3)) by (apply (lit_int_near 3); [q2r; lra|lia]).
    destruct (divn_approx u rnd Hr _ _ 4 _ s _ _ reg T4 ltac:(lra) As) as (m & -> & Am). cbn [bind].
    destruct (sub_approx qo qi d_length OD ID reg O0 I0 Ho Hi) as (d & -> & Dd & Od & Sd & Rd & Ed). cbn [bind].
    assert (Ad : approx (2 * (6 * T)) d d_length (OD - ID) reg).
    { repeat split; try assumption. apply err_near; [lra| |]; rewrite mult_INR; replace (INR 6) with 6 by (cbn; lra).
      - lra.
      - eapply Rle_trans; [exact Ed|]. replace (6 * INR T * u * (OD - ID)) with (6 * u * (INR T * (OD - ID))) by ring.
        apply Rmult_le_compat_l; lra. }
    destruct (divn_approx u rnd Hr _ _ 2 _ d _ _ reg T2 ltac:(lra) Ad) as (w & -> & Aw). cbn [bind].
    destruct (sq_approx u rnd Hr 0 qe _ _ reg (stands_approx _ _ _ _ _ He)) as (e2 & -> & Ae2). cbn [bind].
    destruct (sq_approx u rnd Hr _ w _ _ reg Aw) as (t2 & -> & At2). cbn [bind].
    destruct (mul_approx u rnd Hr _ _ e2 t2 _ _ _ _ reg Ae2 At2) as (num & -> & An). cbn [bind].
    destruct (sq_approx u rnd Hr 0 qr _ _ reg (stands_approx _ _ _ _ _ Hd)) as (rho2 & -> & Ar2). cbn [bind].
    destruct (scale_approx u rnd Hr _ _ 3 _ rho2 _ _ reg T3 Ar2) as (de & -> & Ade). cbn [bind].
    destruct (sq_approx u rnd Hr _ m _ _ reg Am) as (r2 & -> & Amr2). cbn [bind].
    destruct (mul_approx u rnd Hr _ _ de r2 _ _ _ _ reg Ade Amr2) as (den & -> & Aden). cbn [bind].
    destruct (scale_approx u rnd Hr _ _ _ _ den _ _ reg (poisson_near nu n0) Aden) as (den' & -> & Aden'). cbn [bind].
    assert (Nn : nu * nu < 1) by nra.
    assert (Gp : 0 < OD + ID) by lra.
    pose proof (vcrit4_den ID OD rho nu Gp r0 Nn) as Dn.
    destruct (div_approx u rnd Hr _ _ num den' _ _ _ _ reg An Aden') as (ra & -> & Ara); [lra|]. cbn [bind].
    match type of Ara with RoundP.approx _ _ _ ?dd _ _ =>
      destruct (root4_approx _ ra dd d_velocity _ reg eq_refl (vcrit4_nonneg ID OD E rho nu Gp r0 Nn) Ara) as (q & -> & Aq)
    end.
    exists q. split; [reflexivity|]. eapply approx_weaken; [exact Hr| |exact Aq]. cbn. lia.
  Qed.

  Lemma to_ms k q x reg : approx k q d_velocity x reg ->
    exists q', @q_to_str R N q "m/s" = Ok q' /\ near u (2 + k) x (q_mag q').
  Proof.
    intros A. unfold q_to_str.
    change (@lookup_unit R N "m/s") with (Some (mult_unit d_velocity (@one R N))).
    destruct (to_approx u rnd Hr k q d_velocity x reg (mult_unit d_velocity (@one R N)) A eq_refl eq_refl) as (r & -> & Ar & Ur).
    { cbn [u_scale mult_unit]. rewrite (one_rnd u rnd Hr). lra. }
    exists r. split; [reflexivity|]. destruct Ar as (_ & _ & _ & H & _). rewrite Ur in H.
    cbn [u_scale mult_unit] in H. rewrite (one_rnd u rnd Hr), Rmult_1_r in H. exact H.
  Qed.
  Lemma dlf_rounded T qi qo qv qe qr ID OD v E rho nu f reg :
    stands_for qi d_length ID reg -> stands_for qo d_length OD reg -> stands_for qv d_velocity v reg ->
    stands_for qe d_pressure E reg -> stands_for qr d_density rho reg ->
    0 <= ID -> ID < OD -> 0 <= v -> 0 <= E -> 0 < rho -> 0 <= nu <= 1/2 -> 0 < f < 1 ->
    OD + ID <= INR T * (OD - ID) -> 6 * INR T * u <= 1/2 ->
    exists lo up v', near u (24 * T + 38) ((1 - f) * sqrt (sqrt (vcrit4 ID OD E rho nu))) lo
      /\ near u (24 * T + 38) ((1 + f) * sqrt (sqrt (vcrit4 ID OD E rho nu))) up
      /\ near u 2 v v'
      /\ @dynamic_load_factor R N qi qo qv qe qr nu f
         = Ok (if Rltb v' lo then 1%nat else if Rltb up v' then 2%nat else 4%nat).
  Proof.
    intros Hi Ho Hv He Hd I0 IO v0 E0 r0 n0 f0 TT Tu. unfold dynamic_load_factor.
    rewrite (check_approx u rnd Hr 0 qi d_length ID reg "length" true eq_refl (stands_approx _ _ _ _ _ Hi)) by lra. cbn [bind].
    rewrite (check_approx u rnd Hr 0 qo d_length OD reg "length" true eq_refl (stands_approx _ _ _ _ _ Ho)) by lra. cbn [bind].
    rewrite (check_approx u rnd Hr 0 qv d_velocity v reg "velocity" false eq_refl (stands_approx _ _ _ _ _ Hv)) by lra. cbn [bind].
    rewrite (check_approx u rnd Hr 0 qe d_pressure E reg "pressure" true eq_refl (stands_approx _ _ _ _ _ He)) by lra. cbn [bind].
    rewrite (check_approx u rnd Hr 0 qr d_density rho reg "density" true eq_refl (stands_approx _ _ _ _ _ Hd)) by lra. cbn [bind].
    cbn [nltb Num_rounded]. rewrite (one_rnd u rnd Hr), (zero_rnd u rnd Hr), !Rltb_true by apply f0.
    cbn [andb negb raise_if bind].
    destruct (cv_rounded T qi qo qe qr ID OD E rho nu reg Hi Ho He Hd I0 IO E0 r0 n0 TT Tu) as (c & -> & Ac). cbn [bind].
    assert (Nu : near u 1 (1 + f) (@nadd R N 1 f)).
    { cbn [nadd Num_rounded]. apply rnd_near, near_refl; [exact Hr|exact Hu]. }
    assert (Nl : near u 1 (1 - f) (@nsub R N 1 f)).
    { cbn [nsub Num_rounded]. apply rnd_near, near_refl; [exact Hr|exact Hu]. }
    destruct (scale_approx u rnd Hr _ _ _ _ c _ _ reg Nu Ac) as (up & -> & Aup). cbn [bind].
    destruct (to_ms _ up _ reg Aup) as (up' & -> & Nup). cbn [bind].
    destruct (scale_approx u rnd Hr _ _ _ _ c _ _ reg Nl Ac) as (lo & -> & Alo). cbn [bind].
    destruct (to_ms _ lo _ reg Alo) as (lo' & -> & Nlo). cbn [bind].
    destruct (to_ms _ qv _ reg (stands_approx 0 _ _ _ _ Hv)) as (v' & -> & Nv). cbn [bind].
    exists (q_mag lo'), (q_mag up'), (q_mag v').
    split; [eapply near_weaken; [exact Hu| |exact Nlo]; lia|].
    split; [eapply near_weaken; [exact Hu| |exact Nup]; lia|].
    split; [exact Nv|]. reflexivity.
  Qed.
End RT.
