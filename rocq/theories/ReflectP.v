(** * ReflectP: what a converged reflected-shock iteration returns, for a perfect gas. *)
From Coq Require Import String ZArith QArith Reals List Bool Lra Lia Psatz.
From Verif Require Import PyBase Gas GasP FitM QLemmas FitP SdM SdSpec SdP PerfectP ReflectSpec.
Import ListNotations.
Local Open Scope R_scope.

(** ** One Newton step in scaled variables: x = v / v2, tau = Rs T, A = Rs T2, V = u^2 *)
Section Scaled.
  Context (A a V x x' tau tau' t tT : R).
  Let s := x / 50.
  Let k := 1 / ((1 - x) * (1 - x - s)).
  Let E := tau - A - a * V / (1 - x) + a * V / 2.
  Let F := tau / x - A - V / (1 - x).
  Definition E_at := tau' - A - a * V / (1 - x') + a * V / 2.
  Definition F_at := tau' / x' - A - V / (1 - x').
  Context (HA : 0 < A) (Ha : 0 < a < 1) (HV : 0 < V) (Hx : 0 < x) (Hx' : 0 < x' <= 2/3)
    (Htau : 0 < tau) (Htau' : 0 < tau')
    (Ht : t <= 1/100) (HtT : tT <= 1/100)
    (Hdx : Rabs (x' - x) <= t * x') (Hdt : Rabs (tau' - tau) <= tT * tau')
    (N1 : (tau' - tau) - a * V * k * (x' - x) = - E)
    (N2 : (tau' - tau) / x - (tau / (51/50 * x^2) + V * k) * (x' - x) = - F).
  Let eps := t * (1/50 + t + tT).

  Lemma x'_pos : 0 < x'.
  Proof. lra. Qed.
  Lemma t_nonneg : 0 <= t.
  Proof. pose proof x'_pos. pose proof (Rabs_pos (x' - x)). nra. Qed.
  Lemma tT_nonneg : 0 <= tT.
  Proof. pose proof (Rabs_pos (tau' - tau)). nra. Qed.
  Lemma x_bounds : 99/100 * x' <= x <= 101/100 * x'.
  Proof. pose proof x'_pos. apply Rabs_le_both in Hdx. nra. Qed.
  Lemma gaps : 8/25 <= 1 - x /\ 31/100 <= 1 - x - s /\ 1/3 <= 1 - x' /\ 0 < (1 - x) * (1 - x - s)
    /\ 1/10 <= (1 - x) * (1 - x - s).
  Proof. pose proof x_bounds. unfold s. repeat split; try lra; nra. Qed.

  Definition first := (x' - x) / x * (tau * ((x' - x) / x - 1/50) / (51/50) - (tau' - tau)).

  Lemma E_after : E_at = a * V * (x' - x) * (s - (x' - x)) * k / (1 - x').
  Proof.
    pose proof gaps. assert (E_at = E + (tau' - tau) - a * V * (x' - x) / ((1 - x) * (1 - x'))).
    { unfold E_at, E. field. lra. }
    rewrite H0. replace (E + (tau' - tau)) with (a * V * k * (x' - x)) by lra.
    unfold k. field. lra.
  Qed.
  Lemma F_after : F_at = first / x' + E_at / a.
  Proof.
    pose proof gaps. pose proof x'_pos.
    assert (F_at = F + tau' / x' - tau / x - V * (x' - x) / ((1 - x) * (1 - x'))) as ->.
    { unfold F_at, F. field. lra. }
    rewrite E_after.
    replace F with ((tau / (51/50 * x^2) + V * k) * (x' - x) - (tau' - tau) / x) by lra.
    unfold first, k. field. repeat split; lra.
  Qed.
  Lemma eps_pos : 0 <= eps <= 1/2500.
  Proof. pose proof t_nonneg. pose proof tT_nonneg. unfold eps. nra. Qed.

  Lemma first_small : Rabs first <= 51/50 * eps * tau'.
  Proof.
    pose proof x'_pos. pose proof t_nonneg. pose proof tT_nonneg. pose proof x_bounds.
    set (y := (x' - x) / x).
    assert (Hy : Rabs y <= 100/99 * t).
    { unfold y, Rdiv. rewrite Rabs_mult, (Rabs_pos_eq (/ x)) by (left; apply Rinv_0_lt_compat; lra).
      apply Rmult_le_reg_r with x; [lra|]. rewrite Rmult_assoc, Rinv_l by lra. nra. }
    assert (Htau2 : tau <= 101/100 * tau').
    { apply Rabs_le_both in Hdt. nra. }
    unfold first. fold y. rewrite Rabs_mult.
    assert (HB : Rabs (tau * (y - 1/50) / (51/50) - (tau' - tau))
                 <= (101/100 * (1/50 + 100/99 * t) / (51/50) + tT) * tau').
    { unfold Rminus at 1. eapply Rle_trans; [apply Rabs_triang|]. rewrite Rabs_Ropp.
      apply Rle_trans with (101/100 * (1/50 + 100/99 * t) / (51/50) * tau' + tT * tau'); [|lra].
      apply Rplus_le_compat; [|exact Hdt].
      replace (tau * (y - 1/50) / (51/50)) with (50/51 * tau * (y - 1/50)) by field.
      rewrite Rabs_mult, (Rabs_pos_eq (50/51 * tau)) by lra.
      assert (Rabs (y - 1/50) <= 1/50 + 100/99 * t).
      { unfold Rminus. eapply Rle_trans; [apply Rabs_triang|]. rewrite Rabs_Ropp, (Rabs_pos_eq (1/50)) by lra. lra. }
      pose proof (Rabs_pos (y - 1/50)). nra. }
    eapply Rle_trans; [apply Rmult_le_compat; [apply Rabs_pos|apply Rabs_pos|exact Hy|exact HB]|].
    assert (HC : 100/99 * t * (101/100 * (1/50 + 100/99 * t) / (51/50) + tT) <= 51/50 * eps).
    { unfold eps. nra. }
    nra.
  Qed.

  Lemma E_small : (1 - x') * Rabs E_at <= 5 * a * V * eps.
  Proof.
    pose proof x'_pos. pose proof t_nonneg. pose proof tT_nonneg. pose proof x_bounds.
    pose proof gaps as (G1 & G2 & G3 & G4 & G5).
    rewrite E_after. unfold Rdiv at 1.
    rewrite !Rabs_mult, (Rabs_pos_eq (/ (1 - x'))) by (left; apply Rinv_0_lt_compat; lra).
    rewrite (Rabs_pos_eq a), (Rabs_pos_eq V) by lra.
    assert (Hk : 0 < k <= 10).
    { unfold k. split; [apply Rdiv_lt_0_compat; lra|].
      apply div_le; lra. }
    rewrite (Rabs_pos_eq k) by lra.
    set (d := Rabs (x' - x)) in *. set (d2 := Rabs (s - (x' - x))).
    assert (Hd2 : d2 <= x' * (101/100 * (1/50 + t))).
    { unfold d2, Rminus at 1. eapply Rle_trans; [apply Rabs_triang|]. rewrite Rabs_Ropp. fold d.
      rewrite Rabs_pos_eq by (unfold s; lra). unfold s. nra. }
    replace ((1 - x') * (a * V * d * d2 * k * / (1 - x'))) with (a * V * (d * d2 * k)) by (field; lra).
    replace (5 * a * V * eps) with (a * V * (5 * eps)) by ring.
    apply Rmult_le_compat_l; [nra|].
    assert (D0 : 0 <= d) by apply Rabs_pos. assert (D1 : 0 <= d2) by apply Rabs_pos.
    assert (d * d2 <= (2/3 * t) * (2/3 * (101/100 * (1/50 + t)))).
    { apply Rmult_le_compat; try assumption; nra. }
    assert (d * d2 * k <= (2/3 * t) * (2/3 * (101/100 * (1/50 + t))) * 10).
    { apply Rmult_le_compat; nra. }
    unfold eps. nra.
  Qed.
  Lemma E_small' : Rabs E_at <= 15 * a * V * eps.
  Proof.
    pose proof E_small. pose proof gaps as (_ & _ & G & _). pose proof (Rabs_pos E_at). nra.
  Qed.

  (** the temperature eliminated *)
  Definition Rres := x' * F_at - E_at.
  Lemma R_quadratic : (1 - x') * Rres = A * (1 - x')^2 - V * ((1 - a/2) * x' - a/2).
  Proof. pose proof gaps. pose proof x'_pos. unfold Rres, F_at, E_at. field. lra. Qed.
  Lemma R_small : (1 - x') * Rabs Rres <= eps * (51/50 * A * (1 - x') + 6 * V).
  Proof.
    pose proof x'_pos as Xp. pose proof gaps as (_ & _ & G3 & _). pose proof E_small as ES.
    pose proof first_small as FS. pose proof eps_pos as EP.
    assert (ER : Rres = first + (x' - a) * (E_at / a)).
    { unfold Rres. rewrite F_after. field. lra. }
    assert (Hb : (1 - x') * Rabs (E_at / a) <= 5 * V * eps).
    { unfold Rdiv. rewrite Rabs_mult, (Rabs_pos_eq (/ a)) by (left; apply Rinv_0_lt_compat; lra).
      apply Rmult_le_reg_r with a; [lra|].
      replace ((1 - x') * (Rabs E_at * / a) * a) with ((1 - x') * Rabs E_at) by (field; lra). lra. }
    assert (Hxa : Rabs (x' - a) <= 1) by (apply Rabs_le; lra).
    assert (Et : (1 - x') * tau' = A * (1 - x') + a * V * (1 + x') / 2 + (1 - x') * E_at).
    { unfold E_at. field. lra. }
    assert (Et2 : (1 - x') * tau' <= A * (1 - x') + 5/6 * V + 5 * V * eps).
    { rewrite Et. assert ((1 - x') * E_at <= (1 - x') * Rabs E_at) by (apply Rmult_le_compat_l; [lra|apply Rle_abs]).
      assert (a * V <= V) by nra. assert (a * V * eps <= V * eps) by nra.
      assert (a * V * (1 + x') / 2 <= 5/6 * V) by nra. lra. }
    rewrite ER.
    apply Rle_trans with ((1 - x') * (Rabs first + 1 * Rabs (E_at / a))).
    { apply Rmult_le_compat_l; [lra|]. eapply Rle_trans; [apply Rabs_triang|].
      apply Rplus_le_compat_l. rewrite Rabs_mult. apply Rmult_le_compat_r; [apply Rabs_pos|exact Hxa]. }
    assert ((1 - x') * Rabs first <= 51/50 * eps * ((1 - x') * tau')) by nra.
    assert (51/50 * eps * ((1 - x') * tau') <= 51/50 * eps * (A * (1 - x') + 5/6 * V + 5 * V * eps)).
    { apply Rmult_le_compat_l; [lra|exact Et2]. }
    assert (eps * (V * eps) <= 1/2500 * (V * eps)) by (apply Rmult_le_compat_r; [nra|lra]).
    nra.
  Qed.
  Lemma A_bound : A <= 61/10 * V.
  Proof.
    pose proof R_quadratic as Q. pose proof R_small as S. pose proof x'_pos.
    pose proof gaps as (_ & _ & G3 & _). pose proof eps_pos as EP.
    assert ((1 - x') * Rres <= (1 - x') * Rabs Rres) by (apply Rmult_le_compat_l; [lra|apply Rle_abs]).
    assert (eps * (51/50 * A * (1 - x') + 6 * V) <= 1/2500 * (51/50 * A + 6 * V)).
    { apply Rmult_le_compat; try nra. }
    assert ((1 - a/2) * x' - a/2 <= 2/3) by nra.
    assert (1/9 <= (1 - x')^2) by nra.
    assert (A * (1/9) <= A * (1 - x')^2) by (apply Rmult_le_compat_l; lra).
    nra.
  Qed.
  Lemma F_small : Rabs F_at <= 26 * V * eps.
  Proof.
    pose proof x'_pos as Xp. pose proof gaps as (_ & _ & G3 & _). pose proof A_bound as AB.
    pose proof first_small as FS. pose proof eps_pos as EP. pose proof E_small' as ES.
    assert (HF : Rabs F_at <= 51/50 * eps * (tau' / x') + 15 * V * eps).
    { rewrite F_after. eapply Rle_trans; [apply Rabs_triang|]. apply Rplus_le_compat.
      - unfold Rdiv. rewrite Rabs_mult, (Rabs_pos_eq (/ x')) by (left; apply Rinv_0_lt_compat; lra).
        rewrite <- Rmult_assoc. apply Rmult_le_compat_r; [left; apply Rinv_0_lt_compat; lra|exact FS].
      - unfold Rdiv. rewrite Rabs_mult, (Rabs_pos_eq (/ a)) by (left; apply Rinv_0_lt_compat; lra).
        apply Rmult_le_reg_r with a; [lra|]. rewrite Rmult_assoc, Rinv_l by lra. lra. }
    assert (Et : tau' / x' = A + V / (1 - x') + F_at) by (unfold F_at; ring).
    assert (V / (1 - x') <= 3 * V) by (apply div_le; nra).
    pose proof (Rle_abs F_at).
    rewrite Et in HF.
    assert (51/50 * eps * (A + V / (1 - x') + F_at) <= 51/50 * eps * (91/10 * V + Rabs F_at)).
    { apply Rmult_le_compat_l; lra. }
    assert (51/50 * eps * Rabs F_at <= 51/50 * (1/2500) * Rabs F_at).
    { apply Rmult_le_compat_r; [apply Rabs_pos|lra]. }
    nra.
  Qed.

  (** ** Against the state the conservation laws ask for *)
  Context (z : R) (Hz : z < 1) (Qz : A * (1 - z)^2 = V * ((1 - a/2) * z - a/2)).
  Lemma x_close : Rabs (x' - z) <= 12 * eps.
  Proof.
    pose proof R_quadratic as Q. pose proof R_small as S. pose proof x'_pos.
    pose proof gaps as (_ & _ & G3 & _). pose proof eps_pos as EP.
    set (D := A * (2 - x' - z) + V * (1 - a/2)).
    assert (HD : A * (1 - x') + V / 2 <= D) by (unfold D; nra).
    assert (HD0 : 0 < A * (1 - x')) by nra.
    assert (EQ : (1 - x') * Rres = (z - x') * D) by (rewrite Q; unfold D; replace ((z - x') * (A * (2 - x' - z) + V * (1 - a / 2))) with (A * (1 - x')^2 - V * ((1 - a/2) * x' - a/2) - (A * (1 - z)^2 - V * ((1 - a/2) * z - a/2))) by field; lra).
    assert (EA : (1 - x') * Rabs Rres = Rabs (x' - z) * D).
    { rewrite <- (Rabs_pos_eq (1 - x')) at 1 by lra. rewrite <- Rabs_mult, EQ, Rabs_mult.
      rewrite (Rabs_pos_eq D) by lra. rewrite Rabs_minus_sym. reflexivity. }
    rewrite EA in S.
    apply Rmult_le_reg_r with D; [lra|]. eapply Rle_trans; [exact S|].
    replace (12 * eps * D) with (eps * (12 * D)) by ring.
    apply Rmult_le_compat_l; [lra|]. lra.
  Qed.
  Lemma z_pos : 0 < z.
  Proof. assert (0 < (1 - z)^2) by nra. assert (0 < A * (1 - z)^2) by nra.
    rewrite Qz in H0. assert (0 < (1 - a/2) * z - a/2).
    { apply Rmult_lt_reg_l with V; lra. }
    apply Rmult_lt_reg_l with (1 - a/2); lra.
  Qed.
  Lemma jump_close : Rabs (V / (1 - x') - V / (1 - z)) <= 36 * eps * (V / (1 - z)).
  Proof.
    pose proof x_close as C. pose proof gaps as (_ & _ & G3 & _). pose proof eps_pos.
    replace (V / (1 - x') - V / (1 - z)) with ((x' - z) * (/ (1 - x') * (V / (1 - z)))) by (field; lra).
    assert (0 < V / (1 - z)) by (apply Rdiv_lt_0_compat; lra).
    assert (0 < / (1 - x') <= 3).
    { split; [apply Rinv_0_lt_compat; lra|]. rewrite <- (Rinv_inv 3) by lra.
      apply Rinv_le_contravar; lra. }
    rewrite Rabs_mult, (Rabs_pos_eq (/ (1 - x') * _)) by nra.
    replace (36 * eps * (V / (1 - z))) with (12 * eps * (3 * (V / (1 - z)))) by ring.
    apply Rmult_le_compat; [apply Rabs_pos|nra|exact C|nra].
  Qed.
  Lemma V_le_jump : V <= V / (1 - z).
  Proof. pose proof z_pos. apply le_div; nra. Qed.
  Lemma P_close : Rabs (tau' / x' - (A + V / (1 - z))) <= 62 * eps * (V / (1 - z)).
  Proof.
    pose proof jump_close as J. pose proof F_small as F'. pose proof eps_pos. pose proof V_le_jump.
    replace (tau' / x' - (A + V / (1 - z))) with (V / (1 - x') - V / (1 - z) + F_at)
      by (unfold F_at; ring).
    eapply Rle_trans; [apply Rabs_triang|].
    assert (V * eps <= V / (1 - z) * eps) by (apply Rmult_le_compat_r; lra). lra.
  Qed.
  Lemma T_close : Rabs (tau' - (A + a * V / (1 - z) - a * V / 2))
    <= 102 * eps * (a * V / (1 - z) - a * V / 2).
  Proof.
    pose proof jump_close as J. pose proof E_small' as E'. pose proof eps_pos. pose proof V_le_jump.
    pose proof z_pos.
    replace (tau' - (A + a * V / (1 - z) - a * V / 2))
      with (a * (V / (1 - x') - V / (1 - z)) + E_at) by (unfold E_at; field; pose proof gaps; lra).
    eapply Rle_trans; [apply Rabs_triang|]. rewrite Rabs_mult, (Rabs_pos_eq a) by lra.
    replace (a * V / (1 - z) - a * V / 2) with (a * (V / (1 - z) - V / 2)) by (unfold Rdiv; ring).
    assert (V * eps <= V / (1 - z) * eps) by (apply Rmult_le_compat_r; lra).
    assert (a * Rabs (V / (1 - x') - V / (1 - z)) <= a * (36 * eps * (V / (1 - z)))).
    { apply Rmult_le_compat_l; lra. }
    assert (a * (V * eps) <= a * (V / (1 - z) * eps)) by (apply Rmult_le_compat_l; lra).
    assert (a * (eps * (V / (1 - z) - V)) >= 0).
    { apply Rle_ge. apply Rmult_le_pos; [lra|]. apply Rmult_le_pos; lra. }
    nra.
  Qed.
End Scaled.

(** ** The iteration *)
Section Iteration.
  Context {G X : Type} (L : cantera R G X) (Rs cp q u : R) (g2 : G).
  Let D2 := ct_density L g2.
  Let T2 := ct_T L g2.
  Let v2 := 1 / D2.
  Let V := u^2.
  Let A := Rs * T2.
  Let a := Rs / cp.
  Context (HD2 : 0 < D2) (HT2 : 0 < T2) (HRs : 0 < Rs) (Hcp : Rs < cp) (Hu : u <> 0)
    (Hperf : perfect_gas L Rs cp q) (H2' : perfect_state L Rs cp q g2).

  Definition at_state (g : G) (T D : R) : Prop :=
    ct_density L g = D /\ ct_P L g = D * Rs * T /\ ct_enthalpy L g = cp * T + q /\ ct_T L g = T.
  Lemma at_of g : perfect_state L Rs cp q g -> at_state g (ct_T L g) (ct_density L g).
  Proof. intros (E1 & E2). repeat split; assumption. Qed.
  Lemma of_at g T D : at_state g T D -> perfect_state L Rs cp q g.
  Proof. intros (E1 & E2 & E3 & E4). split; rewrite E4, ?E1; assumption. Qed.
  Let H2 : at_state g2 T2 D2 := at_of g2 H2'.

  Lemma v2_pos : 0 < v2.
  Proof. apply Rdiv_lt_0_compat; lra. Qed.
  Lemma V_pos : 0 < V.
  Proof. unfold V. nra. Qed.
  Lemma A_pos : 0 < A.
  Proof. unfold A. nra. Qed.
  Lemma a_bounds : 0 < a < 1.
  Proof.
    unfold a. split; [apply Rdiv_lt_0_compat; lra|].
    apply Rmult_lt_reg_r with cp; [lra|]. replace (Rs / cp * cp) with Rs by (field; lra). lra.
  Qed.

  Lemma settles_perfect g T D g' : 0 < T -> 0 < D -> settles L g T D g' ->
    at_state g' T D.
  Proof.
    intros HT HD (b & B1 & B2). destruct (Hperf g T D HT HD) as (g3 & (c & C1 & C2) & F1 & F2 & F3 & F4).
    rewrite B1 in C1. injection C1 as <-. rewrite B2 in C2. injection C2 as <-.
    rewrite F1, F2 in F3. rewrite F1 in F4. repeat split; assumption.
  Qed.

  Lemma reflected_imbalances g T v : 0 < v -> v <> v2 -> at_state g T (1 / v) ->
    let x := v / v2 in
    reflected_energy_imbalance L g2 g u = (Rs * T - A - a * V / (1 - x) + a * V / 2) / a
    /\ reflected_momentum_imbalance L g2 g u = (Rs * T / x - A - V / (1 - x)) / v2.
  Proof.
    intros Hv Hne (E1 & E2 & E3 & _) x. pose proof v2_pos. destruct H2 as (F1 & F2 & F3 & _).
    assert (HDv : D2 = 1 / v2) by (unfold v2; field; lra).
    assert (N : v2 - v <> 0) by lra.
    unfold reflected_energy_imbalance, reflected_momentum_imbalance.
    rewrite E1, E2, E3, F2, F3. fold D2. rewrite HDv. unfold x, A, a, V.
    split; field; repeat split; lra.
  Qed.

  (** the last step of a run that converged is a full Newton step *)
  Lemma converged_step T v g T' v' g' t tT :
    0 < T -> 0 < v <= v2 -> 0 < T' -> 0 < v' -> v' <= 2/3 * v2 ->
    at_state g T (1 / v) ->
    rs_newton_step L g2 u (T, v, g) (T', v', g') ->
    Rabs (T' - T) <= tT * T' -> Rabs (v' - v) <= t * v' ->
    t <= 1/100 -> tT <= 1/100 ->
    let x := v / v2 in let x' := v' / v2 in
    let k := 1 / ((1 - x) * (1 - x - x / 50)) in
    at_state g' T' (1 / v')
    /\ 0 < x /\ 0 < x' <= 2/3 /\ Rabs (x' - x) <= t * x'
    /\ Rabs (Rs * T' - Rs * T) <= tT * (Rs * T')
    /\ (Rs * T' - Rs * T) - a * V * k * (x' - x)
       = - (Rs * T - A - a * V / (1 - x) + a * V / 2)
    /\ (Rs * T' - Rs * T) / x - (Rs * T / (51/50 * x^2) + V * k) * (x' - x)
       = - (Rs * T / x - A - V / (1 - x)).
  Proof.
    intros HT Hv HT' Hv' Hv2' Hg Hstep HdT Hdv Ht HtT. cbv zeta.
    pose proof v2_pos as Pv2. pose proof a_bounds as Pa.
    assert (Ev2 : 1 / ct_density L g2 = v2) by reflexivity.
    unfold rs_newton_step in Hstep. rewrite Ev2 in Hstep.
    destruct Hstep as (gT & gv & dT & dv & S1 & S2 & S3 & ((N1 & N2) & _) & C1 & C2 & C3).
    assert (Hxv : v <= 101/100 * v').
    { apply Rabs_le_both in Hdv. nra. }
    assert (EdT : T' - T = dT).
    { destruct C1 as [(_ & C)|[(_ & C)|(_ & C)]]; [exact C|exfalso|exfalso]; rewrite C in HdT;
        [rewrite Rabs_pos_eq in HdT by lra|rewrite Rabs_Ropp, Rabs_pos_eq in HdT by lra]; nra. }
    assert (Edv : v' - v = dv).
    { destruct (Rle_dec (v + dv) v2) as [Hle|Hgt].
      - specialize (C2 Hle).
        destruct C2 as [(_ & C)|[(_ & C)|(_ & C)]]; [exact C|exfalso|exfalso]; rewrite C in Hdv;
          [rewrite Rabs_pos_eq in Hdv by lra|rewrite Rabs_Ropp, Rabs_pos_eq in Hdv by lra]; nra.
      - exfalso. assert (Hlt : v2 < v + dv) by lra. specialize (C3 Hlt).
        destruct C3 as [(B & C)|[(B & C)|(B & C)]].
        + rewrite Rabs_pos_eq in B by lra. lra.
        + rewrite C in Hdv. rewrite Rabs_pos_eq in Hdv by lra. nra.
        + lra. }
    rewrite <- EdT, <- Edv in *. clear EdT Edv C1 C2 C3.
    assert (HvT : 0 < T + 1/50 * T) by lra.
    assert (Hv50 : 0 < v + 1/50 * v) by lra.
    assert (Dv : 0 < 1 / v) by (apply Rdiv_lt_0_compat; lra).
    assert (Dv50 : 0 < 1 / (v + 1/50 * v)) by (apply Rdiv_lt_0_compat; lra).
    assert (Dv' : 0 < 1 / v') by (apply Rdiv_lt_0_compat; lra).
    pose proof (settles_perfect _ _ _ _ HvT Dv S1) as PT.
    pose proof (settles_perfect _ _ _ _ HT Dv50 S2) as Pv.
    pose proof (settles_perfect _ _ _ _ HT' Dv' S3) as P'.
    destruct (reflected_imbalances g T v) as (Eh & Ep); try assumption; try nra.
    destruct (reflected_imbalances gT (T + 1/50 * T) v) as (EhT & EpT); try assumption; try nra.
    destruct (reflected_imbalances gv T (v + 1/50 * v)) as (Ehv & Epv); try assumption; try nra.
    rewrite Eh, EhT, Ehv in N1. rewrite Ep, EpT, Epv in N2.
    assert (Ex : forall w, w / v2 = w * D2) by (intros; unfold v2; field; lra).
    split; [exact P'|].
    assert (Px : 0 < v / v2) by (apply Rdiv_lt_0_compat; lra).
    split; [exact Px|].
    assert (Px' : 0 < v' / v2) by (apply Rdiv_lt_0_compat; lra).
    assert (Px2 : v' / v2 <= 2/3) by (apply div_le; lra).
    split; [split; assumption|].
    assert (Bx : v / v2 <= 101/150).
    { apply div_le; lra. }
    split.
    { replace (v' / v2 - v / v2) with ((v' - v) * / v2) by (field; lra).
      rewrite Rabs_mult, (Rabs_pos_eq (/ v2)) by (left; apply Rinv_0_lt_compat; lra).
      unfold Rdiv. rewrite <- Rmult_assoc. apply Rmult_le_compat_r; [|exact Hdv].
      left; apply Rinv_0_lt_compat; lra. }
    split.
    { rewrite <- Rmult_minus_distr_l, Rabs_mult, (Rabs_pos_eq Rs) by lra. nra. }
    set (x := v / v2) in *.
    assert (Ev : v = x * v2) by (unfold x; field; lra).
    assert (Ev' : v' - v = (v' / v2 - x) * v2) by (unfold x; field; lra).
    set (x' := v' / v2) in *.
    assert (Ex50 : (v + 1 / 50 * v) / v2 = x + x / 50) by (unfold x; field; lra).
    rewrite Ex50 in *. rewrite Ev' in *. rewrite Ev in N1, N2.
    split.
    - apply Rmult_eq_reg_r with (1 / a); [|apply Rgt_not_eq, Rdiv_lt_0_compat; lra].
      match type of N1 with _ = - ?e => replace (- (Rs * T - A - a * V / (1 - x) + a * V / 2) * (1 / a)) with (- e) end.
      + rewrite <- N1. field. repeat split; lra.
      + field. lra.
    - apply Rmult_eq_reg_r with (1 / v2); [|apply Rgt_not_eq, Rdiv_lt_0_compat; lra].
      match type of N2 with _ = - ?e => replace (- (Rs * T / x - A - V / (1 - x)) * (1 / v2)) with (- e) end.
      + rewrite <- N2. field. repeat split; lra.
      + field. lra.
  Qed.

  (** what is left of the conservation laws for the wanted state *)
  Lemma wanted g W : reflected_state L Rs cp q g2 u g W ->
    let D := ct_density L g in let T := ct_T L g in let z := 1 / D / v2 in
    z < 1 /\ A * (1 - z)^2 = V * ((1 - a/2) * z - a/2)
    /\ ct_P L g = (A + V / (1 - z)) / v2
    /\ Rs * T = A + a * V / (1 - z) - a * V / 2
    /\ u + W = u / (1 - z).
  Proof.
    intros (HT & HD & Hs & Hw) D T z. pose proof v2_pos as Pv2. pose proof a_bounds as Pa.
    fold D2 in HD. destruct (at_of g Hs) as (E1 & E2 & E3 & _). fold D in HD, E1, E2. fold T in HT, E2, E3.
    assert (HDp : 0 < 1 / D) by (apply Rdiv_lt_0_compat; lra).
    assert (HDv : D2 = 1 / v2) by (unfold v2; field; lra).
    assert (Hlt : 1 / D < v2).
    { unfold v2. apply Rmult_lt_reg_r with (D * D2); [nra|].
      replace (1 / D * (D * D2)) with D2 by (field; lra).
      replace (1 / D2 * (D * D2)) with D by (field; lra). lra. }
    assert (Hz : z < 1).
    { unfold z. apply Rmult_lt_reg_r with v2; [lra|]. replace (1 / D / v2 * v2) with (1 / D) by (field; lra). lra. }
    assert (Hzp : 0 < z) by (apply Rdiv_lt_0_compat; lra).
    assert (Hex : exists W, wave_conserves L g2 g (u + W) W) by (exists W; exact Hw).
    apply reflected_zero_iff in Hex; [|fold D2; lra|fold D; lra|fold D; fold D2; lra].
    destruct Hex as (Z1 & Z2).
    assert (P' : at_state g T (1 / (1 / D))).
    { replace (1 / (1 / D)) with D by (field; lra). repeat split; assumption || reflexivity. }
    destruct (reflected_imbalances g T (1 / D)) as (Eh & Ep); try assumption; try lra.
    rewrite Z1 in Eh. rewrite Z2 in Ep. fold z in Eh, Ep. clear Z1 Z2.
    assert (ET : Rs * T = A + a * V / (1 - z) - a * V / 2).
    { assert (0 * a = (Rs * T - A - a * V / (1 - z) + a * V / 2)).
      { rewrite Eh. field. lra. } lra. }
    assert (EP : Rs * T / z = A + V / (1 - z)).
    { assert (0 * v2 = (Rs * T / z - A - V / (1 - z))).
      { rewrite Ep. field. lra. } lra. }
    split; [exact Hz|]. split.
    { assert (Rs * T = z * (A + V / (1 - z))).
      { rewrite <- EP. field. lra. }
      rewrite ET in H.
      assert (Em : (A + a * V / (1 - z) - a * V / 2) * (1 - z) = (z * (A + V / (1 - z))) * (1 - z)) by (rewrite H; reflexivity).
      replace ((A + a * V / (1 - z) - a * V / 2) * (1 - z)) with (A * (1 - z) + a * V - a * V / 2 * (1 - z)) in Em by (field; lra).
      replace (z * (A + V / (1 - z)) * (1 - z)) with (A * z * (1 - z) + V * z) in Em by (field; lra).
      lra. }
    split.
    { rewrite <- EP, E2. fold D. unfold z. field. lra. }
    split; [exact ET|].
    destruct Hw as (Hm & _). fold D2 in Hm. fold D in Hm.
    assert (EW : W = z * (u + W)).
    { unfold z, v2. replace (1 / D / (1 / D2)) with (D2 / D) by (field; lra).
      apply Rmult_eq_reg_l with D; [|lra]. rewrite <- Hm. field. lra. }
    apply Rmult_eq_reg_r with (1 - z); [|lra].
    replace (u / (1 - z) * (1 - z)) with u by (field; lra). lra.
  Qed.

  (** the wanted state exists and is the only one *)
  Lemma root_exists : exists z, 0 < z < 1 /\ A * (1 - z)^2 = V * ((1 - a/2) * z - a/2).
  Proof.
    pose proof a_bounds as Pa. pose proof A_pos as PA. pose proof V_pos as PV.
    set (b := 1 - a/2). assert (Hb : 1/2 < b < 1) by (unfold b; lra).
    set (d := V^2 * b^2 + 4 * A * V * (1 - a)).
    assert (HVb : 0 < V * b) by nra.
    assert (Hd : (V * b)^2 < d).
    { unfold d. assert (0 < A * V * (1 - a)) by (apply Rmult_lt_0_compat; nra). nra. }
    assert (Hs : V * b < sqrt d).
    { rewrite <- (sqrt_pow2 (V * b)) by lra. apply sqrt_lt_1_alt. nra. }
    assert (Hs2 : sqrt d * sqrt d = d) by (apply sqrt_sqrt; nra).
    set (r := sqrt d) in *.
    assert (Hr : r < 2 * A + V * b).
    { apply Rnot_le_lt. intros Hle. assert ((2 * A + V * b)^2 <= r * r) by nra.
      rewrite Hs2 in H. unfold d in H.
      assert (E : (2 * A + V * b)^2 - (V^2 * b^2 + 4 * A * V * (1 - a)) = 4 * A^2 + 2 * A * V * a)
        by (unfold b; field).
      assert (0 < A * V * a) by (apply Rmult_lt_0_compat; nra). nra. }
    exists ((2 * A + V * b - r) / (2 * A)).
    split; [split|].
    - apply Rdiv_lt_0_compat; lra.
    - apply Rmult_lt_reg_r with (2 * A); [lra|].
      replace ((2 * A + V * b - r) / (2 * A) * (2 * A)) with (2 * A + V * b - r) by (field; lra). lra.
    - apply Rmult_eq_reg_r with (4 * A); [|lra].
      set (zz := (2 * A + V * b - r) / (2 * A)).
      assert (Ez : 2 * A * (1 - zz) = r - V * b) by (unfold zz; field; lra).
      assert (Ez2 : 2 * A * zz = 2 * A + V * b - r) by (unfold zz; field; lra).
      replace (A * (1 - zz)^2 * (4 * A)) with ((2 * A * (1 - zz)) * (2 * A * (1 - zz))) by ring.
      replace (V * (b * zz - a/2) * (4 * A)) with (2 * V * (b * (2 * A * zz) - A * a)) by field.
      rewrite Ez, Ez2.
      replace ((r - V * b) * (r - V * b)) with (r * r - 2 * r * V * b + V^2 * b^2) by ring.
      rewrite Hs2. unfold d, b. field.
  Qed.

  Lemma root_unique z z' : z < 1 -> z' < 1 ->
    A * (1 - z)^2 = V * ((1 - a/2) * z - a/2) -> A * (1 - z')^2 = V * ((1 - a/2) * z' - a/2) -> z = z'.
  Proof.
    intros Hz Hz' Q Q'. pose proof a_bounds as Pa. pose proof A_pos as PA. pose proof V_pos as PV.
    assert (E : (z' - z) * (A * (2 - z - z') + V * (1 - a/2)) = 0).
    { replace ((z' - z) * (A * (2 - z - z') + V * (1 - a / 2)))
        with (A * (1 - z)^2 - V * ((1 - a/2) * z - a/2) - (A * (1 - z')^2 - V * ((1 - a/2) * z' - a/2)))
        by field. lra. }
    apply Rmult_integral in E. destruct E as [E|E]; [lra|]. exfalso.
    assert (0 < A * (2 - z - z')) by nra. assert (0 < V * (1 - a/2)) by nra. lra.
  Qed.

  Lemma wanted_exists : exists g W, reflected_state L Rs cp q g2 u g W.
  Proof.
    destruct root_exists as (z & Hz & Q). pose proof a_bounds as Pa. pose proof A_pos as PA.
    pose proof V_pos as PV. pose proof v2_pos as Pv2.
    set (tau := A + a * V / (1 - z) - a * V / 2).
    assert (Hj : a * V < a * V / (1 - z)).
    { apply Rmult_lt_reg_r with (1 - z); [lra|]. replace (a * V / (1 - z) * (1 - z)) with (a * V) by (field; lra). assert (0 < a * V) by nra. nra. }
    assert (Htau : 0 < tau) by (unfold tau; nra).
    assert (HT : 0 < tau / Rs) by (apply Rdiv_lt_0_compat; lra).
    assert (HD : 0 < D2 / z) by (apply Rdiv_lt_0_compat; lra).
    destruct (Hperf g2 _ _ HT HD) as (g & _ & ET & ED & Hg).
    exists g, (u * z / (1 - z)). unfold reflected_state.
    rewrite ET, ED. split; [exact HT|]. fold D2. split.
    { apply Rmult_lt_reg_r with z; [lra|]. replace (D2 / z * z) with D2 by (field; lra). nra. }
    split; [exact Hg|].
    destruct (at_of g Hg) as (_ & EP & Eh & _). rewrite ET, ED in EP. rewrite ET in Eh.
    destruct H2 as (F1 & F2 & F3 & _).
    assert (Etau : tau = z * (A + V / (1 - z))).
    { apply Rmult_eq_reg_r with (1 - z); [|lra]. unfold tau.
      replace ((A + a * V / (1 - z) - a * V / 2) * (1 - z))
        with (A * (1 - z)^2 + A * z * (1 - z) + a * V - a * V / 2 * (1 - z)) by (field; lra).
      rewrite Q. field. lra. }
    unfold wave_conserves. rewrite ED, EP, Eh, F2, F3. fold D2.
    replace (u + u * z / (1 - z)) with (u / (1 - z)) by (field; lra).
    split; [field; lra|]. split.
    - replace (D2 / z * Rs * (tau / Rs)) with (D2 / z * tau) by (field; lra). rewrite Etau.
      unfold A, V. field. lra.
    - unfold tau, a, A, V. field. lra.
  Qed.

  Lemma wanted_unique g W g' W' :
    reflected_state L Rs cp q g2 u g W -> reflected_state L Rs cp q g2 u g' W' ->
    ct_T L g = ct_T L g' /\ ct_density L g = ct_density L g' /\ ct_P L g = ct_P L g' /\ W = W'.
  Proof.
    intros H H'. pose proof v2_pos as Pv2.
    pose proof H as (_ & D1 & _). pose proof H' as (_ & D1' & _).
    destruct (wanted _ _ H) as (Z1 & Z2 & Z3 & Z4 & Z5).
    destruct (wanted _ _ H') as (Z1' & Z2' & Z3' & Z4' & Z5').
    fold D2 in D1, D1'.
    pose proof (root_unique _ _ Z1 Z1' Z2 Z2') as E. rewrite <- E in Z3', Z4', Z5'.
    repeat split; try lra.
    - apply Rmult_eq_reg_l with Rs; lra.
    - assert (E3 : 1 / ct_density L g = 1 / ct_density L g').
      { apply Rmult_eq_reg_r with (/ v2); [exact E|]. apply Rinv_neq_0_compat. lra. }
      replace (ct_density L g) with (1 / (1 / ct_density L g)) by (field; lra).
      rewrite E3. field. lra.
  Qed.

  (** ** What get_eq_state returns *)
  Section Returned.
    Context (fuel : nat) (div : R -> R -> result R) (w : G) (tT t : R) (mx : Z) (g : G).
    Context (Hdiv : is_div div) (Hc : compressed L g2 w) (Hmx : (1 <= mx)%Z)
      (Hval : value (get_eq_state L fuel div u g2 w tT t mx) = Ok g)
      (Hwarn : warnings (trace (get_eq_state L fuel div u g2 w tT t mx)) = [])
      (Hstart : tT * ct_T L w < 1000 \/ t * (1 / ct_density L w) < 1000)
      (Ht : t <= 1/100) (HtT : tT <= 1/100) (Hdense : 3/2 * D2 <= ct_density L g).

    Lemma last_step : exists x x' tau tau',
      let k := 1 / ((1 - x) * (1 - x - x / 50)) in
      at_state g (tau' / Rs) (1 / (x' * v2))
      /\ 0 < x /\ 0 < x' <= 2/3 /\ 0 < tau /\ 0 < tau'
      /\ Rabs (x' - x) <= t * x' /\ Rabs (tau' - tau) <= tT * tau'
      /\ (tau' - tau) - a * V * k * (x' - x) = - (tau - A - a * V / (1 - x) + a * V / 2)
      /\ (tau' - tau) / x - (tau / (51/50 * x^2) + V * k) * (x' - x)
         = - (tau / x - A - V / (1 - x)).
    Proof.
      pose proof v2_pos as Pv2.
      destruct (get_eq_state_spec L fuel div u g2 w tT t mx g Hdiv Hc Hmx Hval)
        as (g0 & rest & Tf & vf & Hs & Hch & (before & Hl) & Hpos & _ & _ & Hw).
      rewrite Hwarn in Hw. destruct Hw as [(_ & Hne & Hlast)|(Hw & _)]; [|discriminate].
      set (first := (ct_T L w, 1 / ct_density L w, g0)) in *.
      assert (Hper : forall T v h, In (T, v, h) (first :: rest) -> at_state h T (1 / v)).
      { intros T v h Hin. apply in_split in Hin. destruct Hin as (l1 & l2 & El).
        destruct (Hpos (T, v, h)) as (PT & Pv); [rewrite El; apply in_elt|].
        cbn [itT itU fst snd] in PT, Pv.
        assert (Dv : 0 < 1 / v) by (apply Rdiv_lt_0_compat; lra).
        destruct l1 as [|p0 l0].
        - cbn [app] in El. unfold first in El. injection El as <- <- <- E2.
          destruct Hc as (C1 & C2). 
          replace (1 / (1 / ct_density L w)) with (ct_density L w) by (field; lra).
          apply (settles_perfect w); [exact PT|lra|exact Hs].
        - destruct (exists_last (l := p0 :: l0)) as (l3 & p & Ep); [discriminate|].
          rewrite Ep, <- app_assoc in El. cbn [app] in El.
          specialize (Hch l3 p (T, v, h) l2 El). destruct p as [[Tp vp] gp].
          unfold rs_newton_step in Hch.
          destruct Hch as (gT & gv & dT & dv & _ & _ & S3 & _).
          apply (settles_perfect gv); assumption. }
      destruct before as [|b0 bs].
      { exfalso. cbn [app] in Hl. injection Hl as _ _ _ E. destruct (Hne E). lra. }
      destruct (exists_last (l := b0 :: bs)) as (l3 & p & Ep); [discriminate|].
      rewrite Ep, <- app_assoc in Hl. cbn [app] in Hl. clear Ep b0 bs.
      destruct p as [[T v] h].
      assert (I1 : In (T, v, h) (first :: rest)) by (rewrite Hl; apply in_elt).
      assert (I2 : In (Tf, vf, g) (first :: rest)).
      { rewrite Hl. apply in_or_app. right. right. left. reflexivity. }
      destruct (Hpos _ I1) as (P1 & P2). destruct (Hpos _ I2) as (P3 & P4).
      cbn [itT itU fst snd] in P1, P2, P3, P4.
      change (1 / ct_density L g2) with v2 in P2, P4.
      specialize (Hlast _ _ _ Hl). cbn [itT itU fst snd] in Hlast. destruct Hlast as (L1 & L2).
      specialize (Hch l3 (T, v, h) (Tf, vf, g) [] Hl).
      pose proof (Hper _ _ _ I1) as A1. pose proof (Hper _ _ _ I2) as A2.
      assert (Hvf : vf <= 2/3 * v2).
      { destruct A2 as (E & _). rewrite E in Hdense. unfold v2.
        apply Rmult_le_reg_r with (3/2 * D2); [lra|].
        replace (2/3 * (1 / D2) * (3/2 * D2)) with 1 by (field; lra).
        replace 1 with (vf * (1 / vf)) at 1 by (field; lra).
        apply Rmult_le_compat_l; lra. }
      destruct (converged_step T v h Tf vf g t tT) as (C1 & C2 & C3 & C4 & C5 & C6 & C7);
        try assumption; try lra.
      exists (v / v2), (vf / v2), (Rs * T), (Rs * Tf). cbv zeta.
      split.
      { replace (vf / v2 * v2) with vf by (field; lra).
        replace (Rs * Tf / Rs) with Tf by (field; lra). exact A2. }
      repeat split; try lra; try nra; try assumption.
    Qed.

    Let eps := t * (1/50 + t + tT).

    Lemma returned_compressed :
      at_state g (ct_T L g) (ct_density L g) /\ ct_P L g2 < ct_P L g /\ T2 < ct_T L g.
    Proof.
      pose proof v2_pos as Pv2. pose proof a_bounds as Pa. pose proof A_pos as PA. pose proof V_pos as PV.
      destruct last_step as (x & x' & tau & tau' & C1 & C2 & C3 & C4 & C5 & C6 & C7 & C8 & C9).
      destruct C1 as (E1 & E2 & E3 & E4).
      pose proof (F_small A a V x x' tau tau' t tT PA Pa PV C2 C3 C4 C5 Ht HtT C6 C7 C8 C9) as FS.
      pose proof (E_small' A a V x x' tau tau' t tT Pa PV C2 C3 C5 Ht HtT C6 C7 C8) as ES.
      assert (EP : 0 <= eps <= 1/2500) by (eapply eps_pos; eassumption).
      cbv zeta in FS, ES. fold eps in FS, ES, EP.
      split; [repeat split; try reflexivity|split].
      - rewrite E1, E2, E4. reflexivity.
      - rewrite E3, E4. reflexivity.
      - destruct H2 as (F1 & F2 & _). rewrite E2, F2.
        assert (D2 * Rs * T2 = A / v2) as -> by (unfold A, v2; field; lra).
        replace (1 / (x' * v2) * Rs * (tau' / Rs)) with (tau' / x' / v2) by (field; lra).
        apply Rmult_lt_compat_r; [apply Rinv_0_lt_compat; lra|].
        assert (V <= V / (1 - x')) by (apply le_div; nra).
        assert (V * eps <= V * (1/2500)) by (apply Rmult_le_compat_l; lra).
        apply Rabs_le_both in FS. unfold F_at in FS. lra.
      - rewrite E4. apply Rmult_lt_reg_l with Rs; [lra|].
        replace (Rs * (tau' / Rs)) with tau' by (field; lra). change (Rs * T2) with A.
        assert (0 < a * V) by nra.
        assert (a * V <= a * V / (1 - x')) by (apply le_div; nra).
        assert (a * V * eps <= a * V * (1/2500)) by (apply Rmult_le_compat_l; lra).
        apply Rabs_le_both in ES. unfold E_at in ES. lra.
    Qed.

    Lemma returned_close g3 W : reflected_state L Rs cp q g2 u g3 W ->
      0 <= eps
      /\ Rabs (ct_P L g - ct_P L g3) <= 62 * eps * (ct_P L g3 - ct_P L g2)
      /\ Rabs (ct_T L g - ct_T L g3) <= 102 * eps * (ct_T L g3 - T2)
      /\ Rabs (1 / ct_density L g - 1 / ct_density L g3) <= 12 * eps * (1 / D2)
      /\ ct_P L g3 - ct_P L g2 = D2 * u * (u + W).
    Proof.
      intros Hr.
      pose proof v2_pos as Pv2. pose proof a_bounds as Pa. pose proof A_pos as PA. pose proof V_pos as PV.
      destruct last_step as (x & x' & tau & tau' & C1 & C2 & C3 & C4 & C5 & C6 & C7 & C8 & C9).
      destruct C1 as (E1 & E2 & E3 & E4).
      assert (EP : 0 <= eps <= 1/2500).
      { eapply eps_pos; eassumption. }
      destruct (wanted _ _ Hr) as (Z1 & Z2 & Z3 & Z4 & Z5).
      pose proof Hr as (HT3 & HD3 & _). fold D2 in HD3.
      set (D3 := ct_density L g3) in *. set (z := 1 / D3 / v2) in *.
      pose proof (P_close A a V x x' tau tau' t tT PA Pa PV C2 C3 C4 C5 Ht HtT C6 C7 C8 C9 z Z1 Z2) as PC.
      pose proof (T_close A a V x x' tau tau' t tT PA Pa PV C2 C3 C4 C5 Ht HtT C6 C7 C8 C9 z Z1 Z2) as TC.
      pose proof (x_close A a V x x' tau tau' t tT PA Pa PV C2 C3 C4 C5 Ht HtT C6 C7 C8 C9 z Z1 Z2) as XC.
      cbv zeta in PC, TC, XC. fold eps in PC, TC, XC.
      destruct H2 as (F1 & F2 & _).
      assert (EP2 : ct_P L g2 = A / v2) by (rewrite F2; unfold A, v2; field; lra).
      assert (Iv2 : 0 < / v2) by (apply Rinv_0_lt_compat; lra).
      assert (EPg : ct_P L g = tau' / x' / v2) by (rewrite E2; field; lra).
      assert (EJ : ct_P L g3 - ct_P L g2 = V / (1 - z) / v2).
      { rewrite Z3, EP2. field. lra. }
      split; [lra|]. split.
      { rewrite EJ, EPg, Z3.
        replace (tau' / x' / v2 - (A + V / (1 - z)) / v2)
          with ((tau' / x' - (A + V / (1 - z))) * / v2) by (field; lra).
        rewrite Rabs_mult, (Rabs_pos_eq (/ v2)) by lra.
        replace (62 * eps * (V / (1 - z) / v2)) with (62 * eps * (V / (1 - z)) * / v2) by (field; lra).
        apply Rmult_le_compat_r; [lra|exact PC]. }
      split.
      { assert (ET3 : ct_T L g3 = (A + a * V / (1 - z) - a * V / 2) / Rs).
        { rewrite <- Z4. field. lra. }
        assert (ET2 : T2 = A / Rs) by (unfold A; field; lra).
        rewrite E4, ET3, ET2.
        replace (tau' / Rs - (A + a * V / (1 - z) - a * V / 2) / Rs)
          with ((tau' - (A + a * V / (1 - z) - a * V / 2)) * / Rs) by (field; lra).
        replace ((A + a * V / (1 - z) - a * V / 2) / Rs - A / Rs)
          with ((a * V / (1 - z) - a * V / 2) * / Rs) by (field; lra).
        assert (0 < / Rs) by (apply Rinv_0_lt_compat; lra).
        rewrite Rabs_mult, (Rabs_pos_eq (/ Rs)), <- Rmult_assoc by lra.
        apply Rmult_le_compat_r; [lra|exact TC]. }
      split.
      { rewrite E1. replace (1 / (1 / (x' * v2))) with (x' * v2) by (field; lra).
        replace (1 / D3) with (z * v2) by (unfold z; field; lra).
        change (1 / D2) with v2.
        rewrite <- Rmult_minus_distr_r, Rabs_mult, (Rabs_pos_eq v2) by lra.
        apply Rmult_le_compat_r; [lra|exact XC]. }
      rewrite EJ, Z5. unfold V, v2. field. lra.
    Qed.
  End Returned.
End Iteration.
