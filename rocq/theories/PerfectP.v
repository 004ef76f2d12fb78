(** * PerfectP: cj_state on a calorically perfect gas. *)
From Coq Require Import String ZArith QArith Reals Qreals List Bool Lra Lia Psatz.
From Verif Require Import PyBase Gas GasP FitM QLemmas FitP SdM SdSpec SdP PerfectSpec.
Import ListNotations.
Local Open Scope R_scope.

Lemma le_div a b c : 0 < c -> a * c <= b -> a <= b / c.
Proof.
  intros Hc H. apply Rmult_le_reg_r with c; [exact Hc|].
  replace (b / c * c) with b by (field; lra). exact H.
Qed.
Lemma div_le a b c : 0 < c -> b <= a * c -> b / c <= a.
Proof.
  intros Hc H. apply Rmult_le_reg_r with c; [exact Hc|].
  replace (b / c * c) with b by (field; lra). exact H.
Qed.

Lemma Rabs_le_both a b : Rabs a <= b -> - b <= a <= b.
Proof. intros H. unfold Rabs in H. destruct (Rcase_abs a); lra. Qed.

Section Perfect.
  Context {G X : Type} (L : cantera R G X).
  Context (initial : G) (rho1 r Rs cp q Tx U : R).
  Let D := r * rho1.
  Context (Erho : ct_density L initial = rho1) (Hrho : 0 < rho1) (Hr : 1 < r) (HRs : 0 < Rs)
          (Hcp : (r + 1) / 2 * Rs < cp) (HTx : 0 < Tx) (HU : 0 < U).
  Context (Hperf : perfect_when_burnt L D Rs cp q).
  Context (Hwave : burnt_by_wave L initial D Tx U).

  Definition burnt_at (g : G) (T : R) : Prop :=
    ct_density L g = D /\ ct_P L g = D * Rs * T /\ ct_enthalpy L g = cp * T + q
    /\ exists g0, settles L g0 T D g.

  Lemma D_pos : 0 < D.
  Proof. apply Rmult_lt_0_compat; lra. Qed.

  Lemma settles_fun g T g1 g2 : settles L g T D g1 -> settles L g T D g2 -> g1 = g2.
  Proof. intros (a & A1 & A2) (b & B1 & B2). rewrite A1 in B1. injection B1 as <-. congruence. Qed.
  Lemma settles_burnt g T g' : 0 < T -> settles L g T D g' -> burnt_at g' T.
  Proof.
    intros HT H. destruct (Hperf g T HT) as (g2 & H2 & E1 & E2 & E3).
    rewrite (settles_fun _ _ _ _ H H2) in *. repeat split; try assumption. exists g. exact H2.
  Qed.
  Lemma perfect_equilibrium g T : 0 < T ->
    exists g', equilibrium L g D T = ([EvTD T D; EvEquilibrate "TV"], Ok g') /\ burnt_at g' T.
  Proof.
    intros HT. destruct (Hperf g T HT) as (g' & H & _). exists g'.
    split; [|exact (settles_burnt _ _ _ HT H)].
    destruct H as (g1 & H1 & H2). unfold equilibrium, set_TD, equilibrate, io_bind, act.
    cbn [fst snd]. rewrite H1. cbn [fst snd]. rewrite H2. reflexivity.
  Qed.

  Lemma initial_state :
    ct_enthalpy L initial = cp * Tx + q + (U / r)^2 / 2 - U^2 / 2
    /\ ct_P L initial = D * Rs * Tx + D * (U / r)^2 - rho1 * U^2.
  Proof.
    destruct Hwave as (g0 & g & w & Hs & Hm & Hp & He).
    destruct (settles_burnt _ _ _ HTx Hs) as (E1 & E2 & E3 & _).
    rewrite E1, Erho in *. rewrite E2 in Hp. rewrite E3 in He.
    assert (w = U / r) as ->.
    { unfold D in Hm. apply Rmult_eq_reg_l with (r * rho1).
      - rewrite <- Hm. field. lra.
      - pose proof D_pos. unfold D in *. lra. }
    split; lra.
  Qed.

  Lemma imbalances g T V : burnt_at g T ->
    energy_imbalance L initial g V = cp * (T - Tx) + (V^2 - U^2) * (1 / r^2 - 1) / 2
    /\ momentum_imbalance L initial g V = D * Rs * (T - Tx) + (V^2 - U^2) * (rho1 * (1 / r - 1)).
  Proof.
    intros (E1 & E2 & E3 & _). destruct initial_state as (Eh & Ep).
    unfold energy_imbalance, momentum_imbalance. rewrite E1, E2, E3, Eh, Ep, Erho.
    unfold D. split; field; lra.
  Qed.

  Definition new_speed (V : R) : R := V + (U^2 - V^2) / (101/50 * V).

  Lemma perfect_body g T V : 0 < T -> 0 < V -> burnt_at g T ->
    exists tr g' dT,
      cj_body L initial D g T V
      = (tr, Ok (g', T + dT, new_speed V, dT, (U^2 - V^2) / (101/50 * V)))
      /\ cut (Tx - T) (1/5 * T) dT /\ burnt_at g' (T + dT) /\ warnings tr = [].
  Proof.
    intros HT HV Hg. pose proof D_pos as HD.
    assert (HdT : 0 < T + 1/50 * T) by lra.
    destruct (perfect_equilibrium g (T + 1/50 * T) HdT) as (gT & ET & HgT).
    destruct (perfect_equilibrium gT T HT) as (gU & EU & HgU).
    destruct (limit_temperature_R (Tx - T) T HT) as (dT & El & Hcut).
    assert (HT' : 0 < T + dT) by (apply cut_bound in Hcut; lra).
    destruct (perfect_equilibrium gU (T + dT) HT') as (g' & Eg & Hg').
    assert (Nd : forall h t, burnt_at h t -> ct_density L h <> 0)
      by (intros h t (E & _); rewrite E; lra).
    unfold cj_body. rnum. rewrite !lit_002.
    rewrite error_equilibrium_R by (eapply Nd; exact Hg). rewrite bind_pure_ok.
    rewrite ET, bind_some.
    rewrite error_equilibrium_R by (eapply Nd; exact HgT). rewrite bind_pure_ok.
    rewrite !pydiv_ok by lra. rewrite !bind_pure_ok.
    rewrite EU, bind_some.
    rewrite error_equilibrium_R by (eapply Nd; exact HgU). rewrite bind_pure_ok.
    rewrite !pydiv_ok by lra. rewrite !bind_pure_ok.
    destruct (imbalances g T V Hg) as (-> & ->).
    destruct (imbalances gT _ V HgT) as (-> & ->).
    destruct (imbalances gU _ (V + 1/50 * V) HgU) as (-> & ->).
    match goal with |- context [solve2 pydiv ?a ?b ?c ?d ?e ?f] =>
      set (hT := a); set (pT := b); set (hV := c); set (pV := d); set (eh := e); set (ep := f) end.
    assert (EhT : hT = cp) by (unfold hT; field; lra).
    assert (EpT : pT = r * rho1 * Rs) by (unfold pT, D; field; lra).
    assert (EhV : hV = 101/50 * V * ((1 / r^2 - 1) / 2)) by (unfold hV; field; lra).
    assert (EpV : pV = 101/50 * V * (rho1 * (1 / r - 1))) by (unfold pV; field; lra).
    assert (Es : solve2 pydiv hT pT hV pV eh ep = Ok (Tx - T, (U^2 - V^2) / (101/50 * V))).
    { unfold solve2. rnum. rewrite EhT, EpT, EhV, EpV. unfold eh, ep, D.
      set (k := 1 / r) in *.
      assert (Hk : 0 < k < 1).
      { unfold k. split; [apply Rdiv_lt_0_compat; lra|].
        apply Rmult_lt_reg_r with r; [lra|]. unfold Rdiv. rewrite Rmult_assoc, Rinv_l by lra. lra. }
      assert (Ek2 : 1 / r^2 = k * k) by (unfold k; field; lra).
      assert (Ek : r * k = 1) by (unfold k; field; lra).
      rewrite Ek2.
      assert (Ej : cp * (101/50 * V * (rho1 * (k - 1))) - r * rho1 * Rs * (101/50 * V * ((k * k - 1) / 2))
                   = 101/50 * V * rho1 * (k - 1) * (cp - (r + 1) / 2 * Rs)).
      { replace (k * k - 1) with ((k - 1) * (k + 1)) by ring.
        replace (r * rho1 * Rs * (101 / 50 * V * ((k - 1) * (k + 1) / 2)))
          with (rho1 * Rs * (101 / 50 * V * ((k - 1) * (r * k + r) / 2))) by field.
        rewrite Ek. field. }
      assert (Nj : 101/50 * V * rho1 * (k - 1) * (cp - (r + 1) / 2 * Rs) <> 0).
      { repeat apply Rmult_integral_contrapositive_currified; lra. }
      rewrite Ej. rewrite !pydiv_ok by exact Nj. cbn [bind]. f_equal.
      assert (Nk : k - 1 <> 0) by lra.
      assert (Nc : 2 * cp - (r + 1) * Rs <> 0) by lra.
      f_equal.
      - apply Rmult_eq_reg_r with (101/50 * V * rho1 * (k - 1) * (cp - (r + 1) / 2 * Rs)); [|exact Nj].
        unfold Rdiv at 1. rewrite Rmult_assoc, Rinv_l by exact Nj. rewrite Rmult_1_r.
        rewrite <- Ej. field.
      - apply Rmult_eq_reg_r with (101/50 * V * rho1 * (k - 1) * (cp - (r + 1) / 2 * Rs)); [|exact Nj].
        unfold Rdiv at 1. rewrite Rmult_assoc, Rinv_l by exact Nj. rewrite Rmult_1_r.
        rewrite <- Ej. field. lra. }
    rewrite Es, bind_pure_ok, El, bind_pure_ok, Eg, bind_some.
    unfold after, ret. cbn [fst snd app]. unfold new_speed.
    eexists. exists g', dT. split; [reflexivity|]. split; [exact Hcut|].
    split; [exact Hg'|]. reflexivity.
  Qed.

  (** ** The two sequences *)
  Definition reach (n : nat) (T : R) : Prop :=
    0 < T /\ T * (4/5)^n <= Tx /\ Tx <= T * (6/5)^n.
  Lemma reach_O T : reach 0 T <-> T = Tx.
  Proof. unfold reach. cbn. split; intros H; lra. Qed.
  Lemma reach_step n T dT : reach (S n) T -> cut (Tx - T) (1/5 * T) dT -> reach n (T + dT).
  Proof.
    intros (HT & H1 & H2) Hc. cbn [pow] in H1, H2.
    assert (P4 : 0 < (4/5)^n) by (apply pow_lt; lra).
    assert (P4' : (4/5)^n <= 1).
    { rewrite <- (pow1 n). apply pow_incr. lra. }
    assert (P6 : 1 <= (6/5)^n) by (apply pow_R1_Rle; lra).
    destruct Hc as [(Ha & ->)|[(Ha & ->)|(Ha & ->)]].
    - replace (T + (Tx - T)) with Tx by ring. split; [exact HTx|]. split; nra.
    - split; [lra|]. split; nra.
    - split; [lra|]. split; nra.
  Qed.
  Lemma reach_stop T dT tT : 0 < T -> tT < 1/6 -> cut (Tx - T) (1/5 * T) dT ->
    Rabs dT <= tT * (T + dT) -> T + dT = Tx.
  Proof.
    intros HT Ht Hc Ha. destruct Hc as [(_ & ->)|[(_ & ->)|(_ & ->)]]; [ring| |]; exfalso.
    - rewrite Rabs_pos_eq in Ha by lra. nra.
    - rewrite Rabs_left in Ha by lra. nra.
  Qed.

  Section Speed.
    Context (tV : R) (Ht : 0 < tV <= 1/10).
    Definition near (m : nat) (V : R) : Prop :=
      50/51 * U <= V /\ Rabs (V - U) <= tV / 2 * (101/51)^m * U.

    Lemma speed_pos V : 0 < V -> 0 < new_speed V.
    Proof.
      intros HV. unfold new_speed.
      replace (V + (U^2 - V^2) / (101/50 * V)) with ((51 * V^2 + 50 * U^2) / (101 * V)) by (field; lra).
      apply Rdiv_lt_0_compat; nra.
    Qed.
    Lemma speed_low V : 0 < V -> 50/51 * U <= new_speed V.
    Proof.
      intros HV. unfold new_speed.
      replace (V + (U^2 - V^2) / (101/50 * V)) with ((51 * V^2 + 50 * U^2) / (101 * V)) by (field; lra).
      apply le_div; [lra|].
      pose proof (pow2_ge_0 (V - U)). nra.
    Qed.
    Lemma speed_error V : 0 < V ->
      new_speed V - U = (V - U) * (51 * V - 50 * U) / (101 * V).
    Proof. intros HV. unfold new_speed. field. lra. Qed.
    Lemma speed_contracts V : 0 < V -> 50/51 * U <= V ->
      Rabs (new_speed V - U) <= 51/101 * Rabs (V - U).
    Proof.
      intros HV H. rewrite speed_error by exact HV.
      replace ((V - U) * (51 * V - 50 * U) / (101 * V))
        with ((V - U) * ((51 * V - 50 * U) / (101 * V))) by (field; lra).
      rewrite Rabs_mult, (Rmult_comm (51/101)). apply Rmult_le_compat_l; [apply Rabs_pos|].
      assert (H0 : 0 <= (51 * V - 50 * U) / (101 * V)).
      { apply Rmult_le_pos; [lra|]. left. apply Rinv_0_lt_compat. lra. }
      rewrite Rabs_pos_eq by exact H0.
      apply div_le; [lra|]. nra.
    Qed.
    Lemma near_step m V : near (S m) V -> near m (new_speed V).
    Proof.
      intros (H1 & H2). assert (HV : 0 < V) by lra. split; [apply speed_low; exact HV|].
      apply Rle_trans with (1 := speed_contracts V HV H1). cbn [pow] in H2.
      replace (tV / 2 * (101 / 51) ^ m * U)
        with (51/101 * (tV / 2 * (101 / 51 * (101 / 51) ^ m) * U)) by field.
      apply Rmult_le_compat_l; [lra|exact H2].
    Qed.
    Lemma near_weaken m V : near m V -> near (S m) V.
    Proof.
      intros (H1 & H2). split; [exact H1|]. apply Rle_trans with (1 := H2). cbn [pow].
      assert (0 < (101/51)^m) by (apply pow_lt; lra).
      apply Rmult_le_compat_r; [lra|]. apply Rmult_le_compat_l; [lra|]. nra.
    Qed.
    (** within reach of the speed: the step is small enough to stop *)
    Lemma near_stops V : near 0 V ->
      Rabs (new_speed V - V) <= tV * new_speed V.
    Proof.
      intros (H1 & H2). assert (HV : 0 < V) by lra. cbn [pow] in H2.
      pose proof (speed_contracts V HV H1) as Hc. pose proof (speed_low V HV) as Hl.
      replace (new_speed V - V) with ((new_speed V - U) - (V - U)) by ring.
      apply Rle_trans with (Rabs (new_speed V - U) + Rabs (V - U)).
      { unfold Rminus at 1. apply Rle_trans with (1 := Rabs_triang _ _). rewrite Rabs_Ropp. lra. }
      nra.
    Qed.
    (** the first step comes from 2000 m/s, near or far *)
    Lemma near_start m V : 0 < V ->
      V <= tV / 2 * (101/51)^m * U -> U <= tV / 2 * (101/51)^m * V -> near m (new_speed V).
    Proof.
      intros HV H1 H2. split; [apply speed_low; exact HV|].
      set (k := tV / 2 * (101/51)^m) in *.
      assert (Hk : 0 < k).
      { unfold k. apply Rmult_lt_0_compat; [lra|]. apply pow_lt. lra. }
      pose proof (speed_low V HV) as Hl.
      assert (Hk1 : 1 <= k).
      { destruct (Rle_dec V U) as [C|C]; [apply Rmult_le_reg_r with V; nra|].
        apply Rmult_le_reg_r with U; nra. }
      apply Rabs_le. split; [nra|].
      unfold new_speed.
      replace (V + (U^2 - V^2) / (101/50 * V)) with (51/101 * V + 50/101 * (U^2 / V)) by (field; lra).
      assert (U^2 / V <= k * U).
      { apply div_le; [exact HV|]. nra. }
      nra.
    Qed.
    (** where it stops *)
    Lemma speed_accurate V : 0 < V -> Rabs (new_speed V - V) <= tV * new_speed V ->
      Rabs (new_speed V - U) <= tV * (1/50 + 2 * tV) * U.
    Proof.
      intros HV Hs. pose proof (speed_low V HV) as Hl. pose proof (speed_pos V HV) as Hp.
      set (V' := new_speed V) in *.
      assert (E1 : V' * (101 * V) = 51 * V^2 + 50 * U^2) by (unfold V', new_speed; field; lra).
      apply Rabs_le_both in Hs.
      (* e = V - U *)
      assert (Hdiff : (V' - V) * (101 * V) = 50 * (U - V) * (U + V)) by (ring_simplify; nra).
      assert (Hy : 9/10 * V' <= V) by nra.
      assert (Hy2 : V <= 11/10 * V') by nra.
      (* |U - V| (U + V) <= 101/50 tV V' V *)
      assert (Hb1 : (U - V) * (U + V) <= 101/50 * tV * (V' * V)) by nra.
      assert (Hb2 : - (101/50 * tV * (V' * V)) <= (U - V) * (U + V)) by nra.
      assert (HVU : V <= 13/10 * U).
      { destruct (Rle_dec V (13/10 * U)) as [|C]; [assumption|exfalso].
        assert (V' * V <= 10/9 * V^2) by nra.
        assert (tV * (V' * V) <= 1/10 * (10/9 * V^2)) by nra. nra. }
      assert (HV'U : V' <= 13/9 * U) by lra.
      (* |U - V| <= 1.64 tV U *)
      assert (HW : V' * V <= 41/50 * (U + V) * U).
      { assert (V' * V <= 10/9 * (V * V)) by nra. nra. }
      assert (He : Rabs (U - V) <= 166/100 * tV * U).
      { apply Rabs_le. split.
        - apply Rmult_le_reg_r with (U + V); [lra|]. nra.
        - apply Rmult_le_reg_r with (U + V); [lra|]. nra. }
      assert (HVl : 4/5 * U <= V) by (apply Rabs_le_both in He; nra).
      unfold V'. rewrite speed_error by exact HV.
      replace ((V - U) * (51 * V - 50 * U) / (101 * V))
        with (- (U - V) * (1/101 - 50 * (U - V) / (101 * V))) by (field; lra).
      rewrite Rabs_mult, Rabs_Ropp.
      assert (Hf : Rabs (1/101 - 50 * (U - V) / (101 * V)) <= 1/101 + 105/100 * tV).
      { apply Rabs_le_both in He.
        assert (50 * (U - V) / (101 * V) <= 105/100 * tV) by (apply div_le; [lra|nra]).
        assert (- (105/100 * tV) <= 50 * (U - V) / (101 * V)) by (apply le_div; [lra|nra]).
        apply Rabs_le. lra. }
      apply Rle_trans with (166/100 * tV * U * (1/101 + 105/100 * tV)).
      { apply Rmult_le_compat; auto using Rabs_pos. }
      assert (0 < tV * U) by nra. nra.
    Qed.

    (** ** The loop *)
    Context (tT : R) (HtT : 0 < tT < 1/6).
    Definition accurate (V : R) : Prop := Rabs (V - U) <= tV * (1/50 + 2 * tV) * U.

    Lemma warnings_none (a b : list (event R)) :
      warnings a = [] -> warnings b = [] -> warnings (a ++ b) = [].
    Proof. intros Ha Hb. unfold warnings in *. rewrite filter_app, Ha, Hb. reflexivity. Qed.

    Lemma perfect_loop n : forall fuel mx k g T V dT dV,
      (k + Z.of_nat n + 1 < mx)%Z -> (n < fuel)%nat -> (0 <= k)%Z ->
      burnt_at g T -> reach n T -> near n V ->
      (Rabs dT <= tT * T -> T = Tx) -> (Rabs dV <= tV * V -> accurate V) ->
      exists tr gf Vf,
        cj_loop L fuel initial tT tV D mx k g T V dT dV = (tr, Ok (gf, Vf))
        /\ warnings tr = [] /\ burnt_at gf Tx /\ accurate Vf.
    Proof.
      induction n as [|n IH]; intros fuel mx k g T V dT dV Hm Hf Hk0 Hg HT HV Hd1 Hd2.
      - destruct fuel as [|fuel]; [lia|]. cbn [cj_loop]. rnum.
        fold (unconverged tT tV T V dT dV).
        destruct (unconverged tT tV T V dT dV) eqn:Eu.
        + replace (k + 1 =? mx)%Z with false by (symmetry; apply Z.eqb_neq; lia).
          pose proof HT as (PT & _). assert (PV : 0 < V) by (destruct HV; lra).
          destruct (perfect_body g T V PT PV Hg) as (tr & g' & dT' & Eb & Hc & Hg' & Hw).
          rewrite Eb, bind_some.
          assert (Est : forall f, cj_loop L f initial tT tV D mx (k + 1) g' (T + dT')
                    (new_speed V) dT' ((U^2 - V^2) / (101/50 * V)) = ret (g', new_speed V)).
          { apply reach_O in HT. subst T.
            assert (dT' = 0).
            { replace (Tx - Tx) with 0 in Hc by ring.
              destruct Hc as [(_ & ->)|[(Ha & _)|(Ha & _)]]; lra. }
            subst dT'. intros f.
            assert (En : unconverged tT tV (Tx + 0) (new_speed V) 0 ((U^2 - V^2) / (101/50 * V)) = false).
            { apply unconverged_false. rewrite Rabs_R0. split; [nra|].
              pose proof (near_stops V HV) as Hn.
              replace (new_speed V - V) with ((U^2 - V^2) / (101/50 * V)) in Hn
                by (unfold new_speed; ring). exact Hn. }
            destruct f; cbn [cj_loop]; rnum; fold (unconverged tT tV (Tx + 0) (new_speed V) 0 ((U^2 - V^2) / (101/50 * V)));
              rewrite En; reflexivity. }
          rewrite Est. eexists. exists g', (new_speed V). split; [reflexivity|].
          split; [apply warnings_none; [exact Hw|reflexivity]|]. split.
          * apply reach_O in HT. subst T.
            assert (dT' = 0).
            { replace (Tx - Tx) with 0 in Hc by ring.
              destruct Hc as [(_ & ->)|[(Ha & _)|(Ha & _)]]; lra. }
            subst dT'. rewrite Rplus_0_r in Hg'. exact Hg'.
          * apply speed_accurate; [exact PV|apply near_stops; exact HV].
        + apply unconverged_false in Eu. destruct Eu as (E1 & E2).
          exists [], g, V. split; [reflexivity|]. split; [reflexivity|].
          rewrite <- (Hd1 E1). split; [|exact (Hd2 E2)]. exact Hg.
      - destruct fuel as [|fuel]; [lia|]. cbn [cj_loop]. rnum.
        fold (unconverged tT tV T V dT dV).
        destruct (unconverged tT tV T V dT dV) eqn:Eu.
        + replace (k + 1 =? mx)%Z with false by (symmetry; apply Z.eqb_neq; lia).
          pose proof HT as (PT & _). assert (PV : 0 < V) by (destruct HV; lra).
          destruct (perfect_body g T V PT PV Hg) as (tr & g' & dT' & Eb & Hc & Hg' & Hw).
          rewrite Eb, bind_some.
          destruct (IH fuel mx (k + 1)%Z g' (T + dT') (new_speed V) dT' ((U^2 - V^2) / (101/50 * V)))
            as (tr2 & gf & Vf & E2 & W2 & B2 & A2); try lia; auto.
          * exact (reach_step _ _ _ HT Hc).
          * apply near_step. exact HV.
          * apply reach_stop; [exact PT|lra|exact Hc].
          * intros Hn. apply speed_accurate; [exact PV|].
            replace (new_speed V - V) with ((U^2 - V^2) / (101/50 * V))
                by (unfold new_speed; ring). exact Hn.
          * rewrite E2. unfold after. cbn [fst snd]. exists (tr ++ tr2)%list, gf, Vf.
            split; [reflexivity|]. split; [apply warnings_none; assumption|]. split; assumption.
        + apply unconverged_false in Eu. destruct Eu as (E1 & E2).
          exists [], g, V. split; [reflexivity|]. split; [reflexivity|].
          rewrite <- (Hd1 E1). split; [|exact (Hd2 E2)]. exact Hg.
    Qed.

    Lemma perfect_cj_state fuel div working mx n :
      is_div div -> (Z.of_nat n + 3 <= mx)%Z -> (n + 2 <= fuel)%nat ->
      2000 * (4/5)^(S n) <= Tx <= 2000 * (6/5)^(S n) ->
      2000 <= tV / 2 * (101/51)^n * U -> U <= tV / 2 * (101/51)^n * 2000 ->
      exists tr gf Vf,
        cj_state L fuel div working initial tT tV r mx = (tr, Ok (gf, Vf))
        /\ warnings tr = [] /\ burnt_at gf Tx /\ accurate Vf.
    Proof.
      intros Hdiv Hm Hf HTr HU1 HU2. pose proof D_pos as HD.
      unfold cj_state. rnum. rewrite ?lit_2000, ?lit_1000, ?one_R. rewrite Erho.
      rewrite (pydiv_ok 1 rho1) by lra. rewrite bind_pure_ok.
      rewrite (div_ok div (1 / rho1) r) by (try assumption; lra). rewrite bind_pure_ok.
      assert (Nv : 1 / rho1 / r <> 0).
      { apply Rgt_not_eq. apply Rdiv_lt_0_compat; [apply Rdiv_lt_0_compat; lra|lra]. }
      rewrite div_ok by assumption. rewrite bind_pure_ok.
      replace (1 / (1 / rho1 / r)) with D by (unfold D; field; lra).
      destruct (perfect_equilibrium working 2000) as (g0 & E0 & Hg0); [lra|].
      rewrite E0, bind_some.
      destruct fuel as [|fuel]; [lia|]. cbn [cj_loop]. rnum.
      rewrite (Rabs_pos_eq 1000) by lra. rewrite QLemmas.Rltb_true by lra. cbn [orb].
      replace (0 + 1 =? mx)%Z with false by (symmetry; apply Z.eqb_neq; lia).
      assert (HT : reach (S n) 2000) by (split; [lra|exact HTr]).
      destruct (perfect_body g0 2000 2000) as (tr & g' & dT' & Eb & Hc & Hg' & Hw); [lra|lra|exact Hg0|].
      rewrite Eb, bind_some.
      destruct (perfect_loop n fuel mx (0 + 1)%Z g' (2000 + dT') (new_speed 2000) dT'
                  ((U^2 - 2000^2) / (101/50 * 2000)))
        as (tr2 & gf & Vf & E2 & W2 & B2 & A2); try lia; auto.
      - exact (reach_step _ _ _ HT Hc).
      - apply near_start; [lra|exact HU1|exact HU2].
      - apply reach_stop; [lra|lra|exact Hc].
      - intros Hn. apply speed_accurate; [lra|].
        replace (new_speed 2000 - 2000) with ((U^2 - 2000^2) / (101/50 * 2000))
          by (unfold new_speed; ring). exact Hn.
      - rewrite E2. unfold after. cbn [fst snd]. eexists. exists gf, Vf.
        split; [reflexivity|]. split; [|split; assumption].
        apply warnings_none; [reflexivity|]. apply warnings_none; assumption.
    Qed.
  End Speed.
End Perfect.
