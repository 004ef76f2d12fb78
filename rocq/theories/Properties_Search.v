(** * Properties_Search: where the search of calculate_max_initial_pressure ends (C108, C109). *)
From Coq Require Import String ZArith QArith Reals Qreals List Bool Lra Lia Psatz Permutation.
From Verif Require Import PyBase Pint UnitsM Spec Gas GasP QLemmas FitM FitP FitSpec SdM SdSpec SdP
  SpeedSpec SpeedP ThermoM ThermoSpec ThermoP TubeM TubeP ExampleGas Properties_Speed
  Properties_Thermo InitPressureM InitPressureSpec InitPressureP Properties_Tube
  Properties_InitPressure SearchSpec SearchP VariableGas.
Import ListNotations.
Local Open Scope R_scope.

(** C108.  In the pressures around 1 atm that the search can reach (a factor exp W), the
    ratio of reflected to initial pressure is P^eps at most, eps < 1, and the load factor is
    [n] throughout.  [first_step] is the logarithm of the factor from 1 atm to the second
    trial.  Then the search ends after at most N + 1 updates, where eps^N times the error
    after the first update is the tolerance: the returned pressure, times the load factor,
    meets max_pressure to the tolerance, and is that close to the one right answer. *)
Theorem C108_search_converges :
  forall {G X} (L : cantera R G X) tube_id tube_od T x mech max_pressure E rho nu f (use : bool) reg tol
         max_iterations p return_dlf peak n eps W N M r,
    chemistry L tube_id tube_od T x mech E rho nu f reg p (around_1_atm W) peak (fun _ => n) ->
    nearly_proportional (around_1_atm W) peak eps -> 0 <= eps < 1 -> any_pool p ->
    is_in max_pressure M "Pa" r -> 0 < M ->
    Rabs tol < Rabs (INR n / M - 1) ->
    let c := if use then INR n else 1 in
    let first_step := Rabs (ln (M / (INR n * peak 101325))) in
    let error_1 := ln (INR n / c) + eps * first_step in
    first_step + error_1 / (1 - eps) <= W ->
    eps ^ N * error_1 <= ln (1 + Rabs tol) ->
    (Z.of_nat N + 1 <= max_iterations)%Z ->
    let call := calculate_max_initial_pressure L tube_id tube_od T x mech max_pressure E rho nu f
                  use reg tol max_iterations p "reflected" return_dlf in
    exists q P,
      value call = Ok (if return_dlf then PressureAndFactor q c else Pressure q)
      /\ stands_for q d_pressure P reg /\ 0 < P
      /\ Rabs (c * peak P - M) <= Rabs tol * M
      /\ (Rabs tol < 1 -> forall right_answer,
            0 < right_answer -> around_1_atm W right_answer -> c * peak right_answer = M ->
            (1 - eps) * Rabs (ln P - ln right_answer) <= - ln (1 - Rabs tol))
      /\ (gases_created (trace call) <= 172 * (N + 2))%nat.
Proof.
  intros * Hchem Hnp Heps Hp (_ & HMq & _) HM Ht c fs e1 HW1 HN Hit call. subst M.
  set (M := q_mag max_pressure) in *.
  assert (Hfs : 0 <= fs) by apply Rabs_pos.
  assert (Hn1 : 0 <= W -> 1 <= INR n).
  { intros HW0. change n with ((fun _ : R => n) 101325).
    apply (dlf_pos L tube_id tube_od T x mech E rho nu f reg p (around_1_atm W) peak _ Hchem 101325); [lra|].
    unfold around_1_atm. rewrite Rminus_diag_eq, Rabs_R0 by reflexivity. exact HW0. }
  assert (Hnn : (1 <= n)%nat \/ n = 0%nat) by lia.
  assert (He1 : 0 <= e1).
  { unfold e1. assert (0 <= eps * fs) by (apply Rmult_le_pos; lra).
    enough (0 <= ln (INR n / c)) by lra.
    unfold c. destruct Hnn as [Hn | -> ].
    - assert (1 <= INR n) by (apply (le_INR 1) in Hn; exact Hn).
      destruct use; [unfold Rdiv; rewrite Rinv_r by lra; rewrite ln_1; lra|].
      replace (INR n / 1) with (INR n) by field.
      destruct (Rle_lt_or_eq_dec 1 (INR n)) as [C|C]; [assumption| |rewrite <- C, ln_1; lra].
      rewrite <- ln_1. apply Rlt_le, ln_increasing; lra.
    - cbn [INR]. replace (0 / (if use then 0 else 1)) with 0 by (unfold Rdiv; ring).
      unfold ln. destruct (Rlt_dec 0 0) as [C|C]; [exfalso; exact (Rlt_irrefl _ C)|apply Rle_refl]. }
  assert (HW0 : 0 <= W).
  { apply Rle_trans with (2 := HW1). assert (0 <= e1 / (1 - eps)); [|lra].
    apply Rmult_le_pos; [exact He1|]. left. apply Rinv_0_lt_compat. lra. }
  pose proof (Hn1 HW0) as Hn0.
  assert (Hc : 1 <= c) by (unfold c; destruct use; lra).
  assert (D0 : around_1_atm W 101325)
    by (unfold around_1_atm; rewrite Rminus_diag_eq, Rabs_R0 by reflexivity; exact HW0).
  destruct (Hnp 101325 101325 ltac:(lra) ltac:(lra) D0 D0) as (Hpk0 & _ & _).
  destruct (search_begin L tube_id tube_od T x mech max_pressure E rho nu f use reg p
              (around_1_atm W) peak (fun _ => n) Hchem HM Hp tol max_iterations return_dlf D0)
    as (q0 & s0 & tr0 & Hat0 & Htr0 & Ecall).
  unfold call. rewrite Ecall. clear Ecall call.
  destruct (Z.to_nat max_iterations) as [|b] eqn:Eb; [lia|].
  assert (Hnp0 : 0 < INR n * peak 101325) by (apply Rmult_lt_0_compat; lra).
  set (P1 := 101325 * M / (INR n * peak 101325)).
  assert (HP1 : 0 < P1) by (apply Rdiv_lt_0_compat; [apply Rmult_lt_0_compat; lra|exact Hnp0]).
  assert (EP1 : ln P1 - ln 101325 = ln (M / (INR n * peak 101325))).
  { unfold P1. replace (101325 * M / (INR n * peak 101325)) with (101325 * (M / (INR n * peak 101325)))
      by (field; lra).
    rewrite ln_mult; [ring|lra|]. apply Rdiv_lt_0_compat; lra. }
  assert (Hge : 0 <= e1 / (1 - eps)).
  { apply Rmult_le_pos; [exact He1|]. left. apply Rinv_0_lt_compat. lra. }
  assert (D1 : around_1_atm W P1) by (unfold around_1_atm; rewrite EP1; fold fs; lra).
  destruct (search_step L tube_id tube_od T x mech max_pressure E rho nu f use reg p
              (around_1_atm W) peak (fun _ => n) Hchem HM Hp b (Rabs tol) (INR n / M - 1) q0 (INR n) s0
              101325 P1 Hat0 ltac:(lra) Hpk0 eq_refl D1 Ht)
    as (q1 & s1 & tr1 & Hat1 & Htr1 & El).
  fold M in El.
  destruct (Hnp P1 101325 HP1 ltac:(lra) D1 D0) as (Hpk1 & _ & Hnear1).
  assert (Hl1 : Rabs (ln (c * peak P1 / M)) <= e1).
  { assert (E1 : ln (c * peak P1 / M)
                 = - ln (INR n / c) + (ln (peak P1 / P1) - ln (peak 101325 / 101325))).
    { rewrite (ln_div (INR n) c), (ln_div (peak P1) P1), (ln_div (peak 101325)) by lra.
      rewrite (ln_div (c * peak P1) M) by (try assumption; apply Rmult_lt_0_compat; lra).
      rewrite (ln_mult c) by lra.
      rewrite (ln_div M), (ln_mult (INR n)) in EP1 by lra. lra. }
    rewrite E1. apply Rle_trans with (1 := Rabs_triang _ _). rewrite Rabs_Ropp.
    assert (Hln : 0 <= ln (INR n / c)).
    { unfold c. destruct use; [unfold Rdiv; rewrite Rinv_r by lra; rewrite ln_1; lra|].
      replace (INR n / 1) with (INR n) by field.
      destruct (Rle_lt_or_eq_dec 1 (INR n)) as [C|C]; [assumption| |rewrite <- C, ln_1; lra].
      rewrite <- ln_1. apply Rlt_le, ln_increasing; lra. }
    rewrite (Rabs_pos_eq (ln (INR n / c))) by exact Hln. unfold e1.
    rewrite EP1 in Hnear1. fold fs in Hnear1. lra. }
  destruct (near_loop L tube_id tube_od T x mech max_pressure E rho nu f use reg p
              (around_1_atm W) peak (fun _ => n) Hchem HM Hp n eps W (fun _ => eq_refl) Heps
              (fun P => iff_refl _) Hnp N b (Rabs tol) q1 s1 P1 Hat1 D1 (Rabs_pos _))
    as (tr2 & q2 & P2 & E2 & Hq2 & HP2 & D2 & Ha & Htr2).
  - unfold c in Hc. lra.
  - unfold load. rewrite EP1. fold fs. fold c. fold M. apply Rle_trans with (2 := HW1).
    apply Rplus_le_compat_l. apply Rmult_le_compat_r; [|exact Hl1].
    left. apply Rinv_0_lt_compat. lra.
  - unfold load. fold c. fold M. apply Rle_trans with (2 := HN).
    apply Rmult_le_compat_l; [apply pow_le; lra|exact Hl1].
  - lia.
  - fold M in E2, Ha. fold c in E2, Ha.
    fold M. cbv beta. rewrite El. unfold fac. cbv beta. fold c. rewrite E2.
    exists q2, P2. unfold after, value, trace, io_bind, ret. cbn [fst snd].
    split; [destruct return_dlf; reflexivity|].
    split; [apply (pa_stands reg _ _ Hq2)|]. split; [exact HP2|]. split; [exact Ha|].
    split.
    + intros Ht1 ra Hra Dra Era.
      apply (near_answer max_pressure use (around_1_atm W) peak HM n eps Hnp
               P2 ra (Rabs tol)); try assumption.
      * unfold c in Hc. lra.
      * split; [apply Rabs_pos|exact Ht1].
    + rewrite !created_app, Htr0, Htr1. cbn [gases_created filter length]. unfold gases_created in *. cbn [filter length]. lia.
Qed.
Print Assumptions C108_search_converges.

(** ** Chemistry that meets the hypotheses with eps = 1/10 *)
Lemma ln_below y : 0 < y -> ln y <= y - 1.
Proof. intros Hy. pose proof (exp_ineq1_le (ln y)) as H. rewrite exp_ln in H by exact Hy. lra. Qed.
Lemma ln_above y : 0 < y -> 1 - 1 / y <= ln y.
Proof.
  intros Hy. assert (Hi : 0 < 1 / y) by (apply Rdiv_lt_0_compat; lra).
  pose proof (ln_below (1 / y) Hi) as H. unfold Rdiv in *. rewrite Rmult_1_l in *.
  rewrite ln_Rinv in H by exact Hy. lra.
Qed.

(** the reflected pressure goes with the 1.1th power of the initial pressure *)
Definition steep_scale (P : R) : R := Rpower (P / 101325) (11/10).
Definition steep_peak (P : R) : R := steep_scale P * (101325 + 8/9 * vsq 0).
Lemma steep_pos P : 0 < steep_scale P.
Proof. apply exp_pos. Qed.
Lemma steep_chemistry domain :
  chemistry (vgas steep_scale (fun _ => 0)) (si 0 d_length) (si 1 d_length) room fresh "gri30.cti"
    tube_E (si 1 d_density) 0 (1/10) 0 Serial domain steep_peak (fun _ => 2%nat).
Proof.
  intros q P Hq HP _.
  destruct (v_shock_states steep_scale (fun _ => 0) room q P "gri30.cti" 0 Serial room_300 Hq HP
              (steep_pos P) ltac:(lra) (or_introl eq_refl)) as (s & Hs & Hv & Hp).
  exists s. split; [exact Hs|]. split; [exact Hp|]. apply example_factor.
  replace 2000 with (2000 + 0) by ring. exact Hv.
Qed.
Lemma steep_near W : nearly_proportional (around_1_atm W) steep_peak (1/10).
Proof.
  intros P Q HP HQ _ _.
  assert (HK : 0 < 101325 + 8/9 * vsq 0) by (unfold vsq; lra).
  assert (pos : forall Z, 0 < steep_peak Z)
    by (intros Z; apply Rmult_lt_0_compat; [apply steep_pos|exact HK]).
  split; [apply pos|]. split; [apply pos|].
  assert (E : forall Z, 0 < Z -> ln (steep_peak Z / Z)
            = 11/10 * (ln Z - ln 101325) + ln (101325 + 8/9 * vsq 0) - ln Z).
  { intros Z HZ. rewrite ln_div by auto. unfold steep_peak.
    rewrite ln_mult by (auto using steep_pos). unfold steep_scale, Rpower.
    rewrite ln_exp, ln_div by lra. ring. }
  rewrite !E by assumption.
  match goal with |- Rabs ?a <= _ => replace a with (1/10 * (ln P - ln Q)) by field end.
  rewrite Rabs_mult, (Rabs_pos_eq (1/10)) by lra. lra.
Qed.
Example C108_nonvacuous : exists q P,
  value (calculate_max_initial_pressure (vgas steep_scale (fun _ => 0)) (si 0 d_length) (si 1 d_length)
    room fresh "gri30.cti" (si 1000000 d_pressure) tube_E (si 1 d_density) 0 (1/10) true 0 (1/10000)
    500 Serial "reflected" true) = Ok (PressureAndFactor q 2)
  /\ stands_for q d_pressure P 0
  /\ Rabs (2 * steep_peak P - 1000000) <= 100.
Proof.
  assert (Hp0 : steep_peak 101325 = 101325 + 32000000/9).
  { unfold steep_peak, steep_scale, Rpower. replace (101325 / 101325) with 1 by field.
    rewrite ln_1, Rmult_0_r, exp_0. unfold vsq. field. }
  assert (Hfs : Rabs (ln (1000000 / (INR 2 * steep_peak 101325))) <= 7).
  { rewrite Hp0. cbn [INR]. set (y := 1000000 / _).
    assert (Hy : 0 < y) by (unfold y; apply Rdiv_lt_0_compat; lra).
    pose proof (ln_below y Hy). pose proof (ln_above y Hy).
    assert (y <= 1).
    { unfold y. apply Rmult_le_reg_r with ((1 + 1) * (101325 + 32000000/9)); [lra|].
      unfold Rdiv at 1. rewrite Rmult_assoc, Rinv_l by lra. lra. }
    assert (1 / y <= 8).
    { unfold y. replace (1 / (1000000 / ((1 + 1) * (101325 + 32000000 / 9))))
        with ((1 + 1) * (101325 + 32000000 / 9) / 1000000) by field. lra. }
    apply Rabs_le. lra. }
  assert (E1 : ln (INR 2 / INR 2) = 0)
    by (unfold Rdiv; rewrite Rinv_r by (cbn; lra); apply ln_1).
  destruct (C108_search_converges (vgas steep_scale (fun _ => 0)) (si 0 d_length) (si 1 d_length)
    room fresh "gri30.cti" (si 1000000 d_pressure) tube_E (si 1 d_density) 0 (1/10) true 0 (1/10000)
    500 Serial true steep_peak 2 (1/10) 10 4 1000000 0 (steep_chemistry _) (steep_near _))
    as (q & P & Hv & Hq & _ & Ha & _).
  - lra.
  - left. reflexivity.
  - apply Pa_in.
  - lra.
  - rewrite tol_abs. cbn [INR]. rewrite Rabs_left; lra.
  - rewrite E1. lra.
  - rewrite E1. rewrite tol_abs. pose proof (ln_above (1 + 1/10000) ltac:(lra)). lra.
  - lia.
  - cbn [INR] in *. replace (1 + 1) with 2 in * by lra. rewrite tol_abs in Ha.
    exists q, P. split; [exact Hv|]. split; [exact Hq|]. lra.
Qed.

(** C109.  An answer is safe: at the returned initial pressure, the reflected pressure times
    the load factor is at most max_pressure, up to the tolerance.  This holds when at least
    one update was made and the iteration limit was not reached (which shows in the number
    of gas objects made, 172 per evaluation). *)
Theorem C109_safe_partial :
  forall {G X} (L : cantera R G X) tube_id tube_od T x mech max_pressure E rho nu f
         reg tol max_iterations p return_dlf a M r,
    any_pool p -> is_in max_pressure M "Pa" r -> 0 < M ->
    let call := calculate_max_initial_pressure L tube_id tube_od T x mech max_pressure E rho nu f
                  true reg tol max_iterations p "reflected" return_dlf in
    value call = Ok a ->
    (172 * 1 < gases_created (trace call) < 172 * (1 + Z.to_nat max_iterations))%nat ->
    exists q s n,
      (a = Pressure q \/ exists k, a = PressureAndFactor q k)
      /\ value (calculate_reflected_shock_state L T q x mech reg p) = Ok s
      /\ dynamic_load_factor tube_id tube_od (cj_wave_speed s) E rho nu f = Ok n
      /\ ct_P L (reflected_state s) * INR n <= (1 + Rabs tol) * M.
Proof.
  intros * Hp (_ & <- & _) HM call H Hg.
  destruct (search_inv L _ _ _ _ _ _ _ _ _ _ _ _ _ _ _ "reflected" _ _ AtReflected eq_refl H)
    as (t & ts & Hs & Hr & Hlen & _ & _ & Hm & _ & _ & Htr).
  specialize (Htr Hp). unfold call in *. rewrite Htr in Hg. cbn [length] in Hg.
  assert (Hne : ts <> []) by (intros ->; cbn [length] in Hg; lia).
  assert (Hlt : (length ts < Z.to_nat max_iterations)%nat) by lia.
  specialize (Hm Hne Hlt).
  set (l := last (t :: ts) t) in *.
  assert (Hl : exists b, next_trial L tube_id tube_od T x mech E rho nu f true reg p
                           (q_mag max_pressure) b l).
  { destruct Hs as (_ & Hc). destruct (exists_last Hne) as (ts' & y & E1).
    assert (El : l = y).
    { unfold l. rewrite E1. change (t :: ts' ++ [y]) with ((t :: ts') ++ [y]). apply last_last. }
    rewrite El. destruct (exists_last (l := t :: ts')) as (ts2 & z & E2); [discriminate|].
    exists z. apply Hc. rewrite E1. change (t :: ts' ++ [y]) with ((t :: ts') ++ [y]). rewrite E2.
    exists ts2, []. rewrite <- app_assoc. reflexivity. }
  destruct Hl as (b & _ & Hev & n & Hf & Hk).
  exists (tried l), (shocks l), n.
  split.
  { unfold reports in Hr. destruct return_dlf; [right; eexists; exact Hr|left; exact Hr]. }
  split; [exact Hev|]. split; [exact Hf|].
  unfold meets in Hm. cbn [state_at] in Hm. rewrite Hk in Hm.
  set (M := q_mag max_pressure) in *. set (A := ct_P L (reflected_state (shocks l)) * INR n) in *.
  assert (HA : (A - M) / M <= Rabs tol) by (apply Rle_trans with (2 := Hm); apply Rle_abs).
  assert (A - M <= Rabs tol * M).
  { replace (A - M) with ((A - M) / M * M) by (field; lra). apply Rmult_le_compat_r; lra. }
  lra.
Qed.
Print Assumptions C109_safe_partial.

(** ** A load factor that changes between two trials *)
(** The reflected pressure is proportional to the initial pressure, but from the initial
    pressure [edge] on the CJ speed gives the load factor [high] instead of [low] (a wave
    near the tube's critical velocity: 4 instead of 1). *)
Definition stepping {G X} (L : cantera R G X) tube_id tube_od T x mech E rho nu f reg p
  (ratio edge : R) (low high : nat) : Prop :=
  chemistry L tube_id tube_od T x mech E rho nu f reg p (fun _ => True) (fun P => ratio * P)
    (fun P => if Rlt_dec P edge then low else high).

Section Stepping.
  Context {G X : Type} (L : cantera R G X).
  Context (tube_id tube_od T : quantity R) (x : X) (mech : string) (max_pressure : quantity R)
          (E rho : quantity R) (nu f : R) (reg : nat) (p : pool R) (ratio edge : R) (low high : nat).
  Let M := q_mag max_pressure.
  Let loop := pressure_loop L tube_id tube_od T x mech max_pressure E rho nu f true reg p AtReflected.
  Context (Hstep : stepping L tube_id tube_od T x mech E rho nu f reg p ratio edge low high).
  Context (Hratio : 0 < ratio) (HM : 0 < M) (Hp : any_pool p) (Hlow : (1 <= low < high)%nat).
  Context (He1 : M / (INR high * ratio) < edge) (He2 : edge <= M / (INR low * ratio)).
  Context (tol : R) (Ht1 : 0 <= tol < 1 - INR low / INR high).

  Definition below : R := M / (INR high * ratio).
  Definition above : R := M / (INR low * ratio).

  Lemma low_high : 1 <= INR low < INR high.
  Proof. split; [apply (le_INR 1); lia|apply lt_INR; lia]. Qed.
  Lemma error_above : tol < Rabs ((ratio * above * INR high - M) / M).
  Proof.
    pose proof low_high as H. unfold above.
    replace ((ratio * (M / (INR low * ratio)) * INR high - M) / M) with (INR high / INR low - 1)
      by (field; lra).
    assert (1 - INR low / INR high <= INR high / INR low - 1).
    { apply Rmult_le_reg_r with (INR low * INR high); [apply Rmult_lt_0_compat; lra|].
      replace ((1 - INR low / INR high) * (INR low * INR high)) with ((INR high - INR low) * INR low)
        by (field; lra).
      replace ((INR high / INR low - 1) * (INR low * INR high)) with ((INR high - INR low) * INR high)
        by (field; lra).
      apply Rmult_le_compat_l; lra. }
    apply Rlt_le_trans with (2 := Rle_abs _). lra.
  Qed.
  Lemma error_below : tol < Rabs ((ratio * below * INR low - M) / M).
  Proof.
    pose proof low_high as H. unfold below.
    replace ((ratio * (M / (INR high * ratio)) * INR low - M) / M) with (- (1 - INR low / INR high))
      by (field; lra).
    rewrite Rabs_Ropp. apply Rlt_le_trans with (2 := Rle_abs _). lra.
  Qed.

  Lemma from_above b : forall q s, at_trial L reg (fun P => ratio * P) q s above ->
    exists tr q',
      loop b tol ((ratio * above * INR high - M) / M) q (INR high) s
        = (tr, Ok (q', INR (if Nat.even b then high else low)))
      /\ is_in q' ((if Nat.even b then above else below) / 101325) "atm" reg
  with from_below b : forall q s, at_trial L reg (fun P => ratio * P) q s below ->
    exists tr q',
      loop b tol ((ratio * below * INR low - M) / M) q (INR low) s
        = (tr, Ok (q', INR (if Nat.even b then low else high)))
      /\ is_in q' ((if Nat.even b then below else above) / 101325) "atm" reg.
  Proof.
    - pose proof low_high as Hlh.
      assert (Hr : 0 < INR low * ratio) by (apply Rmult_lt_0_compat; lra).
      intros q s Hat. pose proof Hat as (Hq & HP & _).
      destruct b as [|b].
      + exists [], q. split; [|exact Hq]. unfold loop. cbn [pressure_loop Nat.even]. rnum.
        rewrite QLemmas.Rltb_true by apply error_above. reflexivity.
      + destruct (search_step L tube_id tube_od T x mech max_pressure E rho nu f true reg p
                    (fun _ => True) (fun P => ratio * P) _ Hstep HM Hp b tol
                    ((ratio * above * INR high - M) / M) q (INR high) s above below Hat)
          as (q' & s' & tr & Hat' & _ & El).
        * lra.
        * apply Rmult_lt_0_compat; assumption.
        * unfold above, below. fold M. field. lra.
        * exact I.
        * apply error_above.
        * unfold fac in El. destruct (Rlt_dec below edge) as [C|C]; [|exfalso; apply C; exact He1].
          fold M in El. unfold loop. rewrite El.
          destruct (from_below b q' s' Hat') as (tr2 & q2 & E2 & H2).
          unfold loop in E2. rewrite E2. exists (tr ++ tr2)%list, q2.
          rewrite Nat.even_succ, <- Nat.negb_even. split; [|destruct (Nat.even b); exact H2].
          unfold after. cbn [fst snd]. destruct (Nat.even b); reflexivity.
    - pose proof low_high as Hlh.
      assert (Hr : 0 < INR high * ratio) by (apply Rmult_lt_0_compat; lra).
      intros q s Hat. pose proof Hat as (Hq & HP & _).
      destruct b as [|b].
      + exists [], q. split; [|exact Hq]. unfold loop. cbn [pressure_loop Nat.even]. rnum.
        rewrite QLemmas.Rltb_true by apply error_below. reflexivity.
      + destruct (search_step L tube_id tube_od T x mech max_pressure E rho nu f true reg p
                    (fun _ => True) (fun P => ratio * P) _ Hstep HM Hp b tol
                    ((ratio * below * INR low - M) / M) q (INR low) s below above Hat)
          as (q' & s' & tr & Hat' & _ & El).
        * lra.
        * apply Rmult_lt_0_compat; assumption.
        * unfold above, below. fold M. field. lra.
        * exact I.
        * apply error_below.
        * unfold fac in El. destruct (Rlt_dec above edge) as [C|C]; [exfalso; unfold above in C; lra|].
          fold M in El. unfold loop. rewrite El.
          destruct (from_above b q' s' Hat') as (tr2 & q2 & E2 & H2).
          unfold loop in E2. rewrite E2. exists (tr ++ tr2)%list, q2.
          rewrite Nat.even_succ, <- Nat.negb_even. split; [|destruct (Nat.even b); exact H2].
          unfold after. cbn [fst snd]. destruct (Nat.even b); reflexivity.
  Qed.
End Stepping.

(** If neither load factor fits the pressure computed with the other one, the search goes
    back and forth until the limit and returns one of the two pressures, by parity: with an
    even limit (the default is 500) the one that loads the tube [high / low] times over. *)
Theorem C109_alternates :
  forall {G X} (L : cantera R G X) tube_id tube_od T x mech max_pressure E rho nu f reg tol
         max_iterations p return_dlf ratio edge low high M r,
    stepping L tube_id tube_od T x mech E rho nu f reg p ratio edge low high ->
    0 < ratio -> any_pool p -> is_in max_pressure M "Pa" r -> 0 < M ->
    (1 <= low < high)%nat ->
    M / (INR high * ratio) < edge <= M / (INR low * ratio) -> edge <= 101325 ->
    Rabs tol < 1 - INR low / INR high -> Rabs tol < Rabs (INR high / M - 1) ->
    (1 <= max_iterations)%Z ->
    let call := calculate_max_initial_pressure L tube_id tube_od T x mech max_pressure E rho nu f
                  true reg tol max_iterations p "reflected" return_dlf in
    exists q,
      value call = Ok (if return_dlf
                       then PressureAndFactor q (INR (if Z.even max_iterations then high else low))
                       else Pressure q)
      /\ stands_for q d_pressure
           (if Z.even max_iterations then M / (INR low * ratio) else M / (INR high * ratio)) reg.
Proof.
  intros * Hst Hr Hp (_ & HMq & _) HM Hlh (He1 & He2) Hat Ht Ht0 Hit call. subst M.
  set (M := q_mag max_pressure) in *.
  destruct (search_begin L tube_id tube_od T x mech max_pressure E rho nu f true reg p
              (fun _ => True) (fun P => ratio * P) _ Hst HM Hp tol max_iterations return_dlf I)
    as (q0 & s0 & tr0 & Hat0 & _ & Ecall).
  destruct (Rlt_dec 101325 edge) as [C|_]; [lra|].
  unfold call. rewrite Ecall. clear Ecall call. fold M.
  destruct (Z.to_nat max_iterations) as [|b] eqn:Eb; [lia|].
  assert (Hhigh : 1 <= INR high) by (apply (le_INR 1); lia).
  destruct (search_step L tube_id tube_od T x mech max_pressure E rho nu f true reg p
              (fun _ => True) (fun P => ratio * P) _ Hst HM Hp b (Rabs tol) (INR high / M - 1)
              q0 (INR high) s0 101325 (M / (INR high * ratio)) Hat0)
    as (q1 & s1 & tr1 & Hat1 & _ & El); try exact I; try lra.
  { fold M. field. lra. }
  unfold fac in El. destruct (Rlt_dec (M / (INR high * ratio)) edge) as [_|C]; [|lra].
  fold M in El.
  destruct (from_below L tube_id tube_od T x mech max_pressure E rho nu f reg p ratio edge low high
              Hst Hr HM Hp Hlh He1 He2 (Rabs tol) (conj (Rabs_pos _) Ht) b q1 s1 Hat1)
    as (tr2 & q2 & E2 & H2).
  unfold below, above in E2, H2. fold M in E2, H2.
  assert (Ez : Z.even max_iterations = negb (Nat.even b)).
  {
    replace max_iterations with (Z.of_nat (S b)) by lia.
    rewrite Nat2Z.inj_succ, Z.even_succ, <- Z.negb_even. f_equal.
    destruct (Nat.even b) eqn:Ee.
    - apply Nat.even_spec in Ee. destruct Ee as (c & ->). apply Z.even_spec. exists (Z.of_nat c). lia.
    - rewrite <- Nat.negb_odd in Ee. apply negb_false_iff, Nat.odd_spec in Ee. destruct Ee as (c & ->).
      rewrite <- Z.negb_odd. apply negb_false_iff, Z.odd_spec. exists (Z.of_nat c). lia. }
  rewrite El, E2, Ez. exists q2.
  unfold after, value, trace, io_bind, ret. cbn [fst snd].
  split; [destruct return_dlf, (Nat.even b); reflexivity|].
  apply (pa_stands reg) in H2. destruct (Nat.even b); exact H2.
Qed.
Print Assumptions C109_alternates.

(** *** The witness: a tube whose critical velocity is 2222 m/s, and a gas whose CJ speed
    goes from 2000 m/s to 2000.1 m/s at an initial pressure of 0.05 atm. *)
Definition edge_E : quantity R := si ((40001/18)^2 * sqrt 3) d_pressure.
Definition edge_offset (P : R) : R := if Rlt_dec P 5000 then 0 else 1/10.
Definition edge_scale (P : R) : R := 40 * P / (101325 + 8/9 * vsq (edge_offset P)).
Definition edge_gas := vgas edge_scale edge_offset.
Lemma edge_factor v w n : is_in v w "m/s" 0 -> (w = 2000 /\ n = 1%nat \/ w = 2000 + 1/10 /\ n = 4%nat) ->
  dynamic_load_factor (si 1 d_length) (si 3 d_length) v edge_E (si 1 d_density) 0 (1/10) = Ok n.
Proof.
  intros (E1 & E2 & E3) Hw. pose proof (sqrt_pos 3). pose proof (sqrt_sqrt 3 ltac:(lra)) as Hs.
  assert (E' : lookup_unit "m/s" = Some (mult_unit d_velocity (@one R _))) by reflexivity.
  rewrite E' in E1. injection E1 as E1.
  assert (Hc : let dlf := dynamic_load_factor (si 1 d_length) (si 3 d_length) v edge_E (si 1 d_density) 0 (1/10) in
    (w < (1 - 1/10) * (40001/18) -> dlf = Ok 1%nat)
    /\ ((1 + 1/10) * (40001/18) < w -> dlf = Ok 2%nat)
    /\ ((1 - 1/10) * (40001/18) <= w <= (1 + 1/10) * (40001/18) -> dlf = Ok 4%nat)).
  { refine (C18_dynamic_load_factor (si 1 d_length) (si 3 d_length) v edge_E (si 1 d_density)
            1 3 w ((40001/18)^2 * sqrt 3) 1 0 (1/10) (40001/18) 1 1 0%nat _ _ _ _ _ _ _ _ _ _ _ _ _ _ _ _);
      try apply si_stands; try lra.
    unfold stands_for. rewrite <- E1, E2. cbn. rewrite one_R. repeat split; try lra. exact E3. }
  cbv zeta in Hc. destruct Hc as (H1 & _ & H4).
  destruct Hw as [(-> & ->)|(-> & ->)]; [apply H1; lra|apply H4; lra].
Qed.
Lemma edge_stepping : stepping edge_gas (si 1 d_length) (si 3 d_length) room fresh "gri30.cti"
  edge_E (si 1 d_density) 0 (1/10) 0 Serial 40 5000 1 4.
Proof.
  intros q P Hq HP _.
  assert (Ho : 0 <= edge_offset P <= 1/10) by (unfold edge_offset; destruct (Rlt_dec P 5000); lra).
  assert (HK : 0 < 101325 + 8/9 * vsq (edge_offset P)) by (unfold vsq; lra).
  assert (Hs : 0 < edge_scale P) by (unfold edge_scale; apply Rdiv_lt_0_compat; lra).
  destruct (v_shock_states edge_scale edge_offset room q P "gri30.cti" 0 Serial room_300 Hq HP Hs Ho
              (or_introl eq_refl)) as (s & Hsh & Hv & Hp).
  exists s. split; [exact Hsh|]. split.
  - unfold edge_gas. rewrite Hp. unfold edge_scale. field. lra.
  - apply (edge_factor _ _ _ Hv). unfold edge_offset.
    destruct (Rlt_dec P 5000); [left|right]; split; lra || reflexivity.
Qed.

(** The default settings, a limit of 500000 Pa: the returned initial pressure gives a
    reflected pressure of 500000 Pa with load factor 4. *)
Theorem C109_safe_refuted : exists q s,
  value (calculate_max_initial_pressure edge_gas (si 1 d_length) (si 3 d_length) room fresh
           "gri30.cti" (si 500000 d_pressure) edge_E (si 1 d_density) 0 (1/10) true 0 (1/10000)
           500 Serial "reflected" true) = Ok (PressureAndFactor q 4)
  /\ stands_for q d_pressure 12500 0
  /\ value (calculate_reflected_shock_state edge_gas room q fresh "gri30.cti" 0 Serial) = Ok s
  /\ dynamic_load_factor (si 1 d_length) (si 3 d_length) (cj_wave_speed s) edge_E (si 1 d_density) 0
       (1/10) = Ok 4%nat
  /\ ct_P edge_gas (reflected_state s) * 4 = 4 * 500000.
Proof.
  destruct (C109_alternates edge_gas (si 1 d_length) (si 3 d_length) room fresh "gri30.cti"
    (si 500000 d_pressure) edge_E (si 1 d_density) 0 (1/10) 0 (1/10000) 500 Serial true 40 5000 1 4
    500000 0 edge_stepping) as (q & Hv & Hq); try (rewrite ?tol_abs; cbn [INR]; lra).
  - left. reflexivity.
  - apply Pa_in.
  - lia.
  - rewrite tol_abs. cbn [INR]. rewrite Rabs_left; lra.
  - lia.
  - change (Z.even 500) with true in *. cbv iota in *. cbn [INR] in *.
    replace (1 + 1 + 1 + 1) with 4 in Hv by lra.
    replace (500000 / (1 * 40)) with 12500 in Hq by lra.
    destruct (edge_stepping q 12500) as (s & Hs & Hpk & Hf); [|lra|exact I|].
    + apply stands_denotes with 0%nat. exact Hq.
    + exists q, s. split; [exact Hv|]. split; [exact Hq|]. split; [exact Hs|].
      destruct (Rlt_dec 12500 5000); [lra|]. split; [exact Hf|]. rewrite Hpk. lra.
Qed.
Print Assumptions C109_safe_refuted.
