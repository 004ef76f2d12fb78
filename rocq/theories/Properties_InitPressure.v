(** * C31-C35, C80-C82: Tube.calculate_max_initial_pressure. *)
From Coq Require Import String ZArith QArith Reals Qreals List Bool Lra Lia Psatz Permutation.
From Verif Require Import PyBase Pint UnitsM Spec Gas GasP QLemmas FitM FitP FitSpec SdM SdSpec SdP
  SpeedSpec SpeedP ThermoM ThermoSpec ThermoP TubeM TubeP ExampleGas Properties_Speed
  Properties_Thermo InitPressureM InitPressureSpec InitPressureP Properties_Tube.
Import ListNotations.
Local Open Scope R_scope.

(** The names accepted for max_pressure_state and the state each one means. *)
Definition names (s : string) (w : which) : Prop :=
  (s = "reflected"%string /\ w = AtReflected) \/ (s = "cj"%string /\ w = AtCj).
Lemma names_state s w : names s w <-> which_state s = Some w.
Proof.
  unfold which_state. split.
  - intros [[-> ->]|[-> ->]]; reflexivity.
  - destruct (String.eqb_spec s "reflected") as [->|]; [intros [= <-]; left; auto|].
    destruct (String.eqb_spec s "cj") as [->|]; [intros [= <-]; right; auto|discriminate].
Qed.

Lemma bind_value {A B C} (m : io A B) b (f : B -> io A C) :
  value m = Ok b -> io_bind m f = after (trace m) (f b).
Proof. unfold value, io_bind, after, trace. intros ->. reflexivity. Qed.

(** All that happens in a call that returns. *)
Lemma search_inv {G X} (L : cantera R G X) tube_id tube_od T x mech max_pressure E rho nu f use
  reg tol max_iterations p name rd a w :
  which_state name = Some w ->
  value (calculate_max_initial_pressure L tube_id tube_od T x mech max_pressure E rho nu f use
           reg tol max_iterations p name rd) = Ok a ->
  let M := q_mag max_pressure in
  exists t ts,
    let its := t :: ts in
    is_search L tube_id tube_od T x mech E rho nu f use reg p M its
    /\ reports rd (last its t) a
    /\ (length ts <= Z.to_nat max_iterations)%nat
    /\ (ts = [] -> Rabs (factor t / M - 1) <= Rabs tol \/ Z.to_nat max_iterations = 0%nat)
    /\ (ts <> [] -> Rabs tol < Rabs (factor t / M - 1))
    /\ (ts <> [] -> (length ts < Z.to_nat max_iterations)%nat ->
        meets L w M (Rabs tol) (last its t))
    /\ (forall b, In b (removelast ts) -> ~ meets L w M (Rabs tol) b)
    /\ M <> 0
    /\ (any_pool p ->
        gases_created (trace (calculate_max_initial_pressure L tube_id tube_od T x mech
           max_pressure E rho nu f use reg tol max_iterations p name rd))
        = (172 * length its)%nat).
Proof.
  intros Hw H. unfold calculate_max_initial_pressure in *. rewrite Hw in *. cbv zeta.
  set (M := q_mag max_pressure).
  apply value_bind_ok in H. destruct H as (q0 & Hq0 & H & E0). rewrite value_pure in Hq0.
  apply value_bind_ok in H. destruct H as (s0 & Hs0 & H & E1).
  apply value_bind_ok in H. destruct H as (k0 & Hk0 & H & E2). rewrite value_pure in Hk0.
  apply value_bind_ok in H. destruct H as (e & He & H & E3). rewrite value_pure in He.
  apply value_bind_ok in H. destruct H as ((q' & k') & Hl & H & E4). rewrite value_ret in H.
  injection H as <-. rnum.
  assert (Hatm : is_in q0 1 "atm" reg).
  { unfold quant in Hq0. destruct (lookup_unit "atm") as [u|] eqn:Eu; [|discriminate].
    injection Hq0 as <-. split; [exact Eu|]. split; [apply one_R|reflexivity]. }
  apply (div_inv pydiv) in He; [|left; reflexivity]. destruct He as (HM & ->).
  destruct (loop_spec L tube_id tube_od T x mech max_pressure E rho nu f use reg p w
              _ _ _ _ _ _ _ _ _ Hatm Hl)
    as (ts & t' & Hc & Hlast & Ht & Hf & Hlen & Hnil & Hcons & Hm & Hrm & Htr).
  assert (Ee : q_mag q0 * k0 / q_mag max_pressure - one = k0 / M - 1).
  { destruct Hatm as (_ & -> & _). rewrite one_R. unfold M. f_equal. f_equal. ring. }
  rewrite Ee in *.
  exists (mkTrial q0 s0 k0), ts.
  split.
  { split; [|exact Hc]. split; [exact Hatm|]. split; [exact Hs0|].
    apply load_factor_inv. exact Hk0. }
  split; [rewrite Hlast; unfold reports; rewrite Ht, Hf; reflexivity|].
  split; [exact Hlen|]. split; [exact Hnil|]. split; [intros Hne; apply Hcons; exact Hne|].
  split; [rewrite Hlast; exact Hm|]. split; [exact Hrm|]. split; [exact HM|].
  intros Hp. subst M. unfold shock_at in *. rewrite E0, created_app, E1, created_app, E2, created_app, E3, created_app, E4, created_app.
  rewrite (Htr Hp), (shock_creates L T q0 x mech reg p s0 Hp Hs0).
  cbn [trace pure ret fst gases_created filter length]. lia.
Qed.

(** C31.  [max_pressure] is a number M of pascals.  Whatever the chemistry does: the
    returned pressure is the last of a series of trials that starts at 1 atm, each trial at
    the pressure that would give M if the reflected pressure were proportional to the
    initial pressure.  If at least one update was made and the iteration limit was not
    reached, the chosen pressure times the load factor is within the tolerance of M. *)
Theorem C31_meets_tolerance :
  forall {G X} (L : cantera R G X) tube_id tube_od T x mech max_pressure E rho nu f use
         reg tol max_iterations p name w return_dlf a M r,
    names name w -> is_in max_pressure M "Pa" r ->
    value (calculate_max_initial_pressure L tube_id tube_od T x mech max_pressure E rho nu f
             use reg tol max_iterations p name return_dlf) = Ok a ->
    exists first updates,
      let trials := first :: updates in
      is_search L tube_id tube_od T x mech E rho nu f use reg p M trials
      /\ reports return_dlf (last trials first) a
      /\ (updates <> [] -> (Z.of_nat (length updates) < max_iterations)%Z ->
          Rabs ((ct_P L (state_at w (shocks (last trials first))) * factor (last trials first) - M) / M)
          <= Rabs tol).
Proof.
  intros * Hn (_ & <- & _) H. apply names_state in Hn.
  destruct (search_inv L _ _ _ _ _ _ _ _ _ _ _ _ _ _ _ _ _ _ _ Hn H)
    as (t & ts & Hs & Hr & _ & _ & _ & Hm & _).
  exists t, ts. split; [exact Hs|]. split; [exact Hr|].
  intros Hne Hl. apply Hm; [exact Hne|lia].
Qed.
Print Assumptions C31_meets_tolerance.

(** C32.  The search always ends (the model is a total function, without fuel); it makes at
    most max_iterations updates, and no trial before the last one met the tolerance;
    each trial creates 172 gas objects and there is exactly one more trial than updates. *)
Theorem C32_bounded :
  forall {G X} (L : cantera R G X) tube_id tube_od T x mech max_pressure E rho nu f use
         reg tol max_iterations p name w return_dlf a,
    names name w -> any_pool p ->
    value (calculate_max_initial_pressure L tube_id tube_od T x mech max_pressure E rho nu f
             use reg tol max_iterations p name return_dlf) = Ok a ->
    exists first updates,
      is_search L tube_id tube_od T x mech E rho nu f use reg p (q_mag max_pressure)
        (first :: updates)
      /\ reports return_dlf (last (first :: updates) first) a
      /\ (length updates <= Z.to_nat max_iterations)%nat
      /\ (forall t, In t (removelast updates) ->
            ~ meets L w (q_mag max_pressure) (Rabs tol) t)
      /\ gases_created (trace (calculate_max_initial_pressure L tube_id tube_od T x mech
           max_pressure E rho nu f use reg tol max_iterations p name return_dlf))
         = (172 * (1 + length updates))%nat.
Proof.
  intros * Hn Hp H. apply names_state in Hn.
  destruct (search_inv L _ _ _ _ _ _ _ _ _ _ _ _ _ _ _ _ _ _ _ Hn H)
    as (t & ts & Hs & Hr & Hl & _ & _ & _ & Hrm & _ & Htr).
  exists t, ts. split; [exact Hs|]. split; [exact Hr|]. split; [exact Hl|].
  split; [exact Hrm|]. exact (Htr Hp).
Qed.
Print Assumptions C32_bounded.

(** ... and the same bound holds for calls that raise. *)
Theorem C32_bounded_when_raising :
  forall {G X} (L : cantera R G X) tube_id tube_od T x mech max_pressure E rho nu f use
         reg tol max_iterations p name return_dlf,
    any_pool p ->
    (gases_created (trace (calculate_max_initial_pressure L tube_id tube_od T x mech
       max_pressure E rho nu f use reg tol max_iterations p name return_dlf))
     <= 172 * (1 + Z.to_nat max_iterations))%nat.
Proof.
  intros * Hp. unfold calculate_max_initial_pressure.
  destruct (which_state name) as [w|]; [|cbn; lia].
  set (n := Z.to_nat max_iterations).
  replace (172 * (1 + n))%nat with (0 + (172 + (0 + (0 + (172 * n + 0)))))%nat by lia.
  apply created_bind_le; [cbn; lia|]. intros q0 _.
  apply created_bind_le; [apply shock_creates_le; exact Hp|]. intros s0 _.
  apply created_bind_le; [cbn; lia|]. intros k0 _.
  apply created_bind_le; [cbn; lia|]. intros e _.
  apply created_bind_le; [apply loop_creates_le; exact Hp|]. intros [? ?] _. cbn. lia.
Qed.
Print Assumptions C32_bounded_when_raising.

(** ** Chemistry in which the pressures behind the waves are proportional to the initial
    pressure and the CJ speed gives a fixed load factor. *)
Section Proportional.
  Context {G X : Type} (L : cantera R G X).
  Context (tube_id tube_od T : quantity R) (x : X) (mech : string)
          (E rho : quantity R) (nu f : R) (reg : nat) (p : pool R).

  Definition proportional (ratio_reflected ratio_cj : R) (n : nat) : Prop :=
    forall q P, denotes (PQuant q) d_pressure P -> 0 < P ->
      exists s, value (calculate_reflected_shock_state L T q x mech reg p) = Ok s
        /\ ct_P L (reflected_state s) = ratio_reflected * P
        /\ ct_P L (cj_gas_state s) = ratio_cj * P
        /\ dynamic_load_factor tube_id tube_od (cj_wave_speed s) E rho nu f = Ok n.
End Proportional.

Lemma atm_denotes q m reg : is_in q m "atm" reg -> denotes (PQuant q) d_pressure (m * 101325).
Proof.
  intros (E1 & E2 & E3).
  assert (E' : lookup_unit "atm" = Some (mult_unit d_pressure (A:=R) (lit 101325)%num)) by reflexivity.
  rewrite E' in E1. injection E1 as E1. apply denotes_quantity.
  - rewrite <- E1. split; cbn; [unfold Q2R; simpl; lra|]. congruence.
  - rewrite <- E1. reflexivity.
  - unfold worth. rewrite <- E1, E2. cbn. unfold Q2R; simpl; lra.
Qed.
Lemma atm_stands q m reg : is_in q m "atm" reg -> stands_for q d_pressure (m * 101325) reg.
Proof.
  intros (E1 & E2 & E3).
  assert (E' : lookup_unit "atm" = Some (mult_unit d_pressure (A:=R) (lit 101325)%num)) by reflexivity.
  rewrite E' in E1. injection E1 as E1. unfold stands_for. rewrite <- E1, E2.
  cbn. unfold Q2R; simpl. repeat split; try lra. exact E3.
Qed.
Lemma atm_unique q q' m reg : is_in q m "atm" reg -> is_in q' m "atm" reg -> q = q'.
Proof.
  intros (E1 & E2 & E3) (E1' & E2' & E3'). destruct q, q'. cbn in *. congruence.
Qed.

(** the loop on such chemistry *)
Section Loop.
  Context {G X : Type} (L : cantera R G X).
  Context (tube_id tube_od T : quantity R) (x : X) (mech : string) (max_pressure : quantity R)
          (E rho : quantity R) (nu f : R) (use : bool) (reg : nat) (p : pool R) (w : which).
  Context (rr rc : R) (n : nat).
  Let M := q_mag max_pressure.
  Let loop := pressure_loop L tube_id tube_od T x mech max_pressure E rho nu f use reg p w.
  Context (Hprop : proportional L tube_id tube_od T x mech E rho nu f reg p rr rc n).
  Context (Hrr : 0 < rr) (HM : 0 < M) (Hpool : any_pool p).

  Definition state_ratio (w : which) : R := match w with AtReflected => rr | AtCj => rc end.
  Definition used_factor : R := if use then INR n else 1.

  Lemma n_pos : 0 < INR n.
  Proof.
    destruct (Hprop (mkQ 1 (mult_unit d_pressure one) 0) 1) as (s & _ & _ & _ & Hd).
    - apply denotes_quantity; [split; [cbn; rewrite one_R; lra|cbn; congruence]|reflexivity|].
      unfold worth. cbn. rewrite one_R. lra.
    - lra.
    - apply dlf_values in Hd. destruct Hd as [->|[->| ->]]; cbn; lra.
  Qed.

  (** one update *)
  Lemma loop_step budget tol err q k s m : is_in q m "atm" reg -> 0 < m -> 0 < k ->
    ct_P L (reflected_state s) = rr * (m * 101325) -> tol < Rabs err ->
    exists q' s' tr,
      is_in q' (M / (k * rr) / 101325) "atm" reg
      /\ ct_P L (reflected_state s') = rr * (M / (k * rr) / 101325 * 101325)
      /\ gases_created tr = 172%nat
      /\ loop (S budget) tol err q k s
         = after tr (loop budget tol
             ((state_ratio w * (M / (k * rr)) * used_factor - M) / M) q' used_factor s').
  Proof.
    intros Hq Hm Hk Hs Herr. unfold loop. cbn [pressure_loop]. rnum.
    rewrite QLemmas.Rltb_true by exact Herr.
    assert (Hn : k * ct_P L (reflected_state s) <> 0).
    { rewrite Hs. apply Rgt_not_eq. repeat apply Rmult_lt_0_compat; lra. }
    destruct (next_pressure_ok L max_pressure reg q k s m Hq Hn) as (q' & -> & Hq').
    fold M in Hq'. rewrite bind_pure_ok.
    assert (Em : m * M / (k * ct_P L (reflected_state s)) = M / (k * rr) / 101325).
    { rewrite Hs. field. repeat split; lra. }
    rewrite Em in Hq'.
    assert (Hpos : 0 < M / (k * rr)) by (apply Rdiv_lt_0_compat; [lra|apply Rmult_lt_0_compat; lra]).
    destruct (Hprop q' (M / (k * rr) / 101325 * 101325)) as (s' & Hs' & P1 & P2 & Hd).
    { apply (atm_denotes q' _ reg). exact Hq'. }
    { lra. }
    exists q', s', (trace (calculate_reflected_shock_state L T q' x mech reg p)).
    split; [exact Hq'|]. split; [exact P1|].
    split; [exact (shock_creates L T q' x mech reg p s' Hpool Hs')|].
    unfold shock_at. unfold io_bind at 1. unfold value in Hs'. rewrite Hs'.
    change (fst ?a, snd ?a) with a.
    assert (Ef : (if use then load_factor tube_id tube_od E rho nu f s' else Ok one)
                 = Ok used_factor).
    { unfold used_factor. destruct use; [|rewrite one_R; reflexivity].
      apply load_factor_inv. exists n. auto. }
    rewrite Ef, bind_pure_ok. fold M.
    rewrite pydiv_ok by lra. rewrite bind_pure_ok. unfold after, trace.
    assert (Es : ct_P L (state_at w s') = state_ratio w * (M / (k * rr))).
    { unfold state_at, state_ratio. destruct w; [rewrite P1|rewrite P2]; f_equal; lra. }
    rewrite Es. reflexivity.
  Qed.
End Loop.

Lemma loop_stops {G X} (L : cantera R G X) tube_id tube_od T x mech max_pressure E rho nu f use
  reg p w budget tol err q k s :
  Rabs err <= tol ->
  pressure_loop L tube_id tube_od T x mech max_pressure E rho nu f use reg p w budget tol err q k s
  = ret (q, k).
Proof.
  intros H. destruct budget; cbn [pressure_loop]; rnum; rewrite QLemmas.Rltb_false by lra; reflexivity.
Qed.

(** the call up to the loop *)
Lemma search_start {G X} (L : cantera R G X) tube_id tube_od T x mech max_pressure E rho nu f use
  reg tol max_iterations p name rd w rr rc n :
  which_state name = Some w ->
  proportional L tube_id tube_od T x mech E rho nu f reg p rr rc n -> any_pool p ->
  q_mag max_pressure <> 0 ->
  exists q0 s0 tr,
    is_in q0 1 "atm" reg /\ ct_P L (reflected_state s0) = rr * (1 * 101325)
    /\ gases_created tr = 172%nat
    /\ calculate_max_initial_pressure L tube_id tube_od T x mech max_pressure E rho nu f use
         reg tol max_iterations p name rd
       = after tr
           (do (q, k) <- pressure_loop L tube_id tube_od T x mech max_pressure E rho nu f use reg
                           p w (Z.to_nat max_iterations) (Rabs tol)
                           (INR n / q_mag max_pressure - 1) q0 (INR n) s0;
            ret (if rd then PressureAndFactor q k else Pressure q)).
Proof.
  intros Hw Hprop Hp HM. unfold calculate_max_initial_pressure. rewrite Hw.
  destruct (lookup_unit "atm") as [u|] eqn:Eu; [|discriminate].
  assert (Eq : quant reg one "atm" = Ok (mkQ one u reg)) by (unfold quant; rewrite Eu; reflexivity).
  assert (Hq : is_in (mkQ one u reg) 1 "atm" reg).
  { split; [exact Eu|]. split; [apply one_R|reflexivity]. }
  rewrite Eq, bind_pure_ok.
  destruct (Hprop (mkQ one u reg) (1 * 101325)) as (s & Hs & P1 & P2 & Hd);
    [apply (atm_denotes _ _ reg); exact Hq|lra|].
  exists (mkQ one u reg), s, (trace (calculate_reflected_shock_state L T (mkQ one u reg) x mech reg p)).
  split; [exact Hq|]. split; [exact P1|]. split; [exact (shock_creates L _ _ _ _ _ _ _ Hp Hs)|].
  unfold shock_at. unfold io_bind at 1. unfold value in Hs. rewrite Hs.
  assert (El : load_factor tube_id tube_od E rho nu f s = Ok (INR n))
    by (apply load_factor_inv; exists n; auto).
  rewrite El, bind_pure_ok. cbn [q_mag]. rnum. rewrite pydiv_ok by exact HM.
  rewrite bind_pure_ok. unfold after, trace.
  replace (one * INR n / q_mag max_pressure - one) with (INR n / q_mag max_pressure - 1)
    by (rewrite one_R; field; exact HM).
  reflexivity.
Qed.

(** C33.  With such chemistry one update reaches max_pressure / (dlf * ratio) exactly and
    the search stops there. *)
Theorem C33_one_update :
  forall {G X} (L : cantera R G X) tube_id tube_od T x mech max_pressure E rho nu f reg tol
         max_iterations p return_dlf ratio ratio_cj n M r,
    proportional L tube_id tube_od T x mech E rho nu f reg p ratio ratio_cj n ->
    0 < ratio -> any_pool p ->
    is_in max_pressure M "Pa" r -> 0 < M ->
    Rabs tol < Rabs (INR n / M - 1) -> (1 <= max_iterations)%Z ->
    let call := calculate_max_initial_pressure L tube_id tube_od T x mech max_pressure E rho nu f
                  true reg tol max_iterations p "reflected" return_dlf in
    exists q,
      value call = Ok (if return_dlf then PressureAndFactor q (INR n) else Pressure q)
      /\ stands_for q d_pressure (M / (INR n * ratio)) reg
      /\ gases_created (trace call) = (172 * 2)%nat.
Proof.
  intros * Hprop Hr Hp (_ & HM & _) HM0 He Hit call. subst M.
  pose proof (n_pos L _ _ _ _ _ _ _ _ _ _ _ _ _ _ Hprop) as Hn0.
  destruct (search_start L tube_id tube_od T x mech max_pressure E rho nu f true reg tol
              max_iterations p "reflected" return_dlf AtReflected ratio ratio_cj n eq_refl Hprop Hp
              ltac:(lra)) as (q0 & s0 & tr0 & Hq0 & Hs0 & Htr0 & Ecall).
  unfold call. rewrite Ecall. clear Ecall call.
  destruct (Z.to_nat max_iterations) as [|b] eqn:Eb; [lia|].
  destruct (loop_step L tube_id tube_od T x mech max_pressure E rho nu f true reg p AtReflected
              ratio ratio_cj n Hprop Hr HM0 Hp b (Rabs tol) _ q0 (INR n) s0 1 Hq0 ltac:(lra) Hn0 Hs0 He)
    as (q1 & s1 & tr1 & Hq1 & Hs1 & Htr1 & El).
  rewrite El, loop_stops.
  - exists q1. unfold after, value, trace, io_bind, ret, used_factor. cbn [fst snd].
    split; [destruct return_dlf; reflexivity|].
    split.
    + apply atm_stands in Hq1.
      replace (q_mag max_pressure / (INR n * ratio) / 101325 * 101325)
        with (q_mag max_pressure / (INR n * ratio)) in Hq1 by (field; lra). exact Hq1.
    + rewrite !created_app, Htr0, Htr1. reflexivity.
  - unfold state_ratio, used_factor.
    replace ((ratio * (q_mag max_pressure / (INR n * ratio)) * INR n - q_mag max_pressure)
             / q_mag max_pressure) with 0 by (field; lra).
    rewrite Rabs_R0. apply Rabs_pos.
Qed.
Print Assumptions C33_one_update.

(** Without the dynamic load factor: max_pressure / ratio after two updates (the first
    update still divides by the tube's load factor, which is then found not to apply). *)
Theorem C33_without_load_factor :
  forall {G X} (L : cantera R G X) tube_id tube_od T x mech max_pressure E rho nu f reg tol
         max_iterations p return_dlf ratio ratio_cj n M r,
    proportional L tube_id tube_od T x mech E rho nu f reg p ratio ratio_cj n ->
    0 < ratio -> any_pool p ->
    is_in max_pressure M "Pa" r -> 0 < M ->
    Rabs tol < Rabs (INR n / M - 1) -> Rabs tol < Rabs (1 / INR n - 1) ->
    (2 <= max_iterations)%Z ->
    let call := calculate_max_initial_pressure L tube_id tube_od T x mech max_pressure E rho nu f
                  false reg tol max_iterations p "reflected" return_dlf in
    exists q,
      value call = Ok (if return_dlf then PressureAndFactor q 1 else Pressure q)
      /\ stands_for q d_pressure (M / ratio) reg
      /\ gases_created (trace call) = (172 * 3)%nat.
Proof.
  intros * Hprop Hr Hp (_ & HM & _) HM0 He He1 Hit call. subst M.
  pose proof (n_pos L _ _ _ _ _ _ _ _ _ _ _ _ _ _ Hprop) as Hn0.
  destruct (search_start L tube_id tube_od T x mech max_pressure E rho nu f false reg tol
              max_iterations p "reflected" return_dlf AtReflected ratio ratio_cj n eq_refl Hprop Hp
              ltac:(lra)) as (q0 & s0 & tr0 & Hq0 & Hs0 & Htr0 & Ecall).
  unfold call. rewrite Ecall. clear Ecall call.
  destruct (Z.to_nat max_iterations) as [|[|b]] eqn:Eb; [lia|lia|].
  destruct (loop_step L tube_id tube_od T x mech max_pressure E rho nu f false reg p AtReflected
              ratio ratio_cj n Hprop Hr HM0 Hp (S b) (Rabs tol) _ q0 (INR n) s0 1 Hq0 ltac:(lra) Hn0 Hs0 He)
    as (q1 & s1 & tr1 & Hq1 & Hs1 & Htr1 & El).
  rewrite El. unfold state_ratio, used_factor in El |- *. cbv iota in *.
  assert (Hpos : 0 < q_mag max_pressure / (INR n * ratio) / 101325).
  { apply Rdiv_lt_0_compat; [|lra]. apply Rdiv_lt_0_compat; [lra|]. apply Rmult_lt_0_compat; lra. }
  assert (Herr2 : Rabs tol < Rabs ((ratio * (q_mag max_pressure / (INR n * ratio)) * 1
                                    - q_mag max_pressure) / q_mag max_pressure)).
  { replace ((ratio * (q_mag max_pressure / (INR n * ratio)) * 1 - q_mag max_pressure)
             / q_mag max_pressure) with (1 / INR n - 1) by (field; lra). exact He1. }
  destruct (loop_step L tube_id tube_od T x mech max_pressure E rho nu f false reg p AtReflected
              ratio ratio_cj n Hprop Hr HM0 Hp b (Rabs tol) _ q1 1 s1 _ Hq1 Hpos ltac:(lra) Hs1 Herr2)
    as (q2 & s2 & tr2 & Hq2 & Hs2 & Htr2 & El2).
  rewrite El2, loop_stops.
  - exists q2. unfold after, value, trace, io_bind, ret, used_factor. cbn [fst snd].
    split; [destruct return_dlf; reflexivity|].
    split.
    + apply atm_stands in Hq2.
      replace (q_mag max_pressure / (1 * ratio) / 101325 * 101325)
        with (q_mag max_pressure / ratio) in Hq2 by (field; lra). exact Hq2.
    + rewrite !created_app, Htr0, Htr1, Htr2. reflexivity.
  - unfold state_ratio, used_factor.
    replace ((ratio * (q_mag max_pressure / (1 * ratio)) * 1 - q_mag max_pressure)
             / q_mag max_pressure) with 0 by (field; lra).
    rewrite Rabs_R0. apply Rabs_pos.
Qed.
Print Assumptions C33_without_load_factor.

(** C34.  What max_pressure_state = "cj" does on such chemistry: the update never looks at
    the CJ pressure, so the search uses up max_iterations and returns the pressure that
    max_pressure_state = "reflected" returns. *)
Theorem C34_cj_search :
  forall {G X} (L : cantera R G X) tube_id tube_od T x mech max_pressure E rho nu f reg tol
         max_iterations p return_dlf ratio ratio_cj n M r,
    proportional L tube_id tube_od T x mech E rho nu f reg p ratio ratio_cj n ->
    0 < ratio -> any_pool p ->
    is_in max_pressure M "Pa" r -> 0 < M ->
    Rabs tol < Rabs (INR n / M - 1) -> (1 <= max_iterations)%Z ->
    Rabs tol < Rabs (ratio_cj / ratio - 1) ->
    let call := calculate_max_initial_pressure L tube_id tube_od T x mech max_pressure E rho nu f
                  true reg tol max_iterations p "cj" return_dlf in
    exists q,
      value call = Ok (if return_dlf then PressureAndFactor q (INR n) else Pressure q)
      /\ stands_for q d_pressure (M / (INR n * ratio)) reg
      /\ gases_created (trace call) = (172 * (1 + Z.to_nat max_iterations))%nat.
Proof.
  intros * Hprop Hr Hp (_ & HM & _) HM0 He Hit Hcj call. subst M.
  pose proof (n_pos L _ _ _ _ _ _ _ _ _ _ _ _ _ _ Hprop) as Hn0.
  set (M := q_mag max_pressure) in *.
  destruct (search_start L tube_id tube_od T x mech max_pressure E rho nu f true reg tol
              max_iterations p "cj" return_dlf AtCj ratio ratio_cj n eq_refl Hprop Hp
              ltac:(unfold M in *; lra)) as (q0 & s0 & tr0 & Hq0 & Hs0 & Htr0 & Ecall).
  unfold call. rewrite Ecall. clear Ecall call.
  assert (Hloop : forall b q s m err, is_in q m "atm" reg -> 0 < m ->
      ct_P L (reflected_state s) = ratio * (m * 101325) -> Rabs tol < Rabs err ->
      exists q' tr,
        is_in q' (M / (INR n * ratio) / 101325) "atm" reg
        /\ gases_created tr = (172 * S b)%nat
        /\ pressure_loop L tube_id tube_od T x mech max_pressure E rho nu f true reg p AtCj
             (S b) (Rabs tol) err q (INR n) s = (tr, Ok (q', INR n))).
  { induction b as [|b IH]; intros q s m err Hq Hm Hs Herr.
    - destruct (loop_step L tube_id tube_od T x mech max_pressure E rho nu f true reg p AtCj
                  ratio ratio_cj n Hprop Hr HM0 Hp 0 (Rabs tol) err q (INR n) s m Hq Hm Hn0 Hs Herr)
        as (q1 & s1 & tr1 & Hq1 & Hs1 & Htr1 & El).
      exists q1, tr1. split; [exact Hq1|]. split; [rewrite Htr1; lia|].
      rewrite El. cbn [pressure_loop]. destruct (nltb _ _);
        unfold after, ret, used_factor; cbn [fst snd]; rewrite app_nil_r; reflexivity.
    - destruct (loop_step L tube_id tube_od T x mech max_pressure E rho nu f true reg p AtCj
                  ratio ratio_cj n Hprop Hr HM0 Hp (S b) (Rabs tol) err q (INR n) s m Hq Hm Hn0 Hs Herr)
        as (q1 & s1 & tr1 & Hq1 & Hs1 & Htr1 & El).
      assert (Hpos : 0 < M / (INR n * ratio) / 101325).
      { apply Rdiv_lt_0_compat; [|lra]. apply Rdiv_lt_0_compat; [exact HM0|].
        apply Rmult_lt_0_compat; lra. }
      destruct (IH q1 s1 _ ((state_ratio ratio ratio_cj AtCj * (M / (INR n * ratio))
                  * used_factor true n - M) / M) Hq1 Hpos Hs1) as (q2 & tr2 & Hq2 & Htr2 & E2).
      { unfold state_ratio, used_factor.
        replace ((ratio_cj * (M / (INR n * ratio)) * INR n - M) / M) with (ratio_cj / ratio - 1)
          by (field; lra). exact Hcj. }
      exists q2, (tr1 ++ tr2)%list. split; [exact Hq2|].
      split; [rewrite created_app, Htr1, Htr2; lia|].
      rewrite El. unfold used_factor at 2. fold M. rewrite E2. reflexivity. }
  destruct (Z.to_nat max_iterations) as [|b] eqn:Eb; [lia|].
  destruct (Hloop b q0 s0 1 _ Hq0 ltac:(lra) Hs0 He) as (q1 & tr1 & Hq1 & Htr1 & El).
  fold M; rewrite El. exists q1. unfold after, value, trace, io_bind, ret. cbn [fst snd].
  split; [destruct return_dlf; reflexivity|].
  split.
  - apply atm_stands in Hq1.
    replace (M / (INR n * ratio) / 101325 * 101325) with (M / (INR n * ratio)) in Hq1 by (field; lra).
    exact Hq1.
  - rewrite !created_app, Htr0, Htr1. cbn [gases_created filter length]. lia.
Qed.
Print Assumptions C34_cj_search.

(** C35.  What the function does instead: only the number in max_pressure counts, not its
    unit (or registry). *)
Theorem C35_unit_ignored :
  forall {A G X} {NA : Num A} (L : cantera A G X) tube_id tube_od T x mech max_pressure max_pressure'
         E rho nu f use reg tol max_iterations p name return_dlf,
    q_mag max_pressure = q_mag max_pressure' ->
    calculate_max_initial_pressure L tube_id tube_od T x mech max_pressure E rho nu f use
      reg tol max_iterations p name return_dlf
    = calculate_max_initial_pressure L tube_id tube_od T x mech max_pressure' E rho nu f use
      reg tol max_iterations p name return_dlf.
Proof.
  intros. destruct max_pressure as [m u r], max_pressure' as [m' u' r']. cbn in *. subst m'.
  reflexivity.
Qed.
Print Assumptions C35_unit_ignored.

(** C80.  When the search makes no update: exactly when the number in max_pressure is within
    the tolerance of the load factor at 1 atm, or no iterations are allowed.  It then
    returns 1 atm whatever the chemistry says. *)
Theorem C80_no_update :
  forall {G X} (L : cantera R G X) tube_id tube_od T x mech max_pressure E rho nu f use
         reg tol max_iterations p name w return_dlf a,
    names name w ->
    value (calculate_max_initial_pressure L tube_id tube_od T x mech max_pressure E rho nu f
             use reg tol max_iterations p name return_dlf) = Ok a ->
    exists first updates,
      is_search L tube_id tube_od T x mech E rho nu f use reg p (q_mag max_pressure)
        (first :: updates)
      /\ reports return_dlf (last (first :: updates) first) a
      /\ (updates = []
          <-> Rabs (factor first / q_mag max_pressure - 1) <= Rabs tol \/ (max_iterations <= 0)%Z).
Proof.
  intros * Hn H. apply names_state in Hn.
  destruct (search_inv L _ _ _ _ _ _ _ _ _ _ _ _ _ _ _ _ _ _ _ Hn H)
    as (t & ts & Hs & Hr & Hl & Hnil & Hcons & _).
  exists t, ts. split; [exact Hs|]. split; [exact Hr|]. split.
  - intros ->. destruct (Hnil eq_refl) as [?|?]; [left; assumption|right; lia].
  - intros Hor. destruct ts as [|u us]; [reflexivity|].
    specialize (Hcons ltac:(discriminate)). cbn [length] in Hl.
    destruct Hor as [Hor|Hor]; [lra|lia].
Qed.
Print Assumptions C80_no_update.

(** C81.  Any name but "reflected" and "cj" raises ValueError before any chemistry; bad
    tube arguments raise ValueError after the evaluation at 1 atm. *)
Theorem C81_bad_state_name :
  forall {A G X} {NA : Num A} (L : cantera A G X) tube_id tube_od T x mech max_pressure E rho nu f use
         reg tol max_iterations p name return_dlf,
    name <> "reflected"%string -> name <> "cj"%string ->
    let call := calculate_max_initial_pressure L tube_id tube_od T x mech max_pressure E rho nu f
                  use reg tol max_iterations p name return_dlf in
    is_value_error (value call) /\ trace call = [].
Proof.
  intros * H1 H2 call. unfold call, calculate_max_initial_pressure, which_state.
  destruct (String.eqb_spec name "reflected") as [->|_]; [contradiction|].
  destruct (String.eqb_spec name "cj") as [->|_]; [contradiction|].
  split; [eexists; reflexivity|reflexivity].
Qed.
Print Assumptions C81_bad_state_name.
Theorem C81_bad_tube :
  forall {G X} (L : cantera R G X) tube_id tube_od T x mech max_pressure E rho nu f use
         reg tol max_iterations p name w return_dlf,
    names name w -> any_pool p ->
    (forall q, is_in q 1 "atm" reg ->
       exists s, value (calculate_reflected_shock_state L T q x mech reg p) = Ok s) ->
    (forall v, is_value_error (dynamic_load_factor tube_id tube_od v E rho nu f)) ->
    let call := calculate_max_initial_pressure L tube_id tube_od T x mech max_pressure E rho nu f
                  use reg tol max_iterations p name return_dlf in
    is_value_error (value call) /\ gases_created (trace call) = 172%nat.
Proof.
  intros * Hn Hp Hc Hd call. apply names_state in Hn. unfold call, calculate_max_initial_pressure.
  rewrite Hn.
  destruct (lookup_unit "atm") as [u|] eqn:Eu; [|discriminate].
  assert (Eq : quant reg one "atm" = Ok (mkQ one u reg)) by (unfold quant; rewrite Eu; reflexivity).
  rewrite Eq, bind_pure_ok.
  destruct (Hc (mkQ one u reg)) as (s & Hs).
  { split; [exact Eu|]. split; [apply one_R|reflexivity]. }
  pose proof (shock_creates L T _ x mech reg p s Hp Hs) as Ht.
  unfold shock_at. rewrite (bind_value _ s _ Hs).
  destruct (Hd (cj_wave_speed s)) as (m & Em). unfold load_factor. rewrite Em. cbn [bind].
  rewrite bind_pure_err. split; [exists m; reflexivity|].
  rewrite trace_after, created_app, Ht. reflexivity.
Qed.
Print Assumptions C81_bad_tube.

(** C82.  The factor returned with return_dlf: with use_dynamic_load_factor, the load factor
    for the CJ speed at the returned pressure; without, 1 if at least one update was made. *)
Theorem C82_returned_factor_partial :
  forall {G X} (L : cantera R G X) tube_id tube_od T x mech max_pressure E rho nu f use
         reg tol max_iterations p name w q k,
    names name w ->
    value (calculate_max_initial_pressure L tube_id tube_od T x mech max_pressure E rho nu f
             use reg tol max_iterations p name true) = Ok (PressureAndFactor q k) ->
    exists s, value (calculate_reflected_shock_state L T q x mech reg p) = Ok s
      /\ (use = true -> factor_of tube_id tube_od E rho nu f s k)
      /\ (use = false -> ~ is_in q 1 "atm" reg -> k = 1).
Proof.
  intros * Hn H. apply names_state in Hn.
  destruct (search_inv L _ _ _ _ _ _ _ _ _ _ _ _ _ _ _ _ _ _ _ Hn H)
    as (t & ts & (Hfirst & Hc) & Hr & _).
  unfold reports in Hr. remember (last (t :: ts) t) as t' eqn:Et'.
  injection Hr as -> ->.
  assert (Hcase : t' = t \/ exists b, consecutive (t :: ts) b t').
  { subst t'. clear. revert t. induction ts as [|c ts IH] using rev_ind; intros t; [left; reflexivity|].
    right. rewrite app_comm_cons, last_last. destruct (exists_last (l := t :: ts) ltac:(discriminate))
      as (l & b & E). exists b. rewrite E. exists l, []. rewrite <- app_assoc. reflexivity. }
  destruct Hcase as [E1|(b & Hb)].
  - rewrite E1. destruct Hfirst as (Hq & He & Hf). exists (shocks t).
    split; [exact He|]. split; [intros _; exact Hf|]. intros _ Hno. contradiction.
  - destruct (Hc _ _ Hb) as (Hm & He & Hf). exists (shocks t').
    split; [exact He|]. split; intros ->; [exact Hf|]. intros _. exact Hf.
Qed.
Print Assumptions C82_returned_factor_partial.

(** C83.  The unit of the initial temperature does not matter: same effects, same result. *)
Theorem C83_temperature_unit :
  forall {G X} (L : cantera R G X) tube_id tube_od T T' v x mech max_pressure E rho nu f use
         reg tol max_iterations p name return_dlf,
    denotes (PQuant T) d_temperature v -> denotes (PQuant T') d_temperature v ->
    calculate_max_initial_pressure L tube_id tube_od T x mech max_pressure E rho nu f use
      reg tol max_iterations p name return_dlf
    = calculate_max_initial_pressure L tube_id tube_od T' x mech max_pressure E rho nu f use
      reg tol max_iterations p name return_dlf.
Proof.
  intros * HT HT'.
  assert (EK : in_unit T "K" = in_unit T' "K").
  { destruct (parse_denotes _ _ _ (q_reg T) HT) as (q & Eq & Pq).
    destruct (parse_denotes _ _ _ (q_reg T') HT') as (q' & Eq' & Pq').
    cbn [parse_quant_input] in Eq, Eq'. injection Eq as Eq. injection Eq' as Eq'.
    assert (q = T) as -> by (rewrite <- Eq; destruct T; reflexivity).
    assert (q' = T') as -> by (rewrite <- Eq'; destruct T'; reflexivity).
    rewrite (in_unit_K _ _ _ Pq), (in_unit_K _ _ _ Pq'). reflexivity. }
  assert (Hshock : forall q, shock_at L T x mech reg p q = shock_at L T' x mech reg p q).
  { intros q. unfold shock_at, calculate_reflected_shock_state. rewrite EK. reflexivity. }
  unfold calculate_max_initial_pressure. destruct (which_state name) as [w|]; [|reflexivity].
  assert (Hloop : forall b tol err q k s,
    pressure_loop L tube_id tube_od T x mech max_pressure E rho nu f use reg p w b tol err q k s
    = pressure_loop L tube_id tube_od T' x mech max_pressure E rho nu f use reg p w b tol err q k s).
  { induction b as [|b IH]; intros; cbn [pressure_loop]; [reflexivity|].
    destruct (nltb _ _); [|reflexivity].
    apply io_bind_ext. intros q'. rewrite Hshock. apply io_bind_ext. intros s'.
    apply io_bind_ext. intros k'. apply io_bind_ext. intros e'. apply IH. }
  apply io_bind_ext. intros q'. rewrite Hshock. apply io_bind_ext. intros s'.
  apply io_bind_ext. intros k'. apply io_bind_ext. intros e'. rewrite Hloop. reflexivity.
Qed.
Print Assumptions C83_temperature_unit.

(** C84.  Multiprocessing changes nothing: whatever order the workers finish in, the call
    returns what the serial call returns, and raises when that raises. *)
Lemma shock_workers {A G X} {NA : Num A} (L : cantera A G X) schedule T P x mech reg s :
  reorders schedule ->
  value (calculate_reflected_shock_state L T P x mech reg (Workers schedule)) = Ok s
  <-> value (calculate_reflected_shock_state L T P x mech reg Serial) = Ok s.
Proof.
  intros Hs. unfold calculate_reflected_shock_state.
  rewrite !value_bind. destruct (value (new_solution _ _ _)); cbn [bind]; [|tauto].
  rewrite !value_bind. destruct (value (new_solution _ _ _)); cbn [bind]; [|tauto].
  rewrite !value_bind. destruct (value (pure (in_unit T "K"))) as [Tk|]; cbn [bind]; [|tauto].
  rewrite !value_bind. destruct (value (pure (in_unit P "Pa"))) as [Pp|]; cbn [bind]; [|tauto].
  rewrite !value_bind. destruct (value (set_TPX _ _ _ _ _)); cbn [bind]; [|tauto].
  rewrite !value_bind. destruct (value (set_TPX _ _ _ _ _)); cbn [bind]; [|tauto].
  rewrite !value_bind.
  split; intros H.
  - destruct (value (cj_speed L Pp Tk x mech (Workers schedule) false true)) as [d|] eqn:E;
      cbn [bind] in H; [|discriminate].
    apply (cj_speed_workers L schedule) in E; [|exact Hs]. rewrite E. exact H.
  - destruct (value (cj_speed L Pp Tk x mech Serial false true)) as [d|] eqn:E;
      cbn [bind] in H; [|discriminate].
    apply (cj_speed_workers L schedule) in E; [|exact Hs]. rewrite E. exact H.
Qed.

Lemma bind_ok_iff {A B C} (m m' : io A B) (f f' : B -> io A C) c :
  (forall b, value m = Ok b <-> value m' = Ok b) ->
  (forall b, value m = Ok b -> value (f b) = Ok c <-> value (f' b) = Ok c) ->
  value (io_bind m f) = Ok c <-> value (io_bind m' f') = Ok c.
Proof.
  intros Hm Hf. rewrite !value_bind. split; intros H.
  - destruct (value m) as [b|] eqn:E; [|discriminate].
    rewrite (proj1 (Hm b) eq_refl). cbn [bind] in *. apply (Hf b eq_refl). exact H.
  - destruct (value m') as [b|] eqn:E; [|discriminate].
    pose proof (proj2 (Hm b) eq_refl) as Eb. rewrite Eb. cbn [bind] in *.
    apply (Hf b Eb). exact H.
Qed.

Theorem C84_multiprocessing :
  forall {A G X} {NA : Num A} (L : cantera A G X) schedule tube_id tube_od T x mech max_pressure
         E rho nu f use reg tol max_iterations name return_dlf a,
    reorders schedule ->
    value (calculate_max_initial_pressure L tube_id tube_od T x mech max_pressure E rho nu f use
      reg tol max_iterations (Workers schedule) name return_dlf) = Ok a
    <-> value (calculate_max_initial_pressure L tube_id tube_od T x mech max_pressure E rho nu f use
      reg tol max_iterations Serial name return_dlf) = Ok a.
Proof.
  intros * Hs. unfold calculate_max_initial_pressure.
  destruct (which_state name) as [w|]; [|exact (iff_refl _)].
  apply bind_ok_iff; [intros; exact (iff_refl _)|]. intros q _. cbv zeta.
  apply bind_ok_iff; [intros s; apply shock_workers; exact Hs|]. intros s _.
  apply bind_ok_iff; [intros; exact (iff_refl _)|]. intros k _.
  apply bind_ok_iff; [intros; exact (iff_refl _)|]. intros e _.
  apply bind_ok_iff; [|intros [? ?] _; exact (iff_refl _)].
  generalize (e - one)%num. generalize (nabs tol). revert q s k. clear e.
  induction (Z.to_nat max_iterations) as [|b IH]; intros q s k tol' err [q' k'];
    cbn [pressure_loop]; (destruct (nltb _ _); [|exact (iff_refl _)]); [exact (iff_refl _)|].
  apply bind_ok_iff; [intros; exact (iff_refl _)|]. intros q1 _.
  apply bind_ok_iff; [intros s1; apply shock_workers; exact Hs|]. intros s1 _.
  apply bind_ok_iff; [intros; exact (iff_refl _)|]. intros k1 _.
  apply bind_ok_iff; [intros; exact (iff_refl _)|]. intros e1 _. apply IH.
Qed.
Print Assumptions C84_multiprocessing.

(** ** The invented gas in a tube *)
Definition tube_E : quantity R := si (2 * sqrt 3) d_pressure.
Definition ratio_r : R := (101325 + 32000000/9) / 101325.
Definition ratio_c : R := (101325 + 16000000/9) / 101325.

(** Critical velocity 2 m/s (C18_case): at 2000 m/s the load factor is 2. *)
Lemma example_factor v : is_in v 2000 "m/s" 0 ->
  dynamic_load_factor (si 0 d_length) (si 1 d_length) v tube_E (si 1 d_density) 0 (1/10) = Ok 2%nat.
Proof.
  intros (E1 & E2 & E3). pose proof (sqrt_pos 3). pose proof (sqrt_sqrt 3 ltac:(lra)).
  assert (E' : lookup_unit "m/s" = Some (mult_unit d_velocity (@one R _))) by reflexivity.
  rewrite E' in E1. injection E1 as E1.
  refine (proj1 (proj2 (C18_dynamic_load_factor (si 0 d_length) (si 1 d_length) v tube_E (si 1 d_density)
            0 1 2000 (2 * sqrt 3) 1 0 (1/10) 2 (1/4) (1/2) 0%nat _ _ _ _ _ _ _ _ _ _ _ _ _ _ _ _)) _);
    try apply si_stands; try lra.
  unfold stands_for. rewrite <- E1, E2. cbn. rewrite one_R. repeat split; try lra. exact E3.
Qed.

Lemma example_proportional T mech p : denotes (PQuant T) d_temperature 300 -> any_pool p ->
  proportional example_gas (si 0 d_length) (si 1 d_length) T fresh mech tube_E
    (si 1 d_density) 0 (1/10) 0 p ratio_r ratio_c 2.
Proof.
  intros HT Hp q P HP H0.
  destruct (example_shock_states T q P mech 0 p HT HP H0 Hp) as (s & Hs & Hv & _ & H1 & H2).
  exists s. split; [exact Hs|]. unfold ratio_r, ratio_c. rewrite H1, H2.
  split; [field|]. split; [field|]. apply example_factor. exact Hv.
Qed.

Definition room : quantity R := mkQ 300 (mult_unit d_temperature one) 0.
Lemma room_300 : denotes (PQuant room) d_temperature 300.
Proof.
  apply denotes_quantity; [split; cbn; [rewrite one_R; lra|congruence]|reflexivity|].
  unfold worth. cbn. rewrite one_R. lra.
Qed.
Lemma ratio_r_pos : 0 < ratio_r. Proof. unfold ratio_r. lra. Qed.

Definition search (max_pressure : quantity R) (name : string) (use : bool) : io R (answer R) :=
  calculate_max_initial_pressure example_gas (si 0 d_length) (si 1 d_length) room fresh "gri30.cti"
    max_pressure tube_E (si 1 d_density) 0 (1/10) use 0 (1/10000) 500 Serial name true.
Definition megapascals (m : R) : quantity R := mkQ m (mult_unit d_pressure (lit 1000000)%num) 0.

Lemma Pa_in x : is_in (si x d_pressure) x "Pa" 0.
Proof. repeat split. Qed.
Lemma tol_abs : Rabs (1/10000) = 1/10000.
Proof. apply Rabs_pos_eq. lra. Qed.

(** C31, C32, C33: a limit of 1 MPa. *)
Example example_search : exists q,
  value (search (si 1000000 d_pressure) "reflected" true) = Ok (PressureAndFactor q 2)
  /\ stands_for q d_pressure (1000000 / (2 * ratio_r)) 0.
Proof.
  destruct (C33_one_update example_gas (si 0 d_length) (si 1 d_length) room fresh "gri30.cti"
              (si 1000000 d_pressure) tube_E (si 1 d_density) 0 (1/10) 0 (1/10000) 500 Serial true
              ratio_r ratio_c 2 1000000 0
              (example_proportional room "gri30.cti" Serial room_300 (or_introl eq_refl))
              ratio_r_pos (or_introl eq_refl) (Pa_in _)) as (q & Hv & Hq & _).
  - lra.
  - rewrite tol_abs. cbn [INR]. rewrite Rabs_left; lra.
  - lia.
  - exists q. cbn [INR] in *. replace (1 + 1) with 2 in * by lra. split; assumption.
Qed.

(** C34: with "cj" the same limit gives the same initial pressure, although the CJ pressure
    there, times the load factor, is little more than half of 1 MPa. *)
Theorem C34_refuted : exists q s,
  value (search (si 1000000 d_pressure) "cj" true) = Ok (PressureAndFactor q 2)
  /\ stands_for q d_pressure (1000000 / (2 * ratio_r)) 0
  /\ value (calculate_reflected_shock_state example_gas room q fresh "gri30.cti" 0 Serial) = Ok s
  /\ ct_P example_gas (cj_gas_state s) * 2 < 6/10 * 1000000.
Proof.
  destruct (C34_cj_search example_gas (si 0 d_length) (si 1 d_length) room fresh "gri30.cti"
              (si 1000000 d_pressure) tube_E (si 1 d_density) 0 (1/10) 0 (1/10000) 500 Serial true
              ratio_r ratio_c 2 1000000 0
              (example_proportional room "gri30.cti" Serial room_300 (or_introl eq_refl))
              ratio_r_pos (or_introl eq_refl) (Pa_in _)) as (q & Hv & Hq & _).
  - lra.
  - rewrite tol_abs. cbn [INR]. rewrite Rabs_left; lra.
  - lia.
  - rewrite tol_abs. assert (E : ratio_c / ratio_r - 1 = - (16000000/9) / (101325 + 32000000/9))
      by (unfold ratio_c, ratio_r; field). rewrite E. rewrite Rabs_left.
    + assert (1/10000 * (101325 + 32000000/9) < 16000000/9) by lra.
      apply Rmult_lt_reg_r with (101325 + 32000000/9); [lra|].
      replace (- (- (16000000/9) / (101325 + 32000000/9)) * (101325 + 32000000/9))
        with (16000000/9) by field. lra.
    + apply Rmult_lt_reg_r with (101325 + 32000000/9); [lra|].
      replace (- (16000000/9) / (101325 + 32000000/9) * (101325 + 32000000/9))
        with (- (16000000/9)) by field. lra.
  - cbn [INR] in *. replace (1 + 1) with 2 in * by lra.
    assert (Hpos : 0 < 1000000 / (2 * ratio_r)).
    { apply Rdiv_lt_0_compat; [lra|]. pose proof ratio_r_pos. lra. }
    destruct Hq as (Q1 & Q2 & Q3 & Q4 & Q5).
    destruct (example_proportional room "gri30.cti" Serial room_300 (or_introl eq_refl) q
                (1000000 / (2 * ratio_r))) as (s & Hs & _ & Hc & _).
    { apply denotes_quantity; [|exact Q1|].
      - split; [exact Q3|]. rewrite Q2. congruence.
      - unfold worth. rewrite Q2. lra. }
    { exact Hpos. }
    exists q, s. split; [exact Hv|]. split; [repeat split; assumption|]. split; [exact Hs|].
    rewrite Hc. unfold ratio_c, ratio_r.
    replace ((101325 + 16000000/9) / 101325 * (1000000 / (2 * ((101325 + 32000000/9) / 101325))) * 2)
      with (1000000 * (101325 + 16000000/9) / (101325 + 32000000/9)) by field.
    apply Rmult_lt_reg_r with (101325 + 32000000/9); [lra|].
    unfold Rdiv at 1. rewrite Rmult_assoc, Rinv_l by lra. lra.
Qed.
Print Assumptions C34_refuted.

(** C35: 1 MPa and 1000000 Pa are the same pressure; the answers differ by a factor of a
    million. *)
Theorem C35_refuted : exists q q',
  value (search (si 1000000 d_pressure) "reflected" true) = Ok (PressureAndFactor q 2)
  /\ value (search (megapascals 1) "reflected" true) = Ok (PressureAndFactor q' 2)
  /\ stands_for q d_pressure (1000000 / (2 * ratio_r)) 0
  /\ stands_for q' d_pressure (1 / (2 * ratio_r)) 0.
Proof.
  destruct example_search as (q & Hv & Hq).
  assert (E1 : search (megapascals 1) "reflected" true = search (si 1 d_pressure) "reflected" true)
    by (unfold search; apply C35_unit_ignored; reflexivity).
  destruct (C33_one_update example_gas (si 0 d_length) (si 1 d_length) room fresh "gri30.cti"
              (si 1 d_pressure) tube_E (si 1 d_density) 0 (1/10) 0 (1/10000) 500 Serial true
              ratio_r ratio_c 2 1 0
              (example_proportional room "gri30.cti" Serial room_300 (or_introl eq_refl))
              ratio_r_pos (or_introl eq_refl) (Pa_in _)) as (q' & Hv' & Hq' & _).
  - lra.
  - rewrite tol_abs. cbn [INR]. rewrite Rabs_right; lra.
  - lia.
  - cbn [INR] in *. replace (1 + 1) with 2 in * by lra.
    exists q, q'. rewrite E1. repeat (split; [assumption|]). exact Hq'.
Qed.
Print Assumptions C35_refuted.

(** C80: a limit of 2 MPa.  The first test compares the numbers 2 (load factor) and 2
    (megapascals) and the search stops: 1 atm, at which the tube sees 7.3 MPa. *)
Lemma example_no_update use : exists q,
  value (search (megapascals 2) "reflected" use) = Ok (PressureAndFactor q 2) /\ is_in q 1 "atm" 0.
Proof.
  unfold search.
  destruct (search_start example_gas (si 0 d_length) (si 1 d_length) room fresh "gri30.cti"
              (megapascals 2) tube_E (si 1 d_density) 0 (1/10) use 0 (1/10000) 500 Serial
              "reflected" true AtReflected ratio_r ratio_c 2 eq_refl
              (example_proportional room "gri30.cti" Serial room_300 (or_introl eq_refl))
              (or_introl eq_refl)) as (q0 & s0 & tr & Hq & _ & _ & E); [cbn; lra|].
  rewrite E, loop_stops.
  - exists q0. rewrite bind_ret. unfold after, value, ret. cbn [fst snd INR].
    replace (1 + 1) with 2 by lra. split; [reflexivity|exact Hq].
  - cbn [q_mag megapascals INR]. replace ((1 + 1) / 2 - 1) with 0 by lra.
    rewrite Rabs_R0. apply Rabs_pos.
Qed.
Theorem C80_refuted : exists q s,
  value (search (megapascals 2) "reflected" true) = Ok (PressureAndFactor q 2)
  /\ is_in q 1 "atm" 0
  /\ value (calculate_reflected_shock_state example_gas room q fresh "gri30.cti" 0 Serial) = Ok s
  /\ 3 * 2000000 < ct_P example_gas (reflected_state s) * 2.
Proof.
  destruct (example_no_update true) as (q & Hv & Hq).
  destruct (example_proportional room "gri30.cti" Serial room_300 (or_introl eq_refl) q (1 * 101325))
    as (s & Hs & Hr & _); [apply (atm_denotes _ _ 0); exact Hq|lra|].
  exists q, s. split; [exact Hv|]. split; [exact Hq|]. split; [exact Hs|]. rewrite Hr.
  unfold ratio_r. lra.
Qed.
Print Assumptions C80_refuted.

(** C82: with the same limit and use_dynamic_load_factor = False the factor returned is 2. *)
Theorem C82_refuted : exists q,
  value (search (megapascals 2) "reflected" false) = Ok (PressureAndFactor q 2).
Proof. destruct (example_no_update false) as (q & Hv & _). exists q. exact Hv. Qed.
Print Assumptions C82_refuted.

(** C33 without the load factor. *)
Example example_search_without_factor : exists q,
  value (search (si 1000000 d_pressure) "reflected" false) = Ok (PressureAndFactor q 1)
  /\ stands_for q d_pressure (1000000 / ratio_r) 0.
Proof.
  destruct (C33_without_load_factor example_gas (si 0 d_length) (si 1 d_length) room fresh "gri30.cti"
              (si 1000000 d_pressure) tube_E (si 1 d_density) 0 (1/10) 0 (1/10000) 500 Serial true
              ratio_r ratio_c 2 1000000 0
              (example_proportional room "gri30.cti" Serial room_300 (or_introl eq_refl))
              ratio_r_pos (or_introl eq_refl) (Pa_in _)) as (q & Hv & Hq & _).
  - lra.
  - rewrite tol_abs. cbn [INR]. rewrite Rabs_left; lra.
  - rewrite tol_abs. cbn [INR]. rewrite Rabs_left; lra.
  - lia.
  - exists q. split; assumption.
Qed.

(** C81: a band of +-200 %. *)
Example C81_case : forall v,
  is_value_error (dynamic_load_factor (si 0 d_length) (si 1 d_length) v tube_E (si 1 d_density) 0 2).
Proof.
  intros v.
  eapply C20_bad_arguments_rejected; try reflexivity.
  do 9 right. lra.
Qed.
