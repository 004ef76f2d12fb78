(** * SearchP: the search of calculate_max_initial_pressure on chemistry given by functions. *)
From Coq Require Import String ZArith QArith Reals Qreals List Bool Lra Lia Psatz Permutation.
From Verif Require Import PyBase Pint UnitsM Spec Gas GasP QLemmas FitM FitP FitSpec SdM SdSpec SdP
  SpeedSpec SpeedP ThermoM ThermoSpec ThermoP TubeM TubeP Properties_Speed
  Properties_Thermo InitPressureM InitPressureSpec InitPressureP Properties_Tube
  Properties_InitPressure SearchSpec.
Import ListNotations.
Local Open Scope R_scope.

Section Search.
  Context {G X : Type} (L : cantera R G X).
  Context (tube_id tube_od T : quantity R) (x : X) (mech : string) (max_pressure : quantity R)
          (E rho : quantity R) (nu f : R) (use : bool) (reg : nat) (p : pool R).
  Context (domain : R -> Prop) (peak : R -> R) (dlf : R -> nat).
  Let M := q_mag max_pressure.
  Let loop := pressure_loop L tube_id tube_od T x mech max_pressure E rho nu f use reg p AtReflected.
  Context (Hchem : chemistry L tube_id tube_od T x mech E rho nu f reg p domain peak dlf).
  Context (HM : 0 < M) (Hpool : any_pool p).

  Definition fac (P : R) : R := if use then INR (dlf P) else 1.

  Definition at_trial (q : quantity R) (s : shock_states R G) (P : R) : Prop :=
    is_in q (P / 101325) "atm" reg /\ 0 < P /\ ct_P L (reflected_state s) = peak P.

  Lemma pa_denotes q P : is_in q (P / 101325) "atm" reg -> denotes (PQuant q) d_pressure P.
  Proof.
    intros H. apply atm_denotes in H. replace (P / 101325 * 101325) with P in H by (field; lra). exact H.
  Qed.
  Lemma pa_stands q P : is_in q (P / 101325) "atm" reg -> stands_for q d_pressure P reg.
  Proof.
    intros H. apply atm_stands in H. replace (P / 101325 * 101325) with P in H by (field; lra). exact H.
  Qed.

  Lemma dlf_pos P : 0 < P -> domain P -> 1 <= INR (dlf P).
  Proof.
    intros HP Hd.
    destruct (Hchem (mkQ P (mult_unit d_pressure one) 0) P) as (s & _ & _ & Hf); auto.
    - apply denotes_quantity; [split; [cbn; rewrite one_R; lra|cbn; congruence]|reflexivity|].
      unfold worth. cbn. rewrite one_R. lra.
    - apply dlf_values in Hf. destruct Hf as [->|[->| ->]]; cbn; lra.
  Qed.

  (** one update *)
  Lemma search_step budget tol err q k s P P' : at_trial q s P -> 0 < k -> 0 < peak P ->
    P' = P * M / (k * peak P) -> domain P' -> tol < Rabs err ->
    exists q' s' tr,
      at_trial q' s' P' /\ gases_created tr = 172%nat
      /\ loop (S budget) tol err q k s
         = after tr (loop budget tol ((peak P' * fac P' - M) / M) q' (fac P') s').
  Proof.
    intros (Hq & HP & Hs) Hk Hpk EP' Hd' Herr. unfold loop. cbn [pressure_loop]. rnum.
    rewrite QLemmas.Rltb_true by exact Herr.
    assert (Hkp : 0 < k * peak P) by (apply Rmult_lt_0_compat; assumption).
    assert (Hn : k * ct_P L (reflected_state s) <> 0) by (rewrite Hs; lra).
    destruct (next_pressure_ok L max_pressure reg q k s _ Hq Hn) as (q' & -> & Hq').
    fold M in Hq'. rewrite bind_pure_ok.
    assert (Em : P / 101325 * M / (k * ct_P L (reflected_state s)) = P' / 101325).
    { rewrite Hs, EP'. field. lra. }
    rewrite Em in Hq'.
    assert (HP' : 0 < P').
    { rewrite EP'. apply Rdiv_lt_0_compat; [apply Rmult_lt_0_compat|]; assumption. }
    destruct (Hchem q' P' (pa_denotes _ _ Hq') HP' Hd') as (s' & Hs' & P1 & Hf).
    exists q', s', (trace (calculate_reflected_shock_state L T q' x mech reg p)).
    split; [split; [exact Hq'|split; [exact HP'|exact P1]]|].
    split; [exact (shock_creates L T q' x mech reg p s' Hpool Hs')|].
    unfold shock_at. unfold io_bind at 1. unfold value in Hs'. rewrite Hs'.
    change (fst ?a, snd ?a) with a.
    assert (Ef : (if use then load_factor tube_id tube_od E rho nu f s' else Ok one)
                 = Ok (fac P')).
    { unfold fac. destruct use; [|rewrite one_R; reflexivity].
      apply load_factor_inv. exists (dlf P'). auto. }
    rewrite Ef, bind_pure_ok. fold M.
    rewrite pydiv_ok by lra. rewrite bind_pure_ok. unfold after, trace.
    cbn [state_at]. rewrite P1. reflexivity.
  Qed.

  (** the call up to the loop *)
  Lemma search_begin tol max_iterations rd : domain 101325 ->
    exists q0 s0 tr,
      at_trial q0 s0 101325 /\ gases_created tr = 172%nat
      /\ calculate_max_initial_pressure L tube_id tube_od T x mech max_pressure E rho nu f use
           reg tol max_iterations p "reflected" rd
         = after tr
             (do (q, k) <- loop (Z.to_nat max_iterations) (Rabs tol)
                             (INR (dlf 101325) / M - 1) q0 (INR (dlf 101325)) s0;
              ret (if rd then PressureAndFactor q k else Pressure q)).
  Proof.
    intros Hd. unfold calculate_max_initial_pressure.
    change (which_state "reflected") with (Some AtReflected).
    destruct (lookup_unit "atm") as [u|] eqn:Eu; [|discriminate].
    assert (Eq : quant reg one "atm" = Ok (mkQ one u reg)) by (unfold quant; rewrite Eu; reflexivity).
    assert (Hq : is_in (mkQ one u reg) (101325 / 101325) "atm" reg).
    { split; [exact Eu|]. split; [cbn; rewrite one_R; field|reflexivity]. }
    rewrite Eq, bind_pure_ok.
    destruct (Hchem (mkQ one u reg) 101325) as (s & Hs & P1 & Hf);
      [apply pa_denotes; exact Hq|lra|exact Hd|].
    exists (mkQ one u reg), s, (trace (calculate_reflected_shock_state L T (mkQ one u reg) x mech reg p)).
    split; [split; [exact Hq|split; [lra|exact P1]]|].
    split; [exact (shock_creates L _ _ _ _ _ _ _ Hpool Hs)|].
    unfold shock_at. unfold io_bind at 1. unfold value in Hs. rewrite Hs.
    assert (El : load_factor tube_id tube_od E rho nu f s = Ok (INR (dlf 101325)))
      by (apply load_factor_inv; exists (dlf 101325); auto).
    rewrite El, bind_pure_ok. cbn [q_mag]. rnum. fold M. rewrite pydiv_ok by lra.
    rewrite bind_pure_ok. unfold after, trace.
    replace (one * INR (dlf 101325) / M - one) with (INR (dlf 101325) / M - 1)
      by (rewrite one_R; field; lra).
    reflexivity.
  Qed.

  (** ** Nearly proportional chemistry with one load factor *)
  Section Near.
    Context (n : nat) (eps W : R) (Hn : forall P, dlf P = n) (Heps : 0 <= eps < 1).
    Context (HW : forall P, domain P <-> around_1_atm W P).
    Context (Hnp : nearly_proportional domain peak eps).
    Let c := if use then INR n else 1.

    Lemma fac_c P : fac P = c.
    Proof. unfold fac, c. rewrite Hn. reflexivity. Qed.
    Lemma c_pos : 0 <= W -> 1 <= c.
    Proof.
      intros HW0. unfold c. destruct use; [|lra]. rewrite <- (Hn 101325). apply dlf_pos; [lra|].
      apply HW. unfold around_1_atm. rewrite Rminus_diag_eq, Rabs_R0 by reflexivity. exact HW0.
    Qed.

    Definition load (P : R) : R := ln (c * peak P / M).

    Lemma ln_div a b : 0 < a -> 0 < b -> ln (a / b) = ln a - ln b.
    Proof. intros Ha Hb. unfold Rdiv. rewrite ln_mult, ln_Rinv; auto using Rinv_0_lt_compat. Qed.

    Lemma ln_within y t : 0 <= t -> 0 < y -> Rabs (ln y) <= ln (1 + t) -> Rabs (y - 1) <= t.
    Proof.
      intros Ht Hy H. unfold Rabs in H; destruct (Rcase_abs (ln y)) as [r|r].
      - assert (H1 : - ln y <= ln (1 + t)) by lra. rewrite <- ln_Rinv in H1 by exact Hy.
        assert (Hi : 0 < / y) by (apply Rinv_0_lt_compat; exact Hy).
        destruct (Rle_lt_dec (/ y) (1 + t)) as [H2|H2].
        + assert (1 <= y * (1 + t)).
          { replace 1 with (y * / y) at 1 by (field; lra). apply Rmult_le_compat_l; lra. }
          assert (Hl : y < 1).
          { rewrite <- ln_1 in r. apply ln_lt_inv; lra. }
          apply Rabs_le. nra.
        + exfalso. assert (ln (1 + t) < ln (/ y)) by (apply ln_increasing; lra). lra.
      - destruct (Rle_lt_dec y (1 + t)) as [H2|H2].
        + assert (1 <= y).
          { destruct (Rle_lt_dec 1 y) as [|H3]; [assumption|exfalso].
            assert (ln y < ln 1) by (apply ln_increasing; lra). rewrite ln_1 in *. lra. }
          apply Rabs_le. lra.
        + exfalso. assert (ln (1 + t) < ln y) by (apply ln_increasing; lra). lra.
    Qed.
    Lemma within_ln y t : 0 <= t < 1 -> Rabs (y - 1) <= t -> Rabs (ln y) <= - ln (1 - t).
    Proof.
      intros Ht H. assert (H' : - t <= y - 1 <= t) by (unfold Rabs in H; destruct (Rcase_abs (y - 1)); lra).
      assert (H1 : ln (1 - t) <= ln y).
      { destruct (Rle_lt_or_eq_dec (1 - t) y) as [C|C]; [lra| |rewrite C; lra].
        apply Rlt_le, ln_increasing; lra. }
      assert (H2 : ln y <= - ln (1 - t)).
      { rewrite <- ln_Rinv by lra.
        assert (y <= / (1 - t)).
        { apply Rmult_le_reg_r with (1 - t); [lra|]. rewrite Rinv_l by lra. nra. }
        destruct (Rle_lt_or_eq_dec y (/ (1 - t))) as [C|C]; [lra| |rewrite C; lra].
        apply Rlt_le, ln_increasing; lra. }
      apply Rabs_le. lra.
    Qed.

    (** the load of a trial and how far the next one is from it *)
    Lemma load_split P : 0 < c -> 0 < P -> 0 < peak P ->
      load P = ln c + ln (peak P / P) + ln P - ln M.
    Proof.
      intros Hc HP Hpk. unfold load. rewrite ln_div by (auto; apply Rmult_lt_0_compat; assumption).
      rewrite ln_mult by assumption. rewrite ln_div by assumption. ring.
    Qed.

    Lemma near_loop N : forall budget tol q s P,
      at_trial q s P -> domain P -> 0 <= tol -> 0 < c ->
      Rabs (ln P - ln 101325) + Rabs (load P) / (1 - eps) <= W ->
      eps ^ N * Rabs (load P) <= ln (1 + tol) -> (N <= budget)%nat ->
      exists tr q' P',
        loop budget tol ((peak P * c - M) / M) q c s = (tr, Ok (q', c))
        /\ is_in q' (P' / 101325) "atm" reg /\ 0 < P' /\ domain P'
        /\ Rabs (c * peak P' - M) <= tol * M
        /\ (gases_created tr <= 172 * N)%nat.
    Proof.
      induction N as [|N IH]; intros budget tol q s P Hat Hd Ht Hc Hw Hl Hb;
        pose proof Hat as (Hq & HP & Hs);
        destruct (Hnp P P HP HP Hd Hd) as (Hpk & _ & _);
        assert (Hcp : 0 < c * peak P / M) by (apply Rdiv_lt_0_compat; [apply Rmult_lt_0_compat|]; assumption).
      - exists [], q, P. rewrite pow_O, Rmult_1_l in Hl.
        assert (Ha : Rabs ((peak P * c - M) / M) <= tol).
        { replace ((peak P * c - M) / M) with (c * peak P / M - 1) by (field; lra).
          apply ln_within; assumption. }
        unfold loop. rewrite loop_stops by exact Ha.
        split; [reflexivity|]. split; [exact Hq|]. split; [exact HP|]. split; [exact Hd|].
        split; [|cbn; lia].
        replace (c * peak P - M) with ((peak P * c - M) / M * M) by (field; lra).
        rewrite Rabs_mult, (Rabs_pos_eq M) by lra. apply Rmult_le_compat_r; lra.
      - destruct (Rle_dec (Rabs ((peak P * c - M) / M)) tol) as [Ha|Ha].
        + exists [], q, P. unfold loop. rewrite loop_stops by exact Ha.
          split; [reflexivity|]. split; [exact Hq|]. split; [exact HP|]. split; [exact Hd|].
          split; [|cbn; lia].
          replace (c * peak P - M) with ((peak P * c - M) / M * M) by (field; lra).
          rewrite Rabs_mult, (Rabs_pos_eq M) by lra. apply Rmult_le_compat_r; lra.
        + set (P' := P * M / (c * peak P)).
          assert (Hcpk : 0 < c * peak P) by (apply Rmult_lt_0_compat; assumption).
          assert (HP' : 0 < P') by (apply Rdiv_lt_0_compat; [apply Rmult_lt_0_compat|]; assumption).
          assert (EP' : ln P' = ln P - load P).
          { unfold P'. replace (P * M / (c * peak P)) with (P / (c * peak P / M)) by (field; repeat split; lra).
            rewrite ln_div by assumption. reflexivity. }
          assert (Hge : Rabs (load P) <= Rabs (load P) / (1 - eps)).
          { apply Rmult_le_reg_r with (1 - eps); [lra|].
            unfold Rdiv. rewrite Rmult_assoc, Rinv_l by lra. pose proof (Rabs_pos (load P)). nra. }
          assert (Hdist : Rabs (ln P' - ln 101325) <= Rabs (ln P - ln 101325) + Rabs (load P)).
          { rewrite EP'. replace (ln P - load P - ln 101325) with ((ln P - ln 101325) + - load P) by ring.
            apply Rle_trans with (1 := Rabs_triang _ _). rewrite Rabs_Ropp. lra. }
          assert (Hd' : domain P') by (apply HW; unfold around_1_atm; lra).
          destruct (Hnp P' P HP' HP Hd' Hd) as (Hpk' & _ & Hnear).
          assert (Hload : Rabs (load P') <= eps * Rabs (load P)).
          { assert (El : load P' = ln (peak P' / P') - ln (peak P / P)).
            { rewrite (load_split P') by assumption. rewrite EP'.
              rewrite (load_split P) by assumption. ring. }
            rewrite El. apply Rle_trans with (1 := Hnear). apply Rmult_le_compat_l; [lra|].
            rewrite EP'. replace (ln P - load P - ln P) with (- load P) by ring.
            rewrite Rabs_Ropp. lra. }
          destruct budget as [|budget]; [lia|].
          destruct (search_step budget tol ((peak P * c - M) / M) q c s P P' Hat Hc Hpk eq_refl Hd')
            as (q' & s' & tr & Hat' & Htr & El); [lra|].
          rewrite El, fac_c.
          destruct (IH budget tol q' s' P' Hat' Hd' Ht Hc) as (tr2 & q2 & P2 & E2 & H1 & H2 & H3 & H4 & H5).
          * apply Rle_trans with (2 := Hw).
            assert (Rabs (load P') / (1 - eps) + Rabs (load P) <= Rabs (load P) / (1 - eps)).
            { apply Rmult_le_reg_r with (1 - eps); [lra|].
              rewrite Rmult_plus_distr_r.
              unfold Rdiv. rewrite !Rmult_assoc, !Rinv_l by lra. lra. }
            lra.
          * apply Rle_trans with (2 := Hl). cbn [pow]. rewrite (Rmult_comm eps), Rmult_assoc.
            apply Rmult_le_compat_l; [apply pow_le; lra|exact Hload].
          * lia.
          * rewrite E2. exists (tr ++ tr2)%list, q2, P2. split; [reflexivity|].
            split; [exact H1|]. split; [exact H2|]. split; [exact H3|]. split; [exact H4|].
            rewrite created_app. lia.
    Qed.

    (** how close the result is to the right answer *)
    Lemma near_answer P Pr tol : 0 < c -> 0 <= tol < 1 -> 0 < P -> domain P -> 0 < Pr -> domain Pr ->
      c * peak Pr = M -> Rabs (c * peak P - M) <= tol * M ->
      (1 - eps) * Rabs (ln P - ln Pr) <= - ln (1 - tol).
    Proof.
      intros Hc Ht HP Hd HPr Hdr Er Ha.
      destruct (Hnp P Pr HP HPr Hd Hdr) as (Hpk & Hpr & Hnear).
      apply Rle_trans with (Rabs (load P)).
      - assert (Lr : load Pr = 0).
        { unfold load. rewrite Er. unfold Rdiv. rewrite Rinv_r by lra. apply ln_1. }
        rewrite (load_split Pr) in Lr by assumption.
        assert (El : load P = (ln (peak P / P) - ln (peak Pr / Pr)) + (ln P - ln Pr)).
        { rewrite (load_split P) by assumption. lra. }
        rewrite El. set (a := ln (peak P / P) - ln (peak Pr / Pr)) in *. set (b := ln P - ln Pr) in *.
        assert (Rabs b <= Rabs (a + b) + Rabs a).
        { replace b with ((a + b) + - a) at 1 by ring.
          apply Rle_trans with (1 := Rabs_triang _ _). rewrite Rabs_Ropp. lra. }
        lra.
      - apply within_ln; [exact Ht|].
        apply Rmult_le_reg_r with M; [exact HM|].
        rewrite <- (Rabs_pos_eq M) at 2 by lra. rewrite <- Rabs_mult.
        replace ((c * peak P / M - 1) * M) with (c * peak P - M) by (field; lra). exact Ha.
    Qed.
  End Near.
End Search.
