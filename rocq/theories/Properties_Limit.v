(** * C115: calculate_max_initial_pressure with a max_pressure that is not positive. *)
From Coq Require Import String ZArith QArith Reals Qreals List Bool Lra Lia Psatz.
From Verif Require Import PyBase Pint UnitsM Spec Gas GasP QLemmas FitM FitP FitSpec SdM SdSpec SdP
  SpeedSpec SpeedP ThermoM ThermoSpec ThermoP TubeM TubeP ExampleGas Properties_Speed
  Properties_Thermo InitPressureM InitPressureSpec InitPressureP Properties_Tube
  Properties_InitPressure.
Import ListNotations.
Local Open Scope R_scope.

(** The call never answers: it raises. *)
Definition refuses {A B} (r : io A B) : Prop := exists e, value r = Err e.
Lemma refuses_iff {A B} (r : io A B) : (forall b, value r <> Ok b) -> refuses r.
Proof.
  intros H. unfold refuses. destruct (value r) as [b|e] eqn:E'; [destruct (H b eq_refl)|].
  exists e. reflexivity.
Qed.

(** C115, zero.  A limit of 0 in any unit: once the chemistry at 1 atm and the load factor are
    there, ZeroDivisionError; no call answers. *)
Theorem C115_zero :
  forall {G X} (L : cantera R G X) tube_id tube_od T x mech max_pressure E rho nu f use
         reg tol max_iterations p name w return_dlf,
    names name w -> q_mag max_pressure = 0 ->
    let call := calculate_max_initial_pressure L tube_id tube_od T x mech max_pressure E rho nu f
                  use reg tol max_iterations p name return_dlf in
    refuses call
    /\ (forall q s n, is_in q 1 "atm" reg ->
          value (calculate_reflected_shock_state L T q x mech reg p) = Ok s ->
          dynamic_load_factor tube_id tube_od (cj_wave_speed s) E rho nu f = Ok n ->
          value call = Err ZeroDivisionError).
Proof.
  intros * Hn H0 call. apply names_state in Hn. split.
  - apply refuses_iff. intros a Ha. unfold call in Ha.
    destruct (search_inv _ _ _ _ _ _ _ _ _ _ _ _ _ _ _ _ _ _ _ _ Hn Ha)
      as (t & ts & _ & _ & _ & _ & _ & _ & _ & HM & _). exact (HM H0).
  - intros q s n Hq Hs Hd. unfold call, calculate_max_initial_pressure. rewrite Hn.
    destruct (lookup_unit "atm") as [u|] eqn:Eu; [|discriminate].
    assert (Eq : quant reg one "atm" = Ok (mkQ one u reg)) by (unfold quant; rewrite Eu; reflexivity).
    assert (Hq1 : is_in (mkQ one u reg) 1 "atm" reg).
    { split; [exact Eu|]. split; [apply one_R|reflexivity]. }
    rewrite (atm_unique _ _ _ _ Hq Hq1) in Hs.
    rewrite Eq, bind_pure_ok. unfold shock_at. rewrite (bind_value _ s _ Hs), value_after.
    assert (El : load_factor tube_id tube_od E rho nu f s = Ok (INR n))
      by (apply load_factor_inv; exists n; auto).
    rewrite El, bind_pure_ok. unfold pydiv. rnum. rewrite H0.
    rewrite zero_R. unfold Reqb. destruct (Req_EM_T 0 0) as [_|N]; [reflexivity|contradiction].
Qed.
Print Assumptions C115_zero.

(** C115, negative.  A gas object refuses a pressure that is not positive and its own pressure
    behind the reflected shock is positive.  Then with a tolerance of at most 1 and at least one
    iteration allowed, a negative limit is never answered. *)
Theorem C115_negative_partial :
  forall {G X} (L : cantera R G X) tube_id tube_od T x mech max_pressure E rho nu f use
         reg tol max_iterations p name w return_dlf,
    names name w -> q_mag max_pressure < 0 -> Rabs tol <= 1 -> (1 <= max_iterations)%Z ->
    (forall g t P, P <= 0 -> exists e, ct_set_TPX L g t P x = Err e) ->
    (forall q s, is_in q 1 "atm" reg ->
       value (calculate_reflected_shock_state L T q x mech reg p) = Ok s ->
       0 < ct_P L (reflected_state s)) ->
    refuses (calculate_max_initial_pressure L tube_id tube_od T x mech max_pressure E rho nu f
               use reg tol max_iterations p name return_dlf).
Proof.
  intros * Hn HM Htol Hit Hrej Hpos. apply names_state in Hn.
  apply refuses_iff. intros a Ha.
  destruct (search_inv _ _ _ _ _ _ _ _ _ _ _ _ _ _ _ _ _ _ _ _ Hn Ha)
    as (t & ts & ((Hq & He & Hf) & Hc) & _ & _ & Hnil & _).
  destruct Hf as (n & Hd & Ef).
  assert (Hk : 1 <= factor t).
  { rewrite Ef. apply dlf_values in Hd. destruct Hd as [->|[->| ->]]; cbn; lra. }
  assert (Hdiv : factor t / q_mag max_pressure < 0).
  { unfold Rdiv. assert (/ q_mag max_pressure < 0) by (apply Rinv_lt_0_compat; exact HM). nra. }
  destruct ts as [|t' ts].
  - destruct (Hnil eq_refl) as [H|H]; [|lia]. rewrite Rabs_left in H by lra. lra.
  - destruct (Hc t t' (consecutive_cons _ _ _)) as ((m & Hq' & Hne & Em) & He' & _).
    pose proof (Hpos _ _ Hq He) as HP.
    assert (Hm : m < 0).
    { rewrite Em. destruct Hq as (_ & -> & _).
      assert (0 < / (factor t * ct_P L (reflected_state (shocks t)))) by (apply Rinv_0_lt_compat; nra).
      unfold Rdiv. nra. }
    unfold evaluated, calculate_reflected_shock_state in He'.
    apply value_bind_ok in He'. destruct He' as (g1 & _ & He' & _).
    apply value_bind_ok in He'. destruct He' as (g2 & _ & He' & _).
    apply value_bind_ok in He'. destruct He' as (T' & _ & He' & _).
    apply value_bind_ok in He'. destruct He' as (P' & HP' & He' & _).
    apply value_bind_ok in He'. destruct He' as (g3 & Hg3 & _).
    pose proof (atm_denotes _ _ _ Hq') as HD.
    destruct (parse_denotes _ _ _ (q_reg (tried t')) HD) as (qP & EP & PP).
    cbn [parse_quant_input] in EP. injection EP as EP.
    assert (qP = tried t') as -> by (rewrite <- EP; destruct (tried t'); reflexivity).
    rewrite value_pure, (in_unit_Pa _ _ _ PP) in HP'. injection HP' as <-.
    destruct (Hrej g1 T' (m * 101325)) as (e & Hre); [lra|].
    unfold value, set_TPX, act in Hg3. cbn [snd] in Hg3. congruence.
Qed.
Print Assumptions C115_negative_partial.

(** The example gas refuses such pressures; a limit of -1 MPa is refused. *)
Example C115_case :
  (exists a, value (search (si 1000000 d_pressure) "reflected" true) = Ok a)
  /\ refuses (search (si (-1000000) d_pressure) "reflected" true)
  /\ value (search (si 0 d_pressure) "reflected" true) = Err ZeroDivisionError.
Proof.
  split; [destruct example_search as (q & Hv & _); eexists; exact Hv|]. split.
  - unfold search. apply (C115_negative_partial example_gas) with (w := AtReflected).
    + left. auto.
    + cbn. lra.
    + rewrite tol_abs. lra.
    + lia.
    + intros. apply example_reject. assumption.
    + intros q s Hq Hs.
      destruct (example_proportional room "gri30.cti" Serial room_300 (or_introl eq_refl) q (1 * 101325))
        as (s' & Hs' & Hr & _); [apply (atm_denotes _ _ 0); exact Hq|lra|].
      rewrite Hs in Hs'. injection Hs' as <-. rewrite Hr. unfold ratio_r. lra.
  - destruct (quant 0 one "atm") as [q0|] eqn:E0; [|discriminate].
    assert (Hq : is_in q0 1 "atm" 0).
    { unfold quant in E0. destruct (lookup_unit "atm") as [u|] eqn:Eu; [|discriminate].
      injection E0 as <-. split; [exact Eu|]. split; [apply one_R|reflexivity]. }
    destruct (example_proportional room "gri30.cti" Serial room_300 (or_introl eq_refl) q0 (1 * 101325))
      as (s & Hs & _ & _ & Hd); [apply (atm_denotes _ _ 0); exact Hq|lra|].
    unfold search. eapply (C115_zero example_gas); [left; split; reflexivity|reflexivity|exact Hq|exact Hs|exact Hd].
Qed.

(** C115, refuted: with max_iterations = 0, or with a tolerance above 1 (here 3 and -1 MPa in
    MPa), a negative limit is answered: 1 atm. *)
Theorem C115_refuted :
  (exists q, value (calculate_max_initial_pressure example_gas (si 0 d_length) (si 1 d_length) room
                      fresh "gri30.cti" (si (-1000000) d_pressure) tube_E (si 1 d_density) 0 (1/10)
                      true 0 (1/10000) 0 Serial "reflected" false) = Ok (Pressure q)
             /\ is_in q 1 "atm" 0)
  /\ (exists q, value (calculate_max_initial_pressure example_gas (si 0 d_length) (si 1 d_length) room
                      fresh "gri30.cti" (megapascals (-1)) tube_E (si 1 d_density) 0 (1/10)
                      true 0 3 500 Serial "reflected" false) = Ok (Pressure q)
             /\ is_in q 1 "atm" 0).
Proof.
  split.
  - destruct (search_start example_gas (si 0 d_length) (si 1 d_length) room fresh "gri30.cti"
              (si (-1000000) d_pressure) tube_E (si 1 d_density) 0 (1/10) true 0 (1/10000) 0 Serial
              "reflected" false AtReflected ratio_r ratio_c 2 eq_refl
              (example_proportional room "gri30.cti" Serial room_300 (or_introl eq_refl))
              (or_introl eq_refl)) as (q0 & s0 & tr & Hq & _ & _ & E'); [cbn; lra|].
    exists q0. rewrite E'. cbn [Z.to_nat pressure_loop].
    destruct (_ <? _)%num; rewrite bind_ret; (split; [reflexivity|exact Hq]).
  - destruct (search_start example_gas (si 0 d_length) (si 1 d_length) room fresh "gri30.cti"
              (megapascals (-1)) tube_E (si 1 d_density) 0 (1/10) true 0 3 500 Serial
              "reflected" false AtReflected ratio_r ratio_c 2 eq_refl
              (example_proportional room "gri30.cti" Serial room_300 (or_introl eq_refl))
              (or_introl eq_refl)) as (q0 & s0 & tr & Hq & _ & _ & E'); [cbn; lra|].
    exists q0. rewrite E', loop_stops.
    + rewrite bind_ret. split; [reflexivity|exact Hq].
    + cbn [q_mag megapascals INR]. replace ((1 + 1) / -1 - 1) with (-3) by lra.
      rewrite Rabs_left, Rabs_pos_eq by lra. lra.
Qed.
Print Assumptions C115_refuted.
