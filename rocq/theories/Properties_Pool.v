(** * C102: the worker pools of cj_speed, calculate_reflected_shock_state and
    calculate_max_initial_pressure. *)
From Coq Require Import String ZArith QArith Reals Qreals List Bool Lra Lia.
From Verif Require Import PyBase Pint UnitsM Gas GasP FitM QLemmas FitP SdM SpeedSpec SpeedP ThermoM InitPressureM
  PoolSpec PoolP Spec ThermoSpec ThermoP UnitsP ExampleGas Properties_Speed.
Import ListNotations.

(** C102.  Without multiprocessing no pool is made, whatever happens.  With it cj_speed
    makes one pool; if it returns, that pool has been closed. *)
Theorem C102_cj_speed_pool_partial :
  forall {A G X} {NA : Num A} (L : cantera A G X) P T x mech rr rs,
    pool_history (trace (cj_speed L P T x mech Serial rr rs)) = []
    /\ forall schedule,
         let call := cj_speed L P T x mech (Workers schedule) rr rs in
         (forall d, value call = Ok d -> pool_history (trace call) = [Opened; Closed])
         /\ (forall e, value call = Err e ->
               pool_history (trace call) = [Opened]
               \/ pool_history (trace call) = [Opened; Closed]).
Proof.
  intros. split; [apply cj_speed_serial|]. intros s call.
  destruct (cj_speed_pool L s P T x mech rr rs) as [H|(H & e & He)]; fold call in H.
  - split; intros; auto.
  - fold call in He. split; intros d Hd; [congruence|auto].
Qed.
Print Assumptions C102_cj_speed_pool_partial.

(** Its callers: pools are made one at a time, the next one after the last was closed.
    calculate_reflected_shock_state makes one; calculate_max_initial_pressure at least one
    and at most 1 + max_iterations. *)
Theorem C102_callers_partial :
  forall {A G X} {NA : Num A} (L : cantera A G X)
         tube_id tube_od T P x mech max_pressure E rho nu f use reg tol n name return_dlf,
    (pool_history (trace (calculate_reflected_shock_state L T P x mech reg Serial)) = []
     /\ pool_history (trace (calculate_max_initial_pressure L tube_id tube_od T x mech max_pressure
                               E rho nu f use reg tol n Serial name return_dlf)) = [])
    /\ forall schedule,
      (forall s, value (calculate_reflected_shock_state L T P x mech reg (Workers schedule)) = Ok s ->
         pool_history (trace (calculate_reflected_shock_state L T P x mech reg (Workers schedule)))
         = [Opened; Closed])
      /\ (forall a,
         value (calculate_max_initial_pressure L tube_id tube_od T x mech max_pressure
                  E rho nu f use reg tol n (Workers schedule) name return_dlf) = Ok a ->
         exists k, (1 <= k <= 1 + Z.to_nat n)%nat
           /\ pool_history (trace (calculate_max_initial_pressure L tube_id tube_od T x mech
                  max_pressure E rho nu f use reg tol n (Workers schedule) name return_dlf))
              = one_at_a_time k)
      /\ (forall e,
         value (calculate_max_initial_pressure L tube_id tube_od T x mech max_pressure
                  E rho nu f use reg tol n (Workers schedule) name return_dlf) = Err e ->
         exists k, (k <= 1 + Z.to_nat n)%nat
           /\ (pool_history (trace (calculate_max_initial_pressure L tube_id tube_od T x mech
                  max_pressure E rho nu f use reg tol n (Workers schedule) name return_dlf))
               = one_at_a_time k
              \/ pool_history (trace (calculate_max_initial_pressure L tube_id tube_od T x mech
                  max_pressure E rho nu f use reg tol n (Workers schedule) name return_dlf))
               = one_at_a_time k ++ [Opened])%list).
Proof.
  intros. split; [split; [apply shock_serial|apply initial_pressure_serial]|]. intros s.
  split; [|split].
  - intros st Hst.
    destruct (shock_tidy L T P x mech reg s) as (k & Hk & [(H & [(e & He)|Hl])|(_ & _ & e & He)]);
      try congruence.
    assert (k = 1%nat) as -> by lia. exact H.
  - intros a Ha.
    destruct (initial_pressure_tidy L tube_id tube_od T x mech max_pressure E rho nu f use reg tol n
                s name return_dlf) as (k & Hk & [(H & [(e & He)|Hl])|(_ & _ & e & He)]);
      try congruence.
    exists k. split; [lia|exact H].
  - intros e Ha.
    destruct (initial_pressure_tidy L tube_id tube_od T x mech max_pressure E rho nu f use reg tol n
                s name return_dlf) as (k & Hk & [(H & _)|(H & _)]);
      exists k; (split; [lia|]); [left|right]; exact H.
Qed.
Print Assumptions C102_callers_partial.

(** The pool is not closed when a job raises. *)
Lemma failing_jobs {G X} (L : cantera R G X) P T x mech e schedule rr rs :
  reorders schedule ->
  (forall k r, (3/2 <= r <= 2)%R ->
     value (over_ratio L x T P mech (1/10000)%R (1/10000)%R (k, r)) = Err e) ->
  value (cj_speed L P T x mech (Workers schedule) rr rs) = Err e
  /\ pool_history (trace (cj_speed L P T x mech (Workers schedule) rr rs)) = [Opened].
Proof.
  intros Hs Hjob.
  assert (Hz : nltb (@zero R Num_R) (nofQ 0.0000001%Q) = true).
  { unfold zero, nltb, nofQ; cbn [Num_R]. unfold Rltb. destruct (Rlt_dec _ _) as [_|C]; [reflexivity|].
    exfalso. apply C. unfold Q2R; simpl; lra. }
  assert (Hloop : value (speed_loop L 4 (Workers schedule) x T P mech (1/10000)%R (1/10000)%R
                      1 (Ok zero) zero (3/2)%R 2%R []) = Err e).
  { cbn [speed_loop]. rewrite Hz, orb_true_r. cbn [Nat.leb andb].
    rewrite value_bind. cbn [run_jobs].
    match goal with |- context [schedule 1%nat ?jobs] => pose proof (Hs 1%nat jobs) as Hp;
      destruct (schedule 1%nat jobs) as [|j r] end.
    - apply Permutation.Permutation_length in Hp. rewrite combine_length, seq_length in Hp.
      rewrite linspace_length in Hp. discriminate Hp.
    - cbn [io_map]. rewrite !value_bind. destruct j as [k q].
      assert (Hin : In (k, q) (combine (seq 0 (length (linspace21 (3/2)%R 2%R))) (linspace21 (3/2)%R 2%R)))
        by (apply (Permutation.Permutation_in _ Hp); left; reflexivity).
      apply in_combine_r in Hin. apply linspace_in in Hin; [|lra].
      rewrite (Hjob k q Hin). reflexivity. }
  unfold cj_speed, cj_speed_rounds. rnum. rewrite lit_tol, lit_15, lit_20.
  assert (Hv : forall (k : list (round R) -> io R (list (round R) * list (string * entry R G))),
    value (do _ <- pool_step (Workers schedule) EvPoolOpen;
           do done <- speed_loop L 4 (Workers schedule) x T P mech (1/10000)%R (1/10000)%R
                      1 (Ok zero) zero (3/2)%R 2%R [];
           k done) = Err e).
  { intros k. rewrite value_pool, value_bind, Hloop. reflexivity. }
  split.
  - rewrite value_bind, Hv. reflexivity.
  - rewrite history_bind, Hv. cbv iota. rewrite app_nil_r, history_bind.
    change (value (pool_step (Workers schedule) EvPoolOpen)) with (Ok tt). cbv iota.
    rewrite history_bind, Hloop. cbv iota. rewrite (np_speed_loop L 4 (Workers schedule)).
    reflexivity.
Qed.

(** First case: the mechanism cannot be loaded (a misspelt file name, say). *)
Theorem C102_missing_mechanism_leaves_pool_refuted :
  forall {G X} (L : cantera R G X) P T x mech e schedule rr rs,
    ct_new L mech "" = Err e -> reorders schedule ->
    let call := cj_speed L P T x mech (Workers schedule) rr rs in
    value call = Err e /\ pool_history (trace call) = [Opened].
Proof.
  intros * He Hs call. apply failing_jobs; [exact Hs|]. intros k r _.
  unfold over_ratio, fresh_gas. rewrite !value_bind.
  change (value (new_solution L mech "")) with (ct_new L mech ""). rewrite He. reflexivity.
Qed.
Print Assumptions C102_missing_mechanism_leaves_pool_refuted.

(** Second case: the equilibrium solver fails, called from calculate_reflected_shock_state. *)
Local Open Scope R_scope.
Definition failing_gas (e : exn) : cantera R gas_state composition :=
  mkCantera R gas_state composition
    (ct_new example_gas) (ct_set_TPX example_gas) (ct_set_TD example_gas) (ct_set_SP example_gas)
    (fun _ _ => Err e)
    (ct_T example_gas) (ct_P example_gas) (ct_density example_gas) (ct_enthalpy example_gas)
    (ct_entropy example_gas) (ct_X example_gas) (ct_viscosity example_gas)
    (ct_flame_speed example_gas).

Theorem C102_failed_equilibrium_leaves_pool_refuted :
  forall e temperature pressure P mech reg schedule,
    denotes (PQuant temperature) d_temperature 300 -> denotes (PQuant pressure) d_pressure P ->
    0 < P -> reorders schedule ->
    let call := calculate_reflected_shock_state (failing_gas e) temperature pressure fresh mech reg
                  (Workers schedule) in
    value call = Err e /\ pool_history (trace call) = [Opened].
Proof.
  intros * HT HP H0 Hs call. unfold call, calculate_reflected_shock_state.
  destruct (parse_denotes _ _ _ (q_reg temperature) HT) as (qT & ET & PT).
  destruct (parse_denotes _ _ _ (q_reg pressure) HP) as (qP & EP & PP).
  cbn [parse_quant_input] in ET, EP. injection ET as ET. injection EP as EP.
  assert (qT = temperature) as -> by (rewrite <- ET; destruct temperature; reflexivity).
  assert (qP = pressure) as -> by (rewrite <- EP; destruct pressure; reflexivity). clear ET EP.
  unfold new_solution, act. cbn [failing_gas example_gas ct_new].
  fold example_gas. fold (failing_gas e).
  assert (Hafter : forall (t : list (event R)) b (f : gas_state -> io R (shock_states R gas_state)),
    pool_history t = [] ->
    (value (f b) = Err e /\ pool_history (trace (f b)) = [Opened]) ->
    value (io_bind (t, Ok b) f) = Err e
    /\ pool_history (trace (io_bind (t, Ok b) f)) = [Opened]).
  { intros t b f Ht (H1 & H2). unfold value, trace, io_bind in *. cbn [fst snd].
    rewrite pool_history_app, Ht. auto. }
  do 2 (apply Hafter; [reflexivity|]).
  rewrite (in_unit_K _ _ _ PT), bind_pure_ok, (in_unit_Pa _ _ _ PP), bind_pure_ok.
  unfold set_TPX, act. cbn [failing_gas ct_set_TPX]. fold (failing_gas e).
  rewrite !example_set by lra.
  do 2 (apply Hafter; [reflexivity|]).
  destruct (failing_jobs (failing_gas e) P 300 fresh mech e schedule false true Hs) as (Hv & Hh).
  { intros k r Hr. unfold over_ratio, fresh_gas, new_solution, set_TPX, act.
    cbn [failing_gas ct_new ct_set_TPX]. fold (failing_gas e).
    cbn [example_gas ct_new]. fold example_gas.
    rewrite !bind_some, !(example_set (300, 1, 1, fresh)) by lra.
    assert (Hst : value (cj_state (failing_gas e) 500 npdiv (300, P/101325, P/101325, fresh)
                          (300, P/101325, P/101325, fresh) (1/10000) (1/10000) r 500) = Err e).
    { unfold cj_state. rnum. rewrite one_R. cbn [failing_gas example_gas ct_density dens].
      fold example_gas. fold (failing_gas e).
      rewrite (pydiv_ok 1 (P/101325)) by lra. rewrite bind_pure_ok.
      rewrite (npdiv_ok _ r) by lra. rewrite bind_pure_ok.
      rewrite npdiv_ok.
      2:{ apply Rgt_not_eq. apply Rdiv_lt_0_compat; [apply Rdiv_lt_0_compat; lra|lra]. }
      rewrite bind_pure_ok, value_bind. reflexivity. }
    unfold value in *. unfold io_bind, after. cbn [fst snd app]. rewrite Hst. reflexivity. }
  rewrite value_bind, history_bind, Hv. split; [reflexivity|]. rewrite Hh. reflexivity.
Qed.
Print Assumptions C102_failed_equilibrium_leaves_pool_refuted.

(** The hypotheses are met: a pool that works backwards, a gas object that converges (C102,
    first two theorems), and one call of each kind that fails. *)
Example a_closed_pool : forall P mech, 0 < P ->
  pool_history (trace (cj_speed example_gas P 300 fresh mech (Workers (fun _ jobs => rev jobs))
                         true true)) = [Opened; Closed].
Proof.
  intros P mech HP.
  pose proof (example_gas_speed (Workers (fun _ jobs => rev jobs)) P mech true true a_reversed_pool HP)
    as H.
  destruct (C102_cj_speed_pool_partial example_gas P 300 fresh mech true true) as (_ & K).
  exact (proj1 (K (fun _ jobs => rev jobs)) _ H).
Qed.
Example a_leaked_pool : forall mech,
  let call := calculate_reflected_shock_state (failing_gas (ValueError "CanteraError"))
    (mkQ 300 (mult_unit d_temperature one) 0) (mkQ 101325 (mult_unit d_pressure one) 0) fresh mech 0
    (Workers (fun _ jobs => rev jobs)) in
  pool_history (trace call) = [Opened].
Proof.
  intros mech.
  refine (proj2 (C102_failed_equilibrium_leaves_pool_refuted _ _ _ 101325 _ _ _ _ _ _ _)).
  - apply denotes_quantity; [split; cbn; [rewrite one_R; lra|congruence]|reflexivity|].
    unfold worth. cbn. rewrite one_R. lra.
  - apply denotes_quantity; [split; cbn; [rewrite one_R; lra|congruence]|reflexivity|].
    unfold worth. cbn. rewrite one_R. lra.
  - lra.
  - intros n jobs. apply Permutation.Permutation_sym, Permutation.Permutation_rev.
Qed.
