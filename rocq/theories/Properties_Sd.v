(** * C63-C69, C72: cj_state, get_eq_state, GetError, reflect. *)
From Coq Require Import String ZArith QArith Reals Qreals List Bool Lra Lia.
From Verif Require Import PyBase Gas GasP FitM QLemmas FitP SdM SdSpec SdP.
Import ListNotations.
Local Open Scope R_scope.

(** Division of Python floats or of numpy floats. *)
Definition python_or_numpy (div : R -> R -> result R) : Prop := div = pydiv \/ div = npdiv.

(** C63.  For every cantera, every tolerance and every limit >= 1, cj_state ends; when
    it returns, it has gone through a chain of at most [max_iterations - 1] Newton
    steps from (2000 K, 2000 m/s) at density ratio * initial density, made exactly the
    corresponding settings of the gas, and it warned exactly if the limit stopped it:
    otherwise the last temperature and velocity steps are within tolerance. *)
Theorem C63_cj_state_terminates :
  forall {G X} (L : cantera R G X) fuel div working initial tol_T tol_V ratio max_iterations,
    python_or_numpy div -> (1 <= max_iterations <= Z.of_nat fuel)%Z ->
    finishes (cj_state L fuel div working initial tol_T tol_V ratio max_iterations).
Proof. intros. apply cj_state_finishes; assumption. Qed.
Print Assumptions C63_cj_state_terminates.

Theorem C63_cj_state_run :
  forall {G X} (L : cantera R G X) fuel div working initial tol_T tol_V ratio max_iterations g U,
    python_or_numpy div -> (1 <= max_iterations)%Z ->
    let call := cj_state L fuel div working initial tol_T tol_V ratio max_iterations in
    let D := ratio * ct_density L initial in
    value call = Ok (g, U) ->
    exists g0 rest Tf,
      let its := (2000, 2000, g0) :: rest in
      settles L working 2000 D g0
      /\ chain (cj_newton_step L initial D) its
      /\ (exists before, its = (before ++ [(Tf, U, g)])%list)
      /\ (Z.of_nat (length rest) <= max_iterations - 1)%Z
      /\ settings (trace call) = (2000, D) :: cj_settings D its
      /\ ((warnings (trace call) = []
           /\ (rest = [] -> 1000 <= tol_T * 2000 /\ 1000 <= tol_V * 2000)
           /\ last_step_within tol_T tol_V its)
         \/ (length (warnings (trace call)) = 1%nat
             /\ (Z.of_nat (length rest) = max_iterations - 1)%Z
             /\ (rest = [] -> ~ (1000 <= tol_T * 2000 /\ 1000 <= tol_V * 2000))
             /\ last_step_outside tol_T tol_V its)).
Proof. intros. apply cj_state_spec; assumption. Qed.
Print Assumptions C63_cj_state_run.

(** C64.  In every execution, whatever cantera does or raises, every temperature the
    gas is set to is positive and every density is ratio * initial density. *)
Theorem C64_temperatures_positive :
  forall {G X} (L : cantera R G X) fuel div working initial tol_T tol_V ratio max_iterations T D,
    python_or_numpy div ->
    In (T, D) (settings (trace (cj_state L fuel div working initial tol_T tol_V ratio
                                         max_iterations))) ->
    0 < T /\ D = ratio * ct_density L initial.
Proof.
  intros * Hd Hin.
  pose (P := fun e : event R => match e with
               | EvTD T D => 0 < T /\ D = ratio * ct_density L initial | _ => True end).
  assert (H : all_events P (cj_state L fuel div working initial tol_T tol_V ratio max_iterations)).
  { apply cj_state_all; try exact Hd; unfold P; auto. }
  unfold settings in Hin. apply in_flat_map in Hin. destruct Hin as (e & He & Hin).
  unfold all_events in H. rewrite Forall_forall in H. specialize (H e He).
  destruct e; simpl in Hin; try tauto. destruct Hin as [Hin|[]]. injection Hin as <- <-.
  exact H.
Qed.
Print Assumptions C64_temperatures_positive.

(** Each update changes the temperature by at most 20 %. *)
Theorem C64_step_at_most_20_percent :
  forall {G X} (L : cantera R G X) fuel div working initial tol_T tol_V ratio max_iterations g U,
    python_or_numpy div -> (1 <= max_iterations)%Z ->
    value (cj_state L fuel div working initial tol_T tol_V ratio max_iterations) = Ok (g, U) ->
    exists its,
      hd_error its = Some 2000
      /\ settings (trace (cj_state L fuel div working initial tol_T tol_V ratio max_iterations))
         = (2000, ratio * ct_density L initial)
           :: flat_map (fun pq => [(fst pq + 1/50 * fst pq, ratio * ct_density L initial);
                                   (fst pq, ratio * ct_density L initial);
                                   (snd pq, ratio * ct_density L initial)])
                       (combine its (tl its))
      /\ forall T T', In (T, T') (combine its (tl its)) -> Rabs (T' - T) <= 1/5 * T.
Proof.
  intros * Hd Hm H.
  destruct (cj_state_spec L fuel div working initial tol_T tol_V ratio max_iterations g U Hd Hm H)
    as (g0 & rest & Tf & _ & Hch & _ & _ & Hset & _).
  exists (map itT ((2000, 2000, g0) :: rest)).
  split; [reflexivity|]. split; [rewrite Hset; f_equal|].
  - generalize ((2000, 2000, g0) :: rest) as its.
    induction its as [|p [|q its] IH]; [reflexivity|reflexivity|].
    change (cj_settings (ratio * ct_density L initial) (p :: q :: its))
      with ((itT p + 1/50 * itT p, ratio * ct_density L initial)
            :: (itT p, ratio * ct_density L initial) :: (itT q, ratio * ct_density L initial)
            :: cj_settings (ratio * ct_density L initial) (q :: its)).
    rewrite IH. reflexivity.
  - assert (Hpos : 0 < itT (2000, 2000, g0)) by (unfold itT; simpl; lra).
    revert Hch Hpos. generalize (2000, 2000, g0) as p. clear Hset.
    induction rest as [|q rest IH]; intros p Hch Hpos T T' Hin; [destruct Hin|].
    assert (Hst : cj_newton_step L initial (ratio * ct_density L initial) p q).
    { apply (Hch [] p q rest). reflexivity. }
    destruct p as [[T0 U0] gg0], q as [[T1 U1] gg1]. unfold itT in Hpos; simpl in Hpos.
    cbn [cj_newton_step] in Hst.
    destruct Hst as (gT & gU & dT & dU & _ & _ & _ & _ & Hcut & _).
    apply cut_bound in Hcut; [|lra].
    cbn [map tl combine] in Hin. destruct Hin as [Hin|Hin].
    + unfold itT in Hin; simpl in Hin. injection Hin as <- <-. apply Rabs_le. lra.
    + apply (IH (T1, U1, gg1)); auto.
      * intros before a b after E. apply (Hch ((T0,U0,gg0) :: before) a b after).
        simpl. rewrite <- E. reflexivity.
      * unfold itT; simpl. lra.
Qed.
Print Assumptions C64_step_at_most_20_percent.

(** A speed returned without a warning is not negative. *)
Theorem C64_converged_speed_nonnegative :
  forall {G X} (L : cantera R G X) fuel div working initial tol_T tol_V ratio max_iterations g U,
    python_or_numpy div -> (1 <= max_iterations)%Z -> 0 < tol_V ->
    value (cj_state L fuel div working initial tol_T tol_V ratio max_iterations) = Ok (g, U) ->
    warnings (trace (cj_state L fuel div working initial tol_T tol_V ratio max_iterations)) = [] ->
    0 <= U.
Proof.
  intros * Hd Hm Htol H Hw.
  destruct (cj_state_spec L fuel div working initial tol_T tol_V ratio max_iterations g U Hd Hm H)
    as (g0 & rest & Tf & _ & _ & (before & Hlast) & _ & _ & Hcase).
  destruct Hcase as [(_ & H0 & Hin)|(Hbad & _)]; [|rewrite Hw in Hbad; discriminate].
  destruct rest as [|q rest].
  - destruct before as [|c [|d before]]; try discriminate. injection Hlast as _ <- _. lra.
  - assert (exists b' p, (2000, 2000, g0) :: q :: rest = (b' ++ [p; (Tf, U, g)])%list)
      as (b' & p & Hb').
    { destruct (exists_last (l := before)) as (b' & p & ->).
      - intros ->. discriminate Hlast.
      - exists b', p. rewrite Hlast, <- app_assoc. reflexivity. }
    destruct (Hin b' p (Tf, U, g) Hb') as (_ & HU). unfold itU in HU. cbn [fst snd] in HU.
    pose proof (Rabs_pos (U - snd (fst p))).
    apply Rmult_le_reg_l with tol_V; [exact Htol|]. lra.
Qed.
Print Assumptions C64_converged_speed_nonnegative.

(** ** A gas on which neither iteration ever converges *)
(** State: temperature, density.  Enthalpy T*(D-1), pressure (1/D-1)*(1/D-1/2). *)
Definition odd_gas : cantera R (R * R) unit :=
  mkCantera R (R * R) unit
    (fun _ _ => Ok (300, 1)) (fun g T P _ => Ok (T, 1))
    (fun _ T D => Ok (T, D)) (fun g _ _ => Ok g) (fun g _ => Ok g)
    fst (fun g => (1 / snd g - 1) * (1 / snd g - 1/2)) snd
    (fun g => fst g * (snd g - 1)) (fun _ => 0) (fun _ => tt)
    (fun _ => Ok 1) (fun _ => Ok 1).

Lemma odd_equilibrium g D T :
  equilibrium odd_gas g D T = ([EvTD T D; EvEquilibrate "TV"], Ok (T, D)).
Proof. reflexivity. Qed.

Lemma odd_cj_body T V :
  0 < T -> 0 < V ->
  exists tr dV,
    cj_body odd_gas (300, 1) 2 (T, 2) T V
    = (tr, Ok ((4/5 * T, 2), 4/5 * T, 51/101 * V, - (1/5 * T), dV)).
Proof.
  intros HT HV. unfold cj_body. rnum. rewrite !lit_002.
  rewrite error_equilibrium_R by (simpl; lra). rewrite bind_pure_ok.
  rewrite odd_equilibrium, bind_some.
  rewrite error_equilibrium_R by (simpl; lra). rewrite bind_pure_ok.
  rewrite !pydiv_ok by lra. rewrite !bind_pure_ok.
  rewrite odd_equilibrium, bind_some.
  rewrite error_equilibrium_R by (simpl; lra). rewrite bind_pure_ok.
  rewrite !pydiv_ok by lra. rewrite !bind_pure_ok.
  unfold energy_imbalance, momentum_imbalance.
  cbn [odd_gas ct_P ct_enthalpy ct_density fst snd].
  set (hT := (_ - _) / (1/50 * T)). assert (EhT : hT = 1) by (unfold hT; field; lra).
  rewrite EhT. clear EhT hT.
  set (pT := (_ - _) / (1/50 * T)). assert (EpT : pT = 0) by (unfold pT; field; lra).
  rewrite EpT. clear EpT pT.
  match goal with |- context [solve2 pydiv 1 0 ?a ?b ?c ?d] =>
    set (hV := a); set (pV := b); set (eh := c); set (ep := d) end.
  assert (EhV : hV = - (303/400) * V) by (unfold hV; field; lra).
  assert (EpV : pV = - (101/100) * V) by (unfold pV; field; lra).
  assert (Eeh : eh = T - 3/8 * V^2) by (unfold eh; field; lra).
  assert (Eep : ep = - (1/2) * V^2) by (unfold ep; field; lra).
  assert (Es : solve2 pydiv 1 0 hV pV eh ep = Ok (- T, - (50/101) * V)).
  { unfold solve2. rnum. rewrite EhV, EpV, Eeh, Eep.
    assert (N : 1 * (- (101/100) * V) - 0 * (- (303/400) * V) <> 0) by lra.
    rewrite !pydiv_ok by exact N. cbn [bind]. f_equal. f_equal; field; lra. }
  rewrite Es, bind_pure_ok.
  assert (El : limit_temperature (- T) T = Ok (- (1/5 * T))).
  { unfold limit_temperature. rnum. rewrite lit_02, Rabs_Ropp, Rabs_pos_eq by lra.
    rewrite QLemmas.Rltb_true by lra. rewrite pydiv_ok by lra. cbn [bind]. f_equal. field. lra. }
  rewrite El, bind_pure_ok.
  rewrite odd_equilibrium, bind_some. unfold after, ret. cbn [fst snd].
  replace (T + - (1/5 * T)) with (4/5 * T) by field.
  replace (V + - (50/101) * V) with (51/101 * V) by field.
  eexists. eexists. reflexivity.
Qed.

Lemma odd_cj_loop fuel : forall tT tV mx k T V dT dV,
  (mx <= k)%Z -> 0 < T -> 0 < V -> tT < 1/5 -> Rabs dT >= 1/5 * T ->
  In EvStuck (trace (cj_loop odd_gas fuel (300, 1) tT tV 2 mx k (T, 2) T V dT dV)).
Proof.
  induction fuel as [|fuel IH]; intros * Hk HT HV Ht Hd; cbn [cj_loop]; rnum;
    rewrite QLemmas.Rltb_true by nra; cbn [orb].
  - left. reflexivity.
  - destruct (Z.eqb_spec (k + 1) mx) as [E|E]; [lia|].
    destruct (odd_cj_body T V HT HV) as (tr & dV' & Eb). rewrite Eb.
    rewrite bind_some, trace_after. apply in_or_app. right.
    apply IH; try lra; try lia.
    rewrite Rabs_Ropp, Rabs_pos_eq by lra. lra.
Qed.

(** C65 is false: with max_iterations <= 0 and the default tolerances there are gases on
    which cj_state never ends (no number of passes through the loop is enough). *)
Theorem C65_cj_state_refuted :
  exists (L : cantera R (R * R) unit) working initial,
    forall max_iterations fuel, (max_iterations <= 0)%Z ->
      ~ finishes (cj_state L fuel pydiv working initial (1/10000) (1/10000) 2 max_iterations).
Proof.
  exists odd_gas, (300, 1), (300, 1). intros mx fuel Hmx Hf. apply Hf. clear Hf.
  unfold cj_state. rnum. rewrite lit_2000, lit_1000, one_R.
  cbn [odd_gas ct_density snd].
  rewrite (pydiv_ok 1 1) by lra. rewrite bind_pure_ok.
  rewrite (pydiv_ok (1/1) 2) by lra. rewrite bind_pure_ok.
  rewrite pydiv_ok by lra. rewrite bind_pure_ok. fold odd_gas. rewrite odd_equilibrium.
  replace (1 / (1 / 1 / 2)) with 2 by field.
  rewrite bind_some, trace_after. apply in_or_app. right.
  apply odd_cj_loop; try lra; try lia. rewrite Rabs_pos_eq; lra.
Qed.
Print Assumptions C65_cj_state_refuted.

Lemma odd_eq_body T :
  0 < T ->
  exists tr,
    eq_body odd_gas pydiv 0 (300, 1) (1 / 1) (T, 2) T (1/2) 2
    = (tr, Ok ((4/5 * T, 2), 4/5 * T, 1/2, 2, - (1/5 * T), 0)).
Proof.
  intros HT. unfold eq_body. rnum. rewrite !lit_002, one_R.
  assert (Hd : is_div pydiv) by (left; reflexivity).
  rewrite error_reflected_R by (auto; simpl; lra). rewrite bind_pure_ok.
  rewrite odd_equilibrium, bind_some.
  rewrite error_reflected_R by (auto; simpl; lra). rewrite bind_pure_ok.
  rewrite !pydiv_ok by lra. rewrite !bind_pure_ok.
  replace (1 / (1/2 + 1/50 * (1/2))) with (100/51) by field.
  rewrite odd_equilibrium, bind_some.
  rewrite error_reflected_R by (auto; simpl; lra). rewrite bind_pure_ok.
  rewrite !pydiv_ok by lra. rewrite !bind_pure_ok.
  unfold reflected_energy_imbalance, reflected_momentum_imbalance.
  cbn [odd_gas ct_P ct_enthalpy ct_density fst snd].
  match goal with |- context [solve2 pydiv ?a ?b ?c ?d ?e ?f] =>
    set (hT := a); set (pT := b); set (hv := c); set (pv := d); set (eh := e); set (ep := f) end.
  assert (EhT : hT = 1) by (unfold hT; field; lra).
  assert (EpT : pT = 0) by (unfold pT; field; lra).
  assert (Epv : pv = - (49/100)) by (unfold pv; field; lra).
  assert (Eeh : eh = T) by (unfold eh; field; lra).
  assert (Eep : ep = 0) by (unfold ep; field; lra).
  assert (Es : solve2 pydiv hT pT hv pv eh ep = Ok (- T, 0)).
  { unfold solve2. rnum. rewrite EhT, EpT, Epv, Eeh, Eep.
    assert (N : 1 * - (49/100) - 0 * hv <> 0) by lra.
    rewrite !pydiv_ok by exact N. cbn [bind].
    assert (Ej : 1 * - (49/100) - 0 * hv = - (49/100)) by ring. rewrite Ej.
    f_equal. f_equal; field; lra. }
  rewrite Es, bind_pure_ok.
  assert (El : limit_temperature_reflected pydiv (- T) T = Ok (- (1/5 * T))).
  { unfold limit_temperature_reflected. rnum. rewrite lit_02, Rabs_Ropp, Rabs_pos_eq by lra.
    rewrite QLemmas.Rltb_true by lra. rewrite pydiv_ok by lra. f_equal. field. lra. }
  rewrite El, bind_pure_ok.
  assert (Ev : limit_volume pydiv 0 (1/2) (1/1) = Ok 0).
  { unfold limit_volume. rnum. rewrite lit_02, lit_05, Rabs_R0.
    rewrite (QLemmas.Rltb_false (1/1)) by lra. rewrite QLemmas.Rltb_false by lra. reflexivity. }
  rewrite Ev, bind_pure_ok. rewrite pydiv_ok by lra. rewrite bind_pure_ok.
  rewrite odd_equilibrium, bind_some. unfold after, ret. cbn [fst snd].
  replace (T + - (1/5 * T)) with (4/5 * T) by field.
  replace (1/2 + 0) with (1/2) by ring.
  replace (1 / (1/2)) with 2 by field.
  eexists. reflexivity.
Qed.

Lemma odd_eq_loop fuel : forall tT tv mx k T dT dv,
  (mx <= k)%Z -> 0 < T -> tT < 1/5 -> Rabs dT >= 1/5 * T ->
  In EvStuck (trace (eq_loop odd_gas fuel pydiv 0 (300, 1) (1/1) tT tv mx k (T, 2) T (1/2) 2 dT dv)).
Proof.
  induction fuel as [|fuel IH]; intros * Hk HT Ht Hd; cbn [eq_loop]; rnum;
    rewrite QLemmas.Rltb_true by nra; cbn [orb].
  - left. reflexivity.
  - destruct (Z.eqb_spec (k + 1) mx) as [E|E]; [lia|].
    destruct (odd_eq_body T HT) as (tr & Eb). rewrite Eb.
    rewrite bind_some, trace_after. apply in_or_app. right.
    apply IH; try lra; try lia.
    rewrite Rabs_Ropp, Rabs_pos_eq by lra. lra.
Qed.

Theorem C65_get_eq_state_refuted :
  exists (L : cantera R (R * R) unit) speed post_shock working,
    compressed L post_shock working /\
    forall max_iterations fuel, (max_iterations <= 0)%Z ->
      ~ finishes (get_eq_state L fuel pydiv speed post_shock working
                               (1/10000) (1/10000) max_iterations).
Proof.
  exists odd_gas, 0, (300, 1), (2000, 2). split.
  { unfold compressed; simpl; lra. }
  intros mx fuel Hmx Hf. apply Hf. clear Hf.
  rewrite get_eq_state_unfold by (simpl; lra).
  cbn [odd_gas ct_density ct_T fst snd]. fold odd_gas.
  rewrite odd_equilibrium, bind_some, trace_after. apply in_or_app. right.
  apply odd_eq_loop; try lra; try lia. rewrite Rabs_pos_eq; lra.
Qed.
Print Assumptions C65_get_eq_state_refuted.

(** What holds: both end for every limit >= 1, within [max_iterations] passes. *)
Theorem C65_partial :
  forall {G X} (L : cantera R G X) fuel div max_iterations,
    python_or_numpy div -> (1 <= max_iterations <= Z.of_nat fuel)%Z ->
    (forall working initial tol_T tol_V ratio,
        finishes (cj_state L fuel div working initial tol_T tol_V ratio max_iterations))
    /\ (forall speed post_shock working tol_T tol_v,
        0 < ct_T L working -> 0 < ct_density L post_shock <= ct_density L working ->
        finishes (get_eq_state L fuel div speed post_shock working tol_T tol_v max_iterations)).
Proof.
  intros * Hd Hm. split; intros.
  - apply cj_state_finishes; assumption.
  - apply get_eq_state_finishes; auto. split; assumption.
Qed.
Print Assumptions C65_partial.

(** C66.  get_eq_state started from a gas at least as dense as the gas ahead of the
    reflected shock and at a positive temperature: in every execution every
    temperature it sets is positive and every density is positive and at least
    (post-shock density)/1.02. *)
Theorem C66_settings_physical :
  forall {G X} (L : cantera R G X) fuel div speed post_shock working tol_T tol_v max_iterations T D,
    python_or_numpy div ->
    0 < ct_T L working -> 0 < ct_density L post_shock <= ct_density L working ->
    In (T, D) (settings (trace (get_eq_state L fuel div speed post_shock working
                                             tol_T tol_v max_iterations))) ->
    0 < T /\ ct_density L post_shock <= 51/50 * D.
Proof.
  intros * Hd HT Hr Hin.
  pose (P := fun e : event R => match e with
               | EvTD T D => 0 < T /\ ct_density L post_shock <= 51/50 * D | _ => True end).
  assert (H : all_events P (get_eq_state L fuel div speed post_shock working tol_T tol_v max_iterations)).
  { apply get_eq_state_all; unfold P; auto; [split; assumption|].
    intros T0 v HT0 Hv. split; [exact HT0|].
    apply Rmult_le_reg_r with v; [lra|].
    replace (51 / 50 * (1 / v) * v) with (51/50) by (field; lra).
    apply Rle_trans with (ct_density L post_shock * (51/50 * (1 / ct_density L post_shock))).
    - apply Rmult_le_compat_l; lra.
    - right. field. lra. }
  unfold settings in Hin. apply in_flat_map in Hin. destruct Hin as (e & He & Hin).
  unfold all_events in H. rewrite Forall_forall in H. specialize (H e He).
  destruct e; simpl in Hin; try tauto. destruct Hin as [Hin|[]]. injection Hin as <- <-.
  exact H.
Qed.
Print Assumptions C66_settings_physical.

(** ... and when it returns, it has gone through at most [max_iterations - 1] Newton
    steps, all of whose iterates have positive temperature and a positive volume not
    above the post-shock volume; it warned exactly if the limit stopped it. *)
Theorem C66_get_eq_state_run :
  forall {G X} (L : cantera R G X) fuel div speed post_shock working tol_T tol_v max_iterations g,
    python_or_numpy div ->
    0 < ct_T L working -> 0 < ct_density L post_shock <= ct_density L working ->
    (1 <= max_iterations)%Z ->
    let call := get_eq_state L fuel div speed post_shock working tol_T tol_v max_iterations in
    value call = Ok g ->
    exists g0 rest Tf vf,
      let its := (ct_T L working, 1 / ct_density L working, g0) :: rest in
      settles L working (ct_T L working) (ct_density L working) g0
      /\ chain (rs_newton_step L post_shock speed) its
      /\ (exists before, its = (before ++ [(Tf, vf, g)])%list)
      /\ (forall p, In p its -> 0 < itT p /\ 0 < itU p <= 1 / ct_density L post_shock)
      /\ (Z.of_nat (length rest) <= max_iterations - 1)%Z
      /\ settings (trace call) = (ct_T L working, ct_density L working) :: rs_settings its
      /\ ((warnings (trace call) = []
           /\ (rest = [] -> 1000 <= tol_T * ct_T L working
                            /\ 1000 <= tol_v * (1 / ct_density L working))
           /\ last_step_within tol_T tol_v its)
         \/ (length (warnings (trace call)) = 1%nat
             /\ (Z.of_nat (length rest) = max_iterations - 1)%Z
             /\ (rest = [] -> ~ (1000 <= tol_T * ct_T L working
                                 /\ 1000 <= tol_v * (1 / ct_density L working)))
             /\ last_step_outside tol_T tol_v its)).
Proof.
  intros. apply get_eq_state_spec; auto. split; assumption.
Qed.
Print Assumptions C66_get_eq_state_run.

Theorem C66_terminates :
  forall {G X} (L : cantera R G X) fuel div speed post_shock working tol_T tol_v max_iterations,
    python_or_numpy div ->
    0 < ct_T L working -> 0 < ct_density L post_shock <= ct_density L working ->
    (1 <= max_iterations <= Z.of_nat fuel)%Z ->
    finishes (get_eq_state L fuel div speed post_shock working tol_T tol_v max_iterations).
Proof. intros. apply get_eq_state_finishes; auto. split; assumption. Qed.
Print Assumptions C66_terminates.

(** C67.  GetError.equilibrium is (0, 0) exactly when mass, momentum and energy are
    conserved across the wave. *)
Theorem C67_conservation :
  forall {G X} (L : cantera R G X) working initial U,
    ct_density L working <> 0 ->
    (error_equilibrium L working initial U = Ok (0, 0) <->
     exists w, wave_conserves L initial working U w).
Proof.
  intros * H. rewrite error_equilibrium_R by exact H.
  rewrite <- imbalance_zero_iff by exact H. split.
  - intros E. split; congruence.
  - intros (-> & ->). reflexivity.
Qed.
Print Assumptions C67_conservation.

Theorem C67_zero_density :
  forall {G X} (L : cantera R G X) working initial U,
    ct_density L working = 0 -> error_equilibrium L working initial U = Err ZeroDivisionError.
Proof. intros * H. unfold error_equilibrium. rewrite pydiv_zero by exact H. reflexivity. Qed.
Print Assumptions C67_zero_density.

(** C68.  GetError.reflected_shock_frozen is (0, 0) exactly when some reflected shock,
    at lab speed W, brings gas moving at the particle speed u to rest and conserves
    mass, momentum and energy. *)
Theorem C68_reflected_conservation :
  forall {G X} (L : cantera R G X) div working post_shock u,
    python_or_numpy div ->
    ct_density L post_shock <> 0 -> ct_density L working <> 0 ->
    ct_density L working <> ct_density L post_shock ->
    (error_reflected L div u working post_shock = Ok (0, 0) <->
     exists W, wave_conserves L post_shock working (u + W) W).
Proof.
  intros * Hd H1 H2 H3.
  rewrite error_reflected_R; auto.
  - rewrite <- reflected_zero_iff by assumption. split.
    + intros E. split; congruence.
    + intros (-> & ->). reflexivity.
  - intros E. apply H3. apply (f_equal (fun x => x * ct_density L post_shock)) in E.
    unfold Rdiv in E. rewrite Rmult_assoc, Rinv_l in E by exact H1. lra.
Qed.
Print Assumptions C68_reflected_conservation.

(** ... and the speed reported by Reflection.reflect is that W. *)
Theorem C68_reflected_speed :
  forall {G X} (L : cantera R G X) initial post_shock working U P3 Wr g,
    let u := sqrt ((ct_P L post_shock - ct_P L initial)
                   * (1 / ct_density L initial - 1 / ct_density L post_shock)) in
    value (reflect L initial post_shock working U) = Ok (P3, Wr, g) ->
    P3 = ct_P L g /\
    forall W, wave_conserves L post_shock g (u + W) W -> Wr = W.
Proof.
  intros * H.
  destruct (reflect_inv L initial post_shock working U P3 Wr g H)
    as (Hr & Hu & EP & EW).
  split; [exact EP|]. intros W (Hm & Hp & _). fold u in Hu, EW.
  rewrite EW, EP.
  assert (E : ct_P L g - ct_P L post_shock = ct_density L post_shock * u * (u + W)).
  { replace (ct_density L g * W^2) with (ct_density L g * W * W) in Hp by ring.
    rewrite <- Hm in Hp. lra. }
  rewrite E. field. auto.
Qed.
Print Assumptions C68_reflected_speed.

(** C69.  The steps are the unique solutions of the linearised system: a 2x2 solve with
    non-zero determinant gives the one solution, with zero determinant an error. *)
Theorem C69_cj_steps :
  forall {G X} (L : cantera R G X) fuel div working initial tol_T tol_V ratio max_iterations g U,
    python_or_numpy div -> (1 <= max_iterations)%Z ->
    value (cj_state L fuel div working initial tol_T tol_V ratio max_iterations) = Ok (g, U) ->
    exists g0 rest Tf,
      let its := (2000, 2000, g0) :: rest in
      (exists before, its = (before ++ [(Tf, U, g)])%list)
      /\ chain (cj_newton_step L initial (ratio * ct_density L initial)) its.
Proof.
  intros * Hd Hm H.
  destruct (cj_state_spec L fuel div working initial tol_T tol_V ratio max_iterations g U Hd Hm H)
    as (g0 & rest & Tf & _ & Hch & Hl & _).
  exists g0, rest, Tf. auto.
Qed.
Print Assumptions C69_cj_steps.

Theorem C69_reflected_steps :
  forall {G X} (L : cantera R G X) fuel div speed post_shock working tol_T tol_v max_iterations g,
    python_or_numpy div ->
    0 < ct_T L working -> 0 < ct_density L post_shock <= ct_density L working ->
    (1 <= max_iterations)%Z ->
    value (get_eq_state L fuel div speed post_shock working tol_T tol_v max_iterations) = Ok g ->
    exists g0 rest Tf vf,
      let its := (ct_T L working, 1 / ct_density L working, g0) :: rest in
      (exists before, its = (before ++ [(Tf, vf, g)])%list)
      /\ chain (rs_newton_step L post_shock speed) its.
Proof.
  intros * Hd HT Hr Hm H.
  destruct (get_eq_state_spec L fuel div speed post_shock working tol_T tol_v max_iterations g Hd
              (conj HT Hr) Hm H) as (g0 & rest & Tf & vf & _ & Hch & Hl & _).
  exists g0, rest, Tf, vf. auto.
Qed.
Print Assumptions C69_reflected_steps.

(** C72.  If the incident wave given to reflect runs at [U] into the initial gas, leaves
    the post-shock gas and conserves mass, momentum and energy, then the speed reflect
    returns is that of a shock which conserves mass and momentum while bringing gas that
    moves at the lab-frame particle speed [U - w] to rest. *)
Lemma incident_particle_speed {G X} (L : cantera R G X) initial post_shock U w :
    ct_density L initial <> 0 -> ct_density L post_shock <> 0 ->
    wave_conserves L initial post_shock U w -> w <= U ->
    sqrt ((ct_P L post_shock - ct_P L initial)
          * (1 / ct_density L initial - 1 / ct_density L post_shock)) = U - w.
Proof.
  intros H1 H2 (Hm & Hp & _) Hw.
  assert (E : (ct_P L post_shock - ct_P L initial)
          * (1 / ct_density L initial - 1 / ct_density L post_shock) = (U - w)^2).
  { set (r1 := ct_density L initial) in *. set (r2 := ct_density L post_shock) in *.
    assert (EP : ct_P L post_shock - ct_P L initial = r1 * U * (U - w)).
    { replace (r2 * w^2) with (r2 * w * w) in Hp by ring. rewrite <- Hm in Hp. lra. }
    rewrite EP.
    assert (Ew : w = r1 * U / r2) by (rewrite Hm; field; exact H2).
    rewrite Ew. field. auto. }
  rewrite E. rewrite <- Rsqr_pow2. apply sqrt_Rsqr. lra.
Qed.

Theorem C72_particle_speed :
  forall {G X} (L : cantera R G X) initial post_shock working U w U' P3 Wr g,
    ct_density L initial <> 0 ->
    wave_conserves L initial post_shock U w -> w <= U ->
    value (reflect L initial post_shock working U') = Ok (P3, Wr, g) ->
    P3 = ct_P L g
    /\ P3 - ct_P L post_shock = ct_density L post_shock * (U - w) * (U - w + Wr)
    /\ forall W, wave_conserves L post_shock g (U - w + W) W -> Wr = W.
Proof.
  intros * H1 Hw Hle H.
  destruct (reflect_inv L initial post_shock working U' P3 Wr g H) as (Hr & Hu & EP & EW).
  rewrite (incident_particle_speed L initial post_shock U w H1 Hr Hw Hle) in Hu, EW.
  split; [exact EP|]. split.
  - rewrite EW. field. auto.
  - pose proof (C68_reflected_speed L initial post_shock working U' P3 Wr g H) as (_ & K).
    cbv zeta in K.
    rewrite (incident_particle_speed L initial post_shock U w H1 Hr Hw Hle) in K. exact K.
Qed.
Print Assumptions C72_particle_speed.

(** C73.  For a gas that obeys the ideal-gas law when its temperature, pressure and
    composition are set, reflect starts the iteration at one fifth of the post-shock
    volume, so it always ends, every temperature it sets is positive and every density
    at least (post-shock density)/1.02, whatever equilibration does. *)
Definition ideal_when_set {G X} (L : cantera R G X) (post_shock : G) : Prop :=
  exists k : R,
    ct_density L post_shock = k * ct_P L post_shock / ct_T L post_shock
    /\ forall g T P g', ct_set_TPX L g T P (ct_X L post_shock) = Ok g' ->
         ct_T L g' = T /\ ct_density L g' = k * P / T.

Theorem C73_reflect_well_started :
  forall {G X} (L : cantera R G X) initial post_shock working U,
    0 < ct_T L post_shock -> 0 < ct_P L post_shock -> 0 < ct_density L post_shock ->
    ideal_when_set L post_shock ->
    finishes (reflect L initial post_shock working U)
    /\ forall T D, In (T, D) (settings (trace (reflect L initial post_shock working U))) ->
         0 < T /\ ct_density L post_shock <= 51/50 * D.
Proof.
  intros * HT HP Hrho (k & Hk & Hset).
  pose (P := fun e : event R => e <> EvStuck /\ match e with
               | EvTD T D => 0 < T /\ ct_density L post_shock <= 51/50 * D | _ => True end).
  assert (H : all_events P (reflect L initial post_shock working U)).
  { unfold reflect. rnum. rewrite one_R, lit_02.
    apply all_bind; [apply all_pure|]. intros v1 _.
    apply all_bind; [apply all_pure|]. intros v2 E. rewrite value_pure in E.
    apply (div_inv pydiv) in E; [|left; reflexivity]. destruct E as (_ & ->).
    apply all_bind; [apply all_pure|]. intros u _.
    apply all_bind; [apply all_pure|]. intros vw E. rewrite value_pure in E.
    apply (div_inv pydiv) in E; [|left; reflexivity]. destruct E as (_ & ->).
    apply all_bind; [apply all_pure|]. intros q E. rewrite value_pure in E.
    apply (div_inv pydiv) in E; [|left; reflexivity]. destruct E as (_ & ->).
    set (q := 1 / 5 / ct_density L post_shock / (1 / ct_density L post_shock)).
    assert (Eq : q = 1/5) by (unfold q; field; lra).
    apply all_bind; [apply all_pure|]. intros Tw E. rewrite value_pure in E.
    apply (div_inv pydiv) in E; [|left; reflexivity]. destruct E as (_ & ->).
    set (Pw := ct_P L post_shock + ct_density L post_shock * sq U * (1 - q)).
    assert (HPw : 0 < Pw).
    { unfold Pw, sq. rnum. rewrite Eq.
      assert (0 <= U * U) by nra.
      assert (0 <= ct_density L post_shock * (U * U)) by (apply Rmult_le_pos; lra). nra. }
    set (Tw := ct_T L post_shock * Pw * _ / _).
    assert (ETw : Tw = ct_T L post_shock * Pw / (5 * ct_P L post_shock)).
    { unfold Tw. field. lra. }
    assert (HTw : 0 < Tw).
    { rewrite ETw. apply Rdiv_lt_0_compat; [apply Rmult_lt_0_compat; assumption|lra]. }
    apply all_bind; [apply all_act; split; [discriminate|exact I]|].
    intros w Ew. unfold set_TPX, act, value in Ew. cbn [snd] in Ew.
    destruct (Hset _ _ _ _ Ew) as (EwT & EwD).
    assert (EwD' : ct_density L w = 5 * ct_density L post_shock).
    { rewrite EwD, ETw, Hk. field. lra. }
    assert (Hc : compressed L post_shock w) by (split; [rewrite EwT; exact HTw|lra]).
    apply all_bind.
    - assert (Hf : all_events not_stuck (get_eq_state L 500 npdiv u post_shock w (Q2R 0.0001) (Q2R 0.0001) 500)).
      { pose proof (get_eq_state_finishes L 500 npdiv u post_shock w (Q2R 0.0001) (Q2R 0.0001) 500
                   (or_intror eq_refl) Hc ltac:(lia)) as Hf.
        unfold all_events. apply Forall_forall. intros e He Ee. subst e. exact (Hf He). }
      assert (Hp : all_events (fun e => match e with
               | EvTD T D => 0 < T /\ ct_density L post_shock <= 51/50 * D | _ => True end)
               (get_eq_state L 500 npdiv u post_shock w (Q2R 0.0001) (Q2R 0.0001) 500)).
      { apply get_eq_state_all; auto; [right; reflexivity|].
        intros T0 v HT0 Hv. split; [exact HT0|].
        apply Rmult_le_reg_r with v; [lra|].
        replace (51 / 50 * (1 / v) * v) with (51/50) by (field; lra).
        apply Rle_trans with (ct_density L post_shock * (51/50 * (1 / ct_density L post_shock))).
        - apply Rmult_le_compat_l; lra.
        - right. field. lra. }
      unfold all_events in *. rewrite Forall_forall in *. intros e He.
      split; [exact (Hf e He)|exact (Hp e He)].
    - intros w' _. apply all_bind; [apply all_pure|]. intros.
      apply all_bind; [apply all_pure|]. intros. apply all_ret. }
  split.
  - intros Hin. unfold all_events in H. rewrite Forall_forall in H.
    destruct (H _ Hin) as (Hn & _). apply Hn. reflexivity.
  - intros T D Hin.
    unfold settings in Hin. apply in_flat_map in Hin. destruct Hin as (e & He & Hin).
    unfold all_events in H. rewrite Forall_forall in H. destruct (H e He) as (_ & He').
    destruct e; simpl in Hin; try tauto. destruct Hin as [Hin|[]]. injection Hin as <- <-.
    exact He'.
Qed.
Print Assumptions C73_reflect_well_started.

(** ** A gas on which the CJ iteration converges: the hypotheses above are met. *)
(** Enthalpy 750*T*(D-1), pressure 1 + 2000000*(D-1), initial density 1, ratio 2: the CJ
    equations hold at T = 2000 K, U = 2000 m/s. *)
Definition calm_gas : cantera R (R * R) unit :=
  mkCantera R (R * R) unit
    (fun _ _ => Ok (300, 1)) (fun g T P _ => Ok (T, 1))
    (fun _ T D => Ok (T, D)) (fun g _ _ => Ok g) (fun g _ => Ok g)
    fst (fun g => 1 + 2000000 * (snd g - 1)) snd
    (fun g => 750 * fst g * (snd g - 1)) (fun _ => 0) (fun _ => tt)
    (fun _ => Ok 1) (fun _ => Ok 1).

Lemma calm_equilibrium g D T :
  equilibrium calm_gas g D T = ([EvTD T D; EvEquilibrate "TV"], Ok (T, D)).
Proof. reflexivity. Qed.

Example cj_state_converges :
  exists tr,
    cj_state calm_gas 500 pydiv (300, 1) (300, 1) (1/10000) (1/10000) 2 500
    = (tr, Ok ((2000, 2), 2000)) /\ warnings tr = []
    /\ settings tr = [(2000, 2); (2040, 2); (2000, 2); (2000, 2)].
Proof.
  unfold cj_state. rnum. rewrite lit_2000, lit_1000, one_R.
  cbn [calm_gas ct_density snd].
  rewrite (pydiv_ok 1 1) by lra. rewrite bind_pure_ok.
  rewrite (pydiv_ok (1/1) 2) by lra. rewrite bind_pure_ok.
  rewrite pydiv_ok by lra. rewrite bind_pure_ok. fold calm_gas. rewrite calm_equilibrium, bind_some.
  replace (1 / (1 / 1 / 2)) with 2 by field.
  change 500%nat with (S (S 498)). cbn [cj_loop]. rnum.
  rewrite (Rabs_pos_eq 1000) by lra.
  rewrite QLemmas.Rltb_true by lra. cbn [orb].
  change (Z.eqb (0 + 1) 500) with false. cbv iota.
  assert (Hb : cj_body calm_gas (300, 1) 2 (2000, 2) 2000 2000
    = ([EvTD 2040 2; EvEquilibrate "TV"; EvTD 2000 2; EvEquilibrate "TV";
        EvTD 2000 2; EvEquilibrate "TV"], Ok ((2000, 2), 2000, 2000, 0, 0))).
  { unfold cj_body. rnum. rewrite !lit_002.
    replace (2000 + 1/50 * 2000) with 2040 by field.
    rewrite error_equilibrium_R by (simpl; lra). rewrite bind_pure_ok.
    rewrite calm_equilibrium, bind_some.
    rewrite error_equilibrium_R by (simpl; lra). rewrite bind_pure_ok.
    rewrite !pydiv_ok by lra. rewrite !bind_pure_ok.
    rewrite calm_equilibrium, bind_some.
    rewrite error_equilibrium_R by (simpl; lra). rewrite bind_pure_ok.
    rewrite !pydiv_ok by lra. rewrite !bind_pure_ok.
    unfold energy_imbalance, momentum_imbalance.
    cbn [calm_gas ct_P ct_enthalpy ct_density fst snd].
    match goal with |- context [solve2 pydiv ?a ?b ?c ?d ?e ?f] =>
      assert (Es : solve2 pydiv a b c d e f = Ok (0, 0)) end.
    { unfold solve2. rnum. rewrite !pydiv_ok by lra. cbn [bind]. f_equal. f_equal; field. }
    rewrite Es, bind_pure_ok.
    assert (El : limit_temperature 0 2000 = Ok 0).
    { unfold limit_temperature. rnum. rewrite lit_02, Rabs_R0.
      rewrite QLemmas.Rltb_false by lra. reflexivity. }
    rewrite El, bind_pure_ok. rewrite calm_equilibrium, bind_some.
    unfold after, ret. cbn [fst snd app].
    replace (2000 + 0) with 2000 by ring. reflexivity. }
  rewrite Hb, bind_some.
  rewrite Rabs_R0. rewrite QLemmas.Rltb_false by lra. cbn [orb].
  eexists. split; [reflexivity|]. split; reflexivity.
Qed.
