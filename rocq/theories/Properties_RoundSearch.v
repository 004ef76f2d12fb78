(** * Properties_RoundSearch: C129, the search for the initial pressure under rounding.

    [Num_rounded rnd] (RoundM.v): every operation is rounded by [rnd]; [rounding u rnd]
    (RoundSpec.v): by at most the fraction [u]; [double] is one.  [is_search_r], [in_atm],
    [nearly_proportional]: RoundSearchSpec.v. *)
From Coq Require Import String ZArith QArith Reals Qreals List Bool Lra Lia.
From Verif Require Import PyBase Pint UnitsM Spec QLemmas Gas GasP SdM SdSpec ThermoM TubeM InitPressureM
  InitPressureSpec InitPressureP ExampleGas RoundM RoundSpec RoundP RoundSearchSpec RoundSearchP
  Properties_Tube Properties_Thermo Properties_InitPressure.
Import ListNotations.
Local Open Scope R_scope.

(** As C31: the trials in order; if the search ended because of the tolerance, the true
    pressure times the load factor is within the tolerance of the limit, up to a few
    rounding units. *)
Theorem C129_meets_tolerance :
  forall (u : R) (rnd : R -> R) {G X} (L : cantera R G X) tube_id tube_od T x mech max_pressure E rho
         nu f use reg tol max_iterations p name w return_dlf a,
    rounding u rnd -> names name w ->
    let M := q_mag max_pressure in
    value (@calculate_max_initial_pressure R G X (Num_rounded rnd) L tube_id tube_od T x mech
             max_pressure E rho nu f use reg tol max_iterations p name return_dlf) = Ok a ->
    exists first updates,
      let trials := first :: updates in
      is_search_r u rnd L tube_id tube_od T x mech E rho nu f use reg p M trials
      /\ reports return_dlf (last trials first) a
      /\ (Z.of_nat (length updates) <= Z.max 0 max_iterations)%Z
      /\ (updates <> [] -> (Z.of_nat (length updates) < max_iterations)%Z ->
          Rabs (ct_P L (state_at w (shocks (last trials first))) * factor (last trials first) - M)
          <= ((1 + 4 * u) * Rabs tol + 2 * u) * Rabs M).
Proof.
  intros * Hr Hn M H. apply names_state in Hn.
  destruct (search_inv_r u rnd Hr L _ _ _ _ _ _ _ _ _ _ _ _ _ _ _ _ _ _ _ Hn H)
    as (t & ts & Hs & Hrep & Hl & _ & HM & Hm).
  exists t, ts. split; [exact Hs|]. split; [exact Hrep|]. split; [lia|].
  intros Hne Hlt. apply (true_error u rnd Hr); [exact HM|]. apply Hm; [exact Hne|lia].
Qed.
Print Assumptions C129_meets_tolerance.

(** Where the reflected pressure is proportional to the initial pressure up to the fraction
    [eta], and the load factor is always [n]: the search returns, for every tolerance and
    iteration limit, and unless it stayed at 1 atm its answer is within 2 eta + 6 u of the
    pressure M / (n r) that loads the tube to the limit. *)
Theorem C129_nearly_proportional :
  forall (u : R) (rnd : R -> R) {G X} (L : cantera R G X) tube_id tube_od T x mech max_pressure E rho
         nu f reg tol max_iterations p name w r eta n,
    rounding u rnd -> names name w ->
    let M := q_mag max_pressure in
    0 < M -> 0 < r -> 0 <= eta <= 1/4 ->
    nearly_proportional rnd L tube_id tube_od T x mech E rho nu f reg p r eta n ->
    exists q,
      value (@calculate_max_initial_pressure R G X (Num_rounded rnd) L tube_id tube_od T x mech
               max_pressure E rho nu f true reg tol max_iterations p name true)
      = Ok (PressureAndFactor q (INR n))
      /\ ((Rabs tol < Rabs (rnd (rnd (INR n / M) - 1)) /\ (0 < max_iterations)%Z
           /\ exists m, in_atm rnd q m reg /\ within (2 * eta + 6 * u) (M / (INR n * r)) m)
          \/ ((Rabs (rnd (rnd (INR n / M) - 1)) <= Rabs tol \/ (max_iterations <= 0)%Z)
              /\ in_atm rnd q 1 reg)).
Proof.
  intros * Hr Hn M HM H0 He Hp. apply names_state in Hn.
  exact (search_returns u rnd Hr L _ _ _ _ _ _ _ _ _ _ true _ _ w r eta n Hp eq_refl H0 He HM
           tol max_iterations name Hn).
Qed.
Print Assumptions C129_nearly_proportional.

(** Exact arithmetic is a rounding, the invented gas is proportional: 1 MPa, load factor 2. *)
Lemma exact_rounding : rounding 0 (fun x => x).
Proof.
  split; [lra|]. split; [|split; [intros; assumption|split; intros; reflexivity]].
  intros x. rewrite Rminus_diag_eq, Rabs_R0 by reflexivity. lra.
Qed.
Lemma example_nearly : nearly_proportional (fun x => x) example_gas (si 0 d_length) (si 1 d_length) room
  fresh "gri30.cti" tube_E (si 1 d_density) 0 (1/10) 0 Serial (101325 + 32000000/9) 0 2.
Proof.
  intros q m Hq Hm. change (is_in q m "atm" 0) in Hq.
  destruct (example_proportional room "gri30.cti" Serial room_300 (or_introl eq_refl) q (m * 101325))
    as (s & Hs & H1 & _ & Hd); [apply (atm_denotes _ _ 0); exact Hq|lra|].
  exists s. split; [exact Hs|]. split; [|exact Hd].
  rewrite H1. unfold within, ratio_r.
  replace ((101325 + 32000000 / 9) / 101325 * (m * 101325) - (101325 + 32000000 / 9) * m) with 0 by field.
  rewrite Rabs_R0. lra.
Qed.
Example C129_case : exists q m,
  value (search (si 1000000 d_pressure) "reflected" true) = Ok (PressureAndFactor q 2)
  /\ is_in q m "atm" 0 /\ m = 1000000 / (2 * (101325 + 32000000/9)).
Proof.
  destruct (C129_nearly_proportional 0 (fun x => x) example_gas (si 0 d_length) (si 1 d_length) room fresh
    "gri30.cti" (si 1000000 d_pressure) tube_E (si 1 d_density) 0 (1/10) 0 (1/10000) 500 Serial
    "reflected" AtReflected (101325 + 32000000/9) 0 2 exact_rounding (or_introl (conj eq_refl eq_refl)))
    as (q & V & D); [cbn; lra|lra|lra|exact example_nearly|].
  destruct D as [(_ & _ & m & Hq & Hm)|([D|D] & _)].
  - exists q, m. split; [|split; [exact Hq|]].
    + change (value (search (si 1000000 d_pressure) "reflected" true) = Ok (PressureAndFactor q (INR 2))) in V.
      rewrite V. reflexivity.
    + unfold within in Hm. cbn [q_mag si INR] in Hm.
      replace ((2 * 0 + 6 * 0) * Rabs (1000000 / ((1 + 1) * (101325 + 32000000 / 9)))) with 0 in Hm by ring.
      pose proof (Rabs_pos (m - 1000000 / ((1 + 1) * (101325 + 32000000 / 9)))).
      destruct (Req_dec (m - 1000000 / ((1 + 1) * (101325 + 32000000 / 9))) 0) as [Z|Z];
        [|apply Rabs_pos_lt in Z; lra].
      replace (1 + 1) with 2 in Z by lra. lra.
  - cbn [q_mag si INR] in D. rewrite Rabs_left in D by lra. rewrite (Rabs_pos_eq (1/10000)) in D; lra.
  - lia.
Qed.
