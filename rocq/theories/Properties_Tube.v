(** * Properties_Tube: C18-C22 (dynamic load factor, maximum pressure). *)
From Coq Require Import String Reals List Lra.
From Verif Require Import PyBase Pint UnitsM Spec QLemmas TubeM TubeP.
Import ListNotations.
Local Open Scope R_scope.

(** A metre, a pascal, ... quantity of registry 0. *)
Definition si (x : R) (d : dim) : quantity R := mkQ x (mult_unit d one) 0.
Lemma si_stands x d : stands_for (si x d) d x 0.
Proof. unfold stands_for, si; cbn; rewrite one_R; repeat split; lra. Qed.

(** C18: [V] is any number satisfying the specification of the critical velocity
    (nonnegative fourth root); r = (OD+ID)/4 mean radius, h = (OD-ID)/2 wall. *)
Theorem C18_dynamic_load_factor :
  forall (tube_id tube_od cj_velocity elastic_modulus density : quantity R)
         (ID OD v E rho nu f V r h : R) (reg : nat),
    stands_for tube_id d_length ID reg -> stands_for tube_od d_length OD reg ->
    stands_for cj_velocity d_velocity v reg ->
    stands_for elastic_modulus d_pressure E reg -> stands_for density d_density rho reg ->
    0 <= ID -> 0 <= OD -> 0 < OD + ID -> 0 <= E -> 0 < rho -> -1 < nu < 1 -> 0 < f < 1 ->
    h = (OD - ID) / 2 -> r = (ID / 2 + OD / 2) / 2 ->
    0 <= V -> V^4 = E^2 * h^2 / (3 * rho^2 * r^2 * (1 - nu^2)) ->
    let dlf := dynamic_load_factor tube_id tube_od cj_velocity elastic_modulus density nu f in
    (v < (1 - f) * V -> dlf = Ok 1%nat)
    /\ ((1 + f) * V < v -> dlf = Ok 2%nat)
    /\ ((1 - f) * V <= v <= (1 + f) * V -> dlf = Ok 4%nat).
Proof.
  intros; subst h r. eapply dlf_classifies; eauto.
  match goal with H : V^4 = _ |- _ => rewrite H end.
  replace ((ID / 2 + OD / 2) / 2) with ((OD + ID) / 4) by field. reflexivity.
Qed.
Print Assumptions C18_dynamic_load_factor.
Theorem C18_no_other_value :
  forall (tube_id tube_od cj_velocity elastic_modulus density : quantity R) (nu f : R) n,
    dynamic_load_factor tube_id tube_od cj_velocity elastic_modulus density nu f = Ok n ->
    n = 1%nat \/ n = 2%nat \/ n = 4%nat.
Proof. exact dlf_values. Qed.
Print Assumptions C18_no_other_value.
(** Each outcome occurs: a tube with critical velocity 2 (h = 1/2, r = 1/4, so
    V^4 = 4 E^2/(3 (1-nu^2)) at rho = 1; E^2 = 12, nu = 0). *)
Example C18_case :
  let E := 2 * sqrt 3 in
  stands_for (si 0 d_length) d_length 0 0 /\ stands_for (si 1 d_length) d_length 1 0
  /\ stands_for (si 1 d_velocity) d_velocity 1 0 /\ stands_for (si 2 d_velocity) d_velocity 2 0
  /\ stands_for (si E d_pressure) d_pressure E 0 /\ stands_for (si 1 d_density) d_density 1 0
  /\ 0 <= E /\ 2^4 = E^2 * (1/2)^2 / (3 * 1^2 * (1/4)^2 * (1 - 0^2)).
Proof.
  repeat split; try apply si_stands; cbn; rewrite ?one_R; try lra;
    pose proof (sqrt_pos 3); pose proof (sqrt_sqrt 3 ltac:(lra)); try lra.
Qed.

(** C19 *)
Theorem C19_dynamic_load_factor_shape :
  forall (tube_id tube_od cj_velocity elastic_modulus density : quantity R)
         (tube_id' tube_od' elastic_modulus' density' : quantity R)
         (ID OD v E rho nu f k m : R) (reg : nat),
    stands_for tube_id d_length ID reg -> stands_for tube_od d_length OD reg ->
    stands_for cj_velocity d_velocity v reg ->
    stands_for elastic_modulus d_pressure E reg -> stands_for density d_density rho reg ->
    0 <= ID -> 0 <= OD -> 0 < OD + ID -> 0 <= E -> 0 < rho -> -1 < nu < 1 -> 0 < f < 1 ->
    0 < k -> 0 < m ->
    stands_for tube_id' d_length (k * ID) reg -> stands_for tube_od' d_length (k * OD) reg ->
    stands_for elastic_modulus' d_pressure (m * E) reg ->
    stands_for density' d_density (m * rho) reg ->
    exists n,
      dynamic_load_factor tube_id tube_od cj_velocity elastic_modulus density nu f = Ok n
      /\ dynamic_load_factor tube_id' tube_od' cj_velocity elastic_modulus' density' nu f
         = Ok n.
Proof. exact dlf_shape. Qed.
Print Assumptions C19_dynamic_load_factor_shape.
Example C19_case :
  stands_for (si 1 d_length) d_length 1 0 /\ stands_for (si (2 * 1) d_length) d_length (2*1) 0
  /\ stands_for (si (3 * 7) d_density) d_density (3 * 7) 0 /\ 0 < 2 /\ 0 < 3.
Proof. repeat split; try apply si_stands; cbn; rewrite ?one_R; lra. Qed.

(** C20: any quantities at all, in any units and registries. *)
Theorem C20_bad_arguments_rejected :
  forall (tube_id tube_od cj_velocity elastic_modulus density : quantity R)
         (did dod dv de dr : dim) (ID OD v E rho nu f : R),
    u_dim (q_unit tube_id) = did -> worth (q_mag tube_id) (q_unit tube_id) ID ->
    u_dim (q_unit tube_od) = dod -> worth (q_mag tube_od) (q_unit tube_od) OD ->
    u_dim (q_unit cj_velocity) = dv -> worth (q_mag cj_velocity) (q_unit cj_velocity) v ->
    u_dim (q_unit elastic_modulus) = de ->
    worth (q_mag elastic_modulus) (q_unit elastic_modulus) E ->
    u_dim (q_unit density) = dr -> worth (q_mag density) (q_unit density) rho ->
    (did <> d_length \/ ID < 0 \/ dod <> d_length \/ OD < 0 \/ dv <> d_velocity
     \/ de <> d_pressure \/ E < 0 \/ dr <> d_density \/ rho < 0 \/ ~ (0 < f < 1)) ->
    is_value_error
      (dynamic_load_factor tube_id tube_od cj_velocity elastic_modulus density nu f).
Proof. exact dlf_rejects. Qed.
Print Assumptions C20_bad_arguments_rejected.
Example C20_case :
  worth (q_mag (si 1 d_length)) (q_unit (si 1 d_length)) 1 /\ ~ (0 < 0 < 1) /\ ~ (0 < 1 < 1).
Proof. unfold worth; cbn; rewrite one_R; repeat split; lra. Qed.

(** C21: false of the code. *)
Theorem C21_refuted :
  (exists (tube_id tube_od cj_velocity elastic_modulus density : quantity R) (nu f : R) n,
     stands_for tube_id d_length 2 0 /\ stands_for tube_od d_length 1 0
     /\ dynamic_load_factor tube_id tube_od cj_velocity elastic_modulus density nu f = Ok n)
  /\ (exists (tube_id tube_od max_stress : quantity R) (p : R),
        stands_for tube_id d_length 2 0 /\ stands_for tube_od d_length 1 0
        /\ returns (calculate_max_pressure tube_id tube_od max_stress 4) d_pressure p 0
        /\ p < 0).
Proof.
  split.
  - exists (si 2 d_length), (si 1 d_length), (si 1 d_velocity), (si 1 d_pressure),
      (si 1 d_density), 0, (1/2). eexists.
    split; [apply si_stands|]; split; [apply si_stands|].
    eapply dlf_closed; try apply si_stands; lra.
  - exists (si 2 d_length), (si 1 d_length), (si 3 d_pressure). eexists.
    split; [apply si_stands|]; split; [apply si_stands|].
    split; [eapply mp_closed; try apply si_stands; lra|].
    unfold mp_formula. lra.
Qed.
Print Assumptions C21_refuted.
(** What the code does instead, for every swapped tube: the load factor of the tube
    with the diameters exchanged, and minus its pressure. *)
Theorem C21_swapped_load_factor :
  forall (tube_id tube_od cj_velocity elastic_modulus density : quantity R)
         (ID OD v E rho nu f : R) (reg : nat),
    stands_for tube_id d_length ID reg -> stands_for tube_od d_length OD reg ->
    stands_for cj_velocity d_velocity v reg ->
    stands_for elastic_modulus d_pressure E reg -> stands_for density d_density rho reg ->
    0 <= ID -> 0 <= OD -> 0 < OD + ID -> 0 <= E -> 0 < rho -> -1 < nu < 1 -> 0 < f < 1 ->
    exists n,
      dynamic_load_factor tube_id tube_od cj_velocity elastic_modulus density nu f = Ok n
      /\ dynamic_load_factor tube_od tube_id cj_velocity elastic_modulus density nu f = Ok n.
Proof. exact dlf_swap. Qed.
Print Assumptions C21_swapped_load_factor.
Theorem C21_swapped_pressure :
  forall (tube_id tube_od max_stress : quantity R) (ID OD S sf : R) (reg : nat) (p : R),
    stands_for tube_id d_length ID reg -> stands_for tube_od d_length OD reg ->
    stands_for max_stress d_pressure S reg -> 0 < OD + ID -> 0 < sf ->
    returns (calculate_max_pressure tube_id tube_od max_stress sf) d_pressure p reg ->
    returns (calculate_max_pressure tube_od tube_id max_stress sf) d_pressure (- p) reg.
Proof. exact mp_swap. Qed.
Print Assumptions C21_swapped_pressure.

(** C22: mean diameter (OD+ID)/2, wall (OD-ID)/2.  The increase in OD is strict only
    for a positive bore (with ID = 0 the formula gives 2 S / sf for every OD). *)
Theorem C22_hoop_stress_balance :
  forall (tube_id tube_od max_stress : quantity R) (ID OD S sf : R) (reg : nat),
    stands_for tube_id d_length ID reg -> stands_for tube_od d_length OD reg ->
    stands_for max_stress d_pressure S reg ->
    0 <= ID -> ID < OD -> 0 < sf ->
    exists p,
      returns (calculate_max_pressure tube_id tube_od max_stress sf) d_pressure p reg
      /\ p * ((OD + ID) / 2) * sf = S * (2 * ((OD - ID) / 2))
      /\ (0 < S -> 0 < p)
      /\ (forall k max_stress', stands_for max_stress' d_pressure (k * S) reg ->
            returns (calculate_max_pressure tube_id tube_od max_stress' sf)
                    d_pressure (k * p) reg)
      /\ (forall k, 0 < k ->
            returns (calculate_max_pressure tube_id tube_od max_stress (k * sf))
                    d_pressure (p / k) reg)
      /\ (0 < ID -> 0 < S -> forall OD' tube_od', OD < OD' ->
            stands_for tube_od' d_length OD' reg ->
            exists p', returns (calculate_max_pressure tube_id tube_od' max_stress sf)
                               d_pressure p' reg /\ p < p')
      /\ (0 < S -> forall ID' tube_id', ID < ID' < OD ->
            stands_for tube_id' d_length ID' reg ->
            exists p', returns (calculate_max_pressure tube_id' tube_od max_stress sf)
                               d_pressure p' reg /\ p' < p).
Proof. exact mp_balance. Qed.
Print Assumptions C22_hoop_stress_balance.
Theorem C22_solid_bar :
  forall (tube_id tube_od tube_od' max_stress : quantity R) (OD OD' S sf : R) (reg : nat),
    stands_for tube_id d_length 0 reg -> stands_for tube_od d_length OD reg ->
    stands_for tube_od' d_length OD' reg -> stands_for max_stress d_pressure S reg ->
    0 < OD -> 0 < OD' -> 0 < sf ->
    returns (calculate_max_pressure tube_id tube_od max_stress sf) d_pressure (2 * S / sf) reg
    /\ returns (calculate_max_pressure tube_id tube_od' max_stress sf) d_pressure (2 * S / sf) reg.
Proof.
  assert (X : forall qi qo qs o S sf reg, stands_for qi d_length 0 reg -> stands_for qo d_length o reg ->
    stands_for qs d_pressure S reg -> 0 < o -> 0 < sf ->
    returns (calculate_max_pressure qi qo qs sf) d_pressure (2 * S / sf) reg).
  { intros qi qo qs o S sf reg Hi Ho Hs P F.
    replace (2 * S / sf) with (mp_formula 0 o S sf) by (unfold mp_formula; field; lra).
    apply mp_closed; try assumption; lra. }
  intros. split; eapply X; eassumption.
Qed.
Print Assumptions C22_solid_bar.
Example C22_case :
  stands_for (si 1 d_length) d_length 1 0 /\ stands_for (si 2 d_length) d_length 2 0
  /\ stands_for (si 5 d_pressure) d_pressure 5 0 /\ 0 <= 1 /\ 1 < 2 /\ 0 < 4.
Proof. repeat split; try apply si_stands; cbn; rewrite ?one_R; lra. Qed.
