(** * TubeP: lemmas about dynamic_load_factor and calculate_max_pressure. *)
From Coq Require Import String ZArith QArith Reals Qreals List Bool Lra Psatz.
From Verif Require Import PyBase Pint UnitsM Spec QLemmas TubeM.
Import ListNotations.
Local Open Scope R_scope.

Definition vcrit4 (ID OD E rho nu : R) : R :=
  (E * E * (((OD - ID) / 2) * ((OD - ID) / 2)))
  / ((1 - nu * nu) * (3 * (rho * rho) * (((OD + ID) / 4) * ((OD + ID) / 4)))).

Lemma vcrit4_den ID OD rho nu :
  0 < OD + ID -> 0 < rho -> nu * nu < 1 ->
  0 < (1 - nu * nu) * (3 * (rho * rho) * (((OD + ID) / 4) * ((OD + ID) / 4))).
Proof.
  intros; repeat (apply Rmult_lt_0_compat; try lra).
Qed.

Lemma vcrit4_nonneg ID OD E rho nu :
  0 < OD + ID -> 0 < rho -> nu * nu < 1 -> 0 <= vcrit4 ID OD E rho nu.
Proof.
  intros; unfold vcrit4. apply Rmult_le_pos.
  - pose proof (Rle_0_sqr E); pose proof (Rle_0_sqr ((OD - ID) / 2)); unfold Rsqr in *.
    now apply Rmult_le_pos.
  - left; apply Rinv_0_lt_compat; now apply vcrit4_den.
Qed.

Lemma cv_closed qid qod qe qr ID OD E rho nu reg :
  stands_for qid d_length ID reg -> stands_for qod d_length OD reg ->
  stands_for qe d_pressure E reg -> stands_for qr d_density rho reg ->
  0 < OD + ID -> 0 < rho -> nu * nu < 1 ->
  returns (critical_velocity qid qod qe qr nu) d_velocity
          (sqrt (sqrt (vcrit4 ID OD E rho nu))) reg.
Proof.
  intros Hid Hod He Hr G0 r0 n0; unfold critical_velocity.
  pose proof (vcrit4_den ID OD rho nu G0 r0 n0) as Dn.
  pose proof (vcrit4_nonneg ID OD E rho nu G0 r0 n0) as Vn.
  replace (nofQ 4) with 4 by (rnum; q2r; lra).
  replace (nofQ 2) with 2 by (rnum; q2r; lra).
  replace (nofQ 3) with 3 by (rnum; q2r; lra).
  unfold sq; rnum; rewrite one_R.
  do 13 dstep.
  apply (q_root4_den _ (mkDim 4 0 (-4) 0)); auto.
Qed.

Lemma root4 x : 0 <= x -> (sqrt (sqrt x))^4 = x.
Proof.
  intros; replace ((sqrt (sqrt x))^4)
    with ((sqrt (sqrt x) * sqrt (sqrt x)) * (sqrt (sqrt x) * sqrt (sqrt x))) by ring.
  rewrite !sqrt_sqrt; auto using sqrt_pos.
Qed.
Lemma root4_unique x V : 0 <= V -> V^4 = x -> sqrt (sqrt x) = V.
Proof.
  intros HV <-.
  replace (V^4) with ((V * V) * (V * V)) by ring.
  rewrite sqrt_square by now apply Rmult_le_pos.
  now apply sqrt_square.
Qed.

Definition dlf_of (V v f : R) : nat :=
  if Rltb v ((1 - f) * V) then 1%nat
  else if Rltb ((1 + f) * V) v then 2%nat else 4%nat.

Lemma ms_mag q x r : stands_for q d_velocity x r -> q_unit q = mult_unit d_velocity one ->
  q_mag q = x.
Proof. intros (_ & _ & _ & <- & _) ->; cbn; rewrite one_R; ring. Qed.

Lemma q_to_ms q x r :
  stands_for q d_velocity x r ->
  exists q', q_to_str q "m/s" = Ok q' /\ q_mag q' = x.
Proof.
  intros H.
  destruct (q_to_str_den q "m/s" _ d_velocity x r H eq_refl eq_refl eq_refl) as (q' & E & Hq').
  exists q'; split; auto. eapply ms_mag; eauto.
  unfold q_to_str in E; cbn in E. now apply q_to_unit in E.
Qed.

Lemma dlf_closed qid qod qv qe qr ID OD v E rho nu f reg :
  stands_for qid d_length ID reg -> stands_for qod d_length OD reg ->
  stands_for qv d_velocity v reg ->
  stands_for qe d_pressure E reg -> stands_for qr d_density rho reg ->
  0 <= ID -> 0 <= OD -> 0 < OD + ID -> 0 <= E -> 0 < rho -> nu * nu < 1 -> 0 < f < 1 ->
  dynamic_load_factor qid qod qv qe qr nu f
  = Ok (dlf_of (sqrt (sqrt (vcrit4 ID OD E rho nu))) v f).
Proof.
  intros Hid Hod Hv He Hr I0 O0 G0 E0 r0 n0 [f0 f1]; unfold dynamic_load_factor.
  do 5 dstep.
  rnum; rewrite zero_R, one_R, !Rltb_true by assumption; cbn [andb negb raise_if bind].
  den_use (cv_closed qid qod qe qr ID OD E rho nu reg Hid Hod He Hr G0 r0 n0).
  dstep. 
  match goal with H : stands_for ?q d_velocity ?x reg |- context [q_to_str ?q _] =>
    destruct (q_to_ms q x reg H) as (u1 & -> & M1); cbn [bind] end.
  dstep.
  match goal with H : stands_for ?q d_velocity ?x reg |- context [q_to_str ?q _] =>
    destruct (q_to_ms q x reg H) as (u2 & -> & M2); cbn [bind] end.
  destruct (q_to_ms qv v reg Hv) as (u3 & -> & M3); cbn [bind].
  rewrite M1, M2, M3. reflexivity.
Qed.

Lemma dlf_classifies qid qod qv qe qr ID OD v E rho nu f V reg :
  stands_for qid d_length ID reg -> stands_for qod d_length OD reg ->
  stands_for qv d_velocity v reg ->
  stands_for qe d_pressure E reg -> stands_for qr d_density rho reg ->
  0 <= ID -> 0 <= OD -> 0 < OD + ID -> 0 <= E -> 0 < rho -> -1 < nu < 1 -> 0 < f < 1 ->
  0 <= V ->
  V^4 = E^2 * ((OD - ID) / 2)^2 / (3 * rho^2 * ((OD + ID) / 4)^2 * (1 - nu^2)) ->
  (v < (1 - f) * V -> dynamic_load_factor qid qod qv qe qr nu f = Ok 1%nat)
  /\ ((1 + f) * V < v -> dynamic_load_factor qid qod qv qe qr nu f = Ok 2%nat)
  /\ ((1 - f) * V <= v <= (1 + f) * V ->
      dynamic_load_factor qid qod qv qe qr nu f = Ok 4%nat).
Proof.
  intros Hid Hod Hv He Hr I0 O0 G0 E0 r0 n0 f01 V0 HV.
  assert (n2 : nu * nu < 1) by nra.
  rewrite (dlf_closed _ _ _ _ _ ID OD v E rho nu f reg) by assumption.
  assert (EV : V^4 = vcrit4 ID OD E rho nu).
  { rewrite HV; unfold vcrit4. field. repeat split; nra. }
  rewrite (root4_unique _ V V0 EV). unfold dlf_of.
  split; [|split]; intros H.
  - now rewrite Rltb_true.
  - rewrite Rltb_false by nra. now rewrite Rltb_true.
  - rewrite !Rltb_false by lra. reflexivity.
Qed.

Lemma dlf_shape qid qod qv qe qr qid' qod' qe' qr' ID OD v E rho nu f k m reg :
  stands_for qid d_length ID reg -> stands_for qod d_length OD reg ->
  stands_for qv d_velocity v reg ->
  stands_for qe d_pressure E reg -> stands_for qr d_density rho reg ->
  0 <= ID -> 0 <= OD -> 0 < OD + ID -> 0 <= E -> 0 < rho -> -1 < nu < 1 -> 0 < f < 1 ->
  0 < k -> 0 < m ->
  stands_for qid' d_length (k * ID) reg -> stands_for qod' d_length (k * OD) reg ->
  stands_for qe' d_pressure (m * E) reg -> stands_for qr' d_density (m * rho) reg ->
  exists n, dynamic_load_factor qid qod qv qe qr nu f = Ok n
            /\ dynamic_load_factor qid' qod' qv qe' qr' nu f = Ok n.
Proof.
  intros Hid Hod Hv He Hr I0 O0 G0 E0 r0 n0 f01 k0 m0 Hid' Hod' He' Hr'.
  assert (n2 : nu * nu < 1) by nra.
  eexists; split.
  - now apply (dlf_closed _ _ _ _ _ ID OD v E rho nu f reg).
  - rewrite (dlf_closed _ _ _ _ _ (k * ID) (k * OD) v (m * E) (m * rho) nu f reg);
      try assumption; try nra.
    do 4 f_equal. unfold vcrit4. field. repeat split; nra.
Qed.

(** Rejections *)
Lemma dlf_rejects qid qod qv qe qr did dod dv de dr ID OD v E rho nu f :
  u_dim (q_unit qid) = did -> worth (q_mag qid) (q_unit qid) ID ->
  u_dim (q_unit qod) = dod -> worth (q_mag qod) (q_unit qod) OD ->
  u_dim (q_unit qv) = dv -> worth (q_mag qv) (q_unit qv) v ->
  u_dim (q_unit qe) = de -> worth (q_mag qe) (q_unit qe) E ->
  u_dim (q_unit qr) = dr -> worth (q_mag qr) (q_unit qr) rho ->
  (did <> d_length \/ ID < 0 \/ dod <> d_length \/ OD < 0 \/ dv <> d_velocity
   \/ de <> d_pressure \/ E < 0 \/ dr <> d_density \/ rho < 0 \/ ~ (0 < f < 1)) ->
  is_value_error (dynamic_load_factor qid qod qv qe qr nu f).
Proof.
  intros D1 W1 D2 W2 D3 W3 D4 W4 D5 W5 Bad; unfold dynamic_load_factor.
  destruct (check_cases qid did ID "length" _ true D1 W1 eq_refl) as [(X1 & Y1 & ->)|[_ V]];
    [cbn [bind]|now apply is_value_error_bind].
  destruct (check_cases qod dod OD "length" _ true D2 W2 eq_refl) as [(X2 & Y2 & ->)|[_ V]];
    [cbn [bind]|now apply is_value_error_bind].
  destruct (check_cases qv dv v "velocity" _ false D3 W3 eq_refl) as [(X3 & _ & ->)|[_ V]];
    [cbn [bind]|now apply is_value_error_bind].
  destruct (check_cases qe de E "pressure" _ true D4 W4 eq_refl) as [(X4 & Y4 & ->)|[_ V]];
    [cbn [bind]|now apply is_value_error_bind].
  destruct (check_cases qr dr rho "density" _ true D5 W5 eq_refl) as [(X5 & Y5 & ->)|[_ V]];
    [cbn [bind]|now apply is_value_error_bind].
  specialize (Y1 eq_refl); specialize (Y2 eq_refl); specialize (Y4 eq_refl);
    specialize (Y5 eq_refl).
  rnum; rewrite zero_R, one_R.
  destruct (Rltb_spec 0 f), (Rltb_spec f 1); cbn; try apply value_error_intro.
  exfalso. rewrite X1, X2, X3, X4, X5 in Bad.
  intuition (congruence || lra).
Qed.

(** ** Maximum pressure *)
Definition mp_formula (ID OD S sf : R) : R :=
  S * (2 * ((OD - ID) / 2)) / (sf * ((OD + ID) / 2)).

Lemma mp_closed qid qod qs ID OD S sf reg :
  stands_for qid d_length ID reg -> stands_for qod d_length OD reg ->
  stands_for qs d_pressure S reg ->
  OD + ID <> 0 -> sf <> 0 ->
  returns (calculate_max_pressure qid qod qs sf) d_pressure (mp_formula ID OD S sf) reg.
Proof.
  intros Hid Hod Hs G F; unfold calculate_max_pressure.
  replace (nofQ 2) with 2 by (rnum; q2r; lra).
  do 7 dstep.
  assert (N' : sf * ((OD + ID) / 2) <> 0).
  { intros X; apply Rmult_integral in X as [|]; [contradiction | apply G; lra]. }
  apply (q_div_den pydiv _ _ (dim_mul d_pressure d_length) d_length _ _ _ pydiv_ok N');
    assumption.
Qed.

Lemma mp_balance qid qod qs ID OD S sf reg :
  stands_for qid d_length ID reg -> stands_for qod d_length OD reg ->
  stands_for qs d_pressure S reg ->
  0 <= ID -> ID < OD -> 0 < sf ->
  exists p, returns (calculate_max_pressure qid qod qs sf) d_pressure p reg
    /\ p * ((OD + ID) / 2) * sf = S * (2 * ((OD - ID) / 2))
    /\ (0 < S -> 0 < p)
    /\ (forall k qs', stands_for qs' d_pressure (k * S) reg ->
          returns (calculate_max_pressure qid qod qs' sf) d_pressure (k * p) reg)
    /\ (forall k, 0 < k ->
          returns (calculate_max_pressure qid qod qs (k * sf)) d_pressure (p / k) reg)
    /\ (0 < ID -> 0 < S -> forall OD' qod', OD < OD' -> stands_for qod' d_length OD' reg ->
          exists p', returns (calculate_max_pressure qid qod' qs sf) d_pressure p' reg
                     /\ p < p')
    /\ (0 < S -> forall ID' qid', ID < ID' < OD -> stands_for qid' d_length ID' reg ->
          exists p', returns (calculate_max_pressure qid' qod qs sf) d_pressure p' reg
                     /\ p' < p).
Proof.
  intros Hid Hod Hs I0 IO F. exists (mp_formula ID OD S sf).
  split; [apply mp_closed; auto; nz|].
  assert (Q : forall a b, 0 < b -> 0 <= a -> a < b -> 0 < S ->
            mp_formula a b S sf = 2 * S / sf * (1 - 2 * a / (a + b))).
  { intros; unfold mp_formula. field. lra. }
  assert (Q' : forall a b c e, 0 <= a -> a < b -> 0 <= c -> c < e -> 0 < S ->
            a * e < c * b -> mp_formula c e S sf < mp_formula a b S sf).
  { intros a b c e Ha Hab Hc Hce HS X. unfold mp_formula.
    apply Rmult_lt_reg_r with (sf * ((e + c) / 2) * ((b + a) / 2)).
    - repeat apply Rmult_lt_0_compat; lra.
    - replace (S * (2 * ((e - c) / 2)) / (sf * ((e + c) / 2)) *
               (sf * ((e + c) / 2) * ((b + a) / 2)))
        with (S * ((e - c) * ((b + a) / 2))) by (field; lra).
      replace (S * (2 * ((b - a) / 2)) / (sf * ((b + a) / 2)) *
               (sf * ((e + c) / 2) * ((b + a) / 2)))
        with (S * ((b - a) * ((e + c) / 2))) by (field; lra).
      apply Rmult_lt_compat_l; auto. nra. }
  split; [unfold mp_formula; field; lra|].
  split; [intros S0; unfold mp_formula; apply Rdiv_lt_0_compat;
          [apply Rmult_lt_0_compat; lra | apply Rmult_lt_0_compat; lra]|].
  split; [|split; [|split]].
  - intros k qs' Hs'.
    replace (k * mp_formula ID OD S sf) with (mp_formula ID OD (k * S) sf)
      by (unfold mp_formula; field; lra).
    apply mp_closed; auto; nz.
  - intros k k0.
    replace (mp_formula ID OD S sf / k) with (mp_formula ID OD S (k * sf))
      by (unfold mp_formula; field; lra).
    apply mp_closed; auto; [nz|]. apply Rmult_integral_contrapositive_currified; nz.
  - intros I1 S0 OD' qod' L Hod'. exists (mp_formula ID OD' S sf).
    split; [apply mp_closed; auto; nz|].
    unfold mp_formula. 
    apply Rmult_lt_reg_r with (sf * ((OD + ID) / 2) * ((OD' + ID) / 2)).
    + repeat apply Rmult_lt_0_compat; lra.
    + replace (S * (2 * ((OD - ID) / 2)) / (sf * ((OD + ID) / 2)) *
               (sf * ((OD + ID) / 2) * ((OD' + ID) / 2)))
        with (S * ((OD - ID) * ((OD' + ID) / 2))) by (field; lra).
      replace (S * (2 * ((OD' - ID) / 2)) / (sf * ((OD' + ID) / 2)) *
               (sf * ((OD + ID) / 2) * ((OD' + ID) / 2)))
        with (S * ((OD' - ID) * ((OD + ID) / 2))) by (field; lra).
      apply Rmult_lt_compat_l; auto. nra.
  - intros S0 ID' qid' L Hid'. exists (mp_formula ID' OD S sf).
    split; [apply mp_closed; auto; nz|].
    apply Q'; try lra. nra.
Qed.

(** Nothing but 1, 2 and 4 is ever returned. *)
Lemma dlf_values qid qod qv qe qr nu f n :
  dynamic_load_factor (A:=R) qid qod qv qe qr nu f = Ok n ->
  n = 1%nat \/ n = 2%nat \/ n = 4%nat.
Proof.
  unfold dynamic_load_factor; intros H.
  repeat (apply bind_inv in H as (? & _ & H)).
  destruct (_ <? _)%num in H; [|destruct (_ <? _)%num in H]; injection H as <-; auto.
Qed.

(** The two diameters are interchangeable in dynamic_load_factor ... *)
Lemma dlf_swap qid qod qv qe qr ID OD v E rho nu f reg :
  stands_for qid d_length ID reg -> stands_for qod d_length OD reg ->
  stands_for qv d_velocity v reg ->
  stands_for qe d_pressure E reg -> stands_for qr d_density rho reg ->
  0 <= ID -> 0 <= OD -> 0 < OD + ID -> 0 <= E -> 0 < rho -> -1 < nu < 1 -> 0 < f < 1 ->
  exists n, dynamic_load_factor qid qod qv qe qr nu f = Ok n
            /\ dynamic_load_factor qod qid qv qe qr nu f = Ok n.
Proof.
  intros. assert (nu * nu < 1) by nra. eexists; split.
  - now apply (dlf_closed _ _ _ _ _ ID OD v E rho nu f reg).
  - rewrite (dlf_closed _ _ _ _ _ OD ID v E rho nu f reg); try assumption; try lra.
    do 4 f_equal. unfold vcrit4. field. repeat split; nra.
Qed.
(** ... and in calculate_max_pressure exchanging them changes the sign. *)
Lemma mp_swap qid qod qs ID OD S sf reg p :
  stands_for qid d_length ID reg -> stands_for qod d_length OD reg ->
  stands_for qs d_pressure S reg -> 0 < OD + ID -> 0 < sf ->
  returns (calculate_max_pressure qid qod qs sf) d_pressure p reg ->
  returns (calculate_max_pressure qod qid qs sf) d_pressure (- p) reg.
Proof.
  intros Hid Hod Hs G F (q & E & Hq).
  destruct (mp_closed qid qod qs ID OD S sf reg Hid Hod Hs ltac:(lra) ltac:(lra))
    as (q' & E' & Hq'). rewrite E in E'; injection E' as <-.
  destruct Hq as (_ & _ & _ & X & _), Hq' as (_ & _ & _ & X' & _).
  replace (- p) with (mp_formula OD ID S sf).
  - apply mp_closed; auto; lra.
  - rewrite <- X, X'. unfold mp_formula. field. lra.
Qed.
