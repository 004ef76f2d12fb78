(** * NanSdP: nan in the CJ and reflected-shock iterations *)
From Coq Require Import String ZArith QArith Reals Qreals List Bool Lra Lia Permutation.
From Verif Require Import PyBase Gas GasP FitM SdM SdSpec SpeedSpec SpeedP NanM NanSpec NanP NanSdSpec.
Import ListNotations.
Local Open Scope num_scope.

Notation ok := ordinary.
Lemma ok_fl2 f a b : ok (fl2 f a b) <-> ok a /\ ok b.
Proof.
  unfold ordinary. destruct a, b; cbn; split; try tauto; try easy; intros [H K]; try easy;
    now (contradict H || contradict K).
Qed.
Lemma ok_add a b : ok (a + b) <-> ok a /\ ok b. Proof. apply ok_fl2. Qed.
Lemma ok_sub a b : ok (a - b) <-> ok a /\ ok b. Proof. apply ok_fl2. Qed.
Lemma ok_mul a b : ok (a * b) <-> ok a /\ ok b. Proof. apply ok_fl2. Qed.
Lemma ok_ndiv a b : ok (a / b) <-> ok a /\ ok b. Proof. apply ok_fl2. Qed.
Lemma ok_opp a : ok (- a) <-> ok a.
Proof. unfold ordinary. destruct a; cbn; split; easy. Qed.
Lemma ok_abs a : ok (nabs a) <-> ok a.
Proof. unfold ordinary. destruct a; cbn; split; easy. Qed.
Lemma ok_sq a : ok (sq a) <-> ok a. Proof. unfold sq. rewrite ok_mul. tauto. Qed.
Lemma ok_lit q : ok (nofQ q). Proof. discriminate. Qed.
Lemma ok_zero : ok zero. Proof. discriminate. Qed.
Lemma ok_one : ok one. Proof. discriminate. Qed.
Lemma lt_ok (a b : fl) : a <? b = true -> ok a /\ ok b.
Proof. destruct a, b; cbn; try discriminate. split; discriminate. Qed.
Lemma ok_dec (a : fl) : {ok a} + {a = NaN}.
Proof. destruct a; [left; discriminate|right; reflexivity]. Qed.
Lemma not_ok (a : fl) : ~ ok a <-> a = NaN.
Proof. unfold ordinary. destruct (ok_dec a) as [H| ->]; unfold ordinary in *; tauto. Qed.
Lemma nan_addr (a : fl) : a + NaN = NaN. Proof. now destruct a. Qed.
Lemma lt_nan (a : fl) : (a <? nabs NaN) = false. Proof. now destruct a. Qed.

(** [/] of Python or of numpy *)
Definition ok_division (div : fl -> fl -> result fl) : Prop :=
  forall x y r, div x y = Ok r -> (ok r <-> ok x /\ ok y).
Lemma ok_pydiv : ok_division pydiv.
Proof. intros x y r. unfold pydiv. destruct (y =? zero); [discriminate|]. intros [= <-]. apply ok_ndiv. Qed.
Lemma ok_npdiv : ok_division npdiv.
Proof. intros x y r. unfold npdiv. destruct (y =? zero); [discriminate|]. intros [= <-]. apply ok_ndiv. Qed.

Global Hint Rewrite ok_add ok_sub ok_mul ok_opp ok_sq ok_abs : okdb.
Ltac oks := autorewrite with okdb in *.

Lemma ok_pair_inj {A B} (a a' : A) (b b' : B) : Ok (a, b) = Ok (a', b') -> a = a' /\ b = b'.
Proof. intros [= -> ->]. auto. Qed.
Lemma pair_inj {A B} (a a' : A) (b b' : B) : (a, b) = (a', b') -> a = a' /\ b = b'.
Proof. intros [= -> ->]. auto. Qed.
Lemma ok_inj {A} (a a' : A) : Ok a = Ok a' -> a = a'.
Proof. now intros [= ->]. Qed.

Lemma asked_app {A} (t u : list (event A)) : asked (t ++ u) = (asked t ++ asked u)%list.
Proof. apply flat_map_app. Qed.
Lemma warned_app {A} (t u : list (event A)) : warned (t ++ u) <-> warned t \/ warned u.
Proof.
  unfold warned. split.
  - intros (m & H). apply in_app_or in H. destruct H; eauto.
  - intros [(m & H)|(m & H)]; exists m; apply in_or_app; auto.
Qed.
Lemma not_warned_body (T0 T1 T2 D0 D1 D2 : fl) :
  ~ warned [EvTD T0 D0; EvEquilibrate "TV"; EvTD T1 D1; EvEquilibrate "TV";
            EvTD T2 D2; EvEquilibrate "TV"].
Proof. intros (m & H). cbn in H. intuition discriminate. Qed.

Section Sd.
  Context {G X : Type} (L : cantera fl G X).

  Definition ok_gas (g : G) : Prop := ok (ct_P L g) /\ ok (ct_enthalpy L g) /\ ok (ct_density L g).
  Lemma ok_gas_nan g : ok_gas g <-> ~ nan_gas L g.
  Proof. unfold ok_gas, nan_gas, ordinary. tauto. Qed.

  Lemma ok_error w i V eh ep : error_equilibrium L w i V = Ok (eh, ep) ->
    (ok eh /\ ok ep) <-> (ok_gas w /\ ok_gas i /\ ok V).
  Proof.
    unfold error_equilibrium, ok_gas. intros H. binds H. apply ok_pair_inj in H. destruct H as (<- & <-).
    match goal with K : pydiv _ _ = Ok ?v |- _ => apply ok_pydiv in K; rename K into HV end.
    oks. pose proof (ok_lit 0.5). tauto.
  Qed.
  Lemma ok_error_r div u w g2 eh ep : ok_division div -> error_reflected L div u w g2 = Ok (eh, ep) ->
    (ok eh /\ ok ep) <-> (ok_gas w /\ ok_gas g2 /\ ok u).
  Proof.
    unfold error_reflected, ok_gas. intros D H. binds H. apply ok_pair_inj in H. destruct H as (<- & <-).
    repeat match goal with K : div _ _ = Ok ?v |- _ => apply D in K end.
    repeat match goal with K : pydiv _ _ = Ok ?v |- _ => apply ok_pydiv in K end.
    oks. pose proof (ok_lit 0.5). pose proof ok_one. tauto.
  Qed.
  Lemma ok_solve div h1 p1 h2 p2 eh ep d1 d2 : ok_division div ->
    solve2 div h1 p1 h2 p2 eh ep = Ok (d1, d2) ->
    (ok h1 -> ok p1 -> ok h2 -> ok p2 -> ok eh -> ok ep -> ok d1 /\ ok d2)
    /\ (~ (ok h1 /\ ok p1 /\ ok h2 /\ ok p2) -> ~ ok d1 /\ ~ ok d2).
  Proof.
    unfold solve2. intros D H. binds H. apply ok_pair_inj in H. destruct H as (<- & <-).
    repeat match goal with K : div _ _ = Ok ?v |- _ => apply D in K end. oks. tauto.
  Qed.

  (** The gases seen in a pass *)
  Definition made (g : G) : Prop := exists g0, ct_equilibrate L g0 "TV" = Ok g.

  Lemma equilibrium_ok g D T g' : value (equilibrium L g D T) = Ok g' ->
    trace (equilibrium L g D T) = [EvTD T D; EvEquilibrate "TV"] /\ made g'.
  Proof.
    unfold equilibrium. intros H. apply value_bind_ok in H. destruct H as (g0 & _ & K & Tr).
    rewrite Tr. split; [reflexivity|]. now exists g0.
  Qed.

  Ltac step H := apply value_bind_ok in H; let b := fresh "b" in let E := fresh "E" in
    let Tr := fresh "Tr" in destruct H as (b & E & H & Tr).

  Lemma ok_limit d T d' : limit_temperature d T = Ok d' -> (~ ok d -> ~ ok d') /\ (ok d -> ok T -> ok d').
  Proof.
    unfold limit_temperature. destruct (_ <? _) eqn:C; intros H.
    - apply lt_ok in C. binds H. apply ok_inj in H. subst.
      match goal with K : pydiv _ _ = Ok ?v |- _ => apply ok_pydiv in K end. oks. tauto.
    - apply ok_inj in H. subst. tauto.
  Qed.

  Lemma body i D g T V g' T' V' dT dV :
    value (cj_body L i D g T V) = Ok (g', T', V', dT, dV) ->
    made g'
    /\ T' = T + dT /\ V' = V + dV
    /\ trace (cj_body L i D g T V)
       = [EvTD (T + lit 0.02 * T) D; EvEquilibrate "TV"; EvTD T D; EvEquilibrate "TV";
          EvTD T' D; EvEquilibrate "TV"]
    /\ exists g1 g2, made g1 /\ made g2
       /\ (ok dT <-> ok T /\ ok V /\ ok_gas i /\ ok_gas g /\ ok_gas g1 /\ ok_gas g2)
       /\ (ok dV <-> ok dT).
  Proof.
    unfold cj_body. intros H.
    step H. destruct b as (eh, ep). rewrite Tr; clear Tr. rewrite value_pure in E.
    step H. rewrite Tr; clear Tr. rename b into g1. apply equilibrium_ok in E0. destruct E0 as (Tr1 & M1).
    step H. rewrite Tr; clear Tr. destruct b as (eh1, ep1). rewrite value_pure in E0.
    step H. rewrite Tr; clear Tr. rewrite value_pure in E1. rename b into h_T.
    step H. rewrite Tr; clear Tr. rewrite value_pure in E2. rename b into p_T.
    step H. rewrite Tr; clear Tr. rename b into g2. apply equilibrium_ok in E3. destruct E3 as (Tr2 & M2).
    step H. rewrite Tr; clear Tr. destruct b as (eh2, ep2). rewrite value_pure in E3.
    step H. rewrite Tr; clear Tr. rewrite value_pure in E4. rename b into h_V.
    step H. rewrite Tr; clear Tr. rewrite value_pure in E5. rename b into p_V.
    step H. rewrite Tr; clear Tr. destruct b as (d1, d2). rewrite value_pure in E6.
    step H. rewrite Tr; clear Tr. rewrite value_pure in E7. rename b into dT0.
    step H. rewrite Tr; clear Tr. rename b into g3. apply equilibrium_ok in E8. destruct E8 as (Tr3 & M3).
    rewrite value_ret in H. injection H as <- <- <- <- <-.
    split; [exact M3|]. do 2 (split; [reflexivity|]).
    split; [rewrite Tr1, Tr2, Tr3; reflexivity|].
    exists g1, g2. do 2 (split; [assumption|]).
    apply ok_error in E, E0, E3. apply ok_pydiv in E1, E2, E4, E5.
    apply (ok_solve _ _ _ _ _ _ _ _ _ ok_pydiv) in E6. apply ok_limit in E7.
    oks. pose proof (ok_lit 0.02). tauto.
  Qed.

  Definition all_T (D : fl) (tr : list (event fl)) : Prop :=
    Forall (fun p => ok (fst p) /\ snd p = D) (asked tr).

  (** How a run ends: in nan, with nan the last temperature asked for and no warning, or
      without any nan. *)
  Definition ends (D : fl) (V : fl) (tr : list (event fl)) : Prop :=
    (V = NaN /\ ~ warned tr
     /\ exists l, asked tr = (l ++ [(NaN, D)])%list /\ Forall (fun p => ok (fst p) /\ snd p = D) l)
    \/ (ok V /\ all_T D tr).

  Lemma nan_stop m i tT tV D mx k g T V :
    cj_loop L m i tT tV D mx k g T V NaN NaN = ret (g, V).
  Proof. destruct m; cbn [cj_loop]; rewrite !lt_nan; reflexivity. Qed.

  Lemma loop fuel : forall i tT tV D mx k g T V dT dV g' V',
    ok T -> ok V ->
    value (cj_loop L fuel i tT tV D mx k g T V dT dV) = Ok (g', V') ->
    ends D V' (trace (cj_loop L fuel i tT tV D mx k g T V dT dV)).
  Proof.
    induction fuel as [|fuel IH]; intros * OT OV; cbn [cj_loop].
    - destruct (_ || _)%bool; [discriminate|]. intros H. apply ok_pair_inj in H. destruct H as (<- & <-).
      right. split; [assumption|constructor].
    - destruct (_ || _)%bool.
      2:{ intros H. apply ok_pair_inj in H. destruct H as (<- & <-). right. split; [assumption|constructor]. }
      destruct (Z.eqb _ _).
      { intros H. apply ok_pair_inj in H. destruct H as (<- & <-). right. split; [assumption|constructor]. }
      intros H. step H. destruct b as ((((g1 & T1) & V1) & dT1) & dV1). rewrite Tr; clear Tr.
      destruct (body _ _ _ _ _ _ _ _ _ _ E) as (_ & E1 & E2 & -> & (h1 & h2 & _ & _ & OdT & OdV)).
      assert (O02 : ok (T + lit 0.02 * T)).
      { rewrite ok_add, ok_mul. pose proof (ok_lit 0.02). tauto. }
      destruct (ok_dec dT1) as [O|N].
      + assert (O1 : ok T1) by (rewrite E1, ok_add; tauto).
        assert (O2 : ok V1) by (rewrite E2, ok_add; tauto).
        destruct (IH _ _ _ _ _ _ _ _ _ _ _ _ _ O1 O2 H) as [(A1 & A2 & l & A3 & A4)|(A1 & A2)].
        * left. split; [assumption|]. split.
          { rewrite warned_app. intros [W|W]; [exact (not_warned_body _ _ _ _ _ _ W)|auto]. }
          exists ((T + lit 0.02 * T, D) :: (T, D) :: (T1, D) :: l). split.
          { rewrite asked_app, A3. reflexivity. }
          repeat (constructor; [split; [assumption|reflexivity]|]). assumption.
        * right. split; [assumption|]. unfold all_T. rewrite asked_app. apply Forall_app.
          split; [|assumption]. cbn [asked flat_map app].
          repeat (constructor; [split; [assumption|reflexivity]|]). constructor.
      + assert (NV : dV1 = NaN) by (apply not_ok; rewrite OdV; now apply not_ok).
        subst dT1 dV1. rewrite nan_addr in E1, E2. subst T1 V1.
        rewrite nan_stop in H. apply ok_pair_inj in H. destruct H as (<- & <-). left.
        split; [reflexivity|]. rewrite nan_stop. cbn [trace ret fst]. rewrite app_nil_r.
        split; [apply not_warned_body|].
        exists [(T + lit 0.02 * T, D); (T, D)]. split; [reflexivity|].
        repeat (constructor; [split; [assumption|reflexivity]|]). constructor.
  Qed.

  Lemma gas_seen fuel i tT tV D mx k g T V dT dV g' V' :
    (tT * T <? nabs dT) = true \/ (tV * V <? nabs dV) = true ->
    Z.eqb (k + 1) mx = false ->
    value (cj_loop L fuel i tT tV D mx k g T V dT dV) = Ok (g', V') ->
    ok V' -> ok_gas i /\ ok_gas g /\ exists g1, made g1 /\ ok_gas g1.
  Proof.
    intros Hin Hk. destruct fuel as [|fuel]; cbn [cj_loop].
    - replace (_ || _)%bool with true by (symmetry; apply orb_true_iff; exact Hin). discriminate.
    - replace (_ || _)%bool with true by (symmetry; apply orb_true_iff; exact Hin).
      rewrite Hk. intros H OV. step H. destruct b as ((((g1 & T1) & V1) & dT1) & dV1).
      destruct (body _ _ _ _ _ _ _ _ _ _ E) as (_ & E1 & E2 & _ & (h1 & h2 & M1 & _ & OdT & OdV)).
      destruct (ok_dec dT1) as [O|N].
      + apply OdT in O. split; [tauto|]. split; [tauto|]. exists h1. tauto.
      + assert (NV : dV1 = NaN) by (apply not_ok; rewrite OdV; now apply not_ok).
        subst dT1 dV1. rewrite nan_addr in E2. subst V1. rewrite nan_stop in H.
        apply ok_pair_inj in H. destruct H as (<- & <-). now contradict OV.
  Qed.

  Lemma two_thousand : ok (lit 2000). Proof. discriminate. Qed.

  Lemma state fuel div w i tT tV r mx g V :
    ok_division div ->
    value (cj_state L fuel div w i tT tV r mx) = Ok (g, V) ->
    exists D, (ok D <-> ok (ct_density L i) /\ ok r)
    /\ exists g0, value (equilibrium L w D (lit 2000)) = Ok g0
    /\ value (cj_loop L fuel i tT tV D mx 0 g0 (lit 2000) (lit 2000) (lit 1000) (lit 1000)) = Ok (g, V)
    /\ trace (cj_state L fuel div w i tT tV r mx)
       = ([EvTD (lit 2000) D; EvEquilibrate "TV"]
         ++ trace (cj_loop L fuel i tT tV D mx 0 g0 (lit 2000) (lit 2000) (lit 1000) (lit 1000)))%list.
  Proof.
    intros Dv. unfold cj_state. intros H.
    step H. rewrite value_pure in E. rewrite Tr; clear Tr. rename b into v.
    step H. rewrite value_pure in E0. rewrite Tr; clear Tr. rename b into v'.
    step H. rewrite value_pure in E1. rewrite Tr; clear Tr. rename b into D.
    step H. rewrite Tr; clear Tr. pose proof (equilibrium_ok _ _ _ _ E2) as (Tr & _).
    exists D. split.
    { apply ok_pydiv in E. apply Dv in E0, E1. pose proof ok_one. tauto. }
    exists b. split; [assumption|]. split; [assumption|]. rewrite Tr. reflexivity.
  Qed.

  Lemma state_ends fuel div w i tT tV r mx g V :
    ok_division div ->
    value (cj_state L fuel div w i tT tV r mx) = Ok (g, V) ->
    exists D, (ok D <-> ok (ct_density L i) /\ ok r)
      /\ ends D V (trace (cj_state L fuel div w i tT tV r mx)).
  Proof.
    intros Dv H. destruct (state _ _ _ _ _ _ _ _ _ _ Dv H) as (D & OD & g0 & _ & K & ->).
    exists D. split; [exact OD|].
    destruct (loop _ _ _ _ _ _ _ _ _ _ _ _ _ _ two_thousand two_thousand K)
      as [(A1 & A2 & l & A3 & A4)|(A1 & A2)].
    - left. split; [assumption|]. split.
      + rewrite warned_app. intros [(m & W)|W]; [cbn in W; intuition discriminate|auto].
      + exists ((lit 2000, D) :: l). split; [rewrite asked_app, A3; reflexivity|].
        constructor; [split; [exact two_thousand|reflexivity]|assumption].
    - right. split; [assumption|]. unfold all_T. rewrite asked_app. apply Forall_app.
      split; [|assumption]. repeat constructor. exact two_thousand.
  Qed.

  (** Does the loop run at all? *)
  Definition searches (tT tV : fl) (mx : Z) : Prop :=
    mx <> 1%Z /\ ((exists t, tT = Fin t /\ (t < 1/2)%R) \/ (exists t, tV = Fin t /\ (t < 1/2)%R)).
  Lemma searches_in tT tV mx : searches tT tV mx ->
    ((tT * lit 2000 <? nabs (lit 1000)) = true \/ (tV * lit 2000 <? nabs (lit 1000)) = true)
    /\ Z.eqb (0 + 1) mx = false.
  Proof.
    intros (Hm & Ht). split; [|apply Z.eqb_neq; lia].
    destruct Ht as [(t & -> & Ht)|(t & -> & Ht)]; [left|right];
      cbn [nltb nmul nabs nofQ Num_fl fl1 fl2 flc]; apply QLemmas.Rltb_true;
      rewrite SdP.lit_2000, SdP.lit_1000, Rabs_pos_eq by lra; lra.
  Qed.

  Lemma state_gas fuel div w i tT tV r mx g V :
    ok_division div -> searches tT tV mx ->
    value (cj_state L fuel div w i tT tV r mx) = Ok (g, V) -> ok V ->
    ok_gas i /\ exists g1, made g1 /\ ok_gas g1.
  Proof.
    intros Dv Hs H OV. destruct (state _ _ _ _ _ _ _ _ _ _ Dv H) as (D & _ & g0 & _ & K & _).
    destruct (searches_in _ _ _ Hs) as (H1 & H2).
    destruct (gas_seen _ _ _ _ _ _ _ _ _ _ _ _ _ _ H1 H2 K OV) as (A1 & _ & A2). auto.
  Qed.

  (** ** The reflected shock *)
  Lemma ok_limit_r div d T d' : ok_division div -> limit_temperature_reflected div d T = Ok d' ->
    (~ ok d -> ~ ok d') /\ (ok d -> ok T -> ok d').
  Proof.
    intros Dv. unfold limit_temperature_reflected. destruct (_ <? _) eqn:C; intros H.
    - apply lt_ok in C. apply Dv in H. oks. tauto.
    - apply ok_inj in H. subst. tauto.
  Qed.
  Lemma ok_limit_v div d v v2 d' : ok_division div -> limit_volume div d v v2 = Ok d' ->
    (~ ok d -> ~ ok d') /\ (ok d -> ok v -> ok d').
  Proof.
    intros Dv. unfold limit_volume. destruct (v2 <? _) eqn:C0; destruct (_ <? nabs d) eqn:C; intros H.
    - apply lt_ok in C. apply Dv in H. oks. tauto.
    - apply ok_inj in H. subst. tauto.
    - apply lt_ok in C. apply Dv in H. oks. tauto.
    - apply ok_inj in H. subst. tauto.
  Qed.

  Lemma rbody div u p vp g T v D g' T' v' D' dT dv :
    ok_division div ->
    value (eq_body L div u p vp g T v D) = Ok (g', T', v', D', dT, dv) ->
    made g' /\ T' = T + dT /\ v' = v + dv /\ (ok D' <-> ok v')
    /\ exists D1 g1 g2, made g1 /\ made g2 /\ (ok D1 <-> ok v)
       /\ trace (eq_body L div u p vp g T v D)
          = [EvTD (T + T * lit 0.02) D; EvEquilibrate "TV"; EvTD T D1; EvEquilibrate "TV";
             EvTD T' D'; EvEquilibrate "TV"]
       /\ (ok dT <-> ok T /\ ok v /\ ok u /\ ok_gas p /\ ok_gas g /\ ok_gas g1 /\ ok_gas g2)
       /\ (ok dv <-> ok dT).
  Proof.
    intros Dv. unfold eq_body. intros H.
    step H. destruct b as (eh, ep). rewrite Tr; clear Tr. rewrite value_pure in E.
    step H. rewrite Tr; clear Tr. rename b into g1. apply equilibrium_ok in E0. destruct E0 as (Tr1 & M1).
    step H. rewrite Tr; clear Tr. destruct b as (eh1, ep1). rewrite value_pure in E0.
    step H. rewrite Tr; clear Tr. rewrite value_pure in E1. rename b into h_T.
    step H. rewrite Tr; clear Tr. rewrite value_pure in E2. rename b into p_T.
    step H. rewrite Tr; clear Tr. rewrite value_pure in E3. rename b into D1.
    step H. rewrite Tr; clear Tr. rename b into g2. apply equilibrium_ok in E4. destruct E4 as (Tr2 & M2).
    step H. rewrite Tr; clear Tr. destruct b as (eh2, ep2). rewrite value_pure in E4.
    step H. rewrite Tr; clear Tr. rewrite value_pure in E5. rename b into h_V.
    step H. rewrite Tr; clear Tr. rewrite value_pure in E6. rename b into p_V.
    step H. rewrite Tr; clear Tr. destruct b as (d1, d2). rewrite value_pure in E7.
    step H. rewrite Tr; clear Tr. rewrite value_pure in E8. rename b into dT0.
    step H. rewrite Tr; clear Tr. rewrite value_pure in E9. rename b into dv0.
    step H. rewrite Tr; clear Tr. rewrite value_pure in E10. rename b into D2.
    step H. rewrite Tr; clear Tr. rename b into g3. apply equilibrium_ok in E11. destruct E11 as (Tr3 & M3).
    rewrite value_ret in H. injection H as <- <- <- <- <- <-.
    split; [exact M3|]. do 2 (split; [reflexivity|]).
    pose proof ok_one. pose proof (ok_lit 0.02).
    split; [apply Dv in E10; tauto|].
    exists D1, g1, g2. do 2 (split; [assumption|]).
    split; [apply ok_pydiv in E3; oks; tauto|].
    split; [rewrite Tr1, Tr2, Tr3; reflexivity|].
    apply (ok_error_r _ _ _ _ _ _ Dv) in E, E0, E4. apply Dv in E1, E2, E5, E6.
    apply (ok_solve _ _ _ _ _ _ _ _ _ Dv) in E7. apply (ok_limit_r _ _ _ _ Dv) in E8.
    apply (ok_limit_v _ _ _ _ _ Dv) in E9.
    oks. tauto.
  Qed.

  Definition all_TD (tr : list (event fl)) : Prop :=
    Forall (fun p => ok (fst p) /\ ok (snd p)) (asked tr).
  Definition ends_r (tr : list (event fl)) : Prop :=
    (~ warned tr
     /\ exists l, asked tr = (l ++ [(NaN, NaN)])%list /\ Forall (fun p => ok (fst p) /\ ok (snd p)) l)
    \/ all_TD tr.

  Lemma rnan_stop m div u p vp tT tv mx k g T v D :
    eq_loop L m div u p vp tT tv mx k g T v D NaN NaN = ret g.
  Proof. destruct m; cbn [eq_loop]; rewrite !lt_nan; reflexivity. Qed.

  Lemma rloop fuel : forall div u p vp tT tv mx k g T v D dT dv g',
    ok_division div -> ok T -> ok v -> ok D ->
    value (eq_loop L fuel div u p vp tT tv mx k g T v D dT dv) = Ok g' ->
    ends_r (trace (eq_loop L fuel div u p vp tT tv mx k g T v D dT dv)).
  Proof.
    induction fuel as [|fuel IH]; intros * Dv OT OV OD; cbn [eq_loop].
    - destruct (_ || _)%bool; [discriminate|]. intros _. right. constructor.
    - destruct (_ || _)%bool.
      2:{ intros _. right. constructor. }
      destruct (Z.eqb _ _).
      { intros _. right. constructor. }
      intros H. step H. destruct b as (((((g1 & T1) & V1) & D1) & dT1) & dV1). rewrite Tr; clear Tr.
      destruct (rbody _ _ _ _ _ _ _ _ _ _ _ _ _ _ Dv E)
        as (_ & E1 & E2 & E3 & (D0 & h1 & h2 & _ & _ & O0 & -> & OdT & OdV)).
      assert (O02 : ok (T + T * lit 0.02)).
      { rewrite ok_add, ok_mul. pose proof (ok_lit 0.02). tauto. }
      destruct (ok_dec dT1) as [O|N].
      + assert (O1 : ok T1) by (rewrite E1, ok_add; tauto).
        assert (O2 : ok V1) by (rewrite E2, ok_add; tauto).
        assert (O3 : ok D1) by tauto. assert (O4 : ok D0) by tauto.
        destruct (IH _ _ _ _ _ _ _ _ _ _ _ _ _ _ _ Dv O1 O2 O3 H) as [(A2 & l & A3 & A4)|A2].
        * left. split.
          { rewrite warned_app. intros [W|W]; [exact (not_warned_body _ _ _ _ _ _ W)|auto]. }
          exists ((T + T * lit 0.02, D) :: (T, D0) :: (T1, D1) :: l). split.
          { rewrite asked_app, A3. reflexivity. }
          repeat (constructor; [split; assumption|]). assumption.
        * right. unfold all_TD. rewrite asked_app. apply Forall_app.
          split; [|assumption]. cbn [asked flat_map app].
          repeat (constructor; [split; assumption|]). constructor.
      + assert (NV : dV1 = NaN) by (apply not_ok; rewrite OdV; now apply not_ok).
        subst dT1 dV1. rewrite nan_addr in E1, E2. subst T1 V1.
        assert (ND : D1 = NaN) by (apply not_ok; rewrite E3; now apply not_ok). subst D1.
        left. rewrite rnan_stop. cbn [trace ret fst]. rewrite app_nil_r.
        split; [apply not_warned_body|].
        exists [(T + T * lit 0.02, D); (T, D0)]. split; [reflexivity|].
        repeat (constructor; [split; tauto|]). constructor.
  Qed.

  Lemma rgas_seen fuel div u p vp tT tv mx k g T v D dT dv g' :
    ok_division div ->
    (tT * T <? nabs dT) = true \/ (tv * v <? nabs dv) = true ->
    Z.eqb (k + 1) mx = false ->
    value (eq_loop L fuel div u p vp tT tv mx k g T v D dT dv) = Ok g' ->
    (exists t, trace (eq_loop L fuel div u p vp tT tv mx k g T v D dT dv)
               = (t ++ [EvTD NaN NaN; EvEquilibrate "TV"])%list)
    \/ (ok u /\ ok_gas p /\ ok_gas g /\ exists g1, made g1 /\ ok_gas g1).
  Proof.
    intros Dv Hin Hk. destruct fuel as [|fuel]; cbn [eq_loop].
    - replace (_ || _)%bool with true by (symmetry; apply orb_true_iff; exact Hin). discriminate.
    - replace (_ || _)%bool with true by (symmetry; apply orb_true_iff; exact Hin).
      rewrite Hk. intros H. step H. destruct b as (((((g1 & T1) & V1) & D1) & dT1) & dV1).
      rewrite Tr; clear Tr.
      destruct (rbody _ _ _ _ _ _ _ _ _ _ _ _ _ _ Dv E)
        as (_ & E1 & E2 & E3 & (D0 & h1 & h2 & M1 & _ & O0 & -> & OdT & OdV)).
      destruct (ok_dec dT1) as [O|N].
      + right. apply OdT in O. split; [tauto|]. split; [tauto|]. split; [tauto|]. exists h1. tauto.
      + assert (NV : dV1 = NaN) by (apply not_ok; rewrite OdV; now apply not_ok).
        subst dT1 dV1. rewrite nan_addr in E1, E2. subst T1 V1.
        assert (ND : D1 = NaN) by (apply not_ok; rewrite E3; now apply not_ok). subst D1.
        left. rewrite rnan_stop. cbn [trace ret fst]. rewrite app_nil_r.
        exists [EvTD (T + T * lit 0.02) D; EvEquilibrate "TV"; EvTD T D0; EvEquilibrate "TV"]. reflexivity.
  Qed.

  Lemma rstate fuel div u p w tT tv mx g :
    value (get_eq_state L fuel div u p w tT tv mx) = Ok g ->
    exists vp v g0, (ok v <-> ok (ct_density L w)) /\ v = one / ct_density L w
    /\ value (equilibrium L w (ct_density L w) (ct_T L w)) = Ok g0
    /\ value (eq_loop L fuel div u p vp tT tv mx 0 g0 (ct_T L w) v (ct_density L w)
                (lit 1000) (lit 1000)) = Ok g
    /\ trace (get_eq_state L fuel div u p w tT tv mx)
       = (EvTD (ct_T L w) (ct_density L w) :: EvEquilibrate "TV"
         :: trace (eq_loop L fuel div u p vp tT tv mx 0 g0 (ct_T L w) v (ct_density L w)
                (lit 1000) (lit 1000)))%list.
  Proof.
    unfold get_eq_state. intros H.
    step H. rewrite value_pure in E. rewrite Tr; clear Tr. rename b into vp.
    step H. rewrite value_pure in E0. rewrite Tr; clear Tr. rename b into v.
    step H. rewrite Tr; clear Tr. pose proof (equilibrium_ok _ _ _ _ E1) as (Tr & _).
    exists vp, v, b. split.
    { apply ok_pydiv in E0. pose proof ok_one. tauto. }
    split.
    { unfold pydiv in E0. destruct (_ =? _); [discriminate|]. now apply ok_inj in E0. }
    split; [assumption|]. split; [assumption|]. rewrite Tr. reflexivity.
  Qed.

  Lemma rstate_ends fuel div u p w tT tv mx g :
    ok_division div -> ok (ct_T L w) -> ok (ct_density L w) ->
    value (get_eq_state L fuel div u p w tT tv mx) = Ok g ->
    ends_r (trace (get_eq_state L fuel div u p w tT tv mx)).
  Proof.
    intros Dv OT OD H. destruct (rstate _ _ _ _ _ _ _ _ _ H) as (vp & v & g0 & Ov & _ & _ & K & ->).
    assert (Ov' : ok v) by tauto.
    destruct (rloop _ _ _ _ _ _ _ _ _ _ _ _ _ _ _ _ Dv OT Ov' OD K) as [(A2 & l & A3 & A4)|A2].
    - left. split.
      + intros (m & [W|[W|W]]); [discriminate..|]. apply A2. now exists m.
      + exists ((ct_T L w, ct_density L w) :: l). split.
        * cbn [asked flat_map app]. unfold asked in A3. rewrite A3. reflexivity.
        * constructor; [split; assumption|assumption].
    - right. unfold all_TD. cbn [asked flat_map app]. constructor; [split; assumption|assumption].
  Qed.

  (** ** The curve fit *)
  Lemma ok_sum_from l : forall a, ok (fold_left nadd l a) <-> ok a /\ Forall ok l.
  Proof.
    induction l as [|x l IH]; intros a; cbn [fold_left].
    - split; [split; [assumption|constructor]|tauto].
    - rewrite IH, ok_add. split.
      + intros ((A1 & A2) & A3). auto.
      + intros (A1 & A2). inversion A2; subst. auto.
  Qed.
  Lemma ok_sum l : ok (np_sum l) <-> Forall ok l.
  Proof. unfold np_sum. rewrite ok_sum_from. pose proof ok_zero. tauto. Qed.

  Lemma ok_fit xs ys f : cj_curve_fit xs ys = Ok f ->
    (ok (fit_a f) -> Forall ok xs /\ Forall ok ys)
    /\ (ok (fit_b f) -> Forall ok xs /\ Forall ok ys).
  Proof.
    unfold cj_curve_fit, cj_curve_fit_by. intros H. binds H. apply ok_inj in H. subst f.
    cbn [fit_a fit_b].
    repeat match goal with K : npdiv _ _ = Ok _ |- _ => apply ok_npdiv in K end.
    repeat match goal with K : pydiv _ _ = Ok _ |- _ => apply ok_pydiv in K end.
    oks. rewrite !ok_sum in *. tauto.
  Qed.

  (** ** The CJ speed *)
  Definition ok_event (e : event fl) : Prop :=
    match e with EvTD T D => ok T /\ ok D | _ => True end.
  Lemma ok_events tr : Forall ok_event tr <-> all_TD tr.
  Proof.
    unfold all_TD. induction tr as [|e tr IH]; [split; constructor|].
    destruct e; cbn [asked flat_map app]; fold (asked tr); split; intros H; inversion H; subst;
      try (constructor; [cbn; auto|]; tauto);
      try (apply IH; assumption); try (constructor; [exact I|]; apply IH; assumption).
    all: try tauto.
  Qed.

  Lemma state_events fuel div w i tT tV r mx g V :
    ok_division div -> searches tT tV mx ->
    value (cj_state L fuel div w i tT tV r mx) = Ok (g, V) -> ok V -> ok r ->
    Forall ok_event (trace (cj_state L fuel div w i tT tV r mx)).
  Proof.
    intros Dv Hs H OV Or. destruct (state_gas _ _ _ _ _ _ _ _ _ _ Dv Hs H OV) as (Oi & _).
    destruct (state_ends _ _ _ _ _ _ _ _ _ _ Dv H) as (D & OD & [(N & _)|(_ & A)]).
    - now subst V.
    - apply ok_events. unfold all_TD. eapply Forall_impl; [|exact A]. cbn beta.
      intros (t & d) (O1 & ->). cbn [fst snd] in *. unfold ok_gas in Oi. tauto.
  Qed.

  Lemma fresh_events mech T P x : Forall ok_event (trace (fresh_gas L mech T P x)).
  Proof.
    unfold fresh_gas. change (all_events ok_event (io_bind (new_solution L mech "") (fun g => set_TPX L g T P x))).
    apply all_bind; [repeat constructor|]. intros. repeat constructor.
  Qed.

  Definition tol : fl := lit 0.0001.
  Lemma tol_searches : searches tol tol 500.
  Proof.
    split; [discriminate|]. left. eexists. split; [reflexivity|]. unfold Q2R; cbn; lra.
  Qed.

  Lemma job_events x T P mech job r :
    value (over_ratio L x T P mech tol tol job) = Ok r -> ok (snd r) -> ok (snd job) ->
    Forall ok_event (trace (over_ratio L x T P mech tol tol job))
    /\ exists g, value (fresh_gas L mech T P x) = Ok g /\ ok_gas g
       /\ exists g1, made g1 /\ ok_gas g1.
  Proof.
    unfold over_ratio. intros H O1 O2. step H. rewrite Tr; clear Tr. step H. rewrite Tr; clear Tr.
    step H. rewrite Tr; clear Tr. destruct b1 as (g & V). rewrite value_ret in H.
    apply ok_inj in H. subst r. cbn [snd] in O1.
    split.
    - rewrite !Forall_app. repeat split; try apply fresh_events; [|constructor].
      exact (state_events _ _ _ _ _ _ _ _ _ _ ok_npdiv tol_searches E1 O1 O2).
    - exists b. split; [assumption|].
      exact (state_gas _ _ _ _ _ _ _ _ _ _ ok_npdiv tol_searches E1 O1).
  Qed.

  Lemma map_events {B C} (Q : C -> Prop) (f : B -> io fl C) l : forall ys,
    (forall b y, In b l -> value (f b) = Ok y -> Q y -> Forall ok_event (trace (f b))) ->
    value (io_map f l) = Ok ys -> Forall Q ys ->
    Forall ok_event (trace (io_map f l)).
  Proof.
    induction l as [|b l IH]; intros ys Hf H HQ; cbn [io_map] in *; [constructor|].
    step H. rewrite Tr; clear Tr. step H. rewrite Tr; clear Tr. rewrite value_ret in H.
    apply ok_inj in H. subst ys. inversion HQ; subst. rewrite !Forall_app.
    split; [apply (Hf b b0); cbn; auto|]. split; [|constructor].
    eapply IH; eauto. intros. apply (Hf b2 y); cbn; auto.
  Qed.

  Definition good_pool (p : pool fl) : Prop :=
    match p with Serial => True | Workers s => reorders s end.
  Definition order (p : pool fl) (k : nat) (jobs : list (nat * fl)) :=
    match p with Serial => jobs | Workers s => s k jobs end.
  Lemma order_perm p k jobs : good_pool p -> Permutation (order p k jobs) jobs.
  Proof. destruct p; cbn; auto. Qed.
  Lemma run_jobs_order p k (f : nat * fl -> io fl (nat * fl)) jobs :
    run_jobs p k f jobs = io_map f (order p k jobs).
  Proof. now destruct p. Qed.

  Lemma ok_pairs l : forall n, Forall (fun j : nat * fl => ok (snd j)) (combine (seq n (length l)) l)
    <-> Forall ok l.
  Proof.
    induction l as [|a l IH]; intros n; cbn [length seq combine].
    - split; constructor.
    - split; intros H; inversion H; subst; (constructor; [assumption|]); eapply IH; eauto.
  Qed.
  Lemma ok_vel res : Forall ok (map snd (sort_pairs res)) -> Forall (fun j : nat * fl => ok (snd j)) res.
  Proof.
    rewrite Forall_map. intros H. eapply Permutation_Forall; [|exact H].
    apply Permutation_sym, sort_perm.
  Qed.

  Definition last_vertex (l : list (round fl)) : fl := let '(_, _, _, v, _) := last_round l in v.
  Definition ok_round (r : round fl) : Prop :=
    let '(ratios, us, f, v) := r in Forall ok ratios /\ Forall ok us /\ ok v.

  Lemma last_vertex_app l a b f v : last_vertex (l ++ [(a, b, f, v)]) = v.
  Proof. unfold last_vertex, last_round. rewrite rev_app_distr. reflexivity. Qed.

  Lemma linspace_ends (lo hi : fl) : Forall ok (linspace21 lo hi) -> ok lo /\ ok hi.
  Proof.
    unfold linspace21. rewrite Forall_app. intros (H1 & H2). apply Forall_inv in H2.
    cbv zeta in H1. cbn [seq map] in H1. apply Forall_inv in H1. oks. tauto.
  Qed.

  Lemma speed fuel p x T P mech : good_pool p -> forall k r2 d lo hi done out,
    value (speed_loop L fuel p x T P mech tol tol k r2 d lo hi done) = Ok out ->
    (out = done /\ trace (speed_loop L fuel p x T P mech tol tol k r2 d lo hi done) = [])
    \/ (exists extra, out = (done ++ extra)%list /\ extra <> []
        /\ (ok (last_vertex extra) ->
            ok lo /\ ok hi /\ Forall ok_round extra
            /\ Forall ok_event (trace (speed_loop L fuel p x T P mech tol tol k r2 d lo hi done))
            /\ exists g, value (fresh_gas L mech T P x) = Ok g /\ ok_gas g
               /\ exists g1, made g1 /\ ok_gas g1)).
  Proof.
    intros Hp. induction fuel as [|fuel IH]; intros *; cbn [speed_loop].
    - destruct (_ && _)%bool; [discriminate|]. intros H. apply ok_inj in H. subst. left. auto.
    - destruct (_ && _)%bool; [|intros H; apply ok_inj in H; subst; left; auto].
      rewrite run_jobs_order. intros H. step H. rewrite Tr; clear Tr. rename b into res.
      step H. rewrite Tr; clear Tr. rename b into f. rewrite value_pure in E0.
      step H. rewrite Tr; clear Tr. rename b into v. rewrite value_pure in E1.
      set (ratios := linspace21 lo hi) in *.
      set (jobs := combine (seq 0 (length ratios)) ratios) in *.
      set (us := map snd (sort_pairs res)) in *.
      (* an ordinary vertex comes from ordinary points *)
      assert (V : ok v -> ok_round (ratios, us, f, v)
        /\ Forall ok_event (trace (io_map (over_ratio L x T P mech tol tol) (order p k jobs)))
        /\ exists g, value (fresh_gas L mech T P x) = Ok g /\ ok_gas g
               /\ exists g1, made g1 /\ ok_gas g1).
      { intros Ov. apply ok_npdiv in E1. oks.
        destruct (ok_fit _ _ _ E0) as (F & _).
        assert (Oa : ok (fit_a f)) by tauto. destruct (F Oa) as (F1 & F2).
        assert (J : Forall (fun j => ok (snd j)) (order p k jobs)).
        { eapply Permutation_Forall; [apply Permutation_sym, order_perm, Hp|]. apply ok_pairs. exact F1. }
        split; [split; [exact F1|split; [exact F2|exact Ov]]|].
        pose proof (ok_vel _ F2) as Q. split.
        - eapply (map_events (fun r => ok (snd r))); [|exact E|exact Q].
          intros b y Hb Hy Oy. rewrite Forall_forall in J.
          exact (proj1 (job_events _ _ _ _ _ _ Hy Oy (J _ Hb))).
        - apply io_map_inv in E.
          assert (N : order p k jobs <> []).
          { intros Z. pose proof (order_perm p k jobs Hp) as Pm. rewrite Z in Pm.
            apply Permutation_nil in Pm. discriminate. }
          destruct E as [|b y l ys E EE]; [congruence|]. inversion J; inversion Q; subst.
          exact (proj2 (job_events _ _ _ _ _ _ E ltac:(assumption) ltac:(assumption))). }
      right. destruct (IH _ _ _ _ _ _ _ H) as [(-> & ->)|(extra & -> & Ne & K)].
      + exists [(ratios, us, f, v)]. split; [reflexivity|]. split; [discriminate|].
        change (last_vertex [(ratios, us, f, v)]) with v. intros Ov. destruct (V Ov) as (V1 & V2 & V3).
        assert (Rr : ok lo /\ ok hi) by (apply linspace_ends; exact (proj1 V1)).
        split; [tauto|]. split; [tauto|]. split; [constructor; [exact V1|constructor]|].
        split; [|exact V3]. rewrite Forall_app. split; [exact V2|constructor].
      + exists ((ratios, us, f, v) :: extra).
        split; [rewrite <- app_assoc; reflexivity|]. split; [discriminate|].
        intros Ov. assert (Ov' : ok (last_vertex extra)).
        { destruct (exists_last Ne) as (l & (((a0 & b0) & f0) & v0) & ->).
          rewrite last_vertex_app. rewrite app_comm_cons, last_vertex_app in Ov. exact Ov. }
        destruct (K Ov') as (K1 & _ & K3 & K4 & _). oks.
        destruct (V (proj1 K1)) as (V1 & V2 & V3).
        assert (Rr : ok lo /\ ok hi) by (apply linspace_ends; exact (proj1 V1)).
        split; [tauto|]. split; [tauto|]. split; [constructor; assumption|]. split; [|exact V3].
        rewrite Forall_app. split; [exact V2|]. cbn [trace pure fst app]. exact K4.
  Qed.

  (** Stopping without a warning: the last temperatures are close. *)
  Lemma lt_false (x y : R) : ~ (x < y)%R -> (y <= x)%R. Proof. lra. Qed.
  Lemma converged fuel : forall i a b D mx k g T V dT dV g' V',
    ok T -> ok V ->
    (Fin a * T <? nabs dT) = true \/ (Fin b * V <? nabs dV) = true ->
    value (cj_loop L fuel i (Fin a) (Fin b) D mx k g T V dT dV) = Ok (g', V') -> ok V' ->
    ~ warned (trace (cj_loop L fuel i (Fin a) (Fin b) D mx k g T V dT dV)) ->
    exists l t t', asked (trace (cj_loop L fuel i (Fin a) (Fin b) D mx k g T V dT dV))
                   = (l ++ [(Fin t, D); (Fin t', D)])%list
      /\ (Rabs (t' - t) <= a * t')%R.
  Proof.
    induction fuel as [|fuel IH]; intros * OT OV Hin; cbn [cj_loop];
      (replace (_ || _)%bool with true by (symmetry; apply orb_true_iff; exact Hin)).
    - discriminate.
    - destruct (Z.eqb _ _).
      { intros _ _ W. exfalso. apply W. eexists. left. reflexivity. }
      intros H OV'. step H. destruct b0 as ((((g1 & T1) & V1) & dT1) & dV1). rewrite Tr; clear Tr.
      destruct (body _ _ _ _ _ _ _ _ _ _ E) as (_ & E1 & E2 & -> & (h1 & h2 & _ & _ & OdT & OdV)).
      rewrite warned_app. intros W.
      destruct (ok_dec dT1) as [O|N].
      2:{ assert (NV : dV1 = NaN) by (apply not_ok; rewrite OdV; now apply not_ok).
          subst dT1 dV1. rewrite nan_addr in E2. subst V1. rewrite nan_stop in H.
          apply ok_pair_inj in H. destruct H as (<- & <-). now contradict OV'. }
      assert (O1 : ok T1) by (rewrite E1, ok_add; tauto).
      assert (O2 : ok V1) by (rewrite E2, ok_add; tauto).
      rewrite asked_app.
      destruct ((Fin a * T1 <? nabs dT1) || (Fin b * V1 <? nabs dV1))%bool eqn:C.
      + apply orb_true_iff in C.
        destruct (IH _ _ _ _ _ _ _ _ _ _ _ _ _ O1 O2 C H OV') as (l & t & t' & -> & K); [tauto|].
        exists ([(T + lit 0.02 * T, D); (T, D); (T1, D)] ++ l)%list, t, t'. split; [|exact K].
        rewrite <- app_assoc. reflexivity.
      + replace (cj_loop L fuel i (Fin a) (Fin b) D mx (k + 1) g1 T1 V1 dT1 dV1) with (@ret fl _ (g1, V1))
          by (destruct fuel; cbn [cj_loop]; rewrite C; reflexivity).
        apply orb_false_iff in C. destruct C as (C & _).
        destruct T as [t|]; [|now contradict OT]. destruct dT1 as [d|]; [|now contradict O].
        subst T1. cbn [nadd nmul nabs nltb Num_fl fl1 fl2 flc] in C |- *.
        exists [(Fin t + lit 0.02 * Fin t, D)], t, (t + d)%R. split; [reflexivity|].
        replace (t + d - t)%R with d by ring. apply lt_false. intros C'.
        apply QLemmas.Rltb_true in C'. congruence.
  Qed.

  (** ** Reflection.reflect *)
  Lemma ok_npsqrt (x r : fl) : npsqrt x = Ok r -> (ok r <-> ok x).
  Proof.
    unfold npsqrt. destruct (x <? zero); [discriminate|]. intros [= <-]. unfold ordinary.
    destruct x; cbn; split; easy.
  Qed.
  Lemma reflect_ok i p w U P3 Wr g :
    value (reflect L i p w U) = Ok (P3, Wr, g) -> ok Wr ->
    ok P3 /\ P3 = ct_P L g /\ ok (ct_P L p) /\ ok (ct_density L p) /\ ok (ct_P L i) /\ ok (ct_density L i).
  Proof.
    unfold reflect. intros H OW. step H. rewrite value_pure in E. clear Tr. rename b into v1.
    step H. rewrite value_pure in E0. clear Tr. rename b into v2.
    step H. rewrite value_pure in E1. clear Tr. rename b into u.
    step H. rewrite value_pure in E2. clear Tr. step H. rewrite value_pure in E3. clear Tr.
    step H. rewrite value_pure in E4. clear Tr. step H. clear Tr E5. step H. clear Tr E5.
    step H. rewrite value_pure in E5. clear Tr. step H. rewrite value_pure in E6. clear Tr.
    rewrite value_ret in H. apply ok_inj in H. apply pair_inj in H. destruct H as (H & <-).
    apply pair_inj in H. destruct H as (<- & <-).
    apply ok_npdiv in E5, E6. apply ok_npsqrt in E1. apply ok_pydiv in E, E0. 
    oks. pose proof ok_one. tauto.
  Qed.
End Sd.
