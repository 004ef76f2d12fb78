(** * PoolP: lemmas about the worker pools of cj_speed and its callers. *)
From Coq Require Import String ZArith QArith List Bool Lia.
From Verif Require Import PyBase Pint UnitsM TubeM Gas GasP FitM SdM ThermoM InitPressureM PoolSpec.
Import ListNotations.
Local Open Scope num_scope.
Local Open Scope list_scope.

Section Pool.
  Context {A G X : Type} {NA : Num A} (L : cantera A G X).

  Lemma pool_history_app (t u : list (event A)) :
    pool_history (t ++ u) = pool_history t ++ pool_history u.
  Proof. induction t as [|e t IH]; cbn; [reflexivity|]. destruct e; cbn; rewrite IH; reflexivity. Qed.

  Definition no_pool {B} (m : io A B) : Prop := pool_history (trace m) = [].
  Lemma np_bind {B C} (m : io A B) (f : B -> io A C) :
    no_pool m -> (forall b, value m = Ok b -> no_pool (f b)) -> no_pool (io_bind m f).
  Proof.
    unfold no_pool, trace, value, io_bind. destruct (snd m) as [b|e]; cbn; intros H1 H2; auto.
    rewrite pool_history_app, H1, H2; reflexivity.
  Qed.
  Lemma np_pure {B} (r : result B) : no_pool (pure r). Proof. reflexivity. Qed.
  Lemma np_ret {B} (b : B) : no_pool (ret b). Proof. reflexivity. Qed.
  Lemma np_new m ph : no_pool (new_solution L m ph). Proof. reflexivity. Qed.
  Lemma np_TPX g T P x : no_pool (set_TPX L g T P x). Proof. reflexivity. Qed.
  Lemma np_TD g T D : no_pool (set_TD L g T D). Proof. reflexivity. Qed.
  Lemma np_eq g XY : no_pool (equilibrate L g XY). Proof. reflexivity. Qed.
  Lemma np_warn s : no_pool (emit (EvWarn s)). Proof. reflexivity. Qed.
  Lemma np_stuck {B} (r : result B) : no_pool (act EvStuck r). Proof. reflexivity. Qed.
  Lemma np_equilibrium g D T : no_pool (equilibrium L g D T).
  Proof. apply np_bind; [apply np_TD|]. intros. apply np_eq. Qed.

  Ltac np :=
    first [ apply np_pure | apply np_ret | apply np_new | apply np_TPX | apply np_TD | apply np_eq
          | apply np_warn | apply np_stuck | apply np_equilibrium
          | apply np_bind; [np | intros; repeat match goal with p : (_ * _)%type |- _ => destruct p end; np] ].

  Lemma np_cj_loop fuel : forall i tT tV D mx k g T V dT dV,
    no_pool (cj_loop L fuel i tT tV D mx k g T V dT dV).
  Proof.
    induction fuel as [|fuel IH]; intros; cbn [cj_loop]; destruct (_ || _)%bool; try np.
    destruct (Z.eqb _ _); [np|].
    apply np_bind; [unfold cj_body; np|]. intros [[[[g' T'] V'] dT'] dV'] _. apply IH.
  Qed.
  Lemma np_cj_state fuel div w i tT tV r mx : no_pool (cj_state L fuel div w i tT tV r mx).
  Proof.
    unfold cj_state. do 4 (apply np_bind; [np|]; intros ? _). apply np_cj_loop.
  Qed.
  Lemma np_over_ratio x T P mech tT tV job : no_pool (over_ratio L x T P mech tT tV job).
  Proof.
    unfold over_ratio, fresh_gas. do 2 (apply np_bind; [np|]; intros ? _).
    apply np_bind; [apply np_cj_state|]. intros [? ?] _. np.
  Qed.
  Lemma np_map {B C} (f : B -> io A C) l : (forall b, no_pool (f b)) -> no_pool (io_map f l).
  Proof.
    intros H. induction l as [|b l IH]; cbn [io_map]; [np|].
    apply np_bind; [apply H|]. intros ? _. apply np_bind; [apply IH|]. intros. np.
  Qed.
  Lemma np_speed_loop fuel p x T P mech tT tV : forall k r2 d lo hi acc,
    no_pool (speed_loop L fuel p x T P mech tT tV k r2 d lo hi acc).
  Proof.
    induction fuel as [|fuel IH]; intros; cbn [speed_loop]; destruct (_ && _)%bool; try np.
    apply np_bind.
    - destruct p; cbn [run_jobs]; apply np_map; intros; apply np_over_ratio.
    - intros res _. apply np_bind; [np|]. intros f _. apply np_bind; [np|]. intros v _. apply IH.
  Qed.
  Lemma np_eq_loop fuel : forall div u g2 v2 tT tv mx k g T v D dT dv,
    no_pool (eq_loop L fuel div u g2 v2 tT tv mx k g T v D dT dv).
  Proof.
    induction fuel as [|fuel IH]; intros; cbn [eq_loop]; destruct (_ || _)%bool; try np.
    destruct (Z.eqb _ _); [np|].
    apply np_bind; [unfold eq_body; np|].
    intros [[[[[g' T'] v'] D'] dT'] dv'] _. apply IH.
  Qed.
  Lemma np_reflect i c w U : no_pool (reflect L i c w U).
  Proof.
    unfold reflect. do 6 (apply np_bind; [np|]; intros ? _).
    apply np_bind; [np|]; intros ? _.
    apply np_bind; [|intros; np].
    unfold get_eq_state. do 3 (apply np_bind; [np|]; intros ? _). apply np_eq_loop.
  Qed.

  (** ** cj_speed *)
  (** the jobs and fits, with the last pool step *)
  Lemma np_cj_tail {p : pool A} {P T : A} {x : X} {mech : string} {rr rs : bool} done :
    forall tol : A,
    no_pool
      (let '(a, b, c, vertex, r_squared) := last_round done in
       let speed := nadd (nadd (nmul a (sq vertex)) (nmul b vertex)) c in
       if rs then
         do initial0 <- new_solution L mech "";
         do working0 <- new_solution L mech "";
         do initial <- set_TPX L initial0 T P x;
         do working <- set_TPX L working0 T P x;
         do (gas, _) <- cj_state L 500 npdiv working initial tol tol vertex 500;
         if rr then
           ret (done, [("cj speed"%string, ENumber speed);
                       ("R^2"%string, EMaybe r_squared);
                       ("cj state"%string, EGas gas)])
         else
           ret (done, [("cj speed"%string, ENumber speed); ("cj state"%string, EGas gas)])
       else if rr then
         ret (done, [("cj speed"%string, ENumber speed); ("R^2"%string, EMaybe r_squared)])
       else ret (done, [("cj speed"%string, ENumber speed)])).
  Proof.
    intros tol. destruct (last_round done) as [[[[a b] c] v] r2]. cbv zeta. destruct rs.
    - do 4 (apply np_bind; [np|]; intros ? _).
      apply np_bind; [apply np_cj_state|]. intros [? ?] _. destruct rr; np.
    - destruct rr; np.
  Qed.

  Lemma history_bind {B C} (m : io A B) (f : B -> io A C) :
    pool_history (trace (io_bind m f))
    = pool_history (trace m)
      ++ match value m with Ok b => pool_history (trace (f b)) | Err _ => [] end.
  Proof.
    unfold trace, value, io_bind. destruct (snd m); cbn.
    - apply pool_history_app.
    - rewrite app_nil_r. reflexivity.
  Qed.

  Lemma cj_speed_serial P T x mech rr rs :
    pool_history (trace (cj_speed L P T x mech Serial rr rs)) = [].
  Proof.
    unfold cj_speed, cj_speed_rounds.
    apply np_bind; [|intros [? ?] _; np].
    apply np_bind; [apply np_ret|]. intros _ _.
    apply np_bind; [apply np_speed_loop|]. intros done _.
    apply np_bind; [apply np_ret|]. intros _ _.
    apply (np_cj_tail (p:=Serial)).
  Qed.

  Lemma cj_speed_pool s P T x mech rr rs :
    let r := cj_speed L P T x mech (Workers s) rr rs in
    (pool_history (trace r) = [Opened; Closed]
     \/ (pool_history (trace r) = [Opened] /\ exists e, value r = Err e)).
  Proof.
    cbv zeta. unfold cj_speed, cj_speed_rounds.
    destruct (value (speed_loop L 4 (Workers s) x T P mech (lit 0.0001) (lit 0.0001) 1 (Ok zero) zero
                      (lit 1.5) (lit 2.0) [])) as [done|e] eqn:E.
    - left. rewrite history_bind.
      match goal with |- _ ++ ?q = _ => assert (Hq : q = []) end.
      { match goal with |- match ?v with _ => _ end = _ => destruct v as [[? ?]|] end; reflexivity. }
      rewrite Hq, app_nil_r. clear Hq.
      rewrite history_bind.
      change (value (pool_step (Workers s) EvPoolOpen)) with (Ok tt). cbv iota.
      rewrite history_bind, E. cbv iota.
      rewrite (np_speed_loop 4 (Workers s)). rewrite history_bind.
      change (value (pool_step (Workers s) EvPoolClose)) with (Ok tt). cbv iota.
      rewrite (np_cj_tail (p:=Workers s)). reflexivity.
    - right. split.
      + rewrite history_bind.
        match goal with |- _ ++ ?q = _ => assert (Hq : q = []) end.
        { match goal with |- match ?v with _ => _ end = _ => destruct v as [[? ?]|] end; reflexivity. }
        rewrite Hq, app_nil_r. clear Hq. rewrite history_bind.
        change (value (pool_step (Workers s) EvPoolOpen)) with (Ok tt). cbv iota.
        rewrite history_bind, E. cbv iota. rewrite (np_speed_loop 4 (Workers s)). reflexivity.
      + exists e. unfold value in *. unfold io_bind at 1 2 3. cbn [pool_step emit fst snd].
        rewrite E. reflexivity.
  Qed.

  (** ** The callers *)
  (** at least [lo] (if it returns) and at most [hi] pools, at most the last one left open *)
  Definition tidy {B} (lo hi : nat) (m : io A B) : Prop :=
    exists n, (n <= hi)%nat
      /\ ((pool_history (trace m) = one_at_a_time n
           /\ ((exists e, value m = Err e) \/ (lo <= n)%nat))
          \/ (pool_history (trace m) = one_at_a_time n ++ [Opened] /\ (n < hi)%nat
              /\ exists e, value m = Err e)).
  Lemma one_at_a_time_app n k : one_at_a_time n ++ one_at_a_time k = one_at_a_time (n + k).
  Proof. induction n as [|n IH]; cbn; [reflexivity|]. rewrite IH. reflexivity. Qed.
  Lemma tidy_bind {B C} lo1 hi1 lo2 hi2 (m : io A B) (f : B -> io A C) :
    tidy lo1 hi1 m -> (forall b, value m = Ok b -> tidy lo2 hi2 (f b)) ->
    tidy (lo1 + lo2) (hi1 + hi2) (io_bind m f).
  Proof.
    intros (n & Hn & Hm) Hf. unfold tidy. rewrite history_bind.
    assert (Ev : value (io_bind m f) = match value m with Ok b => value (f b) | Err e => Err e end)
      by (unfold value, io_bind; destruct (snd m); reflexivity).
    rewrite Ev. destruct (value m) as [b|e] eqn:E.
    - destruct Hm as [(-> & [(e & He)|Hlo])|(_ & _ & e & He)]; try discriminate He.
      destruct (Hf b eq_refl) as (k & Hk & [(-> & Hr)|(-> & Hk' & Hr)]).
      + exists (n + k)%nat. split; [lia|]. left. rewrite one_at_a_time_app. split; [reflexivity|].
        destruct Hr as [Hr|Hr]; [left; exact Hr|right; lia].
      + exists (n + k)%nat. split; [lia|]. right. rewrite app_assoc, one_at_a_time_app.
        repeat split; [lia|exact Hr].
    - rewrite app_nil_r. exists n. split; [lia|].
      destruct Hm as [(-> & _)|(-> & Hn' & _)].
      + left. split; [reflexivity|]. left. exists e. reflexivity.
      + right. repeat split; [lia|]. exists e. reflexivity.
  Qed.
  Lemma tidy_np {B} (m : io A B) : no_pool m -> tidy 0 0 m.
  Proof. intros H. exists O. split; [lia|]. left. split; [exact H|]. right. lia. Qed.
  Lemma tidy_weaken {B} lo lo' hi hi' (m : io A B) :
    (lo' <= lo)%nat -> (hi <= hi')%nat -> tidy lo hi m -> tidy lo' hi' m.
  Proof.
    intros Hl Hh (n & Hn & [(H & [He|Hlo])|(H & Hn' & He)]); exists n; (split; [lia|]).
    - left. auto.
    - left. split; [exact H|]. right. lia.
    - right. split; [exact H|]. split; [lia|exact He].
  Qed.
  Lemma cj_speed_tidy s P T x mech rr rs : tidy 1 1 (cj_speed L P T x mech (Workers s) rr rs).
  Proof.
    destruct (cj_speed_pool s P T x mech rr rs) as [H|(H & He)].
    - exists 1%nat. split; [lia|]. left. split; [exact H|]. right. lia.
    - exists O. split; [lia|]. right. split; [exact H|]. split; [lia|exact He].
  Qed.
  Lemma shock_tidy T0 P0 x mech reg s :
    tidy 1 1 (calculate_reflected_shock_state L T0 P0 x mech reg (Workers s)).
  Proof.
    unfold calculate_reflected_shock_state.
    do 6 (apply (tidy_bind 0 0 1 1); [apply tidy_np; np|]; intros ? _).
    apply (tidy_bind 1 1 0 0); [apply cj_speed_tidy|]. intros d _. apply tidy_np.
    do 2 (apply np_bind; [np|]; intros ? _).
    apply np_bind; [apply np_reflect|]. intros [[? ?] ?] _. np.
  Qed.
  Lemma shock_serial T0 P0 x mech reg :
    no_pool (calculate_reflected_shock_state L T0 P0 x mech reg Serial).
  Proof.
    unfold calculate_reflected_shock_state.
    do 6 (apply np_bind; [np|]; intros ? _).
    apply np_bind; [apply cj_speed_serial|]. intros d _.
    do 2 (apply np_bind; [np|]; intros ? _).
    apply np_bind; [apply np_reflect|]. intros [[? ?] ?] _. np.
  Qed.
  Lemma search_tidy s tid tod T0 x mech maxp E rho nu pm dlf reg w budget :
    forall tol err P0 k st,
    tidy 0 budget (pressure_loop L tid tod T0 x mech maxp E rho nu pm dlf reg (Workers s) w budget tol
                     err P0 k st).
  Proof.
    induction budget as [|budget IH]; intros; cbn [pressure_loop]; destruct (nltb _ _).
    - apply tidy_np; np.
    - apply tidy_np; np.
    - apply (tidy_bind 0 0 0 (S budget)); [apply tidy_np; np|]. intros P1 _.
      apply (tidy_weaken 1 0 (S budget) (S budget)); [lia|lia|].
      apply (tidy_bind 1 1 0 budget); [apply shock_tidy|]. intros st1 _.
      apply (tidy_bind 0 0 0 budget); [apply tidy_np; np|]. intros k1 _.
      apply (tidy_bind 0 0 0 budget); [apply tidy_np; np|]. intros e1 _. apply IH.
    - apply (tidy_weaken 0 0 0 (S budget)); [lia|lia|]. apply tidy_np; np.
  Qed.
  Lemma search_serial tid tod T0 x mech maxp E rho nu pm dlf reg w budget :
    forall tol err P0 k st,
    no_pool (pressure_loop L tid tod T0 x mech maxp E rho nu pm dlf reg Serial w budget tol
                     err P0 k st).
  Proof.
    induction budget as [|budget IH]; intros; cbn [pressure_loop]; destruct (nltb _ _); try np.
    apply np_bind; [np|]. intros P1 _. apply np_bind; [apply shock_serial|]. intros st1 _.
    do 2 (apply np_bind; [np|]; intros ? _). apply IH.
  Qed.
  Lemma initial_pressure_tidy tid tod T0 x mech maxp E rho nu pm dlf reg tol n s which ret_dlf :
    tidy 1 (S (Z.to_nat n))
      (calculate_max_initial_pressure L tid tod T0 x mech maxp E rho nu pm dlf reg tol n (Workers s)
         which ret_dlf).
  Proof.
    unfold calculate_max_initial_pressure. destruct (which_state which) as [w|].
    - apply (tidy_bind 0 0 1 (S (Z.to_nat n))); [apply tidy_np; np|]. intros P0 _. cbv zeta.
      apply (tidy_bind 1 1 0 (Z.to_nat n)); [apply shock_tidy|]. intros st _.
      do 2 (apply (tidy_bind 0 0 0 (Z.to_nat n)); [apply tidy_np; np|]; intros ? _).
      apply (tidy_weaken 0 0 (Z.to_nat n + 0) (Z.to_nat n)); [lia|lia|].
      apply (tidy_bind 0 (Z.to_nat n) 0 0); [apply search_tidy|]. intros [? ?] _. apply tidy_np; np.
    - exists O. split; [lia|]. left. split; [reflexivity|]. left. eexists. reflexivity.
  Qed.
  Lemma initial_pressure_serial tid tod T0 x mech maxp E rho nu pm dlf reg tol n which ret_dlf :
    no_pool
      (calculate_max_initial_pressure L tid tod T0 x mech maxp E rho nu pm dlf reg tol n Serial
         which ret_dlf).
  Proof.
    unfold calculate_max_initial_pressure. destruct (which_state which) as [w|]; [|np].
    apply np_bind; [np|]. intros P0 _. cbv zeta.
    apply np_bind; [apply shock_serial|]. intros st _.
    do 2 (apply np_bind; [np|]; intros ? _).
    apply np_bind; [apply search_serial|]. intros [? ?] _. np.
  Qed.
End Pool.
