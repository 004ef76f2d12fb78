(** * InitPressureP: lemmas about calculate_max_initial_pressure over the reals. *)
From Coq Require Import String ZArith QArith Reals Qreals List Bool Lra Lia Psatz Permutation.
From Verif Require Import PyBase Pint UnitsM Spec Gas GasP QLemmas FitM FitP FitSpec SdM SdSpec SdP
  SpeedSpec SpeedP ThermoM ThermoSpec ThermoP TubeM TubeP Properties_Speed
  InitPressureM InitPressureSpec.
Import ListNotations.
Local Open Scope R_scope.

(** ** How many gas objects are made, whether or not something raises *)
Definition no_new (e : event R) : Prop := match e with EvNew _ _ => False | _ => True end.

Ltac walk :=
  first [ apply all_pure | apply all_ret | apply all_act; exact I | apply all_emit; exact I
        | apply equilibrium_all; exact I
        | apply all_bind; [walk | intros; repeat match goal with p : (_ * _)%type |- _ => destruct p end; walk] ].

Section Counting.
  Context {G X : Type} (L : cantera R G X).

  Lemma eq_loop_no_new fuel : forall div u g2 v2 tT tv mx k g T v D dT dv,
    all_events no_new (eq_loop L fuel div u g2 v2 tT tv mx k g T v D dT dv).
  Proof.
    induction fuel as [|fuel IH]; intros; cbn [eq_loop]; destruct (_ || _)%bool; try walk.
    destruct (Z.eqb _ _); [walk|].
    apply all_bind; [unfold eq_body; walk|].
    intros [[[[[g' T'] v'] D'] dT'] dv'] _. apply IH.
  Qed.
  Lemma reflect_no_new i c w U : all_events no_new (reflect L i c w U).
  Proof.
    unfold reflect. do 6 (apply all_bind; [walk|]; intros ? _).
    apply all_bind; [walk|]; intros ? _.
    apply all_bind; [|intros; walk].
    unfold get_eq_state. do 3 (apply all_bind; [walk|]; intros ? _). apply eq_loop_no_new.
  Qed.

  Lemma created_bind_le {B C} (m : io R B) (f : B -> io R C) a b :
    (gases_created (trace m) <= a)%nat ->
    (forall y, value m = Ok y -> (gases_created (trace (f y)) <= b)%nat) ->
    (gases_created (trace (io_bind m f)) <= a + b)%nat.
  Proof.
    unfold trace, value, io_bind. destruct (snd m) as [y|e]; cbn [fst snd]; intros H1 H2.
    - rewrite created_app. specialize (H2 y eq_refl). lia.
    - lia.
  Qed.
  Lemma created_zero_le {B} (r : io R B) : all_events no_new r ->
    (gases_created (trace r) <= 0)%nat.
  Proof. intros H. rewrite created_none; [lia|exact H]. Qed.
  Lemma io_map_creates_le {B C} (f : B -> io R C) n :
    (forall b, (gases_created (trace (f b)) <= n)%nat) ->
    forall l, (gases_created (trace (io_map f l)) <= n * length l)%nat.
  Proof.
    intros Hn. induction l as [|b l IH]; cbn [io_map length].
    - cbn. lia.
    - replace (n * S (length l))%nat with (n + (n * length l + 0))%nat by lia.
      apply created_bind_le; [apply Hn|]. intros y _.
      apply created_bind_le; [exact IH|]. intros; cbn; lia.
  Qed.
  Lemma cj_state_no_new fuel w i r mx :
    all_events no_new (cj_state L fuel npdiv w i (1/10000)%R (1/10000)%R r mx).
  Proof. apply cj_state_all; try exact I; try (intros; exact I). right; reflexivity. Qed.

  Lemma over_ratio_creates_le x T P mech job :
    (gases_created (trace (over_ratio L x T P mech (1/10000)%R (1/10000)%R job)) <= 2)%nat.
  Proof.
    assert (Hf : (gases_created (trace (fresh_gas L mech T P x)) <= 1)%nat).
    { unfold fresh_gas. apply (created_bind_le _ _ 1 0); [cbn; lia|]. intros; cbn; lia. }
    unfold over_ratio. apply (created_bind_le _ _ 1 1); [exact Hf|]. intros i _.
    apply (created_bind_le _ _ 1 0); [exact Hf|]. intros w _.
    apply (created_bind_le _ _ 0 0); [apply created_zero_le, cj_state_no_new|].
    intros [g v] _. cbn. lia.
  Qed.

  Lemma speed_loop_creates_le fuel p x T P mech : any_pool p -> forall k r2 d lo hi acc,
    (gases_created (trace (speed_loop L fuel p x T P mech (1/10000)%R (1/10000)%R k r2 d lo hi acc))
     <= 42 * fuel)%nat.
  Proof.
    intros Hp. induction fuel as [|fuel IH]; intros; cbn [speed_loop]; destruct (_ && _)%bool;
      try (cbn; lia).
    replace (42 * S fuel)%nat with (42 + (0 + (0 + 42 * fuel)))%nat by lia.
    apply created_bind_le.
    - destruct Hp as [->|(s & -> & Hs)]; cbn [run_jobs].
      + refine (Nat.le_trans _ _ _ (io_map_creates_le _ 2 (over_ratio_creates_le x T P mech) _) _).
        cbn; lia.
      + refine (Nat.le_trans _ _ _ (io_map_creates_le _ 2 (over_ratio_creates_le x T P mech) _) _).
        rewrite (Permutation_length (Hs k _)). cbn; lia.
    - intros res _. apply created_bind_le; [cbn; lia|]. intros f _.
      apply created_bind_le; [cbn; lia|]. intros v _. apply IH.
  Qed.

  Lemma cj_speed_creates_le p x T P mech : any_pool p ->
    (gases_created (trace (cj_speed L P T x mech p false true)) <= 170)%nat.
  Proof.
    intros Hp. unfold cj_speed, cj_speed_rounds. rnum. rewrite lit_tol, lit_15, lit_20.
    apply (created_bind_le _ _ 170 0); [|intros [? ?] _; cbn; lia].
    apply (created_bind_le _ _ 0 170); [destruct p; cbn; lia|]. intros _ _.
    apply (created_bind_le _ _ 168 2); [apply (speed_loop_creates_le 4); exact Hp|].
    intros done _.
    apply (created_bind_le _ _ 0 2); [destruct p; cbn; lia|]. intros _ _. destruct (last_round done) as [[[[a b] c] v] r2].
    apply (created_bind_le _ _ 1 1); [cbn; lia|]. intros.
    apply (created_bind_le _ _ 1 0); [cbn; lia|]. intros.
    apply (created_bind_le _ _ 0 0); [cbn; lia|]. intros.
    apply (created_bind_le _ _ 0 0); [cbn; lia|]. intros.
    apply (created_bind_le _ _ 0 0); [apply created_zero_le, cj_state_no_new|].
    intros [g U] _. cbn. lia.
  Qed.

  Lemma shock_creates_le T P x mech reg p : any_pool p ->
    (gases_created (trace (calculate_reflected_shock_state L T P x mech reg p)) <= 172)%nat.
  Proof.
    intros Hp. unfold calculate_reflected_shock_state.
    apply (created_bind_le _ _ 1 171); [cbn; lia|]. intros.
    apply (created_bind_le _ _ 1 170); [cbn; lia|]. intros.
    apply (created_bind_le _ _ 0 170); [cbn; lia|]. intros.
    apply (created_bind_le _ _ 0 170); [cbn; lia|]. intros.
    apply (created_bind_le _ _ 0 170); [cbn; lia|]. intros.
    apply (created_bind_le _ _ 0 170); [cbn; lia|]. intros.
    apply (created_bind_le _ _ 170 0); [apply cj_speed_creates_le; exact Hp|]. intros.
    apply (created_bind_le _ _ 0 0); [cbn; lia|]. intros.
    apply (created_bind_le _ _ 0 0); [cbn; lia|]. intros.
    apply (created_bind_le _ _ 0 0); [apply created_zero_le, reflect_no_new|].
    intros [[? ?] ?] _.
    apply (created_bind_le _ _ 0 0); [cbn; lia|]. intros.
    apply (created_bind_le _ _ 0 0); [cbn; lia|]. intros. cbn. lia.
  Qed.

  Lemma shock_creates T P x mech reg p s : any_pool p ->
    value (calculate_reflected_shock_state L T P x mech reg p) = Ok s ->
    gases_created (trace (calculate_reflected_shock_state L T P x mech reg p)) = 172%nat.
  Proof.
    intros Hp H. unfold calculate_reflected_shock_state in *.
    apply value_bind_ok in H; destruct H as (? & _ & H & ->). rewrite created_app.
    apply value_bind_ok in H; destruct H as (? & _ & H & ->). rewrite created_app.
    apply value_bind_ok in H; destruct H as (Tk & _ & H & ->). rewrite created_app.
    apply value_bind_ok in H; destruct H as (Pp & _ & H & ->). rewrite created_app.
    apply value_bind_ok in H; destruct H as (? & _ & H & ->). rewrite created_app.
    apply value_bind_ok in H; destruct H as (? & _ & H & ->). rewrite created_app.
    apply value_bind_ok in H; destruct H as (d & Hd & H & ->). rewrite created_app.
    rewrite (C59_no_other_work L Pp Tk x mech p false true d Hp Hd).
    apply value_bind_ok in H; destruct H as (? & _ & H & ->). rewrite created_app.
    apply value_bind_ok in H; destruct H as (? & _ & H & ->). rewrite created_app.
    apply value_bind_ok in H; destruct H as (((? & ?) & ?) & _ & H & ->). rewrite created_app.
    rewrite (created_none (reflect L _ _ _ _)) by apply reflect_no_new.
    apply value_bind_ok in H; destruct H as (? & _ & H & ->). rewrite created_app.
    apply value_bind_ok in H; destruct H as (? & _ & H & ->). rewrite created_app.
    reflexivity.
  Qed.
End Counting.

(** ** The search *)
Lemma consecutive_cons {B} (a b : B) l : consecutive (a :: b :: l) a b.
Proof. exists [], l. reflexivity. Qed.
Lemma consecutive_tail {B} (c : B) l a b : consecutive l a b -> consecutive (c :: l) a b.
Proof. intros (x & y & ->). exists (c :: x), y. reflexivity. Qed.
Lemma consecutive_inv {B} (c : B) l a b : consecutive (c :: l) a b ->
  (exists r, l = b :: r /\ a = c) \/ consecutive l a b.
Proof.
  intros ([|d x] & y & E); cbn in E; injection E as -> E.
  - left. exists y. auto.
  - right. exists x, y. exact E.
Qed.

Section Search.
  Context {G X : Type} (L : cantera R G X).
  Context (tube_id tube_od T : quantity R) (x : X) (mech : string) (max_pressure : quantity R)
          (E rho : quantity R) (nu f : R) (use : bool) (reg : nat) (p : pool R) (w : which).
  Let M := q_mag max_pressure.
  Let loop := pressure_loop L tube_id tube_od T x mech max_pressure E rho nu f use reg p w.
  Let next := next_trial L tube_id tube_od T x mech E rho nu f use reg p M.

  Lemma load_factor_inv s k :
    load_factor tube_id tube_od E rho nu f s = Ok k <->
    factor_of (G:=G) tube_id tube_od E rho nu f s k.
  Proof.
    unfold load_factor, factor_of. split.
    - destruct (dynamic_load_factor _ _ _ _ _ _ _) as [n|] eqn:En; cbn [bind]; [|discriminate].
      intros H. exists n. split; [reflexivity|]. injection H as H. rewrite <- n_of_nat_R. symmetry. exact H.
    - intros (n & -> & ->). cbn [bind]. rewrite n_of_nat_R. reflexivity.
  Qed.

  Lemma next_pressure_ok q k (s : shock_states R G) m : is_in q m "atm" reg ->
    k * ct_P L (reflected_state s) <> 0 ->
    exists q', next_pressure L max_pressure q k s = Ok q'
      /\ is_in q' (m * M / (k * ct_P L (reflected_state s))) "atm" reg.
  Proof.
    intros (E1 & E2 & E3) Hn. unfold next_pressure, q_scale, q_divn, offset_free.
    assert (Eu : q_unit q = mult_unit d_pressure (lit 101325)%num).
    { assert (E' : lookup_unit "atm" = Some (mult_unit d_pressure (A:=R) (lit 101325)%num))
        by reflexivity. rewrite E' in E1. congruence. }
    rewrite Eu. cbn [mult_unit u_off bind q_mag q_unit q_reg]. rnum.
    rewrite pydiv_ok by exact Hn. cbn [bind]. eexists. split; [reflexivity|].
    split; [reflexivity|]. split; [|exact E3]. cbn [q_mag]. rewrite E2. unfold M.
    f_equal. ring.
  Qed.
  Lemma next_pressure_inv q k (s : shock_states R G) q' m : is_in q m "atm" reg ->
    next_pressure L max_pressure q k s = Ok q' ->
    k * ct_P L (reflected_state s) <> 0
    /\ is_in q' (m * M / (k * ct_P L (reflected_state s))) "atm" reg.
  Proof.
    intros Hq H. assert (Hn : k * ct_P L (reflected_state s) <> 0).
    { destruct Hq as (E1 & E2 & E3).
      assert (Eu : q_unit q = mult_unit d_pressure (lit 101325)%num).
      { assert (E' : lookup_unit "atm" = Some (mult_unit d_pressure (A:=R) (lit 101325)%num))
          by reflexivity. rewrite E' in E1. congruence. }
      unfold next_pressure, q_scale, q_divn, offset_free in H.
      rewrite Eu in H. cbn [mult_unit u_off bind q_mag q_unit q_reg] in H. rnum.
      destruct (pydiv _ _) as [z|] eqn:Ez in H; [|discriminate].
      apply (div_inv pydiv) in Ez; [tauto|left; reflexivity]. }
    split; [exact Hn|]. destruct (next_pressure_ok q k s m Hq Hn) as (q'' & E' & Hq'').
    congruence.
  Qed.

  Lemma loop_spec : forall budget tol err q k s q' k' m,
    is_in q m "atm" reg ->
    value (loop budget tol err q k s) = Ok (q', k') ->
    let t := mkTrial q s k in
    exists ts t',
      (forall a b, consecutive (t :: ts) a b -> next a b)
      /\ last (t :: ts) t = t' /\ tried t' = q' /\ factor t' = k'
      /\ (length ts <= budget)%nat
      /\ (ts = [] -> Rabs err <= tol \/ budget = 0%nat)
      /\ (ts <> [] -> tol < Rabs err /\ M <> 0)
      /\ (ts <> [] -> (length ts < budget)%nat -> meets L w M tol t')
      /\ (forall a, In a (removelast ts) -> ~ meets L w M tol a)
      /\ (any_pool p ->
          gases_created (trace (loop budget tol err q k s)) = (172 * length ts)%nat).
  Proof.
    unfold loop. induction budget as [|budget IH]; intros * Hq H; cbn [pressure_loop] in *; rnum.
    - exists [], (mkTrial q s k).
      assert (value (ret (A:=R) (q, k)) = Ok (q', k')) as Hr by (destruct (Rltb _ _); exact H).
      rewrite value_ret in Hr. injection Hr as -> ->.
      split; [intros a b Hc; apply consecutive_inv in Hc as [(r & Hr & _)|([|] & y & Hr)]; discriminate|].
      split; [reflexivity|]. split; [reflexivity|]. split; [reflexivity|].
      split; [cbn; lia|]. split; [intros _; right; reflexivity|].
      split; [congruence|]. split; [congruence|]. split; [intros a []|].
      intros _. destruct (Rltb _ _); reflexivity.
    - destruct (Rltb tol (Rabs err)) eqn:Et.
      + unfold Rltb in Et. destruct (Rlt_dec tol (Rabs err)) as [Hlt|]; [|discriminate].
        apply value_bind_ok in H. destruct H as (q1 & Hq1 & H & ET1). rewrite value_pure in Hq1.
        apply value_bind_ok in H. destruct H as (s1 & Hs1 & H & ET2).
        apply value_bind_ok in H. destruct H as (k1 & Hk1 & H & ET3). rewrite value_pure in Hk1.
        apply value_bind_ok in H. destruct H as (e1 & He1 & H & ET4). rewrite value_pure in He1.
        destruct (next_pressure_inv _ _ _ _ _ Hq Hq1) as (Hn & Hq1').
        apply (div_inv pydiv) in He1; [|left; reflexivity]. destruct He1 as (HM & He1).
        assert (Hnext : next (mkTrial q s k) (mkTrial q1 s1 k1)).
        { split; [|split].
          - eexists. split; [exact Hq1'|]. split; [exact Hn|]. cbn [tried factor shocks].
            destruct Hq as (_ & -> & _). reflexivity.
          - exact Hs1.
          - cbn [shocks factor]. destruct use; [apply load_factor_inv; exact Hk1|].
            rewrite one_R in Hk1. congruence. }
        destruct (IH tol e1 q1 k1 s1 q' k' _ Hq1' H)
          as (ts & t' & Hc & Hl & Ht & Hf & Hlen & Hnil & Hcons & Hm & Hrm & Htr).
        assert (Herr : Rabs e1 = Rabs ((ct_P L (state_at w (shocks (mkTrial q1 s1 k1)))
                          * factor (mkTrial q1 s1 k1) - M) / M)) by (rewrite He1; reflexivity).
        exists (mkTrial q1 s1 k1 :: ts), t'.
        split.
        { intros a b Hab. apply consecutive_inv in Hab as [(r & Hr & ->)|Hab].
          - injection Hr as <- _. exact Hnext.
          - apply Hc. exact Hab. }
        split.
        { rewrite <- Hl. cbn [last]. destruct ts as [|u us]; [reflexivity|].
          clear. revert u. induction us as [|v us IHus]; intros u; [reflexivity|].
          cbn [last] in *. apply IHus. }
        split; [exact Ht|]. split; [exact Hf|].
        split; [cbn; lia|]. split; [discriminate|]. split; [intros _; split; [exact Hlt|exact HM]|].
        split.
        { intros _ Hlt'. cbn [length] in Hlt'. destruct ts as [|u us].
          - destruct (Hnil eq_refl) as [He|He]; [|cbn in *; lia].
            rewrite Herr in He. cbn [last] in Hl. subst t'. exact He.
          - apply Hm; [discriminate|lia]. }
        split.
        { intros a Ha. destruct ts as [|u us]; [destruct Ha|]. cbn [removelast] in Ha, Hrm.
          destruct Ha as [<-|Ha]; [|apply Hrm; exact Ha].
          destruct (Hcons ltac:(discriminate)) as (Hc' & _). unfold meets. rewrite <- Herr. lra. }
        intros Hp. unfold shock_at in *. rewrite ET1, created_app. cbn [trace pure fst].
        rewrite ET2, created_app, ET3, created_app, ET4, created_app. cbn [trace pure fst].
        rewrite (Htr Hp). rewrite (shock_creates L T q1 x mech reg p s1 Hp Hs1).
        cbn [gases_created filter length]. lia.
      + unfold Rltb in Et. destruct (Rlt_dec tol (Rabs err)) as [|Hlt]; [discriminate|].
        rewrite value_ret in H. injection H as -> ->.
        exists [], (mkTrial q' s k').
        split; [intros a b Hc; apply consecutive_inv in Hc as [(r & Hr & _)|([|] & y & Hr)]; discriminate|].
        split; [reflexivity|]. split; [reflexivity|]. split; [reflexivity|].
        split; [cbn; lia|]. split; [intros _; left; lra|].
        split; [congruence|]. split; [congruence|]. split; [intros a []|].
        intros _. reflexivity.
  Qed.

  Lemma loop_creates_le : any_pool p -> forall budget tol err q k s,
    (gases_created (trace (loop budget tol err q k s)) <= 172 * budget)%nat.
  Proof.
    intros Hp. unfold loop. induction budget as [|budget IH]; intros; cbn [pressure_loop];
      destruct (nltb _ _); try (cbn; lia).
    replace (172 * S budget)%nat with (0 + (172 + (0 + (0 + 172 * budget))))%nat by lia.
    apply created_bind_le; [cbn; lia|]. intros q1 _.
    apply created_bind_le; [apply shock_creates_le; exact Hp|]. intros s1 _.
    apply created_bind_le; [cbn; lia|]. intros k1 _.
    apply created_bind_le; [cbn; lia|]. intros e1 _. apply IH.
  Qed.
End Search.
