(** * NanBlank: an invented gas library whose gases have a pressure and nothing else: the
    temperature, density and enthalpy are nan.  It takes every number it is given, and its
    pressure is known only at 1 atm.  Used to show that hypotheses about nan are met. *)
From Coq Require Import String ZArith QArith Reals Qreals List Bool Lra Lia Permutation.
From Verif Require Import PyBase Pint UnitsM Gas GasP FitM FitP SdM SdSpec FitSpec SpeedSpec SpeedP RobustP ThermoM
  NanM NanSpec NanP NanLift NanGas NanSdSpec NanSdP.
Import ListNotations.
Local Open Scope num_scope.

Definition blank : cantera fl fl unit :=
  mkCantera fl fl unit
    (fun _ _ => Ok (Fin 0))
    (fun g T P x => Ok (match P with NaN => g | _ => P end))
    (fun g T D => Ok g) (fun g S P => Ok g) (fun g m => Ok g)
    (fun g => NaN)
    (fun g => match g with Fin p => if Reqb p 101325 then Fin p else NaN | NaN => NaN end)
    (fun g => NaN) (fun g => NaN) (fun g => NaN) (fun g => tt)
    (fun g => Ok NaN) (fun g => Ok NaN).

Lemma py_nan (y : R) : y <> 0%R -> pydiv NaN (Fin y) = Ok NaN.
Proof.
  intros H. unfold pydiv, zero. cbn [neqb Num_fl flc nofQ]. rewrite QLemmas.Reqb_false; [reflexivity|].
  intros ->. apply H. unfold Q2R; cbn; lra.
Qed.

Lemma blank_eq g D T : value (equilibrium blank g D T) = Ok g.
Proof. reflexivity. Qed.

Lemma blank_err w i V : error_equilibrium blank w i V = Ok (NaN, NaN).
Proof.
  unfold error_equilibrium.
  change (ct_density blank i) with NaN. change (ct_density blank w) with NaN.
  change (ct_enthalpy blank i) with NaN. change (ct_enthalpy blank w) with NaN.
  generalize (ct_P blank w) (ct_P blank i). intros [a|] [b|]; destruct V; reflexivity.
Qed.

Lemma blank_body i g : value (cj_body blank i NaN g (lit 2000) (lit 2000)) = Ok (g, NaN, NaN, NaN, NaN).
Proof.
  unfold cj_body. rewrite blank_err, bind_pure_ok.
  rewrite value_bind, blank_eq. cbn [bind]. rewrite blank_err, bind_pure_ok.
  assert (E : forall x : fl, x = NaN -> pydiv x (lit 0.02 * lit 2000) = Ok NaN).
  { intros x ->. cbn [nmul nofQ Num_fl fl2]. apply py_nan. unfold Q2R; cbn; lra. }
  rewrite !E by reflexivity. rewrite !bind_pure_ok.
  rewrite value_bind, blank_eq. cbn [bind]. rewrite blank_err, bind_pure_ok.
  rewrite !E by reflexivity. rewrite !bind_pure_ok. reflexivity.
Qed.

Lemma blank_state w i r : r <> Fin 0 ->
  value (cj_state blank 500 npdiv w i tol tol r 500) = Ok (w, NaN).
Proof.
  intros Hr. unfold cj_state. change (pydiv one (ct_density blank i)) with (@Ok fl NaN).
  rewrite bind_pure_ok.
  replace (npdiv NaN r) with (@Ok fl NaN).
  2:{ destruct r as [y|]; [|reflexivity]. unfold npdiv, zero. cbn [neqb Num_fl flc nofQ].
      rewrite QLemmas.Reqb_false; [reflexivity|]. intros ->. apply Hr. f_equal. unfold Q2R; cbn; lra. }
  rewrite bind_pure_ok. change (npdiv one NaN) with (@Ok fl NaN). rewrite bind_pure_ok.
  rewrite value_bind, blank_eq. cbn [bind].
  destruct (searches_in tol tol 500 tol_searches) as (H1 & H2).
  change 500%nat with (S 499). generalize 499%nat. intros fuel. cbn [cj_loop].
  replace (_ || _)%bool with true by (symmetry; apply orb_true_iff; exact H1). rewrite H2.
  rewrite value_bind, blank_body. cbn [bind]. rewrite nan_stop. reflexivity.
Qed.

Lemma blank_fresh mech T P : value (fresh_gas blank mech T (Fin P) tt) = Ok (Fin P).
Proof. reflexivity. Qed.

Lemma blank_over mech T P job : snd job <> Fin 0 ->
  value (over_ratio blank tt T (Fin P) mech tol tol job) = Ok (fst job, NaN).
Proof.
  intros H. unfold over_ratio. rewrite value_bind, blank_fresh. cbn [bind].
  rewrite value_bind, blank_fresh. cbn [bind]. rewrite value_bind, blank_state by exact H. reflexivity.
Qed.

Lemma io_map_value {A B C} (f : B -> io A C) (h : B -> C) l :
  (forall b, In b l -> value (f b) = Ok (h b)) -> value (io_map f l) = Ok (map h l).
Proof.
  induction l as [|b l IH]; intros H; [reflexivity|]. cbn [io_map map].
  rewrite value_bind, H by (left; reflexivity). cbn [bind].
  rewrite value_bind, IH by (intros; apply H; now right). reflexivity.
Qed.

Lemma all_nan l n : length l = n -> Forall (fun y : fl => y = NaN) l -> l = repeat NaN n.
Proof. intros <-. induction 1 as [|y l -> H IH]; [reflexivity|]. cbn. now rewrite <- IH. Qed.

Lemma blank_jobs mech T P k ratios :
  length ratios = 21%nat -> ~ In (Fin 0) ratios ->
  exists res, value (run_jobs Serial k (over_ratio blank tt T (Fin P) mech tol tol)
                       (combine (seq 0 (length ratios)) ratios)) = Ok res
    /\ map snd (sort_pairs res) = repeat NaN 21.
Proof.
  intros Hl Hn. cbn [run_jobs]. rewrite (io_map_value _ (fun j => (fst j, NaN))).
  2:{ intros j Hj. apply blank_over. intros E. apply Hn. rewrite <- E. destruct j as (a & b).
      apply in_combine_r in Hj. exact Hj. }
  eexists. split; [reflexivity|]. apply all_nan.
  - rewrite map_length, <- (Permutation_length (sort_perm _)), map_length, combine_length, seq_length. lia.
  - rewrite Forall_map. eapply Permutation_Forall; [apply sort_perm|]. rewrite Forall_map.
    apply Forall_forall. reflexivity.
Qed.

(** The fit of nan speeds is nan: at ordinary ratios, and at nan ones *)
Lemma fit_nan_at xs : length xs = 21%nat -> (forall x, In x xs -> (0 <= x)%R) -> three_distinct xs ->
  exists f, cj_curve_fit (map Fin xs) (repeat NaN 21) = Ok f.
Proof.
  intros Hl Hp H3.
  destruct (fit_exists xs (repeat 0%R 21)) as (f0 & H0 & _); [now rewrite repeat_length, Hl|exact Hp|exact H3|].
  unfold cj_curve_fit, cj_curve_fit_by in H0 |- *.
  rewrite map_length, Hl, repeat_length. rewrite Hl, repeat_length in H0. cbn [Nat.eqb bind] in *.
  apply QLemmas.bind_inv in H0. destruct H0 as (m & _ & H0).
  apply QLemmas.bind_inv in H0. destruct H0 as (b & Hb & H0).
  apply QLemmas.bind_inv in H0. destruct H0 as (c & Hc & _).
  assert (Z : forall x y z : R, npdiv x y = Ok z -> y <> 0%R).
  { intros x y z H ->. unfold npdiv in H. rewrite QLemmas.Reqb_true in H by (unfold zero; cbn; unfold Q2R; cbn; lra).
    discriminate. }
  apply Z in Hb, Hc.
  assert (D : forall (x : fl) (y : R), y <> 0%R -> exists z, npdiv x (Fin y) = Ok z).
  { intros x y Hy. unfold npdiv, zero. cbn [neqb Num_fl flc nofQ]. rewrite QLemmas.Reqb_false; [eauto|].
    intros ->. apply Hy. unfold Q2R; cbn; lra. }
  assert (Hn : @n_of_nat R _ 21 <> 0%R) by (rewrite n_of_nat_R; apply not_0_INR; lia).
  rewrite (fin_map pow2 pow2), (fin_map pow3 pow3), (fin_map pow4 pow4) by reflexivity.
  rewrite !fin_sum. change (@n_of_nat fl _ 21) with (Fin (@n_of_nat R _ 21)).
  destruct (D (np_sum (repeat NaN 21)) _ Hn) as (z1 & ->). cbn [bind].
  match goal with |- exists f, bind (npdiv ?x (?y)) _ = _ => destruct (D x _ Hb) as (z2 & E2);
    change (npdiv x y = Ok z2) in E2; rewrite E2 end. cbn [bind].
  match goal with |- exists f, bind (npdiv ?x (?y)) _ = _ => destruct (D x _ Hc) as (z3 & E3);
    change (npdiv x y = Ok z3) in E3; rewrite E3 end. cbn [bind].
  assert (E4 : exists z, pydiv one (Fin (@n_of_nat R _ 21)) = Ok z).
  { unfold pydiv, zero. cbn [neqb Num_fl flc nofQ]. rewrite QLemmas.Reqb_false; [eauto|].
    intros E. apply Hn. rewrite E. unfold Q2R; cbn; lra. }
  destruct E4 as (z4 & ->). cbn [bind]. eauto.
Qed.

Lemma fit_nan_ratios : exists f, cj_curve_fit (repeat NaN 21) (repeat NaN 21) = Ok f.
Proof.
  unfold cj_curve_fit, cj_curve_fit_by. rewrite repeat_length. cbn [Nat.eqb bind].
  assert (Hn : @n_of_nat R _ 21 <> 0%R) by (rewrite n_of_nat_R; apply not_0_INR; lia).
  assert (E4 : forall x, exists z, pydiv x (@n_of_nat fl _ 21) = Ok z).
  { intros x. unfold pydiv, zero. change (@n_of_nat fl _ 21) with (Fin (@n_of_nat R _ 21)).
    cbn [neqb Num_fl flc nofQ]. rewrite QLemmas.Reqb_false; [eauto|].
    intros E. apply Hn. rewrite E. unfold Q2R; cbn; lra. }
  assert (E5 : forall x, exists z, npdiv x (@n_of_nat fl _ 21) = Ok z).
  { intros x. unfold npdiv, zero. change (@n_of_nat fl _ 21) with (Fin (@n_of_nat R _ 21)).
    cbn [neqb Num_fl flc nofQ]. rewrite QLemmas.Reqb_false; [eauto|].
    intros E. apply Hn. rewrite E. unfold Q2R; cbn; lra. }
  assert (N : forall x, exists z, @npdiv fl _ x NaN = Ok z) by (intros; eexists; reflexivity).
  destruct (E5 (np_sum (repeat NaN 21))) as (z1 & ->). cbn [bind].
  match goal with |- exists f, bind (npdiv ?x (?y)) _ = _ => destruct (N x) as (z2 & E2);
    change (npdiv x y = Ok z2) in E2; rewrite E2 end. cbn [bind].
  match goal with |- exists f, bind (npdiv ?x (?y)) _ = _ => destruct (N x) as (z3 & E3);
    change (npdiv x y = Ok z3) in E3; rewrite E3 end. cbn [bind].
  destruct (E4 one) as (z4 & ->). cbn [bind]. eauto.
Qed.

Lemma fit_is_nan xs f : cj_curve_fit xs (repeat NaN 21) = Ok f -> fit_a f = NaN /\ fit_b f = NaN.
Proof.
  intros H. destruct (ok_fit _ _ _ H) as (H1 & H2).
  assert (N : ~ Forall ok (repeat NaN 21)) by (intros K; inversion K; subst; easy).
  split; apply not_ok; tauto.
Qed.

Lemma blank_step fuel T P mech k r2 lo hi acc f :
  (k <= 4)%nat -> ~ In (Fin 0) (linspace21 lo hi) ->
  cj_curve_fit (linspace21 lo hi) (repeat NaN 21) = Ok f ->
  value (speed_loop blank (S fuel) Serial tt T (Fin P) mech tol tol k r2 zero lo hi acc)
  = value (speed_loop blank fuel Serial tt T (Fin P) mech tol tol (k + 1) (fit_r2 f) zero NaN NaN
             (acc ++ [(linspace21 lo hi, repeat NaN 21, f, NaN)])).
Proof.
  intros Hk Hn Hf. cbn [speed_loop].
  replace (Nat.leb k 4) with true by (symmetry; apply Nat.leb_le; exact Hk).
  assert (Z : (zero <? @nofQ fl _ 0.0000001) = true).
  { unfold zero. cbn [nltb Num_fl flc nofQ]. apply QLemmas.Rltb_true. unfold Q2R; cbn; lra. }
  rewrite Z, orb_true_r. cbn [andb].
  destruct (blank_jobs mech T P k (linspace21 lo hi) (linspace_length _ _) Hn) as (res & Hres & Es).
  rewrite value_bind, Hres. cbn [bind]. rewrite Es, Hf, bind_pure_ok.
  destruct (fit_is_nan _ _ Hf) as (Ha & Hb). rewrite Ha, Hb.
  change (npdiv (- NaN) (lit 2 * NaN)) with (@Ok fl NaN). rewrite bind_pure_ok. reflexivity.
Qed.

Lemma linspace_nan : linspace21 NaN NaN = repeat NaN 21.
Proof. reflexivity. Qed.
Lemma linspace_fin (lo hi : R) : linspace21 (Fin lo) (Fin hi) = map Fin (linspace21 lo hi).
Proof. reflexivity. Qed.

Lemma blank_speed T P mech :
  value (cj_speed blank (Fin P) T tt mech Serial false true)
  = Ok [("cj speed"%string, ENumber NaN); ("cj state"%string, EGas (Fin P))].
Proof.
  assert (E15 : @nofQ R _ 1.5 = (3/2)%R) by (cbn; unfold Q2R; cbn; lra).
  assert (E20 : @nofQ R _ 2.0 = 2%R) by (cbn; unfold Q2R; cbn; lra).
  assert (I1 : forall r, In r (@linspace21 R _ (lit 1.5) (lit 2.0)) -> (3/2 <= r <= 2)%R).
  { intros r. rewrite E15, E20. apply linspace_in. lra. }
  destruct (fit_nan_at (@linspace21 R _ (lit 1.5) (lit 2.0))) as (f1 & F1).
  { apply linspace_length. }
  { intros r Hr. apply I1 in Hr. lra. }
  { rewrite E15, E20. apply linspace_three. lra. }
  destruct fit_nan_ratios as (f2 & F2).
  assert (N1 : ~ In (Fin 0) (linspace21 (@nofQ fl _ 1.5) (@nofQ fl _ 2.0))).
  { change (linspace21 (@nofQ fl _ 1.5) (@nofQ fl _ 2.0))
      with (map Fin (@linspace21 R _ (lit 1.5) (lit 2.0))).
    intros H. apply in_map_iff in H. destruct H as (r & [= ->] & Hr). apply I1 in Hr. lra. }
  assert (N2 : ~ In (Fin 0) (linspace21 NaN NaN)).
  { rewrite linspace_nan. intros H. apply repeat_spec in H. discriminate. }
  unfold cj_speed, cj_speed_rounds. rewrite value_bind.
  change (lit 0.0001) with tol.
  assert (S : exists a, value (speed_loop blank 4 Serial tt T (Fin P) mech tol tol 1 (Ok zero) zero
                (lit 1.5) (lit 2.0) []) = Ok (a ++ [(linspace21 NaN NaN, repeat NaN 21, f2, NaN)])%list).
  { rewrite (blank_step _ _ _ _ _ _ _ _ _ f1) by (try exact N1; try lia; exact F1).
    rewrite (blank_step _ _ _ _ _ _ _ _ _ f2) by (try exact N2; try lia; exact F2).
    rewrite (blank_step _ _ _ _ _ _ _ _ _ f2) by (try exact N2; try lia; exact F2).
    rewrite (blank_step _ _ _ _ _ _ _ _ _ f2) by (try exact N2; try lia; exact F2).
    eexists. reflexivity. }
  destruct S as (a & S).
  change (pool_step Serial EvPoolOpen) with (@ret fl _ tt). rewrite bind_ret.
  rewrite value_bind, S. cbn [bind].
  change (pool_step Serial EvPoolClose) with (@ret fl _ tt). rewrite bind_ret.
  unfold last_round. rewrite rev_app_distr. cbn [rev app].
  destruct (fit_is_nan _ _ F2) as (Ha & Hb). rewrite Ha, Hb.
  rewrite value_bind. change (value (new_solution blank mech "")) with (@Ok fl (Fin 0)). cbn [bind].
  rewrite value_bind. change (value (new_solution blank mech "")) with (@Ok fl (Fin 0)). cbn [bind].
  rewrite value_bind. change (value (set_TPX blank (Fin 0) T (Fin P) tt)) with (@Ok fl (Fin P)). cbn [bind].
  rewrite value_bind. change (value (set_TPX blank (Fin 0) T (Fin P) tt)) with (@Ok fl (Fin P)). cbn [bind].
  rewrite value_bind, blank_state by discriminate. reflexivity.
Qed.

Lemma blank_reflect i p w U : value (reflect blank i p w U) = Ok (ct_P blank w, NaN, w).
Proof.
  unfold reflect.
  change (pydiv one (ct_density blank i)) with (@Ok fl NaN). rewrite bind_pure_ok.
  change (pydiv one (ct_density blank p)) with (@Ok fl NaN). rewrite bind_pure_ok.
  replace (npsqrt ((ct_P blank p - ct_P blank i) * (NaN - NaN))) with (@Ok fl NaN)
    by (destruct (ct_P blank p - ct_P blank i); reflexivity).
  rewrite bind_pure_ok.
  change (ct_density blank p) with NaN. change (ct_T blank p) with NaN.
  change (pydiv (lit 0.2) NaN) with (@Ok fl NaN). rewrite bind_pure_ok.
  change (pydiv NaN NaN) with (@Ok fl NaN). rewrite bind_pure_ok.
  replace (ct_P blank p * NaN) with NaN by (destruct (ct_P blank p); reflexivity).
  replace (ct_P blank p + NaN * sq U * (one - NaN)) with NaN by (destruct (ct_P blank p); reflexivity).
  change (pydiv (NaN * NaN * NaN) NaN) with (@Ok fl NaN). rewrite bind_pure_ok.
  rewrite value_bind. change (value (set_TPX blank w NaN NaN (ct_X blank p))) with (@Ok fl w). cbn [bind].
  rewrite value_bind. change (value (get_eq_state blank 500 npdiv NaN p w (lit 0.0001) (lit 0.0001) 500))
    with (@Ok fl w). cbn [bind].
  replace (npdiv (ct_P blank w - ct_P blank p) NaN) with (@Ok fl NaN)
    by (destruct (ct_P blank w), (ct_P blank p); reflexivity).
  rewrite bind_pure_ok. change (npdiv NaN NaN) with (@Ok fl NaN). rewrite bind_pure_ok. reflexivity.
Qed.

(** its shock states *)
Lemma blank_shock T P reg mech t p :
  in_unit T "K" = Ok t -> in_unit P "Pa" = Ok (Fin p) ->
  exists s, value (calculate_reflected_shock_state blank T P tt mech reg Serial) = Ok s
    /\ reflected_state s = Fin p /\ cj_gas_state s = Fin p
    /\ lookup_unit "m/s" = Some (q_unit (cj_wave_speed s)) /\ q_mag (cj_wave_speed s) = NaN
    /\ q_reg (cj_wave_speed s) = reg.
Proof.
  intros HT HP. unfold calculate_reflected_shock_state.
  rewrite value_bind. change (value (new_solution blank mech "")) with (@Ok fl (Fin 0)). cbn [bind].
  rewrite value_bind. change (value (new_solution blank mech "")) with (@Ok fl (Fin 0)). cbn [bind].
  rewrite HT, HP, !bind_pure_ok.
  rewrite value_bind. change (value (set_TPX blank (Fin 0) t (Fin p) tt)) with (@Ok fl (Fin p)). cbn [bind].
  rewrite value_bind. change (value (set_TPX blank (Fin 0) t (Fin p) tt)) with (@Ok fl (Fin p)). cbn [bind].
  rewrite value_bind, blank_speed. cbn [bind].
  match goal with |- context [gas_at ?k ?d] => change (gas_at k d) with (@Ok fl (Fin p)) end.
  rewrite bind_pure_ok.
  match goal with |- context [number_at ?k ?d] => change (number_at k d) with (@Ok fl NaN) end.
  rewrite bind_pure_ok.
  rewrite value_bind, blank_reflect. cbn [bind].
  destruct (quant reg NaN "m/s") as [q|] eqn:E; [|discriminate E].
  rewrite !bind_pure_ok. eexists. split; [reflexivity|]. cbn [reflected_state cj_gas_state cj_wave_speed].
  split; [reflexivity|]. split; [reflexivity|].
  unfold quant in E. destruct (lookup_unit "m/s") as [u|] eqn:Eu; [|discriminate]. injection E as <-. auto.
Qed.
