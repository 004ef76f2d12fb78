(** * NanGas: the gas functions on ordinary numbers, with and without nan in the model *)
From Coq Require Import String ZArith QArith Reals Qreals List Bool Lra.
From Verif Require Import PyBase Pint UnitsM Interp TubeM Show Gas GasP FitM SdM ThermoM RunUpM
  InitPressureM NanM NanSpec NanLift.
Import ListNotations.
Local Open Scope num_scope.

Lemma hio_bind {A A' B B'} (fa : A -> A') (fb : B -> B') m m' k k' :
  m' = fin_io fa m -> (forall a, k' (fa a) = fin_io fb (k a)) ->
  io_bind m' k' = fin_io fb (io_bind m k).
Proof.
  intros -> H. destruct m as [tr [a|e]]; unfold io_bind, fin_io, trace, value; cbn [fst snd fin_result].
  - rewrite H. unfold fin_io, trace, value. cbn [fst snd]. now rewrite map_app.
  - reflexivity.
Qed.
Lemma hio_pure {A A'} (f : A -> A') r r' : r' = fin_result f r -> pure r' = fin_io f (pure r).
Proof. intros ->. reflexivity. Qed.
Lemma hio_act {A A'} (f : A -> A') e e' r r' :
  e' = fin_event e -> r' = fin_result f r -> act e' r' = fin_io f (act e r).
Proof. intros -> ->. reflexivity. Qed.
Lemma hio_ret {A A'} (f : A -> A') a a' : a' = f a -> ret a' = fin_io f (ret a).
Proof. intros ->. reflexivity. Qed.

Definition two (p : R * R) : fl * fl := (Fin (fst p), Fin (snd p)).

Section Lift.
  Context {G X : Type} (L : cantera R G X) (L' : cantera fl G X) (S : same_gas L L').

  Notation idG := (fun g : G => g).

  Lemma hio_new m p : new_solution L' m p = fin_io idG (new_solution L m p).
  Proof. apply hio_act; [reflexivity|]. rewrite (sg_new _ _ S). apply hom_id. Qed.
  Lemma hio_TPX g T P x : set_TPX L' g (Fin T) (Fin P) x = fin_io idG (set_TPX L g T P x).
  Proof. apply hio_act; [reflexivity|]. rewrite (sg_TPX _ _ S). apply hom_id. Qed.
  Lemma hio_TD g T P : set_TD L' g (Fin T) (Fin P) = fin_io idG (set_TD L g T P).
  Proof. apply hio_act; [reflexivity|]. rewrite (sg_TD _ _ S). apply hom_id. Qed.
  Lemma hio_SP g T P : set_SP L' g (Fin T) (Fin P) = fin_io idG (set_SP L g T P).
  Proof. apply hio_act; [reflexivity|]. rewrite (sg_SP _ _ S). apply hom_id. Qed.
  Lemma hio_eq g m : equilibrate L' g m = fin_io idG (equilibrate L g m).
  Proof. apply hio_act; [reflexivity|]. rewrite (sg_eq _ _ S). apply hom_id. Qed.
  Lemma hio_flame g : flame_speed L' g = fin_io Fin (flame_speed L g).
  Proof. apply hio_act; [reflexivity|]. apply (sg_flame _ _ S). Qed.

  Lemma hio_equilibrium g d t : equilibrium L' g (Fin d) (Fin t) = fin_io idG (equilibrium L g d t).
  Proof. unfold equilibrium. eapply hio_bind; [apply hio_TD|]. intros g'. apply hio_eq. Qed.

  Ltac props := rewrite ?(sg_T _ _ S), ?(sg_P _ _ S), ?(sg_density _ _ S), ?(sg_enthalpy _ _ S),
                        ?(sg_entropy _ _ S), ?(sg_X _ _ S).

  Lemma hom_err w i v : error_equilibrium L' w i (Fin v) = fin_result two (error_equilibrium L w i v).
  Proof. unfold error_equilibrium. props. eapply hom_bind; [apply hom_pydiv|]. reflexivity. Qed.
  Lemma hom_errr d' d s w p : hom_d d' d ->
    error_reflected L' d' (Fin s) w p = fin_result two (error_reflected L d s w p).
  Proof.
    intros D. unfold error_reflected. props. eapply hom_bind; [apply hom_pydiv|]. intros r.
    eapply hom_bind; [apply D|]. intros eh. eapply hom_bind; [apply D|]. reflexivity.
  Qed.
  Lemma hom_solve d' d a b c e f g : hom_d d' d ->
    solve2 d' (Fin a) (Fin b) (Fin c) (Fin e) (Fin f) (Fin g) = fin_result two (solve2 d a b c e f g).
  Proof.
    intros D. unfold solve2. eapply hom_bind; [apply D|]. intros x.
    eapply hom_bind; [apply D|]. reflexivity.
  Qed.
  Lemma hom_limit a b : limit_temperature (Fin a) (Fin b) = fin_result Fin (limit_temperature a b).
  Proof.
    unfold limit_temperature. cbn [nmul nofQ Num_fl fl2 nltb nabs fl1 flc Num_R].
    destruct (Rltb _ _); [|reflexivity]. eapply hom_bind; [apply hom_pydiv|]. reflexivity.
  Qed.

  Definition body5 (s : G * R * R * R * R) : G * fl * fl * fl * fl :=
    let '(g, a, b, c, d) := s in (g, Fin a, Fin b, Fin c, Fin d).
  Lemma hio_cj_body i d g T V :
    cj_body L' i (Fin d) g (Fin T) (Fin V) = fin_io body5 (cj_body L i d g T V).
  Proof.
    unfold cj_body.
    eapply hio_bind; [apply hio_pure, hom_err|]. intros [eh ep]. cbn [two fst snd].
    eapply hio_bind; [apply hio_equilibrium|]. intros g1.
    eapply hio_bind; [apply hio_pure, hom_err|]. intros [eh1 ep1]. cbn [two fst snd].
    eapply hio_bind; [apply hio_pure, hom_pydiv|]. intros hT.
    eapply hio_bind; [apply hio_pure, hom_pydiv|]. intros pT.
    eapply hio_bind; [apply hio_equilibrium|]. intros g2.
    eapply hio_bind; [apply hio_pure, hom_err|]. intros [eh2 ep2]. cbn [two fst snd].
    eapply hio_bind; [apply hio_pure, hom_pydiv|]. intros hV.
    eapply hio_bind; [apply hio_pure, hom_pydiv|]. intros pV.
    eapply hio_bind; [apply hio_pure, (hom_solve _ _ _ _ _ _ _ _ hom_pydiv)|].
    intros [dT dV]. cbn [two fst snd].
    eapply hio_bind; [apply hio_pure, hom_limit|]. intros dT'.
    eapply hio_bind; [apply hio_equilibrium|]. intros g3. now apply hio_ret.
  Qed.
  Definition gv (s : G * R) : G * fl := (fst s, Fin (snd s)).
  Lemma hio_cj_loop fuel i tT tV d mx : forall n g T V dT dV,
    cj_loop L' fuel i (Fin tT) (Fin tV) (Fin d) mx n g (Fin T) (Fin V) (Fin dT) (Fin dV)
    = fin_io gv (cj_loop L fuel i tT tV d mx n g T V dT dV).
  Proof.
    induction fuel as [|fuel IH]; intros n g T V dT dV; cbn [cj_loop];
      cbn [nmul Num_fl fl2 nltb nabs fl1 flc Num_R]; destruct (_ || _).
    - now apply hio_act.
    - now apply hio_ret.
    - destruct (Z.eqb _ _).
      + eapply (hio_bind (fun u : unit => u)); [now apply hio_act|]. intros _. now apply hio_ret.
      + eapply hio_bind; [apply hio_cj_body|]. intros [[[[g' a] b] c] e]. apply IH.
    - now apply hio_ret.
  Qed.
  Lemma hio_cj_state fuel d' d w i tT tV r mx : hom_d d' d ->
    cj_state L' fuel d' w i (Fin tT) (Fin tV) (Fin r) mx
    = fin_io gv (cj_state L fuel d w i tT tV r mx).
  Proof.
    intros D. unfold cj_state. props. eapply hio_bind; [apply hio_pure, hom_pydiv|]. intros v.
    eapply hio_bind; [apply hio_pure, D|]. intros gvol.
    eapply hio_bind; [apply hio_pure, D|]. intros gd.
    eapply hio_bind; [apply hio_equilibrium|]. intros g. apply hio_cj_loop.
  Qed.
  Lemma hio_fresh m T P x : fresh_gas L' m (Fin T) (Fin P) x = fin_io idG (fresh_gas L m T P x).
  Proof. unfold fresh_gas. eapply hio_bind; [apply hio_new|]. intros g. apply hio_TPX. Qed.
  Lemma hio_over x T P m tT tV j :
    over_ratio L' x (Fin T) (Fin P) m (Fin tT) (Fin tV) (fin_job j)
    = fin_io fin_job (over_ratio L x T P m tT tV j).
  Proof.
    unfold over_ratio. eapply hio_bind; [apply hio_fresh|]. intros i.
    eapply hio_bind; [apply hio_fresh|]. intros w.
    eapply hio_bind; [apply (hio_cj_state _ _ _ _ _ _ _ _ _ hom_npdiv)|]. intros [g v].
    now apply hio_ret.
  Qed.
  Lemma fin_linspace a b : linspace21 (Fin a) (Fin b) = map Fin (linspace21 a b).
  Proof. unfold linspace21. rewrite map_app, map_map. reflexivity. Qed.
  Lemma fin_insert_pair p l : insert_pair (fin_job p) (map fin_job l) = map fin_job (insert_pair p l).
  Proof.
    induction l as [|q l IH]; [reflexivity|]. cbn [map insert_pair]. rewrite IH.
    unfold pair_leb. cbn [fin_job fst snd nleb Num_fl flc Num_R].
    match goal with |- (if ?b then _ else _) = _ => now destruct b end.
  Qed.
  Lemma fin_sort_pairs l : sort_pairs (map fin_job l) = map fin_job (sort_pairs l).
  Proof.
    induction l as [|p l IH]; [reflexivity|]. unfold sort_pairs in *. cbn [map fold_right].
    rewrite IH. apply fin_insert_pair.
  Qed.
  Lemma hio_map {B B' C C'} (h : B -> B') (c : C -> C') (f' : B' -> io fl C') (f : B -> io R C) l :
    (forall b, f' (h b) = fin_io c (f b)) ->
    io_map f' (map h l) = fin_io (map c) (io_map f l).
  Proof.
    intros H. induction l as [|b l IH]; [reflexivity|]. cbn [map io_map].
    eapply hio_bind; [apply H|]. intros y. eapply hio_bind; [apply IH|]. intros ys. now apply hio_ret.
  Qed.
  Lemma hio_run_jobs p p' n f' f l : same_pool p p' ->
    (forall b, f' (fin_job b) = fin_io fin_job (f b)) ->
    run_jobs p' n f' (map fin_job l) = fin_io (map fin_job) (run_jobs p n f l).
  Proof. intros [|s s' H] F; cbn [run_jobs]; [|rewrite H]; now apply hio_map. Qed.
  Lemma hio_pool_step p p' e e' : same_pool p p' -> e' = fin_event e ->
    pool_step p' e' = fin_io (fun u => u) (pool_step p e).
  Proof. intros [|s s' H] ->; reflexivity. Qed.

  (** the fit *)
  Definition fin_fit (f : fit R) : fit fl :=
    mkFit (Fin (fit_a f)) (Fin (fit_b f)) (Fin (fit_c f)) (fin_result Fin (fit_r2 f)).
  Lemma fin_sum l : np_sum (map Fin l) = Fin (np_sum l).
  Proof.
    unfold np_sum. change (@zero fl _) with (Fin (@zero R _)). generalize (@zero R _).
    induction l as [|a l IH]; intros z; [reflexivity|]. cbn [map fold_left]. apply (IH (Rplus z a)).
  Qed.
  Lemma fin_map (f' : fl -> fl) (f : R -> R) l : (forall x, f' (Fin x) = Fin (f x)) ->
    map f' (map Fin l) = map Fin (map f l).
  Proof. intros H. rewrite !map_map. apply map_ext. exact H. Qed.
  Lemma fin_zip (f' : fl -> fl -> fl) (f : R -> R -> R) l m :
    (forall x y, f' (Fin x) (Fin y) = Fin (f x y)) ->
    zip_with f' (map Fin l) (map Fin m) = map Fin (zip_with f l m).
  Proof.
    intros H. unfold zip_with. revert m.
    induction l as [|a l IH]; intros [|b m]; try reflexivity. cbn. now rewrite H, IH.
  Qed.
  Lemma hom_fit x y : cj_curve_fit (map Fin x) (map Fin y) = fin_result fin_fit (cj_curve_fit x y).
  Proof.
    unfold cj_curve_fit, cj_curve_fit_by. rewrite !map_length. apply hom_bind_id. intros _.
    rewrite (fin_map pow2 pow2), (fin_map pow3 pow3), (fin_map pow4 pow4) by reflexivity.
    rewrite (fin_zip (fun xi yi => yi * xi) (fun xi yi => yi * xi)) by reflexivity.
    rewrite (fin_zip (fun xi yi => yi * pow2 xi) (fun xi yi => yi * pow2 xi)) by reflexivity.
    rewrite !fin_sum.
    change (@n_of_nat fl _ (length x)) with (Fin (@n_of_nat R _ (length x))).
    eapply hom_bind; [apply hom_npdiv|]. intros m.
    eapply hom_bind; [apply hom_npdiv|]. intros b.
    eapply hom_bind; [apply hom_npdiv|]. intros i.
    eapply hom_bind; [apply hom_pydiv|]. intros j.
    cbn [fin_result]. unfold fin_fit. cbn [fit_a fit_b fit_c fit_r2].
    match goal with |- Ok (mkFit ?a ?b ?c ?r) = Ok (mkFit ?a' ?b' ?c' ?r') =>
      enough (r = r') as -> by reflexivity end.
    eapply (hom_bind Fin); [|intros t; reflexivity].
    rewrite (fin_map (fun yi => pow2 (yi - Fin m)) (fun yi => pow2 (yi - m))) by reflexivity.
    rewrite fin_sum.
    match goal with |- npdiv (np_sum (zip_with _ _ (map ?f' (map Fin x)))) _
        = fin_result _ (npdiv (np_sum (zip_with _ _ (map ?f x))) _) =>
      rewrite (fin_map f' f) by reflexivity end.
    rewrite (fin_zip (fun yi fi => pow2 (yi - fi)) (fun yi fi => pow2 (yi - fi))) by reflexivity. rewrite fin_sum.
    apply hom_npdiv.
  Qed.

  (** the speed *)
  Definition fin_round (r : round R) : round fl :=
    let '(a, b, f, v) := r in (map Fin a, map Fin b, fin_fit f, Fin v).
  Lemma fin_r2_lt r y : r2_lt (fin_result Fin r) (Fin y) = r2_lt r y.
  Proof. now destruct r. Qed.
  Lemma fin_jobs l : forall k,
    combine (seq k (length l)) (map Fin l) = map fin_job (combine (seq k (length l)) l).
  Proof. induction l as [|a l IH]; intros k; [reflexivity|]. cbn. now rewrite IH. Qed.
  Lemma fin_snd l : map snd (map fin_job l) = map Fin (map snd l).
  Proof. rewrite !map_map. reflexivity. Qed.
  Lemma hio_speed_loop p p' x T P m tT tV : same_pool p p' ->
    forall fuel n r2 dr a b done,
      speed_loop L' fuel p' x (Fin T) (Fin P) m (Fin tT) (Fin tV) n (fin_result Fin r2) (Fin dr)
        (Fin a) (Fin b) (map fin_round done)
      = fin_io (map fin_round) (speed_loop L fuel p x T P m tT tV n r2 dr a b done).
  Proof.
    intros Hp. induction fuel as [|fuel IH]; intros n r2 dr a b done; cbn [speed_loop].
    - change (nofQ 0.99999) with (Fin (@nofQ R _ 0.99999)) at 1. rewrite fin_r2_lt.
      cbn [nltb Num_fl flc nofQ Num_R]. destruct (_ && _)%bool; [now apply hio_act|now apply hio_ret].
    - change (nofQ 0.99999) with (Fin (@nofQ R _ 0.99999)) at 1. rewrite fin_r2_lt.
      cbn [nltb Num_fl flc nofQ Num_R]. destruct (_ && _)%bool; [|now apply hio_ret].
      rewrite fin_linspace, map_length, fin_jobs.
      eapply hio_bind; [apply hio_run_jobs; [exact Hp|intros j; apply hio_over]|]. intros res.
      rewrite fin_sort_pairs, fin_snd.
      eapply hio_bind; [apply hio_pure, hom_fit|]. intros f. cbn [fin_fit fit_a fit_b fit_r2].
      eapply hio_bind; [apply hio_pure, hom_npdiv|]. intros v.
      rewrite <- IH. rewrite map_app. reflexivity.
  Qed.
  Definition fin_entry (e : entry R G) : entry fl G :=
    match e with
    | ENumber a => ENumber (Fin a)
    | EMaybe r => EMaybe (fin_result Fin r)
    | EGas g => EGas g
    end.
  Definition fin_dict (d : list (string * entry R G)) : list (string * entry fl G) :=
    map (fun ke => (fst ke, fin_entry (snd ke))) d.
  Lemma fin_last_round done :
    last_round (map fin_round done)
    = (let '(a, b, c, v, r) := last_round done in (Fin a, Fin b, Fin c, Fin v, fin_result Fin r)).
  Proof.
    unfold last_round. rewrite <- map_rev. destruct (rev done) as [|[[[a b] f] v] l]; reflexivity.
  Qed.
  Lemma hio_cj_speed P T x m p p' r2 st : same_pool p p' ->
    cj_speed L' (Fin P) (Fin T) x m p' r2 st = fin_io fin_dict (cj_speed L P T x m p r2 st).
  Proof.
    intros Hp. unfold cj_speed.
    eapply (hio_bind (fun d => (map fin_round (fst d), fin_dict (snd d))));
      [|intros [d1 d2]; now apply hio_ret].
    unfold cj_speed_rounds.
    eapply hio_bind; [now apply hio_pool_step|]. intros _.
    eapply (hio_bind (map fin_round));
      [exact (hio_speed_loop p p' x T P m (lit 0.0001) (lit 0.0001) Hp 4 1 (Ok zero) zero
                (lit 1.5) (lit 2.0) [])|].
    intros done. eapply hio_bind; [now apply hio_pool_step|]. intros _.
    rewrite fin_last_round. destruct (last_round done) as [[[[a b] c] v] r].
    destruct st.
    - eapply hio_bind; [apply hio_new|]. intros i0. eapply hio_bind; [apply hio_new|]. intros w0.
      eapply hio_bind; [apply hio_TPX|]. intros i. eapply hio_bind; [apply hio_TPX|]. intros w.
      eapply hio_bind; [apply (hio_cj_state _ _ _ _ _ _ _ _ _ hom_npdiv)|]. intros [g v'].
      destruct r2; now apply hio_ret.
    - destruct r2; now apply hio_ret.
  Qed.

  (** the reflected state *)
  Lemma hom_limit_r d' d a b : hom_d d' d ->
    limit_temperature_reflected d' (Fin a) (Fin b) = fin_result Fin (limit_temperature_reflected d a b).
  Proof.
    intros D. unfold limit_temperature_reflected. cbn [nmul nofQ Num_fl fl2 nltb nabs fl1 flc Num_R].
    destruct (Rltb _ _); [|reflexivity]. apply D.
  Qed.
  Lemma hom_limit_v d' d a b c : hom_d d' d ->
    limit_volume d' (Fin a) (Fin b) (Fin c) = fin_result Fin (limit_volume d a b c).
  Proof.
    intros D. unfold limit_volume. cbn [nadd nsub nmul nofQ Num_fl fl2 nltb nabs fl1 flc Num_R].
    destruct (Rltb c (b + a)); cbn [flc]; (destruct (Rltb _ _); [|reflexivity]); apply D.
  Qed.
  Definition body6 (s : G * R * R * R * R * R) : G * fl * fl * fl * fl * fl :=
    let '(g, a, b, c, d, e) := s in (g, Fin a, Fin b, Fin c, Fin d, Fin e).
  Lemma hio_eq_body d' d s p pv g T v rho : hom_d d' d ->
    eq_body L' d' (Fin s) p (Fin pv) g (Fin T) (Fin v) (Fin rho)
    = fin_io body6 (eq_body L d s p pv g T v rho).
  Proof.
    intros D. unfold eq_body.
    eapply hio_bind; [apply hio_pure, (hom_errr _ _ _ _ _ D)|]. intros [eh ep]. cbn [two fst snd].
    eapply hio_bind; [apply hio_equilibrium|]. intros g1.
    eapply hio_bind; [apply hio_pure, (hom_errr _ _ _ _ _ D)|]. intros [eh1 ep1]. cbn [two fst snd].
    eapply hio_bind; [apply hio_pure, D|]. intros hT.
    eapply hio_bind; [apply hio_pure, D|]. intros pT.
    eapply hio_bind; [apply hio_pure, hom_pydiv|]. intros rho'.
    eapply hio_bind; [apply hio_equilibrium|]. intros g2.
    eapply hio_bind; [apply hio_pure, (hom_errr _ _ _ _ _ D)|]. intros [eh2 ep2]. cbn [two fst snd].
    eapply hio_bind; [apply hio_pure, D|]. intros hV.
    eapply hio_bind; [apply hio_pure, D|]. intros pV.
    eapply hio_bind; [apply hio_pure, (hom_solve _ _ _ _ _ _ _ _ D)|].
    intros [dT dV]. cbn [two fst snd].
    eapply hio_bind; [apply hio_pure, (hom_limit_r _ _ _ _ D)|]. intros dT'.
    eapply hio_bind; [apply hio_pure, (hom_limit_v _ _ _ _ _ D)|]. intros dV'.
    eapply hio_bind; [apply hio_pure, D|]. intros rho2.
    eapply hio_bind; [apply hio_equilibrium|]. intros g3. now apply hio_ret.
  Qed.
  Lemma hio_eq_loop d' d s p pv tT tv mx : hom_d d' d -> forall fuel n g T v rho dT dv,
    eq_loop L' fuel d' (Fin s) p (Fin pv) (Fin tT) (Fin tv) mx n g (Fin T) (Fin v) (Fin rho) (Fin dT) (Fin dv)
    = fin_io idG (eq_loop L fuel d s p pv tT tv mx n g T v rho dT dv).
  Proof.
    intros D. induction fuel as [|fuel IH]; intros n g T v rho dT dv; cbn [eq_loop];
      cbn [nmul Num_fl fl2 nltb nabs fl1 flc Num_R]; destruct (_ || _).
    - now apply hio_act.
    - now apply hio_ret.
    - destruct (Z.eqb _ _).
      + eapply (hio_bind (fun u : unit => u)); [now apply hio_act|]. intros _. now apply hio_ret.
      + eapply hio_bind; [apply (hio_eq_body _ _ _ _ _ _ _ _ _ D)|].
        intros [[[[[g' a] b] c] e] f]. apply IH.
    - now apply hio_ret.
  Qed.
  Lemma hio_get_eq fuel d' d s p w tT tv mx : hom_d d' d ->
    get_eq_state L' fuel d' (Fin s) p w (Fin tT) (Fin tv) mx
    = fin_io idG (get_eq_state L fuel d s p w tT tv mx).
  Proof.
    intros D. unfold get_eq_state. props.
    eapply hio_bind; [apply hio_pure, hom_pydiv|]. intros pv.
    eapply hio_bind; [apply hio_pure, hom_pydiv|]. intros v.
    eapply hio_bind; [apply hio_equilibrium|]. intros g. now apply hio_eq_loop.
  Qed.
  Definition three (s : R * R * G) : fl * fl * G := let '(a, b, g) := s in (Fin a, Fin b, g).
  Lemma hio_reflect i p w s :
    reflect L' i p w (Fin s) = fin_io three (reflect L i p w s).
  Proof.
    unfold reflect. props.
    eapply hio_bind; [apply hio_pure, hom_pydiv|]. intros vi.
    eapply hio_bind; [apply hio_pure, hom_pydiv|]. intros v2.
    eapply hio_bind; [apply hio_pure, hom_npsqrt|]. intros u.
    eapply hio_bind; [apply hio_pure, hom_pydiv|]. intros vw.
    eapply hio_bind; [apply hio_pure, hom_pydiv|]. intros q.
    eapply hio_bind; [apply hio_pure, hom_pydiv|]. intros Tw.
    eapply hio_bind; [apply hio_TPX|]. intros w'.
    eapply hio_bind; [apply (hio_get_eq _ _ _ _ _ _ _ _ _ hom_npdiv)|]. intros w''. props.
    eapply hio_bind; [apply hio_pure, hom_npdiv|]. intros k.
    eapply hio_bind; [apply hio_pure, hom_npdiv|]. intros k'. now apply hio_ret.
  Qed.

  (** thermochem.py *)
  Lemma hom_in_unit q s : in_unit (fin_quant q) s = fin_result Fin (in_unit q s).
  Proof. unfold in_unit. eapply hom_bind; [apply hom_to_str|]. reflexivity. Qed.
  Lemma hio_check q d pos :
    pure (check_q (fin_quant q) d pos) = fin_io (fun b => b) (pure (check_q q d pos)).
  Proof. apply hio_pure. rewrite hom_check. apply hom_id. Qed.
  Lemma lift_flame T P x m ph reg :
    calculate_laminar_flame_speed L' (fin_arg T) (fin_arg P) x m ph reg
    = fin_io fin_quant (calculate_laminar_flame_speed L T P x m ph reg).
  Proof.
    unfold calculate_laminar_flame_speed.
    eapply hio_bind; [apply hio_new|]. intros g.
    eapply hio_bind; [apply hio_pure, hom_parse|]. intros qP.
    eapply hio_bind; [apply hio_pure, hom_parse|]. intros qT.
    eapply hio_bind; [apply hio_check|]. intros _. eapply hio_bind; [apply hio_check|]. intros _.
    eapply hio_bind; [apply hio_pure, hom_in_unit|]. intros t.
    eapply hio_bind; [apply hio_pure, hom_in_unit|]. intros p.
    eapply hio_bind; [apply hio_TPX|]. intros g'.
    eapply hio_bind; [apply hio_flame|]. intros u. apply hio_pure, hom_quant.
  Qed.
  Lemma lift_sound T P x m ph reg :
    get_eq_sound_speed L' (fin_arg T) (fin_arg P) x m ph reg
    = fin_io fin_quant (get_eq_sound_speed L T P x m ph reg).
  Proof.
    unfold get_eq_sound_speed.
    eapply hio_bind; [apply hio_pure, hom_parse|]. intros qP.
    eapply hio_bind; [apply hio_pure, hom_parse|]. intros qT.
    eapply hio_bind; [apply hio_check|]. intros _. eapply hio_bind; [apply hio_check|]. intros _.
    eapply hio_bind; [apply hio_new|]. intros g.
    eapply hio_bind; [apply hio_pure, hom_in_unit|]. intros t.
    eapply hio_bind; [apply hio_pure, hom_in_unit|]. intros p.
    eapply hio_bind; [apply hio_TPX|]. intros g'.
    eapply hio_bind; [apply hio_eq|]. intros g2. props.
    eapply hio_bind; [apply hio_SP|]. intros g3.
    eapply hio_bind; [apply hio_eq|]. intros g4. props.
    eapply hio_bind; [apply hio_pure, hom_npdiv|]. intros sl.
    eapply hio_bind; [apply hio_pure, hom_npsqrt|]. intros c. apply hio_pure, hom_quant.
  Qed.
  Lemma hom_number_at k d : number_at k (fin_dict d) = fin_result Fin (number_at k d).
  Proof.
    induction d as [|[k' e] d IH]; [reflexivity|]. cbn. destruct (String.eqb _ _); [|exact IH].
    now destruct e.
  Qed.
  Lemma hom_gas_at k d : gas_at k (fin_dict d) = fin_result idG (gas_at k d).
  Proof.
    induction d as [|[k' e] d IH]; [reflexivity|]. cbn. destruct (String.eqb _ _); [|exact IH].
    now destruct e.
  Qed.
  Lemma lift_shock T P x m reg p p' : same_pool p p' ->
    calculate_reflected_shock_state L' (fin_quant T) (fin_quant P) x m reg p'
    = fin_io fin_shock (calculate_reflected_shock_state L T P x m reg p).
  Proof.
    intros Hp. unfold calculate_reflected_shock_state.
    eapply hio_bind; [apply hio_new|]. intros g. eapply hio_bind; [apply hio_new|]. intros g2.
    eapply hio_bind; [apply hio_pure, hom_in_unit|]. intros t.
    eapply hio_bind; [apply hio_pure, hom_in_unit|]. intros pr.
    eapply hio_bind; [apply hio_TPX|]. intros g'. eapply hio_bind; [apply hio_TPX|]. intros g2'.
    eapply hio_bind; [apply hio_cj_speed; exact Hp|]. intros d.
    eapply hio_bind; [apply hio_pure, hom_gas_at|]. intros cj.
    eapply hio_bind; [apply hio_pure, hom_number_at|]. intros s.
    eapply hio_bind; [apply hio_reflect|]. intros [[a b] c].
    eapply hio_bind; [apply hio_pure, hom_quant|]. intros ws.
    eapply hio_bind; [apply hio_pure, hom_quant|]. intros cs. now apply hio_ret.
  Qed.

  (** the initial pressure *)
  Section Search.
    Context (i o T : quantity R) (x : X) (m : string) (mp e d : quantity R) (nu pm : R) (use : bool)
            (reg : nat) (p : pool R) (p' : pool fl) (Hp : same_pool p p').
    Lemma hom_load (s : shock_states R G) :
      load_factor (fin_quant i) (fin_quant o) (fin_quant e) (fin_quant d) (Fin nu) (Fin pm) (fin_shock s)
      = fin_result Fin (load_factor i o e d nu pm s).
    Proof.
      unfold load_factor. cbn [fin_shock cj_wave_speed]. rewrite lift_dlf. now apply hom_bind_id.
    Qed.
    Lemma hom_next q dlf s :
      next_pressure L' (fin_quant mp) (fin_quant q) (Fin dlf) (fin_shock s)
      = fin_result fin_quant (next_pressure L mp q dlf s).
    Proof.
      unfold next_pressure. eapply hom_bind; [apply hom_scale|]. intros q'.
      cbn [fin_shock reflected_state]. props. apply (hom_divn _ _ _ _ hom_pydiv).
    Qed.
    Lemma fin_state_at w (s : shock_states R G) : state_at w (fin_shock s) = state_at w s.
    Proof. now destruct w. Qed.
    Lemma hio_pressure_loop w : forall budget tol err q dlf s,
      pressure_loop L' (fin_quant i) (fin_quant o) (fin_quant T) x m (fin_quant mp) (fin_quant e)
        (fin_quant d) (Fin nu) (Fin pm) use reg p' w budget (Fin tol) (Fin err) (fin_quant q) (Fin dlf)
        (fin_shock s)
      = fin_io (fun r => (fin_quant (fst r), Fin (snd r)))
          (pressure_loop L i o T x m mp e d nu pm use reg p w budget tol err q dlf s).
    Proof.
      induction budget as [|budget IH]; intros tol err q dlf s; cbn [pressure_loop];
        cbn [nltb nabs Num_fl fl1 flc Num_R]; (destruct (Rltb _ _); [|now apply hio_ret]).
      - now apply hio_ret.
      - eapply hio_bind; [apply hio_pure, hom_next|]. intros q'.
        eapply hio_bind; [apply lift_shock; exact Hp|]. intros s'.
        eapply (hio_bind Fin).
        { apply hio_pure. destruct use; [apply hom_load|reflexivity]. }
        intros dlf'. rewrite fin_state_at. props.
        eapply hio_bind; [apply hio_pure, hom_pydiv|]. intros err'. apply IH.
    Qed.
    Lemma lift_initial_pressure tol mx name both :
      calculate_max_initial_pressure L' (fin_quant i) (fin_quant o) (fin_quant T) x m (fin_quant mp)
        (fin_quant e) (fin_quant d) (Fin nu) (Fin pm) use reg (Fin tol) mx p' name both
      = fin_io fin_answer
          (calculate_max_initial_pressure L i o T x m mp e d nu pm use reg tol mx p name both).
    Proof.
      unfold calculate_max_initial_pressure. destruct (which_state name) as [w|]; [|reflexivity].
      eapply hio_bind; [apply hio_pure, hom_quant|]. intros q.
      eapply hio_bind; [apply lift_shock; exact Hp|]. intros s.
      eapply hio_bind; [apply hio_pure, hom_load|]. intros dlf.
      eapply hio_bind; [apply hio_pure, hom_pydiv|]. intros err.
      eapply hio_bind; [apply hio_pressure_loop|]. intros [q' dlf']. destruct both; now apply hio_ret.
    Qed.
  End Search.

  (** run-up *)
  Lemma hom_pow q ex : q_pow (fin_quant q) (Fin ex) = fin_result fin_quant (q_pow q ex).
  Proof.
    unfold q_pow. rewrite fin_offset. apply hom_bind_id. intros _. cbn [u_dim q_unit fin_quant fin_unit q_mag].
    destruct (dim_eqb _ _); [|reflexivity]. unfold zero. cbn [nltb Num_fl flc nofQ Num_R].
    now destruct (Rltb _ _).
  Qed.
  Lemma hom_log q : q_log (fin_quant q) = fin_result fin_quant (q_log q).
  Proof.
    unfold q_log. rewrite fin_base. cbn [u_dim q_unit fin_quant fin_unit].
    destruct (dim_eqb _ _); [|reflexivity]. unfold zero. cbn [nltb Num_fl flc nofQ Num_R].
    now destruct (Rltb _ _).
  Qed.
  Lemma hio_eq4_1 br D T P x reg g s r c :
    eq4_1 L' (Fin br) (fin_quant D) (fin_quant T) (fin_quant P) x reg g (fin_quant s) (Fin r) (fin_quant c)
    = fin_io fin_quant (eq4_1 L br D T P x reg g s r c).
  Proof.
    unfold eq4_1.
    eapply hio_bind; [apply hio_pure, hom_in_unit|]. intros t.
    eapply hio_bind; [apply hio_pure, hom_in_unit|]. intros p.
    eapply hio_bind; [apply hio_TPX|]. intros g'. props.
    eapply hio_bind; [apply hio_pure, hom_quant|]. intros rho.
    eapply hio_bind; [apply hio_pure, (sg_viscosity _ _ S)|]. intros mu. apply hio_pure.
    homs. rewrite fin_to_base. homs.
    eapply hom_bind; [apply hom_pow|]. intros ?. homs.
    eapply hom_bind; [apply hom_pow|]. intros ?. homs.
    eapply hom_bind; [apply hom_npdiv|]. intros ?. homs.
    eapply hom_bind; [apply hom_log|]. intros ?. homs.
  Qed.
  Lemma hom_eq4_4 br D s r c :
    eq4_4 (Fin br) (fin_quant D) (fin_quant s) (Fin r) (fin_quant c)
    = fin_result fin_quant (eq4_4 br D s r c).
  Proof. unfold eq4_4. homs. eapply hom_bind; [apply hom_pydiv|]. intros ?. homs. Qed.
  Lemma lift_run_up br D T P x m reg ph :
    calculate_run_up L' (Fin br) (fin_arg D) (fin_arg T) (fin_arg P) x m reg ph
    = fin_io fin_quant (calculate_run_up L br D T P x m reg ph).
  Proof.
    unfold calculate_run_up. unfold zero at 1 2. cbn [nltb nleb Num_fl flc nofQ Num_R].
    destruct (_ || _)%bool; [reflexivity|].
    eapply hio_bind; [apply hio_pure, hom_parse|]. intros qD.
    eapply hio_bind; [apply hio_pure, hom_parse|]. intros qT.
    eapply hio_bind; [apply hio_pure, hom_parse|]. intros qP.
    eapply hio_bind; [apply hio_check|]. intros _. eapply hio_bind; [apply hio_check|]. intros _.
    eapply hio_bind; [apply hio_check|]. intros _.
    eapply hio_bind; [apply (lift_flame (PQuant qT) (PQuant qP))|]. intros fs.
    eapply hio_bind; [apply hio_new|]. intros g.
    eapply hio_bind; [apply hio_pure, hom_in_unit|]. intros t.
    eapply hio_bind; [apply hio_pure, hom_in_unit|]. intros p.
    eapply hio_bind; [apply hio_TPX|]. intros g'.
    eapply hio_bind; [apply hio_eq|]. intros g2. props.
    eapply hio_bind; [apply hio_pure, hom_pydiv|]. intros d1.
    eapply hio_bind;
      [apply (lift_sound (PSeq [ENum (ct_T L g2); EStr "K"]) (PSeq [ENum (ct_P L g2); EStr "Pa"]))|].
    intros c.
    destruct (_ && _)%bool; [apply hio_pure, hom_eq4_4|].
    destruct (Rleb _ _); [apply hio_eq4_1|].
    eapply hio_bind; [apply hio_eq4_1|]. intros sm.
    eapply hio_bind; [apply hio_pure, hom_eq4_4|]. intros ro.
    eapply (hio_bind Fin);
      [apply hio_pure; exact (hom_interp br [(Q2R 0.1, q_mag sm); (Q2R 0.3, q_mag ro)])|].
    intros v. now apply hio_ret.
  Qed.
End Lift.
