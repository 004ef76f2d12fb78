(** * Properties_NanSd: C132-C134, nan from the chemistry.

    [fl] (NanM.v) is the real numbers with [NaN] added; the functions are the functions of
    the model (SdM.v, ThermoM.v, InitPressureM.v) at that number type.  [ordinary],
    [nan_gas], [asked], [warned], [evaluation], [within], [outside]: NanSdSpec.v. *)
From Coq Require Import String ZArith QArith Reals Qreals List Bool Lra Lia.
From Verif Require Import PyBase Pint UnitsM Spec QLemmas TubeM Gas GasP FitM SdM SdSpec SpeedSpec SpeedP ThermoM ThermoP
  InitPressureM FitP ExampleGas NanM NanSpec NanP NanLift NanAccept NanGas NanSdSpec NanSdP NanBlank NanSearchP
  Properties_Window Properties_Tube Properties_Sd Properties_Thermo Properties_Speed Properties_InitPressure Properties_Nan.
Import ListNotations.
Local Open Scope string_scope.
Local Open Scope R_scope.

(** ** C132: nan inside the iterations *)

(** [/] of Python floats or of numpy floats *)
Definition division (div : fl -> fl -> result fl) : Prop := div = pydiv \/ div = npdiv.
Lemma division_ok div : division div -> ok_division div.
Proof. intros [-> | ->]; [exact ok_pydiv|exact ok_npdiv]. Qed.

(** calculate_cj_state at a density ratio [r]: the density asked for is always the same one.
    Either the speed is nan, then the last temperature asked for, and only that one, was
    nan, and there was no warning; or the speed is a number, and so was every temperature. *)
Theorem C132_cj_state :
  forall {G X} (L : cantera fl G X) fuel div working initial tol_T tol_V r max_it g V,
    division div ->
    let run := cj_state L fuel div working initial tol_T tol_V r max_it in
    value run = Ok (g, V) ->
    exists D, (ordinary D <-> ordinary (ct_density L initial) /\ ordinary r)
    /\ ((V = NaN /\ ~ warned (trace run)
         /\ exists l, asked (trace run) = (l ++ [(NaN, D)])%list
                      /\ Forall (fun TD => ordinary (fst TD) /\ snd TD = D) l)
        \/ (ordinary V /\ Forall (fun TD => ordinary (fst TD) /\ snd TD = D) (asked (trace run)))).
Proof.
  cbv zeta. intros * Dv H. apply division_ok in Dv.
  destruct (state_ends _ _ _ _ _ _ _ _ _ _ _ Dv H) as (D & OD & E). exists D. split; [exact OD|exact E].
Qed.
Print Assumptions C132_cj_state.

(** If at least one pass is made, a nan in the initial gas, or in every gas that comes out of
    an equilibrium calculation, gives a speed of nan. *)
Theorem C132_nan_gas :
  forall {G X} (L : cantera fl G X) fuel div working initial tol_T tol_V r max_it g V,
    division div ->
    (exists t, t < 1/2 /\ (tol_T = Fin t \/ tol_V = Fin t)) -> max_it <> 1%Z ->
    value (cj_state L fuel div working initial tol_T tol_V r max_it) = Ok (g, V) ->
    nan_gas L initial \/ (forall g0 g1, ct_equilibrate L g0 "TV" = Ok g1 -> nan_gas L g1) ->
    V = NaN.
Proof.
  intros * Dv (t & Ht & Hs) Hm H N. apply division_ok in Dv.
  destruct (ok_dec V) as [O|E]; [|exact E]. exfalso.
  destruct (state_gas L fuel div working initial tol_T tol_V r max_it g V Dv) as (Oi & g1 & (g0 & M) & O1);
    [split; [exact Hm|]; destruct Hs; [left|right]; eauto|exact H|exact O|].
  apply ok_gas_nan in Oi, O1. destruct N as [N|N]; [tauto|]. apply O1. exact (N _ _ M).
Qed.
Print Assumptions C132_nan_gas.

Definition any_pool_nan (p : pool fl) : Prop :=
  p = Serial \/ exists schedule, p = Workers schedule /\ reorders schedule.

Lemma good_any p : any_pool_nan p -> good_pool p.
Proof. intros [-> |(s & -> & H)]; [exact I|exact H]. Qed.

Lemma entered {G X} (L : cantera fl G X) n p x T P mech r2 lo hi out :
  good_pool p ->
  value (speed_loop L (S n) p x T P mech tol tol 1 r2 zero lo hi []) = Ok out ->
  out <> [].
Proof.
  intros Hp H ->. cbn [speed_loop] in H.
  assert (Z : (zero <? @nofQ fl _ 0.0000001)%num = true).
  { unfold zero. cbn [nltb Num_fl flc nofQ]. apply QLemmas.Rltb_true. unfold Q2R; cbn; lra. }
  change (Nat.leb 1 4) with true in H. rewrite Z, orb_true_r in H. cbn [andb] in H.
  apply value_bind_ok in H. destruct H as (res & _ & H & _).
  apply value_bind_ok in H. destruct H as (f & _ & H & _).
  apply value_bind_ok in H. destruct H as (v & _ & H & _).
  destruct (speed _ _ _ _ _ _ _ Hp _ _ _ _ _ _ _ H) as [(E & _)|(e & E & Ne & _)]; discriminate E.
Qed.

Lemma number_inj {G} k k' (a b : fl) (l l' : list (string * entry fl G)) :
  (k, ENumber a) :: l = (k', ENumber b) :: l' -> a = b.
Proof. now intros [= _ -> _]. Qed.

Lemma pool_asks p e : trace (@pool_step fl p e) = [] \/ trace (@pool_step fl p e) = [e].
Proof. destruct p; [left|right]; reflexivity. Qed.

Lemma fresh_inv {G X} (L : cantera fl G X) mech T P x g : value (fresh_gas L mech T P x) = Ok g ->
  exists g0, ct_new L mech "" = Ok g0 /\ ct_set_TPX L g0 T P x = Ok g.
Proof.
  unfold fresh_gas. intros H. apply value_bind_ok in H. destruct H as (g0 & H0 & H & _).
  exists g0. split; [exact H0|exact H].
Qed.

(** cj_speed, serial or with workers that answer in any order.  If the speed is a number, the
    initial gas has no nan, at least one equilibrium gas has none, and (without the final
    state) cantera was never asked for a nan. *)
Theorem C132_ordinary_speed :
  forall {G X} (L : cantera fl G X) P T x mech p return_r_squared return_state v rest,
    any_pool_nan p ->
    let run := cj_speed L P T x mech p return_r_squared return_state in
    value run = Ok (("cj speed", ENumber v) :: rest) -> ordinary v ->
    (exists g0 g, ct_new L mech "" = Ok g0 /\ ct_set_TPX L g0 T P x = Ok g /\ ~ nan_gas L g)
    /\ (exists g0 g1, ct_equilibrate L g0 "TV" = Ok g1 /\ ~ nan_gas L g1)
    /\ (return_state = false ->
        Forall (fun TD => ordinary (fst TD) /\ ordinary (snd TD)) (asked (trace run))).
Proof.
  cbv zeta. intros * Hp H Ov. apply good_any in Hp. unfold cj_speed in H |- *.
  apply value_bind_ok in H. destruct H as ((done0 & d') & H & H' & ->). rewrite value_ret in H'.
  apply ok_inj in H'. subst d'. cbn [trace ret fst]. rewrite app_nil_r.
  unfold cj_speed_rounds in H |- *. change (lit 0.0001)%num with tol in *.
  apply value_bind_ok in H. destruct H as ([] & _ & H & ->).
  apply value_bind_ok in H. destruct H as (done & Hd & H & ->).
  apply value_bind_ok in H. destruct H as ([] & _ & H & ->).
  pose proof (entered _ _ _ _ _ _ _ _ _ _ _ Hp Hd) as Nd.
  destruct (speed _ _ _ _ _ _ _ Hp _ _ _ _ _ _ _ Hd) as [(E & _)|(extra & E & Ne & K)]; [congruence|].
  cbn [app] in E. subst extra.
  assert (Hv : ordinary (last_vertex done)).
  { unfold last_vertex in *. destruct (last_round done) as [[[[a b] c] vx] r2]. cbn in H.
    assert (Es : (a * sq vx + b * vx + c)%num = v).
    { destruct return_state.
      - do 5 (apply value_bind_ok in H; destruct H as (? & _ & H & _)). destruct x4 as (gx & ?).
        destruct return_r_squared; rewrite value_ret in H; apply ok_pair_inj in H;
          destruct H as (_ & H); exact (number_inj _ _ _ _ _ _ H).
      - destruct return_r_squared; rewrite value_ret in H; apply ok_pair_inj in H;
          destruct H as (_ & H); exact (number_inj _ _ _ _ _ _ H). }
    subst v. oks. tauto. }
  destruct (K Hv) as (_ & _ & _ & Ev & g & Hg & Og & g1 & (g0 & Hg1) & Og1).
  split; [|split].
  - apply fresh_inv in Hg. destruct Hg as (g0' & A & B). exists g0', g. rewrite <- ok_gas_nan. auto.
  - exists g0, g1. rewrite <- ok_gas_nan. auto.
  - intros ->.
    apply ok_events in Ev. unfold all_TD in Ev.
    destruct (last_round done) as [[[[a b] c] vx] r2].
    destruct (pool_asks p EvPoolOpen) as [-> | ->], (pool_asks p EvPoolClose) as [-> | ->];
      destruct return_r_squared; rewrite !asked_app; cbn [asked flat_map app trace ret fst];
      rewrite ?app_nil_r; exact Ev.
Qed.
Print Assumptions C132_ordinary_speed.

(** So a chemistry that gives nan gives the speed nan. *)
Theorem C132_nan_chemistry :
  forall {G X} (L : cantera fl G X) P T x mech p return_r_squared return_state v rest,
    any_pool_nan p ->
    value (cj_speed L P T x mech p return_r_squared return_state)
      = Ok (("cj speed", ENumber v) :: rest) ->
    (forall g0 g, ct_new L mech "" = Ok g0 -> ct_set_TPX L g0 T P x = Ok g -> nan_gas L g)
    \/ (forall g0 g1, ct_equilibrate L g0 "TV" = Ok g1 -> nan_gas L g1) ->
    v = NaN.
Proof.
  intros * Hp H N. destruct (ok_dec v) as [O|E]; [|exact E]. exfalso.
  destruct (C132_ordinary_speed _ _ _ _ _ _ _ _ _ _ Hp H O) as ((a & b & A & B & C) & (c & d & D & E) & _).
  destruct N as [N|N]; [exact (C (N _ _ A B))|exact (E (N _ _ D))].
Qed.
Print Assumptions C132_nan_chemistry.

(** get_eq_state: the same.  (There the density changes too.) *)
Theorem C132_reflected :
  forall {G X} (L : cantera fl G X) fuel div shock_speed post_shock working tol_T tol_v max_it g,
    division div -> ordinary (ct_T L working) -> ordinary (ct_density L working) ->
    let run := get_eq_state L fuel div shock_speed post_shock working tol_T tol_v max_it in
    value run = Ok g ->
    (~ warned (trace run)
     /\ exists l, asked (trace run) = (l ++ [(NaN, NaN)])%list
                  /\ Forall (fun TD => ordinary (fst TD) /\ ordinary (snd TD)) l)
    \/ Forall (fun TD => ordinary (fst TD) /\ ordinary (snd TD)) (asked (trace run)).
Proof. cbv zeta. intros * Dv. apply division_ok in Dv. now apply rstate_ends. Qed.
Print Assumptions C132_reflected.

(** reflect: the reflected pressure it gives is the pressure of the gas it gives; the
    reflected speed is a number only if that pressure is, and the pressures and densities of
    the initial and of the post-shock gas are. *)
Theorem C132_reflect :
  forall {G X} (L : cantera fl G X) initial post_shock working speed P3 Wr g,
    value (reflect L initial post_shock working speed) = Ok (P3, Wr, g) ->
    ordinary Wr ->
    ordinary P3 /\ P3 = ct_P L g
    /\ ordinary (ct_P L post_shock) /\ ordinary (ct_density L post_shock)
    /\ ordinary (ct_P L initial) /\ ordinary (ct_density L initial).
Proof. intros *. apply reflect_ok. Qed.
Print Assumptions C132_reflect.

(** The shock states a user asks for *)
Theorem C132_shock_states :
  forall {G X} (L : cantera fl G X) T P x mech reg p s t pa,
    any_pool_nan p ->
    in_unit T "K" = Ok t -> in_unit P "Pa" = Ok pa ->
    value (calculate_reflected_shock_state L T P x mech reg p) = Ok s ->
    (ordinary (q_mag (cj_wave_speed s)) ->
       exists g0 g, ct_new L mech "" = Ok g0 /\ ct_set_TPX L g0 t pa x = Ok g /\ ~ nan_gas L g)
    /\ (ordinary (q_mag (reflected_speed s)) ->
         ordinary (ct_P L (reflected_state s)) /\ ordinary (ct_P L (cj_gas_state s))
         /\ ordinary (ct_density L (cj_gas_state s))).
Proof.
  intros * Hp HT HP H. unfold calculate_reflected_shock_state in H.
  apply value_bind_ok in H. destruct H as (i0 & Hi0 & H & _).
  apply value_bind_ok in H. destruct H as (r0 & Hr0 & H & _).
  rewrite HT, HP, !bind_pure_ok in H.
  apply value_bind_ok in H. destruct H as (i & Hi & H & _).
  apply value_bind_ok in H. destruct H as (r & Hr & H & _).
  apply value_bind_ok in H. destruct H as (d & Hd & H & _).
  apply value_bind_ok in H. destruct H as (cj & Hcj & H & _). rewrite value_pure in Hcj.
  apply value_bind_ok in H. destruct H as (sp & Hsp & H & _). rewrite value_pure in Hsp.
  apply value_bind_ok in H. destruct H as (((P3 & Wr) & g) & Hg & H & _).
  apply value_bind_ok in H. destruct H as (ws & Hws & H & _). rewrite value_pure in Hws.
  apply value_bind_ok in H. destruct H as (cs & Hcs & H & _). rewrite value_pure in Hcs.
  rewrite value_ret in H. apply ok_inj in H. subst s.
  cbn [cj_wave_speed reflected_speed reflected_state cj_gas_state].
  assert (Q : forall (a : fl) q, quant reg a "m/s" = Ok q -> q_mag q = a).
  { intros a q Hq. unfold quant in Hq. destruct (lookup_unit "m/s"); [|discriminate].
    apply ok_inj in Hq. subst q. reflexivity. }
  apply Q in Hws, Hcs. rewrite Hws, Hcs. split.
  - intros O.
    assert (E : exists rest, d = ("cj speed", ENumber sp) :: rest).
    { pose proof Hd as Hd'. unfold cj_speed in Hd'. apply value_bind_ok in Hd'.
      destruct Hd' as ((dn & d') & K & K' & _). rewrite value_ret in K'. apply ok_inj in K'. subst d'.
      unfold cj_speed_rounds in K.
      do 3 (apply value_bind_ok in K; destruct K as (? & _ & K & _)).
      destruct (last_round x1) as [[[[a b] c] vx] r2]. cbn in K.
      do 5 (apply value_bind_ok in K; destruct K as (? & _ & K & _)). destruct x7 as (gx & ?).
      rewrite value_ret in K. apply ok_pair_inj in K. destruct K as (_ & <-).
      eexists. f_equal. f_equal. f_equal. now apply ok_inj in Hsp. }
    destruct E as (rest & ->).
    destruct (C132_ordinary_speed _ _ _ _ _ _ _ _ _ _ Hp Hd O) as (A & _). exact A.
  - intros O. destruct (reflect_ok _ _ _ _ _ _ _ _ Hg O) as (A & -> & B & C & _). auto.
Qed.
Print Assumptions C132_shock_states.

(** Both cases happen.  The invented gas of C55 (no nan anywhere): 2000 m/s.  The invented
    gas [blank], whose densities and enthalpies are nan: nan, in both waves. *)
Example C132_case :
  (forall mech, value (cj_speed (with_nan example_gas) (Fin 101325) (Fin 300) fresh mech Serial false false)
     = Ok [("cj speed", ENumber (Fin 2000))])
  /\ (forall T P mech, exists rest,
        value (cj_speed blank (Fin P) T tt mech Serial false true)
        = Ok (("cj speed", ENumber NaN) :: rest))
  /\ (forall g, nan_gas blank g).
Proof.
  split; [|split].
  - intros mech.
    rewrite (hio_cj_speed _ _ (with_nan_same example_gas) 101325 300 fresh mech Serial Serial false false sp_serial).
    rewrite value_fin, (example_gas_speed Serial 101325 mech false false) by ((left; reflexivity) || lra).
    reflexivity.
  - intros. rewrite blank_speed. eexists. reflexivity.
  - intros g. right. left. reflexivity.
Qed.

(** ** C133: "a result that is not converged comes with a warning" *)

Lemma tol_is : tol = Fin (1/10000).
Proof. unfold tol. cbn [nofQ Num_fl]. apply f_equal. unfold Q2R; cbn; lra. Qed.
Lemma nan_silent {G X} (L : cantera fl G X) fuel w i tT tV r n g :
  value (cj_state L fuel npdiv w i tT tV r n) = Ok (g, NaN) ->
  ~ warned (trace (cj_state L fuel npdiv w i tT tV r n)).
Proof.
  intros B. destruct (C132_cj_state L fuel npdiv w i tT tV r n _ _ (or_intror eq_refl) B)
    as (D & _ & [(_ & K & _)|(K & _)]); [exact K|destruct (K eq_refl)].
Qed.

(** Not so: a nan comes without one (C132_cj_state); here, for any gas objects and any
    density ratio but 0, with [blank].  And if both tolerances are nan, calculate_cj_state
    makes no pass at all, whatever the gas: it gives its first guess, 2000 m/s, without a
    warning. *)
Theorem C133_refuted :
  (forall working initial r, r <> Fin 0 ->
     let run := cj_state blank 500 npdiv working initial (Fin (1/10000)) (Fin (1/10000)) r 500 in
     value run = Ok (working, NaN) /\ ~ warned (trace run))
  /\ (forall {G X} (L : cantera fl G X) fuel div working initial r max_it g V,
        let run := cj_state L fuel div working initial NaN NaN r max_it in
        value run = Ok (g, V) ->
        V = Fin 2000 /\ ~ warned (trace run)
        /\ exists D, asked (trace run) = [(Fin 2000, D)]).
Proof.
  split.
  - cbv zeta. intros w i r Hr. rewrite <- tol_is.
    pose proof (blank_state w i r Hr) as B. split; [exact B|exact (nan_silent _ _ _ _ _ _ _ _ _ B)].
  - cbv zeta. intros * H. unfold cj_state in H |- *.
    apply value_bind_ok in H. destruct H as (v & _ & H & ->).
    apply value_bind_ok in H. destruct H as (v' & _ & H & ->).
    apply value_bind_ok in H. destruct H as (D & _ & H & ->).
    apply value_bind_ok in H. destruct H as (g0 & Hg0 & H & ->).
    assert (E : cj_loop L fuel initial NaN NaN D max_it 0 g0 (lit 2000)%num (lit 2000)%num (lit 1000)%num (lit 1000)%num
                = ret (g0, (lit 2000)%num)) by (destruct fuel; reflexivity).
    rewrite E in H |- *. rewrite value_ret in H. apply ok_pair_inj in H. destruct H as (_ & <-).
    apply equilibrium_ok in Hg0. destruct Hg0 as (-> & _).
    split; [cbn; f_equal; unfold Q2R; cbn; lra|]. cbn [trace pure ret fst app]. split.
    + intros (m & W). cbn in W. intuition discriminate.
    + exists D. cbn [asked flat_map app]. repeat f_equal. cbn. f_equal. unfold Q2R; cbn; lra.
Qed.
Print Assumptions C133_refuted.

(** What holds: an ordinary speed without a warning, with ordinary tolerances, one of them
    below 1/2, is the result of a converged iteration: the last two temperatures asked for
    differ by no more than the relative tolerance. *)
Theorem C133_partial :
  forall {G X} (L : cantera fl G X) fuel div working initial a b r max_it g V,
    division div -> (a < 1/2 \/ b < 1/2) ->
    let run := cj_state L fuel div working initial (Fin a) (Fin b) r max_it in
    value run = Ok (g, V) -> ordinary V -> ~ warned (trace run) ->
    exists l D t t', asked (trace run) = (l ++ [(Fin t, D); (Fin t', D)])%list
      /\ Rabs (t' - t) <= a * t'.
Proof.
  cbv zeta. intros * Dv Hab H Ov Nw. apply division_ok in Dv.
  destruct (state _ _ _ _ _ _ _ _ _ _ _ Dv H) as (D & _ & g0 & _ & K & Tr). rewrite Tr in *.
  assert (Hs : searches (Fin a) (Fin b) 0).
  { split; [discriminate|]. destruct Hab as [Hab|Hab]; [left|right]; eauto. }
  destruct (searches_in _ _ _ Hs) as (H1 & _).
  destruct (converged _ _ _ _ _ _ _ _ _ _ _ _ _ _ _ two_thousand two_thousand H1 K Ov)
    as (l & t & t' & E & C).
  { intros W. apply Nw. rewrite warned_app. now right. }
  exists ((Fin 2000, D) :: l), D, t, t'. split; [|exact C]. rewrite asked_app, E.
  cbn [asked flat_map app]. repeat f_equal. cbn. f_equal. unfold Q2R; cbn; lra.
Qed.
Print Assumptions C133_partial.

(** Such a run: the invented gas of C43, ratio 2. *)
Example C133_case :
  let run := cj_state (with_nan calm_gas) 500 pydiv (300, 1) (300, 1) (Fin (1/10000)) (Fin (1/10000))
               (Fin 2) 500 in
  value run = Ok ((2000, 2), Fin 2000) /\ ~ warned (trace run).
Proof.
  cbv zeta.
  rewrite (hio_cj_state _ _ (with_nan_same calm_gas) 500 pydiv pydiv (300, 1) (300, 1)
             (1/10000) (1/10000) 2 500 hom_pydiv).
  destruct cj_state_converges as (tr & -> & W & _). split; [reflexivity|].
  unfold fin_io. cbn [trace fst]. intros (m & H). apply in_map_iff in H. destruct H as (e & He & Hin).
  assert (K : In e (warnings tr)).
  { apply filter_In. split; [exact Hin|]. destruct e; easy. }
  rewrite W in K. exact K.
Qed.

(** ** C134: "the initial pressure that is returned was checked against the limit" *)

(** Not so if the chemistry gives nan.  With [blank] (whose pressure is a number at 1 atm
    only), a limit of 1 MPa and a relative tolerance of 1/10000, in the invented tube of
    C31: the first new guess, 1000000/405300 atm, is returned, with a load factor of 4,
    though both pressures at that guess are nan, and so is the wave speed. *)
Definition search_blank (name : string) : io fl (answer fl) :=
  calculate_max_initial_pressure blank (fin_quant (si 0 d_length))
    (fin_quant (si 1 d_length)) (fin_quant room) tt "gri30.cti" (fin_quant (si 1000000 d_pressure))
    (fin_quant tube_E) (fin_quant (si 1 d_density)) (Fin 0) (Fin (1/10)) true 0 (Fin (1/10000)) 500
    Serial name true.

Definition atms_nan (m : R) : quantity fl := fin_quant (mkQ m (mult_unit d_pressure (lit 101325)%num) 0).

Lemma blank_factor (s : shock_states fl fl) :
  lookup_unit "m/s" = Some (q_unit (cj_wave_speed s)) -> q_mag (cj_wave_speed s) = NaN ->
  q_reg (cj_wave_speed s) = 0%nat ->
  load_factor (fin_quant (si 0 d_length)) (fin_quant (si 1 d_length)) (fin_quant tube_E)
    (fin_quant (si 1 d_density)) (Fin 0) (Fin (1/10)) s = Ok (Fin 4).
Proof.
  intros U N Rg. destruct s as [w g [m u r] c]. cbn [cj_wave_speed q_unit q_mag q_reg] in U, N, Rg. subst m r.
  unfold load_factor. cbn [cj_wave_speed].
  assert (E : dynamic_load_factor (fin_quant (si 0 d_length)) (fin_quant (si 1 d_length))
    (mkQ (Fin 2000) u 0) (fin_quant tube_E) (fin_quant (si 1 d_density)) (Fin 0) (Fin (1/10)) = Ok 2%nat).
  { injection U as <-.
    replace (mkQ (Fin 2000) (mult_unit d_velocity one) 0)
      with (fin_quant (mkQ 2000 (mult_unit d_velocity one) 0)) by reflexivity.
    rewrite lift_dlf.
    apply example_factor; repeat split. }
  rewrite (C125_accepted _ (fin_quant (si 0 d_length)) _ (fin_quant (si 1 d_length)) _ (mkQ NaN u 0) _ (fin_quant tube_E)
             _ (fin_quant (si 1 d_density)) _ (Fin 0) _ _ E); try apply qn_refl; try apply on_refl.
  - cbn [bind]. apply f_equal. refine (eq_trans (f_equal Fin (n_of_nat_R 4)) _). apply f_equal. cbn. lra.
  - split; [reflexivity|split; [reflexivity|now right]].
  - right; right; left; reflexivity.
Qed.

Lemma unit_Pa m : in_unit (atms_nan m) "Pa" = Ok (Fin (m * 101325)).
Proof.
  unfold atms_nan. rewrite hom_in_unit.
  destruct (parse_denotes _ _ _ 0%nat (atm_denotes (mkQ m (mult_unit d_pressure (lit 101325)%num) 0) m 0 
    ltac:(repeat split))) as (q & Q1 & Q2).
  change (Ok (mkQ m (mult_unit d_pressure (lit 101325)%num) 0) = Ok q) in Q1. apply ok_inj in Q1. subst q.
  rewrite (in_unit_Pa _ _ _ Q2). reflexivity.
Qed.
Lemma room_K : exists t, in_unit (fin_quant room) "K" = Ok t.
Proof. rewrite hom_in_unit. eexists. reflexivity. Qed.

Lemma blank_next (s : shock_states fl fl) : reflected_state s = Fin 101325 ->
  next_pressure blank (fin_quant (si 1000000 d_pressure)) (atms_nan 1) (Fin 4) s
  = Ok (atms_nan (1000000 / 405300)).
Proof.
  intros E. unfold next_pressure. rewrite E.
  replace (ct_P blank (Fin 101325)) with (Fin 101325)
    by (cbn [ct_P blank]; now rewrite QLemmas.Reqb_true).
  change (Fin 4 * Fin 101325)%num with (Fin (4 * 101325)).
  unfold q_scale. change (offset_free (atms_nan 1)) with (@Ok unit tt). cbn [bind].
  unfold q_divn. change (offset_free _) with (@Ok unit tt). cbn [bind q_mag q_unit q_reg].
  unfold pydiv. replace (Fin (4 * 101325) =? zero)%num with false.
  2:{ symmetry. apply QLemmas.Reqb_false. unfold Q2R; cbn. lra. }
  cbn [bind]. unfold atms_nan. 
  apply f_equal. unfold fin_quant. cbn [q_mag q_unit q_reg]. f_equal.
  unfold si. cbn [nmul ndiv Num_fl fl2 Num_R q_mag]. apply f_equal. field.
Qed.

Lemma blank_at m : exists s,
  value (calculate_reflected_shock_state blank (fin_quant room) (atms_nan m) tt "gri30.cti" 0 Serial) = Ok s
  /\ reflected_state s = Fin (m * 101325) /\ cj_gas_state s = Fin (m * 101325)
  /\ q_mag (cj_wave_speed s) = NaN
  /\ load_factor (fin_quant (si 0 d_length)) (fin_quant (si 1 d_length)) (fin_quant tube_E)
       (fin_quant (si 1 d_density)) (Fin 0) (Fin (1/10)) s = Ok (Fin 4).
Proof.
  destruct room_K as (t & Ht).
  destruct (blank_shock _ _ 0 "gri30.cti" _ _ Ht (unit_Pa m)) as (s & S1 & S2 & S3 & S4 & S5 & S6).
  exists s. repeat (split; [assumption|]). now apply blank_factor.
Qed.

Theorem C134_refuted :
  exists q s,
    lookup_unit "atm" = Some (q_unit q) /\ q_mag q = Fin (1000000 / 405300)
    /\ value (search_blank "reflected") = Ok (PressureAndFactor q (Fin 4))
    /\ value (search_blank "cj") = Ok (PressureAndFactor q (Fin 4))
    /\ value (calculate_reflected_shock_state blank (fin_quant room) q tt "gri30.cti" 0 Serial) = Ok s
    /\ ct_P blank (reflected_state s) = NaN /\ ct_P blank (cj_gas_state s) = NaN
    /\ q_mag (cj_wave_speed s) = NaN.
Proof.
  destruct (blank_at 1) as (s0 & A1 & A2 & A3 & A4 & A5).
  destruct (blank_at (1000000 / 405300)) as (s & B1 & B2 & B3 & B4 & B5).
  assert (N : ct_P blank (Fin (1000000 / 405300 * 101325)) = NaN).
  { cbn [ct_P blank]. rewrite QLemmas.Reqb_false; [reflexivity|lra]. }
  assert (Hq : quant 0 (@one fl _) "atm" = Ok (atms_nan 1)).
  { unfold quant. change (lookup_unit "atm") with (Some (mult_unit d_pressure (@nofQ fl _ 101325))).
    apply f_equal. unfold atms_nan, fin_quant. f_equal. unfold one. cbn. apply f_equal. unfold Q2R; cbn; lra. }
  exists (atms_nan (1000000 / 405300)), s. split; [reflexivity|]. split; [reflexivity|].
  assert (G : forall name w, which_state name = Some w ->
    value (search_blank name) = Ok (PressureAndFactor (atms_nan (1000000 / 405300)) (Fin 4))).
  { intros name w Hw. unfold search_blank, calculate_max_initial_pressure. rewrite Hw, Hq, bind_pure_ok.
    unfold shock_at. rewrite value_bind, A1. cbn [bind]. rewrite A5, bind_pure_ok.
    change (q_mag (fin_quant (si 1000000 d_pressure))) with (Fin 1000000).
    change (q_mag (atms_nan 1)) with (Fin 1).
    assert (D : forall a, pydiv a (Fin 1000000) = Ok (a / Fin 1000000)%num).
    { intros a. unfold pydiv. replace (Fin 1000000 =? zero)%num with false; [reflexivity|].
      symmetry. apply QLemmas.Reqb_false. unfold Q2R; cbn. lra. }
    rewrite D, bind_pure_ok. rewrite value_bind.
    change (Z.to_nat 500) with (S 499). generalize 499%nat. intros n. cbn [pressure_loop].
    match goal with |- context [(?a <? nabs ?b)%num] => replace (a <? nabs b)%num with true end.
    2:{ symmetry. unfold one. cbn [nabs nsub nmul ndiv nltb Num_fl fl1 fl2 flc nofQ Num_R].
        apply QLemmas.Rltb_true. rewrite (Rabs_pos_eq (1/10000)) by lra.
        rewrite Rabs_left by (unfold Q2R; cbn; lra). unfold Q2R; cbn; lra. }
    rewrite (blank_next s0) by (rewrite A2; f_equal; lra). rewrite bind_pure_ok.
    unfold shock_at. rewrite value_bind, B1. cbn [bind]. rewrite B5, bind_pure_ok.
    replace (ct_P blank (state_at w s)) with NaN by (destruct w; cbn [state_at]; rewrite ?B2, ?B3, N; reflexivity).
    change (q_mag (fin_quant (si 1000000 d_pressure))) with (Fin 1000000).
    rewrite D, bind_pure_ok.
    change ((NaN * Fin 4 - Fin 1000000) / Fin 1000000)%num with NaN.
    destruct n; cbn [pressure_loop]; reflexivity. }
  split; [exact (G "reflected" AtReflected eq_refl)|]. split; [exact (G "cj" AtCj eq_refl)|].
  split; [exact B1|]. rewrite B2, B3. split; [exact N|]. split; [exact N|]. exact B4.
Qed.
Print Assumptions C134_refuted.

(** What holds, for any chemistry, nan or not: the trials of the search, the first at 1 atm,
    not more than [max_iterations] others; the last is the answer; at every other one the
    chosen pressure is an ordinary number that misses the limit by more than the tolerance;
    and at the last one, if there was one after the first, it is within the tolerance or nan,
    unless max_iterations is used up. *)
Theorem C134_partial :
  forall {G X} (L : cantera fl G X) tube_id tube_od T x mech limit E rho nu pm use reg t max_it p
         name both a m,
    name = "reflected" \/ name = "cj" -> q_mag limit = Fin m ->
    value (calculate_max_initial_pressure L tube_id tube_od T x mech limit E rho nu pm use reg
             (Fin t) max_it p name both) = Ok a ->
    let evaluated (e : evaluation G) :=
      value (calculate_reflected_shock_state L T (at_pressure e) x mech reg p) = Ok (result_of e) in
    exists e0 trials,
      evaluated e0 /\ one_atmosphere (at_pressure e0) reg
      /\ (length trials <= Z.to_nat max_it)%nat /\ Forall evaluated trials
      /\ (let e := last trials e0 in
          a = if both then PressureAndFactor (at_pressure e) (with_factor e) else Pressure (at_pressure e))
      /\ (forall e earlier, trials = (earlier ++ [e])%list ->
            Forall (outside L name m (Rabs t)) earlier
            /\ (length trials = Z.to_nat max_it
                \/ (exists g, chosen (result_of e) name g /\ ct_P L g = NaN)
                \/ within L name m (Rabs t) e)).
Proof.
  intros * Hn Hm H. cbv zeta.
  assert (W : exists w, name = name_of w) by (destruct Hn as [-> | ->]; [exists AtReflected|exists AtCj]; reflexivity).
  destruct W as (w & ->). exact (search_trials _ _ _ _ _ _ _ _ _ _ _ _ _ _ _ _ _ _ _ _ Hm H).
Qed.
Print Assumptions C134_partial.
