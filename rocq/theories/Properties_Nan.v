(** * Properties_Nan: C124-C128, the float nan as an argument.

    [fl] (NanM.v) is the real numbers with [NaN] added; the functions are the functions of
    the model, at that number type.  [nan_arg], [no_number], [arg_or_nan], [fin_arg], ...:
    NanSpec.v. *)
From Coq Require Import String ZArith QArith Reals Qreals List Bool Lra Lia.
From Verif Require Import PyBase Pint UnitsM Spec QLemmas Interp Csv Tables TubeM WindowM BoltSpec BoltM BoltP
  DdtM Gas FitM SdM ThermoM GasP ThermoP RunUpM InitPressureM FlangeM
  FitP ExampleGas NanM NanSpec NanP NanLift NanAccept NanGas
  Properties_Window Properties_Tube Properties_Thermo Properties_InitPressure Properties_Bolt.
Import ListNotations.
Local Open Scope string_scope.
Local Open Scope R_scope.
Local Opaque THREAD_SPECS FLANGE_LIMITS.

(** ** C124: nan in, nan out *)
Theorem C124_never_an_ordinary_number :
  (forall L W t P M reg, nan_arg L \/ nan_arg W \/ nan_arg t \/ nan_arg P \/ nan_arg M ->
     no_number (safety_factor L W t P M reg))
  /\ (forall L W s P M reg,
        nan_arg L \/ nan_arg W \/ s = SfNum NaN \/ nan_arg P \/ nan_arg M ->
        no_quantity (minimum_thickness L W s P M reg))
  /\ (forall d br reg, nan_arg d -> no_quantity (calculate_blockage_diameter d br reg))
  /\ (forall d b reg, nan_arg d \/ nan_arg b -> no_number (calculate_blockage_ratio d b reg))
  /\ (forall i o s k, nan_quant i \/ nan_quant o \/ nan_quant s \/ k = NaN ->
        no_quantity (calculate_max_pressure i o s k))
  /\ (forall t mat w reg, nan_arg t -> no_quantity (calculate_max_stress t mat w reg))
  /\ (forall {G X} (L : cantera fl G X) br D T P x mech reg phase, br = NaN \/ nan_arg D ->
        no_quantity (value (calculate_run_up L br D T P x mech reg phase))).
Proof.
  repeat split; intros;
    eauto using nan_safety_factor, nan_thickness, nan_blockage_diameter, nan_blockage_ratio,
      nan_max_pressure, nan_max_stress.
  apply nan_run_up; assumption.
Qed.
Print Assumptions C124_never_an_ordinary_number.

(** A blockage ratio of nan (number or text) is refused, as is a flange pressure of nan. *)
Theorem C124_refused :
  (forall d br reg, br = BrNum NaN \/ br = BrStr (Some NaN) ->
     calculate_blockage_diameter d br reg = Err (ValueError "Blockage ratio outside of 0<BR<1"))
  /\ (forall strict P T mat reg, nan_arg P -> raises (get_class strict P T mat reg)).
Proof. split; intros; auto using nan_blockage_refused, nan_get_class. Qed.
Print Assumptions C124_refused.

(** The other checks let nan through: a call that works goes on working, with the answer
    nan in the same unit, when some of its numbers are replaced by nan. *)
Theorem C124_accepted_window :
  forall L L' W W' t t' P P' M M' reg v,
    safety_factor L W t P M reg = Ok v ->
    arg_or_nan L L' -> arg_or_nan W W' -> arg_or_nan t t' -> arg_or_nan P P' -> arg_or_nan M M' ->
    nan_arg L' \/ nan_arg W' \/ nan_arg t' \/ nan_arg P' \/ nan_arg M' ->
    safety_factor L' W' t' P' M' reg = Ok NaN.
Proof.
  intros * E H1 H2 H3 H4 H5 N.
  destruct (ac_safety_factor _ _ _ _ _ _ _ _ _ _ reg H1 H2 H3 H4 H5 v E) as (v' & E' & _).
  rewrite E'. now rewrite (nan_safety_factor _ _ _ _ _ _ N _ E').
Qed.
Print Assumptions C124_accepted_window.
Theorem C124_accepted_thickness :
  forall L L' W W' s s' P P' M M' reg q,
    minimum_thickness L W s P M reg = Ok q ->
    arg_or_nan L L' -> arg_or_nan W W' -> (s' = s \/ exists x, s = SfNum x /\ s' = SfNum NaN) ->
    arg_or_nan P P' -> arg_or_nan M M' ->
    nan_arg L' \/ nan_arg W' \/ s' = SfNum NaN \/ nan_arg P' \/ nan_arg M' ->
    minimum_thickness L' W' s' P' M' reg = Ok (mkQ NaN (q_unit q) (q_reg q)).
Proof.
  intros * E H1 H2 H3 H4 H5 N.
  destruct (ac_thickness _ _ _ _ _ _ _ _ _ _ reg H1 H2 H3 H4 H5 q E) as ([m u r] & E' & U & G & _).
  rewrite E'. pose proof (nan_thickness _ _ _ _ _ _ N _ E') as Z. cbn in *. now rewrite Z, U, G.
Qed.
Print Assumptions C124_accepted_thickness.
Theorem C124_accepted_blockage :
  (forall d d' br reg q, calculate_blockage_diameter d br reg = Ok q ->
     arg_or_nan d d' -> nan_arg d' ->
     calculate_blockage_diameter d' br reg = Ok (mkQ NaN (q_unit q) (q_reg q)))
  /\ (forall d d' b b' reg v, calculate_blockage_ratio d b reg = Ok v ->
        arg_or_nan d d' -> arg_or_nan b b' -> nan_arg d' \/ nan_arg b' ->
        calculate_blockage_ratio d' b' reg = Ok NaN).
Proof.
  split.
  - intros * E H N. destruct (ac_blockage_diameter _ _ br reg H q E) as ([m u r] & E' & U & G & _).
    rewrite E'. pose proof (nan_blockage_diameter _ _ _ N _ E') as Z. cbn in *. now rewrite Z, U, G.
  - intros * E H1 H2 N. destruct (ac_blockage_ratio _ _ _ _ reg H1 H2 v E) as (v' & E' & _).
    rewrite E'. now rewrite (nan_blockage_ratio _ _ _ N _ E').
Qed.
Print Assumptions C124_accepted_blockage.
Theorem C124_accepted_tube :
  (forall i i' o o' s s' k k' q, calculate_max_pressure i o s k = Ok q ->
     q_or_nan i i' -> q_or_nan o o' -> q_or_nan s s' -> or_nan k k' ->
     nan_quant i' \/ nan_quant o' \/ nan_quant s' \/ k' = NaN ->
     calculate_max_pressure i' o' s' k' = Ok (mkQ NaN (q_unit q) (q_reg q)))
  /\ (forall t t' mat w reg q, calculate_max_stress t mat w reg = Ok q ->
        arg_or_nan t t' -> nan_arg t' ->
        calculate_max_stress t' mat w reg = Ok (mkQ NaN (q_unit q) (q_reg q))).
Proof.
  split.
  - intros * E H1 H2 H3 H4 N.
    destruct (ac_max_pressure _ _ _ _ _ _ _ _ H1 H2 H3 H4 q E) as ([m u r] & E' & U & G & _).
    rewrite E'. pose proof (nan_max_pressure _ _ _ _ N _ E') as Z. cbn in *. now rewrite Z, U, G.
  - intros * E H N. destruct (ac_max_stress _ _ mat w reg H q E) as ([m u r] & E' & U & G & _).
    rewrite E'. pose proof (nan_max_stress _ _ _ _ N _ E') as Z. cbn in *. now rewrite Z, U, G.
Qed.
Print Assumptions C124_accepted_tube.

(** A window of 5.75 in x 2.5 in x 1 in, 197.9 MPa, under a pressure of nan MPa. *)
Example C124_case :
  safety_factor (PSeq [ENum (Fin 5.75); EStr "in"]) (PSeq [ENum (Fin 2.5); EStr "in"])
    (PSeq [ENum (Fin 1); EStr "in"]) (PSeq [ENum NaN; EStr "MPa"])
    (PSeq [ENum (Fin 197.9); EStr "MPa"]) 0 = Ok NaN.
Proof.
  destruct (C15_minimum_thickness_is_minimum (PSeq [ENum 5.75; EStr "in"]) (PSeq [ENum 2.5; EStr "in"])
    (PSeq [ENum 1; EStr "in"]) (PSeq [ENum 10; EStr "MPa"]) (PSeq [ENum 197.9; EStr "MPa"])
    _ _ _ _ _ 4 0 (denotes_inch _) (denotes_inch _) (denotes_inch _) (denotes_MPa _) (denotes_MPa _))
    as (q & tmin & v & _ & _ & E & _); try lra.
  pose proof (lift_safety_factor (PSeq [ENum 5.75; EStr "in"]) (PSeq [ENum 2.5; EStr "in"])
    (PSeq [ENum 1; EStr "in"]) (PSeq [ENum 10; EStr "MPa"]) (PSeq [ENum 197.9; EStr "MPa"]) 0) as F.
  rewrite E in F. cbn [fin_arg fin_elem map fin_result] in F.
  eapply C124_accepted_window; [exact F|constructor..|]. do 3 right. left. constructor.
Qed.

(** ** C125: the dynamic load factor *)
Theorem C125_cautious_side :
  forall i o c e d nu pm n,
    dynamic_load_factor i o c e d nu pm = Ok n ->
    nan_quant i \/ nan_quant o \/ nan_quant c \/ nan_quant e \/ nan_quant d \/ nu = NaN ->
    n = 4%nat.
Proof. exact nan_dlf. Qed.
Print Assumptions C125_cautious_side.
Theorem C125_accepted :
  forall i i' o o' c c' e e' d d' nu nu' pm n,
    dynamic_load_factor i o c e d nu pm = Ok n ->
    q_or_nan i i' -> q_or_nan o o' -> q_or_nan c c' -> q_or_nan e e' -> q_or_nan d d' ->
    or_nan nu nu' ->
    nan_quant i' \/ nan_quant o' \/ nan_quant c' \/ nan_quant e' \/ nan_quant d' \/ nu' = NaN ->
    dynamic_load_factor i' o' c' e' d' nu' pm = Ok 4%nat.
Proof.
  intros * E H1 H2 H3 H4 H5 H6 N.
  destruct (ac_dlf _ _ _ _ _ _ _ _ _ _ _ _ pm H1 H2 H3 H4 H5 H6 n E) as (n' & E' & _).
  rewrite E'. now rewrite (nan_dlf _ _ _ _ _ _ _ _ E' N).
Qed.
Print Assumptions C125_accepted.
Theorem C125_margin_refused :
  forall i o c e d nu, raises (dynamic_load_factor i o c e d nu NaN).
Proof. exact nan_margin. Qed.
Print Assumptions C125_margin_refused.
(** The tube of C18, critical velocity 2 m/s, with a nan wave speed: 4, where 2000 m/s
    gives 2. *)
Example C125_case :
  dynamic_load_factor (fin_quant (si 0 d_length)) (fin_quant (si 1 d_length))
    (mkQ NaN (q_unit (fin_quant (si 2000 d_velocity))) 0) (fin_quant tube_E)
    (fin_quant (si 1 d_density)) (Fin 0) (Fin (1/10)) = Ok 4%nat
  /\ dynamic_load_factor (fin_quant (si 0 d_length)) (fin_quant (si 1 d_length))
    (fin_quant (si 2000 d_velocity)) (fin_quant tube_E)
    (fin_quant (si 1 d_density)) (Fin 0) (Fin (1/10)) = Ok 2%nat.
Proof.
  assert (E : dynamic_load_factor (fin_quant (si 0 d_length)) (fin_quant (si 1 d_length))
    (fin_quant (si 2000 d_velocity)) (fin_quant tube_E)
    (fin_quant (si 1 d_density)) (Fin 0) (Fin (1/10)) = Ok 2%nat)
    by (rewrite lift_dlf; apply example_factor; repeat split).
  split; [|exact E].
  eapply C125_accepted; [exact E|try apply qn_refl..|apply on_refl|right; right; left; reflexivity].
  split; [reflexivity|split; [reflexivity|now right]].
Qed.

(** ** C126: bolts *)
Theorem C126_partial :
  forall P a n size cls b p e reg f,
    calculate_safety_factors P a n size cls b p e reg = Ok f ->
    (nan_arg P \/ nan_arg a \/ n = NaN -> sf_bolt f = NaN /\ sf_plate f = NaN)
    /\ (nan_arg b -> sf_bolt f = NaN)
    /\ (nan_arg p -> sf_plate f = NaN)
    /\ (nan_arg e -> sf_plate f = NaN /\ sf_warning f = false).
Proof. exact nan_bolt. Qed.
Print Assumptions C126_partial.

Lemma longer len xl y : denotes len d_length xl ->
  exists len2 xl2, denotes len2 d_length xl2 /\ 0 < xl2 /\ y <= xl2
    /\ forall len', arg_or_nan (fin_arg len) len' -> nan_arg len' -> arg_or_nan (fin_arg len2) len'.
Proof.
  intros D. inversion D as [q d x Hw Hd Hx|m s u d x Hu Hd Hx]; subst.
  - destruct Hw as (H0 & Hoff).
    assert (O : u_off (q_unit q) = None).
    { destruct (u_off (q_unit q)) eqn:E; [|reflexivity]. exfalso.
      assert (X : u_dim (q_unit q) = d_temperature) by (apply Hoff; congruence).
      rewrite X in Hd. discriminate. }
    set (z := Rmax y 1 / u_scale (q_unit q)).
    exists (PQuant (mkQ z (q_unit q) (q_reg q))), (Rmax y 1).
    split; [|split; [|split]].
    + apply denotes_quantity; cbn [q_unit q_mag]; [split; assumption|assumption|].
      unfold worth, z. rewrite O. field. lra.
    + pose proof (Rmax_r y 1). lra.
    + apply Rmax_l.
    + intros len' A N. cbn [fin_arg] in *. unfold fin_quant in *. cbn [q_mag q_unit q_reg] in *.
      inversion A; subst; [inversion N|constructor].
  - pose proof (lookup_wf _ _ Hu) as (H0 & Hoff).
    assert (O : u_off u = None).
    { destruct (u_off u) eqn:E; [|reflexivity]. exfalso.
      assert (X : u_dim u = d_temperature) by (apply Hoff; congruence).
      rewrite X in Hd. discriminate. }
    exists (PSeq [ENum (Rmax y 1 / u_scale u); EStr s]), (Rmax y 1).
    split; [|split; [|split]].
    + eapply denotes_pair; [exact Hu|exact Hd|]. unfold worth. rewrite O. field. lra.
    + pose proof (Rmax_r y 1). lra.
    + apply Rmax_l.
    + intros len' A N. cbn [fin_arg map fin_elem] in *. inversion A; subst; [inversion N|constructor].
Qed.

(** With nan for the engagement length and everything else in order, the bolt's factor is
    that of a bolt engaged long enough for its tension area to govern, there is no
    warning, and only the plate's factor is nan. *)
Theorem C126_engagement :
  forall (size grade : string) (t : thread) mp wa (N : R) bolt plate len len'
         (xP xA xb xp xl : R) (reg : nat),
    listed_thread size grade t ->
    denotes mp d_pressure xP -> denotes wa d_area xA -> denotes bolt d_pressure xb ->
    denotes plate d_pressure xp -> denotes len d_length xl ->
    0 <= xP -> xP <> atmosphere -> 0 < xA -> N <> 0 -> 0 <= xb -> 0 < xp ->
    arg_or_nan (fin_arg len) len' -> nan_arg len' ->
    exists f, calculate_safety_factors (fin_arg mp) (fin_arg wa) (Fin N) size grade
        (fin_arg bolt) (fin_arg plate) len' reg = Ok f
      /\ sf_bolt f = Fin (xb * area_in_tension t xb / ((xP - atmosphere) * xA / N))
      /\ sf_plate f = NaN /\ sf_warning f = false.
Proof.
  intros * T HP HA Hb Hp Hl P0 P1 P2 P3 P4 P5 A Na.
  pose proof (screw_shear_pos t (table_sound _ _ _ T)) as S0.
  destruct (longer len xl (area_in_tension t xb / screw_shear_per_length t) Hl)
    as (len2 & xl2 & Hl2 & L0 & Ly & A2).
  destruct (safety_factors_ok size grade t mp wa N bolt plate len2 xP xA xb xp xl2 reg
              T HP HA Hb Hp Hl2 P0 P1 P2 P3 P4 P5 L0) as (f & F & Fb & _ & Fw).
  assert (G : area_in_tension t xb <= area_in_shear t xl2).
  { unfold area_in_shear. apply Rmult_le_compat_l with (r := screw_shear_per_length t) in Ly; [|lra].
    replace (screw_shear_per_length t * (area_in_tension t xb / screw_shear_per_length t))
      with (area_in_tension t xb) in Ly by (field; lra). exact Ly. }
  assert (W : sf_warning f = false).
  { destruct (sf_warning f); [|reflexivity]. exfalso.
    assert (area_in_shear t xl2 < area_in_tension t xb) by now apply Fw. lra. }
  rewrite Rmin_left in Fb by exact G.
  pose proof (lift_bolt mp wa N size grade bolt plate len2 reg) as Lf. rewrite F in Lf.
  destruct (ac_bolt (fin_arg mp) (fin_arg wa) (Fin N) size grade (fin_arg bolt) (fin_arg plate)
              (fin_arg len2) len' reg (A2 _ A Na) _ Lf W) as (f' & F' & E1 & _ & E3).
  exists f'. split; [exact F'|]. split; [rewrite E1; cbn; now rewrite Fb|].
  split; [|exact E3]. exact (proj1 (proj2 (proj2 (proj2 (nan_bolt _ _ _ _ _ _ _ _ _ _ F'))) Na)).
Qed.
Print Assumptions C126_engagement.
(** Eight 1/4-20 bolts, nan inches of engagement, 10 MPa on one square inch. *)
Theorem C126_refuted :
  exists f x, calculate_safety_factors (PSeq [ENum (Fin 10); EStr "MPa"]) (PSeq [ENum (Fin 1); EStr "in^2"])
      (Fin 8) "1/4-20" "2" (PSeq [ENum (Fin 200); EStr "MPa"]) (PSeq [ENum (Fin 200); EStr "MPa"])
      (PSeq [ENum NaN; EStr "in"]) 0 = Ok f
    /\ sf_bolt f = Fin x /\ 0 < x /\ sf_plate f = NaN /\ sf_warning f = false.
Proof.
  destruct quarter_inputs as (A & B & C & _ & D).
  destruct (C126_engagement "1/4-20" "2" _ _ _ 8 _ _ _ (PSeq [ENum NaN; EStr "in"]) _ _ _ _ _ 0
              quarter_twenty D A C C B) as (f & F & Fb & Fp & Fw);
    try (unfold atmosphere; lra); [constructor|constructor|].
  exists f. eexists. split; [exact F|]. split; [exact Fb|]. split; [|now split].
  pose proof (tension_pos _ (200 * 1000000) (table_sound _ _ _ quarter_twenty)).
  apply Rdiv_lt_0_compat; [|unfold atmosphere; lra]. apply Rmult_lt_0_compat; [lra|assumption].
Qed.
Print Assumptions C126_refuted.

(** ** C127: the initial pressure *)
Theorem C127_nan_limit_or_tolerance :
  forall {G X} (L : cantera fl G X) tube_id tube_od T x mech limit E rho nu pm use reg tol max_it p
         name q s n,
    nan_quant limit \/ tol = NaN -> q_mag limit <> Fin 0 ->
    name = "reflected" \/ name = "cj" ->
    one_atmosphere q reg ->
    value (calculate_reflected_shock_state L T q x mech reg p) = Ok s ->
    dynamic_load_factor tube_id tube_od (cj_wave_speed s) E rho nu pm = Ok n ->
    value (calculate_max_initial_pressure L tube_id tube_od T x mech limit E rho nu pm use reg
             tol max_it p name true) = Ok (PressureAndFactor q (Fin (INR n)))
    /\ value (calculate_max_initial_pressure L tube_id tube_od T x mech limit E rho nu pm use reg
             tol max_it p name false) = Ok (Pressure q).
Proof.
  intros * N Z W (U & M & R) Hs Hn.
  assert (Q : q = one_atm reg).
  { destruct q as [m u r]. cbn in U, M, R. subst m r. unfold one_atm. injection U as <-.
    unfold one. cbn [nofQ Num_fl]. f_equal. f_equal. unfold Q2R; cbn; lra. }
  assert (W' : which_state name <> None) by (destruct W as [-> | ->]; discriminate).
  assert (D : load_factor tube_id tube_od E rho nu pm s = Ok (Fin (INR n))).
  { unfold load_factor. rewrite Hn. cbn [bind]. f_equal. exact (f_equal Fin (n_of_nat_R n)). }
  split; (rewrite nan_search by assumption; rewrite <- Q; unfold shock_at;
    rewrite value_bind, Hs; cbn [bind]; rewrite D, bind_pure_ok; reflexivity).
Qed.
Print Assumptions C127_nan_limit_or_tolerance.

Lemma with_nan_same {G X} (L : cantera R G X) : same_gas L (with_nan L).
Proof. split; reflexivity. Qed.

Lemma value_fin {A B} (f : A -> B) (r : io R A) : value (fin_io f r) = fin_result f (value r).
Proof. reflexivity. Qed.

(** The invented gas in the invented tube (C31), with a limit of nan Pa, or with a limit of
    1 MPa and a tolerance of nan: 1 atm, load factor 2, at which the reflected pressure is
    7.3 MPa. *)
Definition search_nan (limit : quantity fl) (tol : fl) (name : string) : io fl (answer fl) :=
  calculate_max_initial_pressure (with_nan example_gas) (fin_quant (si 0 d_length))
    (fin_quant (si 1 d_length)) (fin_quant room) fresh "gri30.cti" limit (fin_quant tube_E)
    (fin_quant (si 1 d_density)) (Fin 0) (Fin (1/10)) true 0 tol 500 Serial name true.
Theorem C127_refuted :
  exists q s,
    one_atmosphere q 0
    /\ value (search_nan (mkQ NaN (q_unit (fin_quant (si 1 d_pressure))) 0) (Fin (1/10000)) "reflected")
       = Ok (PressureAndFactor q (Fin 2))
    /\ value (search_nan (fin_quant (si 1000000 d_pressure)) NaN "reflected")
       = Ok (PressureAndFactor q (Fin 2))
    /\ value (calculate_reflected_shock_state (with_nan example_gas) (fin_quant room) q fresh
                "gri30.cti" 0 Serial) = Ok s
    /\ exists x, ct_P (with_nan example_gas) (reflected_state s) = Fin x /\ 3 * 1000000 < x.
Proof.
  set (q0 := mkQ 1 (mult_unit d_pressure (lit 101325)%num) 0).
  assert (Hq0 : is_in q0 1 "atm" 0) by (repeat split).
  destruct (example_proportional room "gri30.cti" Serial room_300 (or_introl eq_refl) q0 (1 * 101325))
    as (s & Hs & Hr & _ & Hk); [apply (atm_denotes _ _ 0); exact Hq0|lra|].
  pose proof (lift_shock _ _ (with_nan_same example_gas) room q0 fresh "gri30.cti" 0 Serial Serial
                sp_serial) as Ls.
  apply (f_equal value) in Ls.
  rewrite value_fin in Ls.
  rewrite Hs in Ls. cbn [fin_result] in Ls.
  assert (Ha : one_atmosphere (fin_quant q0) 0) by (repeat split).
  assert (Hd : dynamic_load_factor (fin_quant (si 0 d_length)) (fin_quant (si 1 d_length))
                 (cj_wave_speed (fin_shock s)) (fin_quant tube_E) (fin_quant (si 1 d_density))
                 (Fin 0) (Fin (1/10)) = Ok 2%nat).
  { cbn [fin_shock cj_wave_speed]. rewrite lift_dlf. exact Hk. }
  exists (fin_quant q0), (fin_shock s). split; [exact Ha|].
  replace (Fin 2) with (Fin (INR 2)) by (f_equal; cbn; lra).
  split; [|split; [|split]].
  - unfold search_nan. refine (proj1 (C127_nan_limit_or_tolerance _ _ _ _ _ _ _ _ _ _ _ _ _ _ _ _ _ _ _ _
      _ _ (or_introl eq_refl) Ha Ls Hd)); [left; reflexivity|discriminate].
  - unfold search_nan. refine (proj1 (C127_nan_limit_or_tolerance _ _ _ _ _ _ _ _ _ _ _ _ _ _ _ _ _ _ _ _
      _ _ (or_introl eq_refl) Ha Ls Hd)); [right; reflexivity|]. cbn. intros [= X]. lra.
  - exact Ls.
  - eexists. split; [reflexivity|]. cbn [fin_shock reflected_state]. rewrite Hr. unfold ratio_r. lra.
Qed.
Print Assumptions C127_refuted.

(** With ordinary numbers the search does what C31-C36, C80-C84 say of it: the same calls
    to cantera, the same answer, no nan. *)
Theorem C127_partial :
  forall {G X} (L : cantera R G X) (L' : cantera fl G X) p p' i o T x mech limit E rho nu pm use reg
         tol max_it name both,
    same_gas L L' -> same_pool p p' ->
    calculate_max_initial_pressure L' (fin_quant i) (fin_quant o) (fin_quant T) x mech
      (fin_quant limit) (fin_quant E) (fin_quant rho) (Fin nu) (Fin pm) use reg (Fin tol) max_it p'
      name both
    = fin_io fin_answer
        (calculate_max_initial_pressure L i o T x mech limit E rho nu pm use reg tol max_it p name both).
Proof. intros. apply lift_initial_pressure; assumption. Qed.
Print Assumptions C127_partial.

(** ** C128: ordinary numbers stay ordinary numbers *)
Theorem C128_ordinary_stays_ordinary :
  (forall L W t P M reg,
     safety_factor (fin_arg L) (fin_arg W) (fin_arg t) (fin_arg P) (fin_arg M) reg
     = fin_result Fin (safety_factor L W t P M reg))
  /\ (forall L W s P M reg,
     minimum_thickness (fin_arg L) (fin_arg W) (fin_sf s) (fin_arg P) (fin_arg M) reg
     = fin_result fin_quant (minimum_thickness L W s P M reg))
  /\ (forall d b reg, calculate_blockage_diameter (fin_arg d) (fin_br b) reg
     = fin_result fin_quant (calculate_blockage_diameter d b reg))
  /\ (forall d b reg, calculate_blockage_ratio (fin_arg d) (fin_arg b) reg
     = fin_result Fin (calculate_blockage_ratio d b reg))
  /\ (forall i o s k, calculate_max_pressure (fin_quant i) (fin_quant o) (fin_quant s) (Fin k)
     = fin_result fin_quant (calculate_max_pressure i o s k))
  /\ (forall i o c e d nu pm,
     dynamic_load_factor (fin_quant i) (fin_quant o) (fin_quant c) (fin_quant e) (fin_quant d)
       (Fin nu) (Fin pm) = dynamic_load_factor i o c e d nu pm)
  /\ (forall t mat w reg, calculate_max_stress (fin_arg t) mat w reg
     = fin_result fin_quant (calculate_max_stress t mat w reg))
  /\ (forall P a n size cls b p e reg,
     calculate_safety_factors (fin_arg P) (fin_arg a) (Fin n) size cls (fin_arg b) (fin_arg p)
       (fin_arg e) reg
     = fin_result fin_factors (calculate_safety_factors P a n size cls b p e reg))
  /\ (forall strict c t mat, get_max_pressure strict c (fin_arg t) mat
     = fin_result fin_quant (get_max_pressure strict c t mat))
  /\ (forall strict c p mat, get_max_temperature strict c (fin_arg p) mat
     = fin_result fin_quant (get_max_temperature strict c p mat))
  /\ (forall strict p t mat reg, get_class strict (fin_arg p) (fin_arg t) mat reg
     = get_class strict p t mat reg).
Proof.
  repeat split; intros; auto using lift_safety_factor, lift_thickness, lift_blockage_diameter,
    lift_blockage_ratio, lift_max_pressure, lift_dlf, lift_max_stress, lift_bolt,
    lift_flange_pressure, lift_flange_temperature, lift_get_class.
Qed.
Print Assumptions C128_ordinary_stays_ordinary.
(** The same for the calculations with a gas, cantera included: if cantera gives ordinary
    numbers, so do they, and they ask it the same questions in the same order. *)
Theorem C128_with_a_gas :
  forall {G X} (L : cantera R G X) (L' : cantera fl G X) p p', same_gas L L' -> same_pool p p' ->
  (forall T P x m ph reg, calculate_laminar_flame_speed L' (fin_arg T) (fin_arg P) x m ph reg
     = fin_io fin_quant (calculate_laminar_flame_speed L T P x m ph reg))
  /\ (forall T P x m ph reg, get_eq_sound_speed L' (fin_arg T) (fin_arg P) x m ph reg
     = fin_io fin_quant (get_eq_sound_speed L T P x m ph reg))
  /\ (forall T P x m reg, calculate_reflected_shock_state L' (fin_quant T) (fin_quant P) x m reg p'
     = fin_io fin_shock (calculate_reflected_shock_state L T P x m reg p))
  /\ (forall br D T P x m reg ph,
     calculate_run_up L' (Fin br) (fin_arg D) (fin_arg T) (fin_arg P) x m reg ph
     = fin_io fin_quant (calculate_run_up L br D T P x m reg ph)).
Proof.
  intros * S Sp. repeat split; intros.
  - now apply lift_flame.
  - now apply lift_sound.
  - now apply lift_shock.
  - now apply lift_run_up.
Qed.
Print Assumptions C128_with_a_gas.
(** Such libraries and workers exist. *)
Example C128_case : same_gas example_gas (with_nan example_gas)
  /\ same_pool Serial Serial
  /\ same_pool (Workers (fun _ l => rev l)) (Workers (fun _ l => rev l)).
Proof.
  split; [apply with_nan_same|]. split; [constructor|]. constructor. intros n l. symmetry. apply map_rev.
Qed.
