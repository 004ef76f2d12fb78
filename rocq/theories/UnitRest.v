(** * UnitRest: unit independence of the functions UnitIndep.v leaves out. *)
From Coq Require Import String ZArith QArith Reals Qreals List Bool Lra Psatz.
From Verif Require Import PyBase Pint UnitsM Spec QLemmas Interp Csv Tables TubeM FlangeM UnitIndep
  Gas GasP FitM SdM ThermoM SdSpec SdP FitP ThermoP RunUpM RunUpP InitPressureM UnitRestSpec.
Import ListNotations.
Local Open Scope R_scope.

Lemma sr_bind {A B C} (P : B -> B -> Prop) (Q : C -> C -> Prop) (r1 r2 : io A B) f1 f2 :
  same_run P r1 r2 -> (forall a b, P a b -> same_run Q (f1 a) (f2 b)) ->
  same_run Q (io_bind r1 f1) (io_bind r2 f2).
Proof.
  intros [T V] K. destruct r1 as [t1 [a|e]], r2 as [t2 [b|e']]; cbn in T, V; try contradiction.
  - subst t2. destruct (K a b V) as [T' V']. unfold io_bind. cbn. split; cbn.
    + unfold trace in T'. now rewrite T'.
    + exact V'.
  - subst. unfold io_bind. cbn. split; reflexivity.
Qed.
Lemma sr_pure {A B} (P : B -> B -> Prop) (r1 r2 : result B) :
  same_outcome P r1 r2 -> same_run (A:=A) P (pure r1) (pure r2).
Proof. intros H. split; [reflexivity|exact H]. Qed.
Lemma sr_eq {A B} (r1 r2 : io A B) : r1 = r2 -> same_run eq r1 r2.
Proof. intros ->. split; [reflexivity|]. now apply so_eq. Qed.

(** arguments of any dimension with the same physical value *)
Lemma parsed_check q1 q2 d x r s pos :
  parsed q1 d x r -> parsed q2 d x r -> check_q q1 s pos = check_q q2 s pos.
Proof.
  intros H1 H2. unfold check_q, check_pint_quantity; cbn [bind].
  change (base_mag {| q_mag := q_mag q1; q_unit := q_unit q1; q_reg := 0 |}) with (base_mag q1).
  change (base_mag {| q_mag := q_mag q2; q_unit := q_unit q2; q_reg := 0 |}) with (base_mag q2).
  rewrite (parsed_base_mag _ _ _ _ H1), (parsed_base_mag _ _ _ _ H2).
  destruct H1 as (_ & -> & _), H2 as (_ & -> & _). reflexivity.
Qed.
Lemma parsed_in_unit q1 q2 d x r1 r2 s :
  parsed q1 d x r1 -> parsed q2 d x r2 -> in_unit q1 s = in_unit q2 s.
Proof.
  intros H1 H2. unfold in_unit, q_to_str. destruct (lookup_unit s); [|reflexivity].
  unfold q_to. rewrite (parsed_base_mag _ _ _ _ H1), (parsed_base_mag _ _ _ _ H2).
  destruct H1 as (_ & -> & _), H2 as (_ & -> & _). destruct (dim_eqb _ _); reflexivity.
Qed.
Lemma parsed_to_str q1 q2 d x r s :
  parsed q1 d x r -> parsed q2 d x r -> q_to_str q1 s = q_to_str q2 s.
Proof.
  intros H1 H2. unfold q_to_str. destruct (lookup_unit s); [|reflexivity].
  unfold q_to. rewrite (parsed_base_mag _ _ _ _ H1), (parsed_base_mag _ _ _ _ H2).
  destruct H1 as (_ & -> & _ & ->), H2 as (_ & -> & _ & ->). reflexivity.
Qed.

Lemma so_pow q1 q2 e : same_value q1 q2 -> same_outcome same_value (q_pow q1 e) (q_pow q2 e).
Proof.
  intros Hq. pose proof (sv_off _ _ Hq) as [O1 O2].
  destruct Hq as (d & x & r & H1 & H2).
  destruct (dim_eqb d d_none) eqn:Ed.
  - apply dim_eqb_eq in Ed as ->. destruct (Rlt_or_le x 0) as [N|N].
    + unfold q_pow; rewrite O1, O2; cbn [bind].
      destruct (stands_mag_sign _ _ _ _ H1) as [S1 _], (stands_mag_sign _ _ _ _ H2) as [S2 _].
      destruct H1 as (-> & _), H2 as (-> & _). rewrite dim_eqb_refl. rnum.
      rewrite zero_R, !Rltb_true by (now apply S1 || now apply S2). reflexivity.
    + eapply so_returns; eapply q_pow_den; eauto.
  - unfold q_pow; rewrite O1, O2; cbn [bind].
    destruct H1 as (-> & _), H2 as (-> & _). rewrite Ed. reflexivity.
Qed.
Lemma so_log q1 q2 : same_value q1 q2 -> same_outcome same_value (q_log q1) (q_log q2).
Proof.
  intros (d & x & r & H1 & H2).
  destruct (dim_eqb d d_none) eqn:Ed.
  - apply dim_eqb_eq in Ed as ->. destruct (Rle_or_lt x 0) as [N|N].
    + unfold q_log. rewrite (stands_base _ _ _ _ H1), (stands_base _ _ _ _ H2).
      destruct H1 as (-> & _), H2 as (-> & _). rewrite dim_eqb_refl. rnum.
      rewrite zero_R, !Rltb_false by exact N. reflexivity.
    + eapply so_returns; eapply q_log_den; eauto.
  - unfold q_log. destruct H1 as (-> & _), H2 as (-> & _). rewrite Ed. reflexivity.
Qed.
Lemma sv_base q1 q2 : same_value q1 q2 -> same_value (to_base_units q1) (to_base_units q2).
Proof. intros (d & x & r & H1 & H2). exists d, x, r. split; now apply base_stands. Qed.
Lemma sv_refl q d x r : stands_for q d x r -> same_value q q.
Proof. intros H. exists d, x, r. auto. Qed.

(** ** calculate_run_up *)
Ltac ur :=
  match goal with
  | |- same_outcome _ (bind (n_divq npdiv _ _) _) _ =>
    eapply so_bind; [eapply (so_ndivq npdiv _ _ _ npdiv_good); eauto| intros ? ? ?]
  | |- same_outcome _ (bind (q_pow _ _) _) _ =>
    eapply so_bind; [eapply so_pow; eauto| intros ? ? ?]
  | |- same_outcome _ (bind (q_log _) _) _ =>
    eapply so_bind; [eapply so_log; eauto| intros ? ? ?]
  | |- same_outcome _ (bind (pydiv _ _) _) _ =>
    eapply so_bind; [eapply so_eq; reflexivity| intros ? ? <-]
  | |- same_outcome _ (bind (npdiv _ _) _) _ =>
    eapply so_bind; [eapply so_eq; reflexivity| intros ? ? <-]
  | |- same_outcome _ (bind (npsqrt _) _) _ =>
    eapply so_bind; [eapply so_eq; reflexivity| intros ? ? <-]
  | |- same_outcome _ (q_to _ _) _ => eapply so_to_unit; eauto
  | |- same_outcome _ (bind (q_div npdiv (to_base_units _) _) _) _ =>
    eapply so_bind; [eapply (so_div npdiv _ _ _ _ npdiv_good); [apply sv_base; eassumption|eassumption] | intros ? ? ?]
  | _ => ui
  end.

Lemma ui_eq4_4 BR qD qD' qS qc sigma : same_value qD qD' -> same_value qS qS -> same_value qc qc ->
  same_outcome same_value (eq4_4 BR qD qS sigma qc) (eq4_4 BR qD' qS sigma qc).
Proof. intros HD HS Hc. unfold eq4_4. repeat ur. Qed.

Section RunUp.
  Context {G X : Type} (L : cantera R G X).

  Lemma ui_eq4_1 BR qD qD' qT qT' qP qP' dT T dP P r1 r2 x reg h qS sigma qc :
    same_value qD qD' -> parsed qT dT T r1 -> parsed qT' dT T r2 ->
    parsed qP dP P r1 -> parsed qP' dP P r2 -> same_value qS qS -> same_value qc qc ->
    same_run same_value (eq4_1 L BR qD qT qP x reg h qS sigma qc)
                        (eq4_1 L BR qD' qT' qP' x reg h qS sigma qc).
  Proof.
    intros HD T1 T2 P1 P2 HS Hc. unfold eq4_1.
    rewrite (parsed_in_unit _ _ _ _ _ _ "K" T1 T2), (parsed_in_unit _ _ _ _ _ _ "Pa" P1 P2).
    eapply sr_bind; [apply sr_eq; reflexivity|intros ? ? <-].
    eapply sr_bind; [apply sr_eq; reflexivity|intros ? ? <-].
    eapply sr_bind; [apply sr_eq; reflexivity|intros ? ? <-].
    eapply sr_bind; [apply sr_pure; eapply sv_quant; reflexivity|intros ? ? ?].
    eapply sr_bind; [apply sr_eq; reflexivity|intros ? ? <-].
    apply sr_pure. cbv zeta. repeat ur.
  Qed.

  (** a velocity computed by the library calls is a velocity *)
  Lemma flame_velocity iT iP x mech phase reg q :
    value (calculate_laminar_flame_speed L iT iP x mech phase reg) = Ok q -> same_value q q.
  Proof.
    unfold calculate_laminar_flame_speed. intros H.
    repeat (apply value_bind_ok in H; destruct H as (? & _ & H & _)).
    rewrite value_pure in H. apply quant_ms_inv, velocity_stands in H. eapply sv_refl; exact H.
  Qed.
  Lemma sound_velocity iT iP x mech phase reg q :
    value (get_eq_sound_speed L iT iP x mech phase reg) = Ok q -> same_value q q.
  Proof.
    unfold get_eq_sound_speed. intros H.
    repeat (apply value_bind_ok in H; destruct H as (? & _ & H & _)).
    rewrite value_pure in H. apply quant_ms_inv, velocity_stands in H. eapply sv_refl; exact H.
  Qed.
  Lemma sr_same {B} (P : B -> Prop) (r : io R B) :
    (forall b, value r = Ok b -> P b) -> same_run (fun a b => a = b /\ P a) r r.
  Proof. intros H. split; [reflexivity|]. destruct (value r); cbn; auto. Qed.

  Lemma parse_parsed q d x r reg : parsed q d x r ->
    exists q', parse_quant_input (PQuant q) reg = Ok q' /\ parsed q' d x reg.
  Proof. intros H. apply parse_denotes. destruct H as (W & D & E & _). now constructor. Qed.

  Lemma ui_flame qT qT' qP qP' dT T dP P r x mech phase reg :
    parsed qT dT T r -> parsed qT' dT T r -> parsed qP dP P r -> parsed qP' dP P r ->
    calculate_laminar_flame_speed L (PQuant qT) (PQuant qP) x mech phase reg
    = calculate_laminar_flame_speed L (PQuant qT') (PQuant qP') x mech phase reg.
  Proof.
    intros T1 T2 P1 P2.
    destruct (parse_parsed _ _ _ _ reg T1) as (a & Ea & A).
    destruct (parse_parsed _ _ _ _ reg T2) as (b & Eb & B).
    destruct (parse_parsed _ _ _ _ reg P1) as (c & Ec & C).
    destruct (parse_parsed _ _ _ _ reg P2) as (d & Ed & D).
    unfold calculate_laminar_flame_speed. apply io_bind_ext. intros g.
    rewrite Ea, Eb, Ec, Ed, !bind_pure_ok.
    rewrite (parsed_check _ _ _ _ _ "temperature" true A B), (parsed_check _ _ _ _ _ "pressure" true C D),
      (parsed_in_unit _ _ _ _ _ _ "K" A B), (parsed_in_unit _ _ _ _ _ _ "Pa" C D). reflexivity.
  Qed.

  Lemma sr_and {B} (P : B -> B -> Prop) (U V : B -> Prop) (r1 r2 : io R B) :
    same_run P r1 r2 -> (forall b, value r1 = Ok b -> U b) -> (forall b, value r2 = Ok b -> V b) ->
    same_run (fun a b => P a b /\ U a /\ V b) r1 r2.
  Proof.
    intros [T O] H1 H2. split; [exact T|]. destruct (value r1), (value r2); cbn in *; auto.
  Qed.
  Lemma eq4_1_unit BR qD qT qP x reg h qS sigma qc q :
    value (eq4_1 L BR qD qT qP x reg h qS sigma qc) = Ok q -> q_unit q = q_unit qD.
  Proof.
    unfold eq4_1. intros H.
    do 5 (apply value_bind_ok in H; destruct H as (? & _ & H & _)).
    rewrite value_pure in H. cbv zeta in H.
    repeat (apply bind_inv in H; destruct H as (? & _ & H)). eapply q_to_unit; exact H.
  Qed.
  Lemma eq4_4_unit BR qD qS sigma qc q :
    value (A:=R) (pure (eq4_4 BR qD qS sigma qc)) = Ok q -> q_unit q = q_unit qD.
  Proof.
    rewrite value_pure. unfold eq4_4. intros H.
    repeat (apply bind_inv in H; destruct H as (? & _ & H)). eapply q_to_unit; exact H.
  Qed.

  Lemma ui_run_up BR iD iD' iT iT' iP iP' dD D dT T dP P x mech reg phase :
    denotes iD dD D -> denotes iD' dD D -> denotes iT dT T -> denotes iT' dT T ->
    denotes iP dP P -> denotes iP' dP P ->
    same_run same_value (calculate_run_up L BR iD iT iP x mech reg phase)
                        (calculate_run_up L BR iD' iT' iP' x mech reg phase).
  Proof.
    intros D1 D2 T1 T2 P1 P2. unfold calculate_run_up.
    destruct (orb _ _) eqn:EB; [split; reflexivity|].
    destruct (parse_denotes _ _ _ reg D1) as (qD & -> & SD).
    destruct (parse_denotes _ _ _ reg D2) as (qD' & -> & SD').
    destruct (parse_denotes _ _ _ reg T1) as (qT & -> & ST).
    destruct (parse_denotes _ _ _ reg T2) as (qT' & -> & ST').
    destruct (parse_denotes _ _ _ reg P1) as (qP & -> & SP).
    destruct (parse_denotes _ _ _ reg P2) as (qP' & -> & SP').
    rewrite !bind_pure_ok.
    rewrite (parsed_check _ _ _ _ _ "length" true SD SD'), (parsed_check _ _ _ _ _ "temperature" true ST ST'),
      (parsed_check _ _ _ _ _ "pressure" true SP SP').
    pose proof SD' as (W' & DD' & E' & R').
    destruct (check_cases qD' dD D "length" d_length true DD' E' eq_refl) as [(-> & _ & EC)|(_ & EC)].
    2:{ destruct EC as (m & ->). split; reflexivity. }
    rewrite EC, !bind_pure_ok.
    assert (VD : same_value qD qD').
    { exists d_length, D, reg. split; apply parsed_stands; try discriminate; assumption. }
    eapply sr_bind; [apply sr_eq; reflexivity|intros ? ? <-].
    eapply sr_bind; [apply sr_eq; reflexivity|intros ? ? <-].
    rewrite (ui_flame _ _ _ _ _ _ _ _ _ x mech phase reg ST ST' SP SP').
    eapply sr_bind; [eapply sr_same; apply flame_velocity|intros qS ? (<- & HS)].
    rewrite (parsed_in_unit _ _ _ _ _ _ "K" ST ST'), (parsed_in_unit _ _ _ _ _ _ "Pa" SP SP').
    do 6 (eapply sr_bind; [apply sr_eq; reflexivity|intros ? ? <-]).
    eapply sr_bind; [eapply sr_same; apply sound_velocity|intros qc ? (<- & Hc)].
    destruct (andb _ _) eqn:E3.
    { apply sr_pure. now apply ui_eq4_4. }
    destruct (nleb BR (lit 0.1)%num) eqn:E1.
    { eapply ui_eq4_1; eassumption. }
    eapply sr_bind.
    { eapply sr_and; [eapply ui_eq4_1; eassumption|apply eq4_1_unit|apply eq4_1_unit]. }
    intros s s' (Vs & Us & Us').
    eapply sr_bind.
    { eapply sr_and; [apply sr_pure; now apply ui_eq4_4|apply eq4_4_unit|apply eq4_4_unit]. }
    intros r r' (Vr & Ur & Ur').
    assert (B : 1/10 < BR < 3/10).
    { revert EB E3 E1. rnum. rewrite zero_R, lit_075, lit_03, lit_01.
      destruct (Rleb_spec BR 0), (Rltb_spec (3/4) BR), (Rleb_spec (3/10) BR), (Rleb_spec BR (3/4)),
        (Rleb_spec BR (1/10)); cbn; intros; try discriminate; lra. }
    replace (lit 0.1)%num with (1/10) by (symmetry; exact lit_01).
    replace (lit 0.3)%num with (3/10) by (symmetry; exact lit_03).
    rewrite !interp_line, !bind_pure_ok by apply B.
    split; [reflexivity|].
    destruct VD as (d & x' & r0 & V1 & V2). destruct Vs as (ds & xs & rs & S1 & S2).
    destruct Vr as (dr & xr & rr & R1 & R2).
    exists d, (line (1/10, xs) (3/10, xr) BR), reg.
    destruct V1 as (V1a & V1b & V1c & V1d & V1e), V2 as (V2a & V2b & V2c & V2d & V2e).
    destruct S1 as (_ & _ & _ & S1 & _), S2 as (_ & _ & _ & S2 & _).
    destruct R1 as (_ & _ & _ & R1 & _), R2 as (_ & _ & _ & R2 & _).
    rewrite Us in S1. rewrite Us' in S2. rewrite Ur in R1. rewrite Ur' in R2.
    repeat split; cbn [q_mag q_unit q_reg]; try assumption.
    - rewrite <- S1, <- R1. symmetry. apply line_scale.
    - rewrite <- S2, <- R2. symmetry. apply line_scale.
  Qed.
End RunUp.

(** ** calculate_max_stress, class Flange *)
Lemma ui_max_stress iT iT' d T material welded reg :
  denotes iT d T -> denotes iT' d T ->
  calculate_max_stress iT material welded reg = calculate_max_stress iT' material welded reg.
Proof.
  intros H1 H2. destruct (parse_denotes _ _ _ reg H1) as (q1 & E1 & P1).
  destruct (parse_denotes _ _ _ reg H2) as (q2 & E2 & P2).
  unfold calculate_max_stress. rewrite E1, E2. cbn [bind].
  now rewrite (parsed_to_str _ _ _ _ _ "degF" P1 P2).
Qed.

Lemma parsed_range q1 q2 d x r d' l msg : parsed q1 d x r -> parsed q2 d x r ->
  check_in_range q1 d' l msg = check_in_range q2 d' l msg.
Proof.
  intros H1 H2. unfold check_in_range.
  rewrite (parsed_base_mag _ _ _ _ H1), (parsed_base_mag _ _ _ _ H2).
  destruct H1 as (_ & -> & _), H2 as (_ & -> & _). reflexivity.
Qed.

Lemma ui_flange_class strict iP iP' iT iT' dP P dT T material reg :
  denotes iP dP P -> denotes iP' dP P -> denotes iT dT T -> denotes iT' dT T ->
  get_class strict iP iT material reg = get_class strict iP' iT' material reg.
Proof.
  intros P1 P2 T1 T2.
  destruct (parse_denotes _ _ _ reg T1) as (a & Ea & A).
  destruct (parse_denotes _ _ _ reg T2) as (b & Eb & B).
  destruct (parse_denotes _ _ _ reg P1) as (c & Ec & C).
  destruct (parse_denotes _ _ _ reg P2) as (d & Ed & D).
  destruct (parse_parsed _ _ _ _ module_reg A) as (a' & Ea' & A').
  destruct (parse_parsed _ _ _ _ module_reg B) as (b' & Eb' & B').
  destruct (parse_parsed _ _ _ _ module_reg C) as (c' & Ec' & C').
  destruct (parse_parsed _ _ _ _ module_reg D) as (d' & Ed' & D').
  unfold get_class. rewrite Ea, Eb, Ec, Ed. cbn [bind].
  rewrite Ea', Eb', Ec', Ed'.
  rewrite (parsed_check _ _ _ _ _ "pressure" true C D), (parsed_check _ _ _ _ _ "temperature" true A B).
  cbn [bind].
  rewrite (parsed_base_mag _ _ _ _ C'), (parsed_base_mag _ _ _ _ D'),
    (parsed_base_mag _ _ _ _ A'), (parsed_base_mag _ _ _ _ B').
  destruct (check_q d "pressure" true); [cbn [bind]|reflexivity].
  destruct (check_q b "temperature" true); [cbn [bind]|reflexivity].
  destruct (check_material material); [cbn [bind]|reflexivity].
  destruct (match material with NStr s => group_of s | NInt _ => Err IndexError end) as [gr|]; [cbn [bind]|reflexivity].
  destruct (FLANGE_LIMITS gr) as [tab|]; [cbn [bind]|reflexivity].
  now rewrite (parsed_range a' b' dT T module_reg d_temperature (temps_base tab) "Temperature out of range." A' B').
Qed.

Lemma reading_quant r1 r2 v s : same_outcome same_reading (quant r1 v s) (quant r2 v s).
Proof. unfold quant. destruct (lookup_unit s); cbn; [split; reflexivity|reflexivity]. Qed.

Lemma ui_flange_pressure strict cls iT iT' d T material :
  denotes iT d T -> denotes iT' d T ->
  same_outcome same_reading (get_max_pressure strict cls iT material) (get_max_pressure strict cls iT' material).
Proof.
  intros H1 H2. destruct (parse_denotes _ _ _ module_reg H1) as (q1 & E1 & P1).
  destruct (parse_denotes _ _ _ module_reg H2) as (q2 & E2 & P2).
  unfold get_max_pressure. rewrite E1, E2. destruct (table_for cls material) as [tab|]; cbn [bind]; [|reflexivity].
  rewrite (parsed_range q1 q2 d T module_reg d_temperature (temps_base tab) "Temperature out of range." P1 P2).
  rewrite (parsed_base_mag _ _ _ _ P1), (parsed_base_mag _ _ _ _ P2).
  eapply so_bind; [apply so_eq; reflexivity|intros ? ? <-].
  eapply so_bind; [apply so_eq; reflexivity|intros ? ? <-].
  eapply so_bind; [apply so_eq; reflexivity|intros ? ? <-]. apply reading_quant.
Qed.
Lemma ui_flange_temperature strict cls iP iP' d P material :
  denotes iP d P -> denotes iP' d P ->
  same_outcome same_reading (get_max_temperature strict cls iP material) (get_max_temperature strict cls iP' material).
Proof.
  intros H1 H2. destruct (parse_denotes _ _ _ module_reg H1) as (q1 & E1 & P1).
  destruct (parse_denotes _ _ _ module_reg H2) as (q2 & E2 & P2).
  unfold get_max_temperature. rewrite E1, E2. destruct (table_for cls material) as [tab|]; cbn [bind]; [|reflexivity].
  rewrite (parsed_range q1 q2 d P module_reg d_pressure (press_column tab cls) "Pressure out of range." P1 P2).
  rewrite (parsed_base_mag _ _ _ _ P1), (parsed_base_mag _ _ _ _ P2).
  assert (D1 : u_dim (q_unit q1) = d) by apply P1. assert (D2 : u_dim (q_unit q2) = d) by apply P2.
  rewrite D1, D2.
  eapply so_bind; [apply so_eq; reflexivity|intros ? ? <-].
  eapply so_bind; [apply so_eq; reflexivity|intros ? ? <-].
  eapply so_bind; [apply so_eq; reflexivity|intros ? ? <-]. apply reading_quant.
Qed.

(** ** The reflected shock state and the search *)
Section Search.
  Context {G X : Type} (L : cantera R G X).

  Lemma ui_shock qT qT' qP qP' dT T dP P r1 r2 r3 r4 x mech reg p :
    parsed qT dT T r1 -> parsed qT' dT T r2 -> parsed qP dP P r3 -> parsed qP' dP P r4 ->
    calculate_reflected_shock_state L qT qP x mech reg p
    = calculate_reflected_shock_state L qT' qP' x mech reg p.
  Proof.
    intros T1 T2 P1 P2. unfold calculate_reflected_shock_state.
    now rewrite (parsed_in_unit _ _ _ _ _ _ "K" T1 T2), (parsed_in_unit _ _ _ _ _ _ "Pa" P1 P2).
  Qed.

  Lemma shock_speed_stands qT qP x mech reg p s :
    value (calculate_reflected_shock_state L qT qP x mech reg p) = Ok s ->
    same_value (cj_wave_speed s) (cj_wave_speed s).
  Proof.
    unfold calculate_reflected_shock_state. intros H.
    do 9 (apply value_bind_ok in H; destruct H as (? & _ & H & _)).
    apply value_bind_ok in H. destruct H as (((? & ?) & ?) & _ & H & _).
    apply value_bind_ok in H. destruct H as (? & _ & H & _).
    apply value_bind_ok in H. destruct H as (cs & Hc & H & _).
    rewrite value_pure in Hc. apply quant_ms_inv, velocity_stands in Hc.
    rewrite value_ret in H. injection H as <-. cbn. eapply sv_refl; exact Hc.
  Qed.

  Lemma ui_search i i' o o' qT qT' dT T r1 r2 x mech mp E E' rho rho' nu pm udlf reg tol mx p st rd :
    same_value i i' -> same_value o o' -> parsed qT dT T r1 -> parsed qT' dT T r2 ->
    same_value E E' -> same_value rho rho' ->
    same_run eq (calculate_max_initial_pressure L i o qT x mech mp E rho nu pm udlf reg tol mx p st rd)
                (calculate_max_initial_pressure L i' o' qT' x mech mp E' rho' nu pm udlf reg tol mx p st rd).
  Proof.
    intros Hi Ho T1 T2 HE Hr. unfold calculate_max_initial_pressure.
    destruct (which_state st) as [sel|]; [|split; reflexivity].
    assert (SH : forall q, shock_at L qT x mech reg p q = shock_at L qT' x mech reg p q).
    { intros q. unfold shock_at, calculate_reflected_shock_state.
      now rewrite (parsed_in_unit _ _ _ _ _ _ "K" T1 T2). }
    assert (LF : forall s, same_value (cj_wave_speed s) (cj_wave_speed s) ->
      load_factor (G:=G) i o E rho nu pm s = load_factor i' o' E' rho' nu pm s).
    { intros s Hs. unfold load_factor. now rewrite (ui_dlf i i' o o' _ _ E E' rho rho' nu pm Hi Ho Hs HE Hr). }
    eapply sr_bind; [apply sr_eq; reflexivity|intros ? ? <-].
    rewrite SH. eapply sr_bind.
    { eapply sr_same. intros s Hs. apply shock_speed_stands in Hs. exact Hs. }
    intros s ? (<- & Hs). rewrite (LF s Hs).
    eapply sr_bind; [apply sr_eq; reflexivity|intros ? ? <-].
    eapply sr_bind; [apply sr_eq; reflexivity|intros ? ? <-].
    cut (forall budget t e q d s,
      same_run eq (pressure_loop L i o qT x mech mp E rho nu pm udlf reg p sel budget t e q d s)
                  (pressure_loop L i' o' qT' x mech mp E' rho' nu pm udlf reg p sel budget t e q d s)).
    { intros HL. eapply sr_bind; [apply HL|]. intros (? & ?) ? <-. apply sr_eq. reflexivity. }
    induction budget as [|n IH]; intros t e q d s'; cbn [pressure_loop].
    { apply sr_eq. reflexivity. }
    destruct (nltb t (nabs e)); [|apply sr_eq; reflexivity].
    eapply sr_bind; [apply sr_eq; reflexivity|intros ? ? <-].
    rewrite SH. eapply sr_bind.
    { eapply sr_same. intros s2 Hs2. apply shock_speed_stands in Hs2. exact Hs2. }
    intros s2 ? (<- & Hs2). rewrite (LF s2 Hs2).
    eapply sr_bind; [apply sr_eq; reflexivity|intros ? ? <-].
    eapply sr_bind; [apply sr_eq; reflexivity|intros ? ? <-]. apply IH.
  Qed.
End Search.

Lemma denotes_parsed q d x : denotes (PQuant q) d x -> parsed q d x (q_reg q).
Proof. intros H. inversion H; subst. repeat split; auto; apply H1. Qed.
