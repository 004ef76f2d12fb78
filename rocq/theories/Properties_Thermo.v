(** * C70, C71, C76-C79: thermochem.py. *)
From Coq Require Import String ZArith QArith Reals Qreals List Bool Lra Lia Psatz Permutation.
From Verif Require Import PyBase Pint UnitsM Spec Gas GasP QLemmas FitM FitP FitSpec SdM SdSpec SdP
  SpeedSpec SpeedP ThermoM ThermoSpec ThermoP ExampleGas Properties_Speed.
Import ListNotations.
Local Open Scope R_scope.

(** C70.  What get_eq_sound_speed returns is the non-negative c with
    c^2 (rho1 - rho0) = P1 - P0 for the equilibrium gas at (T, P) and the same gas after
    a pressure rise of 0.01 % at constant entropy; in m/s, in the given registry. *)
Theorem C70_sound_speed :
  forall {G X} (L : cantera R G X) temperature pressure T P x mech phase reg q,
    denotes temperature d_temperature T -> denotes pressure d_pressure P ->
    0 <= T -> 0 <= P ->
    value (get_eq_sound_speed L temperature pressure x mech phase reg) = Ok q ->
    exists g0 g1 c,
      isentropic_pair L x mech phase T P g0 g1
      /\ ct_density L g1 <> ct_density L g0
      /\ 0 <= c /\ c^2 * (ct_density L g1 - ct_density L g0) = 1/10000 * ct_P L g0
      /\ is_in q c "m/s" reg.
Proof.
  intros * HT HP H0 H1 H. rewrite (sound_run_eq L _ _ T P) in H by assumption.
  exact (sound_run_inv L _ _ _ _ _ _ _ H).
Qed.
Print Assumptions C70_sound_speed.

(** ... and it does return when the density rises with pressure. *)
Theorem C70_returns :
  forall {G X} (L : cantera R G X) temperature pressure T P x mech phase reg g0 g1,
    denotes temperature d_temperature T -> denotes pressure d_pressure P ->
    0 <= T -> 0 <= P ->
    isentropic_pair L x mech phase T P g0 g1 ->
    ct_density L g0 < ct_density L g1 -> 0 <= ct_P L g0 ->
    exists q, value (get_eq_sound_speed L temperature pressure x mech phase reg) = Ok q.
Proof.
  intros * HT HP H0 H1 Hs Hd Hp. rewrite (sound_run_eq L _ _ T P) by assumption.
  exact (sound_run_ok L _ _ _ _ _ _ _ _ Hs Hd Hp).
Qed.
Print Assumptions C70_returns.

(** C71 *)
Theorem C71_find_mechanisms :
  forall path listing,
    exists available,
      find_mechanisms path listing false = JustSet available
      /\ find_mechanisms path listing true = SetAndPath available path
      /\ (forall item, In item available <-> In item listing /\ mechanism_name item)
      /\ (NoDup listing -> NoDup available).
Proof.
  intros path listing. eexists. split; [reflexivity|]. split; [reflexivity|]. split.
  - intros item. rewrite filter_In. apply and_iff_compat_l.
    rewrite orb_true_iff, !contains_spec. unfold mechanism_name. split.
    + intros [(a & b & E)|(a & b & E)]; exists a, b; auto.
    + intros (a & b & [E|E]); [left|right]; exists a, b; exact E.
  - intros H. apply NoDup_filter. exact H.
Qed.
Print Assumptions C71_find_mechanisms.
Example C71_case :
  find_mechanisms "/d" ["gri30.cti"; "air.xml"; "gri30.yaml"; "old.cti.bak"]%string true
  = SetAndPath ["gri30.cti"; "air.xml"; "old.cti.bak"]%string "/d".
Proof. reflexivity. Qed.

(** C76.  A temperature or pressure of the wrong dimension or below zero makes both
    functions raise ValueError without setting the state of any gas object;
    get_eq_sound_speed does not even create one. *)
Theorem C76_bad_arguments :
  forall {G X} (L : cantera R G X) temperature pressure dT T dP P x mech phase reg,
    denotes temperature dT T -> denotes pressure dP P ->
    dT <> d_temperature \/ T < 0 \/ dP <> d_pressure \/ P < 0 ->
    (is_value_error (value (get_eq_sound_speed L temperature pressure x mech phase reg))
     /\ trace (get_eq_sound_speed L temperature pressure x mech phase reg) = [])
    /\ (forall g, ct_new L mech phase = Ok g ->
        is_value_error (value (calculate_laminar_flame_speed L temperature pressure x mech phase reg))
        /\ states_set (trace (calculate_laminar_flame_speed L temperature pressure x mech phase reg))
           = 0%nat).
Proof.
  intros * HT HP Hbad.
  destruct (parse_denotes _ _ _ reg HT) as (qT & ET & PT).
  destruct (parse_denotes _ _ _ reg HP) as (qP & EP & PP).
  assert (Hc : is_value_error (check_q qP "pressure" true)
               \/ (check_q qP "pressure" true = Ok true
                   /\ is_value_error (check_q qT "temperature" true))).
  { destruct PP as (WP & DP & VP & RP). destruct PT as (WT & DT & VT & RT).
    destruct (check_cases qP dP P "pressure" d_pressure true DP VP eq_refl)
      as [(E & Hp & Ec)|(_ & He)]; [right|left; exact He].
    split; [exact Ec|].
    destruct (check_cases qT dT T "temperature" d_temperature true DT VT eq_refl)
      as [(E' & Hp' & _)|(_ & He)]; [|exact He].
    specialize (Hp eq_refl). specialize (Hp' eq_refl).
    exfalso. destruct Hbad as [Hb|[Hb|[Hb|Hb]]]; try contradiction; lra. }
  split.
  - unfold get_eq_sound_speed. rewrite ET, EP, !bind_pure_ok.
    destruct Hc as [(m & ->)|(-> & (m & ->))].
    + rewrite bind_pure_err. split; [eexists; reflexivity|reflexivity].
    + rewrite bind_pure_ok, bind_pure_err. split; [eexists; reflexivity|reflexivity].
  - intros g Hg. unfold calculate_laminar_flame_speed, new_solution, act. rewrite Hg.
    rewrite bind_some, ET, EP, !bind_pure_ok.
    destruct Hc as [(m & ->)|(-> & (m & ->))].
    + rewrite bind_pure_err. split; [eexists; reflexivity|reflexivity].
    + rewrite bind_pure_ok, bind_pure_err. split; [eexists; reflexivity|reflexivity].
Qed.
Print Assumptions C76_bad_arguments.

(** C77.  calculate_laminar_flame_speed solves the flame of the given mixture at the
    given temperature and pressure and hands its speed back in m/s. *)
Theorem C77_flame_speed :
  forall {G X} (L : cantera R G X) temperature pressure T P x mech phase reg q,
    denotes temperature d_temperature T -> denotes pressure d_pressure P ->
    0 <= T -> 0 <= P ->
    (value (calculate_laminar_flame_speed L temperature pressure x mech phase reg) = Ok q
     <-> exists g u, gas_at_state L x mech phase T P g /\ ct_flame_speed L g = Ok u
                     /\ is_in q u "m/s" reg).
Proof.
  intros * HT HP H0 H1. rewrite (flame_run_eq L _ _ T P) by assumption. unfold flame_run. split.
  - intros H.
    apply value_bind_ok in H. destruct H as (a & Ha & H & _).
    apply value_bind_ok in H. destruct H as (b & Hb & H & _).
    apply value_bind_ok in H. destruct H as (u & Hu & H & _). rewrite value_pure in H.
    exists b, u. split; [exists a; split; [exact Ha|exact Hb]|]. split; [exact Hu|].
    apply quant_ms_inv. exact H.
  - intros (g & u & (a & Ha & Hb) & Hu & Hq).
    rewrite value_bind. change (value (new_solution L mech phase)) with (ct_new L mech phase).
    rewrite Ha. cbn [bind]. rewrite value_bind.
    change (value (set_TPX L a T P x)) with (ct_set_TPX L a T P x). rewrite Hb. cbn [bind].
    rewrite value_bind. change (value (flame_speed L g)) with (ct_flame_speed L g).
    rewrite Hu. cbn [bind]. rewrite value_pure.
    destruct Hq as (E1 & E2 & E3). unfold quant. rewrite E1. destruct q. cbn in *. congruence.
Qed.
Print Assumptions C77_flame_speed.

(** C78.  Both functions do and return exactly the same for any two ways of writing the
    same temperature and pressure: any units, quantities or pairs. *)
Theorem C78_unit_independent :
  forall {G X} (L : cantera R G X) temperature pressure temperature' pressure' T P x mech phase reg,
    denotes temperature d_temperature T -> denotes pressure d_pressure P ->
    denotes temperature' d_temperature T -> denotes pressure' d_pressure P ->
    0 <= T -> 0 <= P ->
    get_eq_sound_speed L temperature pressure x mech phase reg
    = get_eq_sound_speed L temperature' pressure' x mech phase reg
    /\ calculate_laminar_flame_speed L temperature pressure x mech phase reg
       = calculate_laminar_flame_speed L temperature' pressure' x mech phase reg.
Proof.
  intros. rewrite !(sound_run_eq L _ _ T P) by assumption.
  rewrite !(flame_run_eq L _ _ T P) by assumption. auto.
Qed.
Print Assumptions C78_unit_independent.

(** The hypotheses are met, e.g. by 77 degF / 80.33 degF style arguments: *)
Example C78_case :
  denotes (PSeq [ENum 25; EStr "degC"]) d_temperature (29815/100)
  /\ denotes (PSeq [ENum 77; EStr "degF"]) d_temperature (29815/100)
  /\ denotes (PSeq [ENum 1; EStr "atm"]) d_pressure 101325
  /\ denotes (PSeq [ENum 101325; EStr "Pa"]) d_pressure 101325.
Proof.
  repeat split; (eapply denotes_pair; [reflexivity|reflexivity|]);
    unfold worth; cbn; rnum; rewrite ?one_R; unfold Q2R; simpl; lra.
Qed.

(** C79.  calculate_reflected_shock_state: the CJ part is what cj_speed gives at the
    temperature in kelvin and the pressure in pascal; the reflected part satisfies mass
    and momentum conservation across a shock that stops gas moving at the particle speed
    behind the CJ wave; speeds are in m/s. *)

Lemma number_at_in {G} k (d : list (string * entry R G)) a :
  number_at k d = Ok a -> In (k, ENumber a) d.
Proof.
  induction d as [|[k' e] d IH]; cbn [number_at]; [discriminate|].
  destruct (String.eqb_spec k' k) as [->|Hn].
  - destruct e; try discriminate. intros [= ->]. left. reflexivity.
  - intros H. right. apply IH. exact H.
Qed.
Lemma gas_at_in {G} k (d : list (string * entry R G)) g :
  gas_at k d = Ok g -> In (k, EGas g) d.
Proof.
  induction d as [|[k' e] d IH]; cbn [gas_at]; [discriminate|].
  destruct (String.eqb_spec k' k) as [->|Hn].
  - destruct e; try discriminate. intros [= ->]. left. reflexivity.
  - intros H. right. apply IH. exact H.
Qed.

Theorem C79_reflected_shock_state :
  forall {G X} (L : cantera R G X) temperature pressure T P x mech reg p s,
    denotes (PQuant temperature) d_temperature T -> denotes (PQuant pressure) d_pressure P ->
    value (calculate_reflected_shock_state L temperature pressure x mech reg p) = Ok s ->
    exists d U W g1 g,
      (* the CJ part *)
      value (cj_speed L P T x mech p false true) = Ok d
      /\ In ("cj speed"%string, ENumber U) d /\ is_in (cj_wave_speed s) U "m/s" reg
      /\ In ("cj state"%string, EGas (cj_gas_state s)) d
      (* the reflected part *)
      /\ is_in (reflected_speed s) W "m/s" reg
      /\ gas_at_state L x mech "" T P g1 /\ gas_at_state L x mech "" T P g
      /\ value (reflect L g1 (cj_gas_state s) g U)
         = Ok (ct_P L (reflected_state s), W, reflected_state s)
      /\ (let u := sqrt ((ct_P L (cj_gas_state s) - ct_P L g1)
                         * (1 / ct_density L g1 - 1 / ct_density L (cj_gas_state s))) in
          ct_P L (reflected_state s) - ct_P L (cj_gas_state s)
          = ct_density L (cj_gas_state s) * u * (u + W)).
Proof.
  intros * HT HP H. unfold calculate_reflected_shock_state in H.
  destruct (parse_denotes _ _ _ (q_reg temperature) HT) as (qT & ET & PT).
  destruct (parse_denotes _ _ _ (q_reg pressure) HP) as (qP & EP & PP).
  cbn [parse_quant_input] in ET, EP. injection ET as ET. injection EP as EP.
  assert (qT = temperature) as -> by (rewrite <- ET; destruct temperature; reflexivity).
  assert (qP = pressure) as -> by (rewrite <- EP; destruct pressure; reflexivity). clear ET EP.
  apply value_bind_ok in H. destruct H as (a & Ha & H & _).
  apply value_bind_ok in H. destruct H as (b & Hb & H & _).
  rewrite (in_unit_K _ _ _ PT), bind_pure_ok, (in_unit_Pa _ _ _ PP), bind_pure_ok in H.
  apply value_bind_ok in H. destruct H as (g1 & Hg1 & H & _).
  apply value_bind_ok in H. destruct H as (g & Hg & H & _).
  apply value_bind_ok in H. destruct H as (d & Hd & H & _).
  apply value_bind_ok in H. destruct H as (cj & Hcj & H & _). rewrite value_pure in Hcj.
  apply value_bind_ok in H. destruct H as (U & HU & H & _). rewrite value_pure in HU.
  apply value_bind_ok in H. destruct H as (((P3 & W) & g3) & Hr & H & _).
  apply value_bind_ok in H. destruct H as (ws & Hws & H & _). rewrite value_pure in Hws.
  apply value_bind_ok in H. destruct H as (cs & Hcs & H & _). rewrite value_pure in Hcs.
  rewrite value_ret in H. injection H as <-.
  cbn [cj_wave_speed cj_gas_state reflected_speed reflected_state].
  destruct (reflect_inv L g1 cj g U P3 W g3 Hr) as (Hrho & Hu & EP3 & EW).
  exists d, U, W, g1, g. rewrite <- EP3.
  split; [exact Hd|]. split; [apply number_at_in; exact HU|].
  split; [apply quant_ms_inv; exact Hcs|]. split; [apply gas_at_in; exact Hcj|].
  split; [apply quant_ms_inv; exact Hws|].
  split; [exists a; split; [exact Ha|exact Hg1]|].
  split; [exists b; split; [exact Hb|exact Hg]|].
  split; [exact Hr|].
  cbv zeta. set (u := sqrt _) in *. rewrite EW. field. auto.
Qed.
Print Assumptions C79_reflected_shock_state.

(** ** The invented gas of ExampleGas.v *)
Lemma shape_P_1 : shape_P 1 = 101325.
Proof.
  unfold shape_P. destruct (Rlt_dec 5 1); [lra|]. destruct (Rle_dec 1 1); [reflexivity|lra].
Qed.

(** C70, C77, C78: at any positive pressure, however written, its speed of sound is
    300 m/s and its flame speed 0.4 m/s. *)
Example example_sound_speed : forall temperature pressure T P mech phase reg,
  denotes temperature d_temperature T -> denotes pressure d_pressure P -> 0 <= T -> 0 < P ->
  exists q, value (get_eq_sound_speed example_gas temperature pressure fresh mech phase reg) = Ok q
            /\ is_in q 300 "m/s" reg.
Proof.
  intros * HT HP H0 H1. set (k := P / 101325).
  assert (Hk : 0 < k) by (unfold k; lra).
  assert (Ek : k / k = 1) by (field; lra).
  set (g0 := ((T, k, k, burnt) : gas_state)).
  assert (E0 : ct_P example_gas g0 = k * 101325)
    by (unfold g0; cbn [example_gas ct_P dens atms]; rewrite Ek, shape_P_1; reflexivity).
  set (g1 := ((T, k + (10001/10000 * (k * 101325) - k * 101325) / 90000, k, burnt) : gas_state)).
  assert (Hpair : isentropic_pair example_gas fresh mech phase T P g0 g1).
  { exists (T, k, k, fresh), g1.
    split; [exists (300, 1, 1, fresh); split; [reflexivity|apply example_set; exact H1]|].
    split; [reflexivity|].
    rewrite E0. split; [|reflexivity].
    unfold g0, g1. cbn [example_gas ct_set_SP dens atms temp comp].
    rewrite Ek, shape_P_1. reflexivity. }
  assert (Hd : ct_density example_gas g0 < ct_density example_gas g1)
    by (unfold g0, g1; cbn; lra).
  destruct (C70_returns example_gas temperature pressure T P fresh mech phase reg g0 g1
              HT HP H0 ltac:(lra) Hpair Hd) as (q & Hq); [rewrite E0; lra|].
  exists q. split; [exact Hq|].
  destruct (C70_sound_speed example_gas temperature pressure T P fresh mech phase reg q
              HT HP H0 ltac:(lra) Hq)
    as (h0 & h1 & c & (g' & h' & (a' & A1 & A2) & A3 & A4 & A5) & _ & Hc & Ec & Hin).
  cbn [example_gas ct_new] in A1. injection A1 as <-.
  rewrite example_set in A2 by exact H1. injection A2 as <-.
  cbn [example_gas ct_equilibrate] in A3. injection A3 as <-.
  cbn [example_gas ct_set_SP ct_P ct_entropy dens atms temp comp String.eqb Ascii.eqb Bool.eqb] in A4.
  fold k in A4. rewrite Ek, shape_P_1 in A4. injection A4 as <-.
  cbn [example_gas ct_equilibrate dens atms temp comp String.eqb Ascii.eqb Bool.eqb] in A5. injection A5 as <-.
  cbn [example_gas ct_density ct_P dens atms temp] in Ec. fold k in Ec. rewrite Ek, shape_P_1 in Ec.
  assert (c = 300) as ->; [|exact Hin].
  assert (E : c^2 * k = 90000 * k) by (field_simplify in Ec; lra).
  apply Rmult_eq_reg_r in E; [|lra]. nra.
Qed.

Example example_flame_speed : forall temperature pressure T P mech phase reg,
  denotes temperature d_temperature T -> denotes pressure d_pressure P -> 0 <= T -> 0 < P ->
  exists q, value (calculate_laminar_flame_speed example_gas temperature pressure fresh mech phase reg) = Ok q
            /\ is_in q (2/5) "m/s" reg.
Proof.
  intros * HT HP H0 H1. destruct (quant_ms reg (2/5)) as (q & Eq & Hq).
  exists q. split; [|exact Hq].
  apply (C77_flame_speed example_gas temperature pressure T P fresh mech phase reg q); try assumption; [lra|].
  exists (T, P / 101325, P / 101325, fresh), (2/5).
  split; [exists (300, 1, 1, fresh); split; [reflexivity|apply example_set; exact H1]|].
  split; [reflexivity|exact Hq].
Qed.

(** C76: 1 atm where a temperature is expected, and a negative pressure. *)
Example C76_case :
  is_value_error (value (get_eq_sound_speed example_gas (PSeq [ENum 1; EStr "atm"])
                           (PSeq [ENum 1; EStr "atm"]) fresh "gri30.cti" "" 0))
  /\ is_value_error (value (get_eq_sound_speed example_gas (PSeq [ENum 25; EStr "degC"])
                           (PSeq [ENum (-1); EStr "Pa"]) fresh "gri30.cti" "" 0)).
Proof.
  destruct C78_case as (D1 & _ & D2 & _).
  assert (D3 : denotes (PSeq [ENum (-1); EStr "Pa"]) d_pressure (-1)).
  { eapply denotes_pair; [reflexivity|reflexivity|].
    unfold worth; cbn; rnum; rewrite ?one_R; unfold Q2R; simpl; lra. }
  assert (N : d_pressure <> d_temperature) by discriminate.
  assert (M : -1 < 0) by lra.
  destruct (C76_bad_arguments example_gas _ _ d_pressure 101325 d_pressure 101325 fresh
              "gri30.cti" "" 0%nat D2 D2 (or_introl N)) as ((E1 & _) & _).
  destruct (C76_bad_arguments example_gas _ _ d_temperature (29815/100) d_pressure (-1) fresh
              "gri30.cti" "" 0%nat D1 D3 (or_intror (or_intror (or_intror M)))) as ((E2 & _) & _).
  split; [exact E1|exact E2].
Qed.

(** C79: from 300 K and any pressure P > 0, in any units. *)
Example example_shock_states : forall temperature pressure P mech reg p,
  denotes (PQuant temperature) d_temperature 300 -> denotes (PQuant pressure) d_pressure P ->
  0 < P -> any_pool p ->
  exists s,
    value (calculate_reflected_shock_state example_gas temperature pressure fresh mech reg p) = Ok s
    /\ is_in (cj_wave_speed s) 2000 "m/s" reg /\ is_in (reflected_speed s) (2000/9) "m/s" reg
    /\ ct_P example_gas (cj_gas_state s) = P / 101325 * (101325 + 16000000/9)
    /\ ct_P example_gas (reflected_state s) = P / 101325 * (101325 + 32000000/9).
Proof.
  intros * HT HP H0 Hp. unfold calculate_reflected_shock_state.
  destruct (parse_denotes _ _ _ (q_reg temperature) HT) as (qT & ET & PT).
  destruct (parse_denotes _ _ _ (q_reg pressure) HP) as (qP & EP & PP).
  cbn [parse_quant_input] in ET, EP. injection ET as ET. injection EP as EP.
  assert (qT = temperature) as -> by (rewrite <- ET; destruct temperature; reflexivity).
  assert (qP = pressure) as -> by (rewrite <- EP; destruct pressure; reflexivity). clear ET EP.
  set (k := P / 101325). assert (Hk : 0 < k) by (unfold k; lra).
  unfold new_solution, act. cbn [example_gas ct_new]. fold example_gas.
  rewrite !bind_some, !value_after.
  rewrite (in_unit_K _ _ _ PT), bind_pure_ok, (in_unit_Pa _ _ _ PP), bind_pure_ok.
  unfold set_TPX at 1 2, act. rewrite !example_set by exact H0. fold k.
  rewrite !bind_some, !value_after.
  rewrite value_bind, (example_gas_speed p P mech false true Hp H0). cbn [bind app]. fold k.
  cbn [gas_at number_at String.eqb Ascii.eqb Bool.eqb]. rewrite !bind_pure_ok.
  rewrite value_bind, (example_reflect k Hk). cbn [bind].
  destruct (quant_ms reg (2000/9)) as (ws & -> & Hws).
  destruct (quant_ms reg 2000) as (cs & -> & Hcs).
  rewrite !bind_pure_ok, value_ret. eexists. split; [reflexivity|].
  cbn [cj_wave_speed reflected_speed cj_gas_state reflected_state].
  split; [exact Hcs|]. split; [exact Hws|].
  cbn [example_gas ct_P dens atms].
  replace (9 / 5 * k / k) with (9/5) by (field; lra). replace (9 * k / k) with 9 by (field; lra).
  unfold shape_P. destruct (Rlt_dec 5 (9/5)); [lra|]. destruct (Rle_dec (9/5) 1); [lra|].
  destruct (Rlt_dec 5 9); [|lra]. split; [|reflexivity]. unfold bump. field.
Qed.
