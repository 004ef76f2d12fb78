(** * Properties_RoundRunUp: the run-up distance of obstructed tubes under rounding. *)
From Coq Require Import String ZArith QArith Reals Qreals List Bool Lra Lia Psatz.
From Verif Require Import PyBase Pint UnitsM Spec QLemmas Gas GasP FitM SdM ThermoM ThermoSpec RunUpM RunUpSpec
  RoundM RoundSpec RoundP RoundWindowP RoundMonoP RoundDdtP RoundTubeP RoundTempSpec RoundRunUpSpec RoundRunUpP.
Import ListNotations.
Local Open Scope string_scope.
Local Open Scope R_scope.

(** C147.  With every operation rounded, the sound speed is right up to 45000 rounding units
    (the 0.01 % pressure rise loses four digits). *)
Theorem C147_sound_speed_rounding :
  forall (u : R) (rnd : R -> R), rounding u rnd -> 45000 * u <= 1/100 ->
  forall {G X} (L : cantera R G X) (x : X) (mech phase : string) (iT iP : pyin R) (T P : R) (reg : nat),
    given rnd iT T "K" -> given rnd iP P "Pa" ->
    machine_number rnd T -> machine_number rnd P -> 0 <= T -> 0 <= P ->
    compressible L x mech phase u T P ->
    exists c v, speed_of_sound L x mech phase u T P c
      /\ returns (value (@get_eq_sound_speed R G X (Num_rounded rnd) L iT iP x mech phase reg)) d_velocity v reg
      /\ within (45000 * u) c v.
Proof.
  intros u rnd Hr Su G X L x mech phase iT iP T P reg GT GP MT MP T0 P0 C.
  destruct (sound_rounded u rnd Hr L x mech phase iT iP T P reg Su GT GP MT MP T0 P0 C) as (c & e & Sc & E & C0 & B).
  exists c, (c * e). split; [exact Sc|]. split.
  - rewrite E. eexists. split; [reflexivity|]. unfold stands_for, mult_unit. cbn [q_mag q_unit q_reg u_dim Pint.u_off u_scale].
    repeat split; try reflexivity; lra.
  - unfold within. replace (c * e - c) with ((e - 1) * c) by ring. rewrite Rabs_mult.
    apply Rmult_le_compat_r; [apply Rabs_pos|exact B].
Qed.
Print Assumptions C147_sound_speed_rounding.

(** The distance is right up to 50000 rounding units, and 10 more for each [K] by which the
    density ratio comes close to 1. *)
Theorem C147_run_up_rounding :
  forall (u : R) (rnd : R -> R), rounding u rnd ->
  forall {G X} (T_ : Trans R) (L : cantera R G X) (BR : R) (iD iT iP : pyin R) (D T P : R) (x : X)
         (mech phase : string) (reg : nat) (S sigma : R) (h : G) (K : R),
    3/10 <= BR <= 3/4 -> machine_number rnd BR ->
    denotes iD d_length D -> 0 < D ->
    given rnd iT T "K" -> given rnd iP P "Pa" ->
    machine_number rnd T -> machine_number rnd P -> 0 <= T -> 0 <= P ->
    flame L x mech phase T P S sigma h -> 0 < S ->
    0 < K -> 1 + / K <= sigma -> (50000 + 10 * K) * u <= 1/100 ->
    machine_number rnd (ct_T L h) -> machine_number rnd (ct_P L h) -> 0 <= ct_T L h -> 0 <= ct_P L h ->
    compressible L x mech phase u (ct_T L h) (ct_P L h) ->
    exists c y, speed_of_sound L x mech phase u (ct_T L h) (ct_P L h) c
      /\ returns (value (@calculate_run_up R G X (Num_rounded rnd) T_ L BR iD iT iP x mech reg phase)) d_length y reg
      /\ within ((50000 + 10 * K) * u) (rough_tube BR S sigma c D) y.
Proof.
  intros u rnd Hr G X T_ L BR iD iT iP D T P x mech phase reg S sigma h K HB MB DD D0 GT GP MT MP T0 P0
    (g & (gn & En & Es) & Ef & Eh & R0 & R1 & ->) S0 K0 HK Su MTh MPh Th Ph C.
  assert (Hu : 0 <= u <= 1/1024) by exact (proj1 Hr).
  assert (Uk : 0 <= u * K) by (apply Rmult_le_pos; lra).
  assert (Su' : 45000 * u <= 1/100) by nra.
  destruct (sound_rounded u rnd Hr L x mech phase (PSeq [ENum (ct_T L h); EStr "K"]) (PSeq [ENum (ct_P L h); EStr "Pa"])
    (ct_T L h) (ct_P L h) reg Su' (or_introl eq_refl) (or_introl eq_refl) MTh MPh Th Ph C) as (c & e2 & Sc & Ec & C0 & B2).
  destruct (parse_approx u rnd Hr iD d_length D reg ltac:(discriminate) DD) as (qD & PD & AD).
  destruct (sigma_near u rnd Hr (ct_density L g) (ct_density L h) K R0 R1 K0 HK ltac:(nra)) as (Z0 & e3 & Ez & B3).
  assert (E2 : 0 < e2) by (unfold Rabs in B2; destruct (Rcase_abs (e2 - 1)); lra).
  assert (V0 : 0 < c * e2) by (apply Rmult_lt_0_compat; assumption).
  destruct (rough_near u rnd Hr BR _ S (c * e2) D qD reg HB AD D0 S0 V0 Z0) as (q & y & Eq & Sy & Ny).
  exists c, y. split; [exact Sc|]. split.
  - exists q. split; [|exact Sy]. unfold calculate_run_up, calculate_laminar_flame_speed, new_solution, set_TPX, equilibrate, flame_speed.
    cbn [nleb nltb nofQ Num_rounded]. rewrite (zero_rnd u rnd Hr).
    assert (L75 : BR <= rnd (Q2R 0.75)).
    { rewrite <- MB. apply (rnd_mono u rnd Hr). q2r. lra. }
    assert (L30 : rnd (Q2R 0.3) <= BR).
    { rewrite <- MB. apply (rnd_mono u rnd Hr). q2r. lra. }
    rewrite Rleb_false by lra. rewrite (Rltb_false _ _ L75). cbn [orb].
    rewrite PD, bind_pure_ok.
    rewrite (given_parse rnd iT T "K" d_temperature reg (unit_K u rnd Hr) GT), bind_pure_ok.
    rewrite (given_parse rnd iP P "Pa" d_pressure reg (unit_Pa u rnd Hr) GP), bind_pure_ok.
    rewrite (check_approx u rnd Hr 10 qD d_length D reg "length" true eq_refl AD ltac:(lra)), bind_pure_ok.
    rewrite (plain_check u rnd Hr T d_temperature reg "temperature" eq_refl MT T0), bind_pure_ok.
    rewrite (plain_check u rnd Hr P d_pressure reg "pressure" eq_refl MP P0), bind_pure_ok.
    rewrite value_bind. rewrite (value_bind (act (EvNew mech phase) _)), vact, En. cbn [bind].
    cbn [parse_quant_input q_mag q_unit]. rewrite !bind_pure_ok.
    rewrite (plain_check u rnd Hr P d_pressure reg "pressure" eq_refl MP P0), bind_pure_ok.
    rewrite (plain_check u rnd Hr T d_temperature reg "temperature" eq_refl MT T0), bind_pure_ok.
    rewrite (plain_in u rnd Hr T d_temperature reg "K" (unit_K u rnd Hr) MT), bind_pure_ok.
    rewrite (plain_in u rnd Hr P d_pressure reg "Pa" (unit_Pa u rnd Hr) MP), bind_pure_ok.
    rewrite value_bind, vact, Es. cbn [bind]. rewrite value_bind, vact, Ef. cbn [bind].
    rewrite value_pure. unfold quant at 1. rewrite (unit_ms u rnd Hr). cbn [bind].
    rewrite value_bind, vact. cbn [bind]. rewrite !bind_pure_ok.
    rewrite value_bind, vact, Es. cbn [bind]. rewrite value_bind, vact, Eh. cbn [bind].
    unfold pydiv at 1. cbn [neqb ndiv nmul Num_rounded]. rewrite (zero_rnd u rnd Hr), (one_rnd u rnd Hr).
    rewrite Reqb_false by lra. rewrite bind_pure_ok.
    rewrite value_bind, Ec. cbn [bind].
    rewrite (Rleb_true _ _ L30), (Rleb_true _ _ L75). cbn [andb]. rewrite value_pure. exact Eq.
  - pose proof (near_err u rnd Hr 30 _ _ ltac:(lia) Ny) as Ey. destruct Ny as (e1 & Ey1 & _).
    set (z := rnd (rnd (ct_density L g * rnd (1 / ct_density L h)) - 1)) in *.
    set (t0 := 2 * (1 - BR) / (1 + 3/2 * BR) / (z * (20 * S) / (c * e2 * D))) in *.
    assert (Sg : 0 < ct_density L g / ct_density L h - 1) by (assert (0 < / K) by (apply Rinv_0_lt_compat; exact K0); lra).
    assert (P1 : 0 < t0).
    { apply Rdiv_lt_0_compat; [apply Rdiv_lt_0_compat; lra|]. apply Rdiv_lt_0_compat; repeat apply Rmult_lt_0_compat; lra. }
    assert (B1 : Rabs (e1 - 1) <= 60 * u).
    { apply Rmult_le_reg_r with t0; [exact P1|]. rewrite <- (Rabs_pos_eq t0) at 1 by lra.
      rewrite <- Rabs_mult. replace ((e1 - 1) * t0) with (y - t0) by (rewrite Ey1; ring).
      eapply Rle_trans; [exact Ey|]. rewrite Rabs_pos_eq by lra. replace (INR 30) with 30 by (cbn; lra). lra. }
    assert (E3 : 0 < e3) by (apply Rmult_lt_reg_l with (ct_density L g / ct_density L h - 1); lra).
    eapply (combine u rnd Hr (rough_tube BR S (ct_density L g / ct_density L h) c D) e1 e2 e3 K y); try assumption.
    + unfold rough_tube. apply Rlt_le. repeat first [lra | apply Rdiv_lt_0_compat | apply Rmult_lt_0_compat].
    + rewrite Ey1. unfold t0, rough_tube. rewrite Ez. set (s1 := ct_density L g / ct_density L h - 1) in *.
      field. repeat split; lra.
Qed.
Print Assumptions C147_run_up_rounding.

(** Beside the theorems: double precision, a gas whose products are four times thinner, 25.4 mm
    in inches, 1000 K (burnt) and 1000 Pa; the distance is right up to 7e-12. *)
Definition state_gas : cantera R (R * R * bool) unit :=
  mkCantera R (R * R * bool) unit
    (fun _ _ => Ok (300, 1000, false))
    (fun _ T P _ => Ok (T, P, false))
    (fun g T _ => Ok (T, snd (fst g), snd g))
    (fun g _ P => Ok (fst (fst g), P, snd g))
    (fun g _ => Ok (fst (fst g), snd (fst g), true))
    (fun g => fst (fst g)) (fun g => snd (fst g))
    (fun g => snd (fst g) / (if snd g then 4 else 1)) (fun _ => 0) (fun _ => 0) (fun _ => tt)
    (fun _ => Ok 1) (fun _ => Ok 2).
Lemma state_gas_compressible u rnd : rounding u rnd -> forall T P, 0 < P ->
  4 * u * (10001/10000) < 1/10000 -> compressible state_gas tt "m" "" u T P.
Proof.
  intros _ T P P0 Su. exists (T, P, false), (T, P, true). split; [exists (300, 1000, false); split; reflexivity|].
  split; [reflexivity|]. split; [exact P0|]. intros p1 W.
  exists (T, p1, true), (T, p1, true). split; [reflexivity|]. split; [reflexivity|]. cbn [state_gas ct_density fst snd].
  unfold within in W. cbn [state_gas ct_P fst snd] in W. rewrite (Rabs_pos_eq (10001/10000 * P)) in W by lra.
  assert (4 * u * (10001/10000 * P) < 1/10000 * P).
  { replace (4 * u * (10001/10000 * P)) with (4 * u * (10001/10000) * P) by ring. apply Rmult_lt_compat_r; assumption. }
  unfold Rabs in W. destruct (Rcase_abs (p1 - 10001/10000 * P)); lra.
Qed.
Example C147_case :
  exists c y,
    speed_of_sound state_gas tt "m" "" double_unit 1000 1000 c
    /\ returns (value (@calculate_run_up R (R * R * bool) unit (Num_rounded double) Trans_R state_gas (1/2)
         (PSeq [ENum 1; EStr "in"]) (PSeq [ENum 1000; EStr "K"]) (PSeq [ENum 1000; EStr "Pa"]) tt "m" 0 "")) d_length y 0
    /\ within (7 / 1000000000000) (rough_tube (1/2) 2 4 c 0.0254) y.
Proof.
  assert (M : forall z, (-1024 <= z <= 1024)%Z -> machine_number double (IZR z)) by (intros; now apply double_rounding).
  assert (H2 : machine_number double (1/2)).
  { unfold machine_number, double. apply Generic_fmt.round_generic; [apply Generic_fmt.valid_rnd_N|].
    apply FLX.generic_format_FLX. exists (Defs.Float Zaux.radix2 1 (-1)).
    - unfold Defs.F2R. cbn. lra.
    - cbn. lia. }
  assert (Du : double_unit <= 1/8000000000000000) by (unfold double_unit; cbn -[IZR]; lra).
  assert (Dp : 0 < double_unit) by (unfold double_unit; cbn -[IZR]; lra).
  destruct (C147_run_up_rounding double_unit double double_rounding Trans_R state_gas (1/2)
    (PSeq [ENum 1; EStr "in"]) (PSeq [ENum 1000; EStr "K"]) (PSeq [ENum 1000; EStr "Pa"]) 0.0254 1000 1000 tt "m" "" 0
    2 4 (1000, 1000, true) (1/3)) as (c & y & A & B & C); try assumption; try lra; try (apply (M 1000%Z); lia).
  - eapply denotes_pair; [reflexivity|reflexivity|].
    unfold worth. cbn [mult_unit Pint.u_off u_scale]. unfold s_inch. rnum. q2r. lra.
  - left. reflexivity.
  - left. reflexivity.
  - exists (1000, 1000, false). split; [exists (300, 1000, false); split; reflexivity|].
    cbn [state_gas ct_flame_speed ct_equilibrate ct_density fst snd]. repeat split; lra.
  - cbn [state_gas ct_T fst snd]. lra.
  - cbn [state_gas ct_P fst snd]. lra.
  - apply (state_gas_compressible double_unit double double_rounding); [cbn [state_gas ct_P fst snd]; lra|]. lra.
  - exists c, y. split; [exact A|]. split; [exact B|].
    unfold within in *. eapply Rle_trans; [exact C|]. apply Rmult_le_compat_r; [apply Rabs_pos|]. lra.
Qed.
