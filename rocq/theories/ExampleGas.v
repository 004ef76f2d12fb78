(** * ExampleGas: an invented gas on which every iteration of sd.py converges in one
    step, used only to show that the hypotheses of theorems are met. *)
From Coq Require Import String ZArith QArith Reals Qreals List Bool Lra Lia Psatz.
From Verif Require Import PyBase Gas GasP FitM QLemmas FitP FitSpec SdM SdSpec SdP SpeedSpec SpeedP.
Import ListNotations.
Local Open Scope R_scope.

(** State: temperature, density, initial pressure in atm, composition.  Density, pressure
    scale with the initial pressure; the density of the unburnt gas at 1 atm is 1, that
    of burnt gas set by temperature, pressure and composition is 9.  Burning at constant
    enthalpy and pressure divides the density by 8; the speed of sound is 300. *)
Inductive composition := fresh | burnt.
Definition gas_state : Type := (R * R * R * composition)%type.

Definition bump (D : R) : R := (D - 9/5)^2 / 10.
Definition shape_P (D : R) : R :=
  if Rlt_dec 5 D then 101325 + 32000000/9
  else if Rle_dec D 1 then 101325
  else 101325 + 4000000 * (1 - 1 / D) + 4040 * (1 - 1 / D) * bump D.
Definition T_start : R := 400 * (101325 + 16000000/9 + 5760000) / (101325 + 16000000/9).
Definition shape_h (T D : R) : R :=
  if Rlt_dec 5 D then 2000000 * (56/81) + 16000000/27 + (T - T_start)
  else 1000 * (T - 2000) * (1 - 1 / D^2)
       + 2000000 * (1 - 1 / D^2) + 2020 * (1 - 1 / D^2) * bump D.

Definition temp (g : gas_state) := let '(T, _, _, _) := g in T.
Definition dens (g : gas_state) := let '(_, D, _, _) := g in D.
Definition atms (g : gas_state) := let '(_, _, k, _) := g in k.
Definition comp (g : gas_state) := let '(_, _, _, c) := g in c.

Definition example_gas : cantera R gas_state composition :=
  mkCantera R gas_state composition
    (fun _ _ => Ok (300, 1, 1, fresh))
    (fun g T P c => match c with
                    | fresh => if Rle_dec P 0 then Err (ValueError "negative pressure")
                               else Ok (T, P / 101325, P / 101325, fresh)
                    | burnt => Ok (T, 9 * atms g, atms g, burnt) end)
    (fun g T D => Ok (T, D, atms g, comp g))
    (fun g _ P => Ok (temp g, dens g + (P - atms g * shape_P (dens g / atms g)) / 90000,
                      atms g, comp g))
    (fun g mode => Ok (temp g, if String.eqb mode "HP" then dens g / 8 else dens g,
                       atms g, burnt))
    temp
    (fun g => atms g * shape_P (dens g / atms g))
    dens
    (fun g => shape_h (temp g) (dens g / atms g))
    (fun _ => 0) comp (fun _ => Ok (1/100000)) (fun _ => Ok (2/5)).

Lemma example_set g T P : 0 < P ->
  ct_set_TPX example_gas g T P fresh = Ok (T, P / 101325, P / 101325, fresh).
Proof. intros H. cbn. destruct (Rle_dec P 0); [lra|reflexivity]. Qed.
Lemma example_reject g T P : P <= 0 -> exists e, ct_set_TPX example_gas g T P fresh = Err e.
Proof. intros H. cbn. destruct (Rle_dec P 0); [eexists; reflexivity|lra]. Qed.

Lemma example_equilibrium g D T :
  equilibrium example_gas g D T
  = ([EvTD T D; EvEquilibrate "TV"], Ok (T, D, atms g, burnt)).
Proof. destruct g as [[[? ?] ?] ?]. reflexivity. Qed.

Lemma example_cj_state k D : 0 < k -> 1 < D -> D <= 5 -> bump D <= 1/10 ->
  value (cj_state example_gas 500 npdiv (300, k, k, fresh) (300, k, k, fresh)
                  (1/10000) (1/10000) D 500)
  = Ok ((2000, D * k, k, burnt), 2000 + bump D).
Proof.
  intros Hk HD HD5 Hb.
  assert (Hb0 : 0 <= bump D) by (unfold bump; pose proof (pow2_ge_0 (D - 9/5)); lra).
  unfold cj_state. rnum. rewrite lit_2000, lit_1000, one_R.
  cbn [example_gas ct_density dens].
  rewrite (pydiv_ok 1 k) by lra. rewrite bind_pure_ok.
  rewrite (npdiv_ok (1/k) D) by lra. rewrite bind_pure_ok.
  assert (ND : 1 / k / D <> 0).
  { apply Rgt_not_eq. apply Rdiv_lt_0_compat; [apply Rdiv_lt_0_compat; lra|lra]. }
  rewrite npdiv_ok by exact ND. rewrite bind_pure_ok. fold example_gas.
  rewrite example_equilibrium, bind_some, value_after.
  replace (1 / (1 / k / D)) with (D * k) by (field; lra). cbn [atms].
  change 500%nat with (S (S 498)). cbn [cj_loop]. rnum.
  rewrite (Rabs_pos_eq 1000) by lra.
  rewrite QLemmas.Rltb_true by lra. cbn [orb].
  change (Z.eqb (0 + 1) 500) with false. cbv iota.
  assert (NDk : D * k <> 0) by (apply Rmult_integral_contrapositive; lra).
  assert (Hbody : exists tr, cj_body example_gas (300, k, k, fresh) (D * k) (2000, D * k, k, burnt) 2000 2000
    = (tr, Ok ((2000, D * k, k, burnt), 2000, 2000 + bump D, 0, bump D))).
  { unfold cj_body. rnum. rewrite !lit_002.
    rewrite error_equilibrium_R by exact NDk. rewrite bind_pure_ok.
    rewrite example_equilibrium, bind_some.
    rewrite error_equilibrium_R by exact NDk. rewrite bind_pure_ok.
    rewrite !pydiv_ok by lra. rewrite !bind_pure_ok.
    rewrite example_equilibrium, bind_some.
    rewrite error_equilibrium_R by exact NDk. rewrite bind_pure_ok.
    rewrite !pydiv_ok by lra. rewrite !bind_pure_ok.
    unfold energy_imbalance, momentum_imbalance.
    cbn [example_gas ct_P ct_enthalpy ct_density dens temp atms].
    replace (D * k / k) with D by (field; lra). replace (k / k) with 1 by (field; lra).
    replace (2000 * k / (D * k)) with (2000 / D) by (field; lra).
    replace ((2000 + 1/50 * 2000) * k / (D * k)) with (2040 / D) by (field; lra).
    unfold shape_P, shape_h. destruct (Rlt_dec 5 D) as [H5|_]; [lra|].
    destruct (Rlt_dec 5 1) as [H5|_]; [lra|]. destruct (Rle_dec D 1) as [H1|_]; [lra|].
    destruct (Rle_dec 1 1) as [_|H1]; [|lra].
    match goal with |- context [solve2 pydiv ?a ?b ?c ?d ?e ?f] =>
      set (hT := a); set (pT := b); set (hV := c); set (pV := d); set (eh := e); set (ep := f) end.
    assert (EhT : hT = 1000 * (1 - 1 / D^2)) by (unfold hT; field; lra).
    assert (EpT : pT = 0) by (unfold pT; field; lra).
    assert (EhV : hV = - 2020 * (1 - 1 / D^2)) by (unfold hV; field; lra).
    assert (EpV : pV = - 4040 * k * (1 - 1 / D)) by (unfold pV; field; lra).
    assert (Eeh : eh = 2020 * (1 - 1 / D^2) * bump D) by (unfold eh, bump; field; lra).
    assert (Eep : ep = 4040 * k * (1 - 1 / D) * bump D) by (unfold ep, bump; field; lra).
    assert (ND1 : 1 - 1 / D <> 0).
    { intros E. apply (f_equal (fun z => z * D)) in E.
      replace ((1 - 1 / D) * D) with (D - 1) in E by (field; lra). lra. }
    assert (ND2 : 1 - 1 / D^2 <> 0).
    { intros E. apply (f_equal (fun z => z * D^2)) in E.
      replace ((1 - 1 / D^2) * D^2) with (D^2 - 1) in E by (field; lra). nra. }
    assert (Es : solve2 pydiv hT pT hV pV eh ep = Ok (0, bump D)).
    { unfold solve2. rnum. rewrite EhT, EpT, EhV, EpV, Eeh, Eep.
      clear - Hk ND1 ND2. revert ND1 ND2. generalize (1 - 1 / D) (1 - 1 / D^2) (bump D).
      intros q m b ND1 ND2.
      assert (N : 1000 * m * (- 4040 * k * q) - 0 * (- 2020 * m) <> 0).
      { replace (_ - _) with (- 4040000 * (k * (m * q))) by ring.
        apply Rmult_integral_contrapositive; split; [lra|].
        apply Rmult_integral_contrapositive; split; [lra|].
        apply Rmult_integral_contrapositive. auto. }
      rewrite !pydiv_ok by exact N. cbn [bind].
      f_equal. f_equal; field; repeat split; try assumption; lra. }
    rewrite Es, bind_pure_ok.
    assert (El : limit_temperature 0 2000 = Ok 0).
    { unfold limit_temperature. rnum. rewrite lit_02, Rabs_R0.
      rewrite QLemmas.Rltb_false by lra. reflexivity. }
    rewrite El, bind_pure_ok. rewrite example_equilibrium, bind_some.
    unfold after, ret. cbn [fst snd app atms].
    replace (2000 + 0) with 2000 by ring. eexists. reflexivity. }
  destruct Hbody as (tr & Hbody). rewrite Hbody, bind_some, value_after.
  rewrite Rabs_R0. rewrite QLemmas.Rltb_false by lra. rewrite (Rabs_pos_eq (bump D)) by lra.
  rewrite QLemmas.Rltb_false by lra. reflexivity.
Qed.

Lemma example_cj_result P mech D : 0 < P -> 1 < D -> D <= 5 -> bump D <= 1/10 ->
  cj_result example_gas P 300 fresh mech D
    (2000, D * (P / 101325), P / 101325, burnt) (2000 + bump D).
Proof.
  intros HP HD H5 Hb. set (k := P / 101325).
  assert (Hk : 0 < k) by (unfold k; lra).
  exists (300, k, k, fresh), (300, k, k, fresh).
  split; [exists (300, 1, 1, fresh); split; [reflexivity|apply example_set; exact HP]|].
  split; [exists (300, 1, 1, fresh); split; [reflexivity|apply example_set; exact HP]|].
  apply example_cj_state; assumption.
Qed.

(** ** The reflected shock *)
Lemma example_reflect k : 0 < k ->
  value (reflect example_gas (300, k, k, fresh) (2000, 9/5 * k, k, burnt) (300, k, k, fresh) 2000)
  = Ok (k * (101325 + 32000000/9), 2000/9, (T_start, 9 * k, k, burnt)).
Proof.
  intros Hk.
  assert (HP2 : shape_P (9/5) = 101325 + 16000000/9).
  { unfold shape_P. destruct (Rlt_dec 5 (9/5)); [lra|]. destruct (Rle_dec (9/5) 1); [lra|]. unfold bump. field. }
  assert (HP1 : shape_P 1 = 101325).
  { unfold shape_P. destruct (Rlt_dec 5 1); [lra|]. destruct (Rle_dec 1 1); [reflexivity|lra]. }
  assert (HPhi : forall D, 5 < D -> shape_P D = 101325 + 32000000/9).
  { intros D HD. unfold shape_P. destruct (Rlt_dec 5 D); [reflexivity|lra]. }
  assert (Hh2 : shape_h 2000 (9/5) = 2000000 * (56/81)).
  { unfold shape_h. destruct (Rlt_dec 5 (9/5)); [lra|]. unfold bump. field. }
  assert (Hhhi : forall T D, 5 < D -> shape_h T D = 2000000 * (56/81) + 16000000/27 + (T - T_start)).
  { intros T D HD. unfold shape_h. destruct (Rlt_dec 5 D); [reflexivity|lra]. }
  assert (HT : 0 < T_start) by (unfold T_start; apply Rdiv_lt_0_compat; lra).
  unfold reflect. rnum. rewrite one_R, lit_02.
  cbn [example_gas ct_density ct_P ct_T ct_X dens atms temp comp].
  replace (k / k) with 1 by (field; lra). replace (9 / 5 * k / k) with (9/5) by (field; lra).
  rewrite HP1, HP2.
  rewrite (pydiv_ok 1 k) by lra. rewrite bind_pure_ok.
  rewrite (pydiv_ok 1 (9/5 * k)) by lra. rewrite bind_pure_ok.
  replace ((k * (101325 + 16000000 / 9) - k * 101325) * (1 / k - 1 / (9 / 5 * k)))
    with ((8000/9) * (8000/9)) by (field; lra).
  unfold npsqrt at 1. rnum. rewrite zero_R, QLemmas.Rltb_false by lra. rewrite sqrt_square by lra.
  rewrite bind_pure_ok.
  rewrite (pydiv_ok (1/5) (9/5 * k)) by lra. rewrite bind_pure_ok.
  assert (Nv : 0 < 1 / (9/5 * k)) by (apply Rdiv_lt_0_compat; lra).
  rewrite pydiv_ok by lra. rewrite bind_pure_ok.
  replace (1 / 5 / (9 / 5 * k) / (1 / (9 / 5 * k))) with (1/5) by (field; lra).
  assert (Np : k * (101325 + 16000000/9) * (1 / (9/5 * k)) <> 0).
  { apply Rgt_not_eq. apply Rmult_lt_0_compat; [apply Rmult_lt_0_compat; lra|exact Nv]. }
  rewrite pydiv_ok by exact Np. rewrite bind_pure_ok.
  set (Tw := _ / _).
  assert (ETw : Tw = T_start) by (unfold Tw, T_start, sq; rnum; field; lra).
  rewrite ETw. clear Tw ETw Np Nv.
  match goal with |- context [set_TPX _ _ _ ?P0 _] => set (Pw := P0) end. fold example_gas.
  unfold set_TPX, act. cbn [example_gas ct_set_TPX atms]. fold example_gas.
  rewrite bind_some, value_after.
  (* the iteration *)
  assert (Ev : value (get_eq_state example_gas 500 npdiv (8000/9) (2000, 9/5 * k, k, burnt)
                  (T_start, 9 * k, k, burnt) (Q2R 0.0001) (Q2R 0.0001) 500)
               = Ok (T_start, 9 * k, k, burnt)).
  { assert (Etol : Q2R 0.0001 = 1/10000) by (unfold Q2R; simpl; lra). rewrite Etol.
    unfold get_eq_state. rnum. rewrite lit_1000, one_R.
    cbn [example_gas ct_density ct_T dens temp]. fold example_gas.
    rewrite (pydiv_ok 1 (9/5 * k)) by lra. rewrite bind_pure_ok.
    rewrite (pydiv_ok 1 (9 * k)) by lra. rewrite bind_pure_ok.
    rewrite example_equilibrium, bind_some, value_after. cbn [atms].
    change 500%nat with (S (S 498)). cbn [eq_loop]. rnum.
    assert (HT9 : T_start < 10000).
    { unfold T_start. apply Rmult_lt_reg_r with (101325 + 16000000/9); [lra|].
      unfold Rdiv at 1. rewrite Rmult_assoc, Rinv_l by lra. lra. }
    rewrite (Rabs_pos_eq 1000) by lra.
    rewrite QLemmas.Rltb_true by lra. cbn [orb].
    change (Z.eqb (0 + 1) 500) with false. cbv iota.
    assert (Hbody : exists tr,
      eq_body example_gas npdiv (8000/9) (2000, 9/5 * k, k, burnt) (1 / (9/5 * k))
              (T_start, 9 * k, k, burnt) T_start (1 / (9 * k)) (9 * k)
      = (tr, Ok ((T_start, 9 * k, k, burnt), T_start, 1 / (9 * k), 9 * k, 0, 0))).
    { unfold eq_body. rnum. rewrite !lit_002, ?one_R.
      assert (Ev1 : 1 / (1 / (9 * k) + 1/50 * (1 / (9 * k))) = 50/51 * (9 * k)) by (field; lra).
      assert (Nv1 : 1 / (9 * k) + 1/50 * (1 / (9 * k)) <> 0).
      { assert (0 < 1 / (9 * k)) by (apply Rdiv_lt_0_compat; lra). lra. }
      assert (Hv9 : 0 < 1 / (9 * k)) by (apply Rdiv_lt_0_compat; lra).
      assert (Er1 : 9 * k / (9/5 * k) = 5) by (field; lra).
      assert (Er2 : 50/51 * (9 * k) / (9/5 * k) = 250/51) by (field; lra).
      rewrite error_reflected_R; [|right; reflexivity|cbn; lra|cbn; lra]. rewrite bind_pure_ok.
      rewrite example_equilibrium, bind_some.
      rewrite error_reflected_R; [|right; reflexivity|cbn; lra|cbn; lra]. rewrite bind_pure_ok.
      rewrite !npdiv_ok by lra. rewrite !bind_pure_ok.
      rewrite pydiv_ok by exact Nv1. rewrite bind_pure_ok, Ev1.
      rewrite example_equilibrium, bind_some.
      rewrite error_reflected_R; [|right; reflexivity|cbn; lra|cbn; lra]. rewrite bind_pure_ok.
      rewrite !npdiv_ok by lra. rewrite !bind_pure_ok.
      unfold reflected_energy_imbalance, reflected_momentum_imbalance.
      cbn [example_gas ct_P ct_enthalpy ct_density dens temp atms]. fold example_gas.
      rewrite Er1, Er2.
      replace (9 * k / k) with 9 by (field; lra).
      replace (9 / 5 * k / k) with (9/5) by (field; lra).
      replace (50 / 51 * (9 * k) / k) with (450/51) by (field; lra).
      rewrite HP2, Hh2, !HPhi, !Hhhi by lra.
      match goal with |- context [solve2 npdiv ?a ?b ?c ?d ?e ?f] =>
        set (hT := a); set (pT := b); set (hv := c); set (pv := d); set (eh := e); set (ep := f) end.
      assert (EhT : hT = 1) by (unfold hT; field; lra).
      assert (EpT : pT = 0) by (unfold pT; field; lra).
      assert (Eeh : eh = 0) by (unfold eh; field).
      assert (Eep : ep = 0) by (unfold ep; field).
      assert (Epv : pv <> 0).
      { assert (E : pv = - (800000000 / 199 * k^2)) by (unfold pv; field; lra).
        rewrite E. assert (0 < k^2) by nra. nra. }
      assert (Es : solve2 npdiv hT pT hv pv eh ep = Ok (0, 0)).
      { unfold solve2. rnum. rewrite EhT, EpT, Eeh, Eep.
        assert (N : 1 * pv - 0 * hv <> 0) by lra.
        rewrite !npdiv_ok by exact N. cbn [bind]. f_equal. f_equal; field; exact Epv. }
      rewrite Es, bind_pure_ok.
      assert (El : limit_temperature_reflected npdiv 0 T_start = Ok 0).
      { unfold limit_temperature_reflected. rnum. rewrite lit_02, Rabs_R0.
        rewrite QLemmas.Rltb_false by lra. reflexivity. }
      rewrite El, bind_pure_ok.
      assert (Elv : limit_volume npdiv 0 (1 / (9 * k)) (1 / (9/5 * k)) = Ok 0).
      { unfold limit_volume. rnum. rewrite lit_02, lit_05, Rabs_R0.
        assert (1 / (9/5 * k) = 5 * (1 / (9 * k))) by (field; lra).
        rewrite (QLemmas.Rltb_false (1 / (9/5 * k))) by lra.
        rewrite QLemmas.Rltb_false by lra. reflexivity. }
      rewrite Elv, bind_pure_ok.
      rewrite npdiv_ok by lra. rewrite bind_pure_ok.
      rewrite example_equilibrium, bind_some.
      replace (T_start + 0) with T_start by ring.
      replace (1 / (9 * k) + 0) with (1 / (9 * k)) by ring.
      replace (1 / (1 / (9 * k))) with (9 * k) by (field; lra).
      unfold after, ret. cbn [fst snd app atms]. eexists. reflexivity. }
    destruct Hbody as (tr & Hbody). rewrite Hbody, bind_some, value_after.
    rewrite Rabs_R0. rewrite !QLemmas.Rltb_false.
    - reflexivity.
    - assert (0 < 1 / (9 * k)) by (apply Rdiv_lt_0_compat; lra). lra.
    - lra. }
  rewrite value_bind, Ev. cbn [bind].
  cbn [example_gas ct_P dens atms]. replace (9 * k / k) with 9 by (field; lra).
  rewrite (HPhi 9) by lra.
  rewrite npdiv_ok by lra. rewrite bind_pure_ok.
  rewrite npdiv_ok by lra. rewrite bind_pure_ok, value_ret.
  f_equal. f_equal. f_equal. field. lra.
Qed.
