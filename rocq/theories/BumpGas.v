(** * BumpGas: ExampleGas with an arbitrary CJ speed, 2000 + b(D) m/s at density ratio D.
    Used only to show that hypotheses are met and to refute claims. *)
From Coq Require Import String ZArith QArith Reals Qreals List Bool Lra Lia Psatz.
From Verif Require Import PyBase Gas GasP FitM QLemmas FitP FitSpec SdM SdSpec SdP SpeedSpec SpeedP ExampleGas.
Import ListNotations.
Local Open Scope R_scope.

Section Bump.
Context (b : R -> R).
Definition bumped_P (D : R) : R :=
  if Rle_dec D 1 then 101325
  else 101325 + 4000000 * (1 - 1 / D) + 4040 * (1 - 1 / D) * b D.
Definition bumped_h (T D : R) : R :=
  1000 * (T - 2000) * (1 - 1 / D^2) + 2000000 * (1 - 1 / D^2) + 2020 * (1 - 1 / D^2) * b D.

Definition bump_gas : cantera R gas_state composition :=
  mkCantera R gas_state composition
    (fun _ _ => Ok (300, 1, 1, fresh))
    (fun g T P c => Ok (T, P / 101325, P / 101325, c))
    (fun g T D => Ok (T, D, atms g, comp g))
    (fun g _ P => Ok g)
    (fun g mode => Ok (temp g, dens g, atms g, burnt))
    temp
    (fun g => atms g * bumped_P (dens g / atms g))
    dens
    (fun g => bumped_h (temp g) (dens g / atms g))
    (fun _ => 0) comp (fun _ => Ok (1/100000)) (fun _ => Ok (2/5)).

Lemma bumped_equilibrium g D T :
  equilibrium bump_gas g D T
  = ([EvTD T D; EvEquilibrate "TV"], Ok (T, D, atms g, burnt)).
Proof. destruct g as [[[? ?] ?] ?]. reflexivity. Qed.

Lemma bumped_cj_state k D : 0 < k -> 1 < D -> Rabs (b D) <= 1/10 ->
  value (cj_state bump_gas 500 npdiv (300, k, k, fresh) (300, k, k, fresh)
                  (1/10000) (1/10000) D 500)
  = Ok ((2000, D * k, k, burnt), 2000 + b D).
Proof.
  intros Hk HD Hb.
  assert (Hb2 : -(1/10) <= b D <= 1/10) by (unfold Rabs in Hb; destruct (Rcase_abs (b D)); lra).
  unfold cj_state. rnum. rewrite lit_2000, lit_1000, one_R.
  cbn [bump_gas ct_density dens].
  rewrite (pydiv_ok 1 k) by lra. rewrite bind_pure_ok.
  rewrite (npdiv_ok (1/k) D) by lra. rewrite bind_pure_ok.
  assert (ND : 1 / k / D <> 0).
  { apply Rgt_not_eq. apply Rdiv_lt_0_compat; [apply Rdiv_lt_0_compat; lra|lra]. }
  rewrite npdiv_ok by exact ND. rewrite bind_pure_ok. fold bump_gas.
  rewrite bumped_equilibrium, bind_some, value_after.
  replace (1 / (1 / k / D)) with (D * k) by (field; lra). cbn [atms].
  change 500%nat with (S (S 498)). cbn [cj_loop]. rnum.
  rewrite (Rabs_pos_eq 1000) by lra.
  rewrite QLemmas.Rltb_true by lra. cbn [orb].
  change (Z.eqb (0 + 1) 500) with false. cbv iota.
  assert (NDk : D * k <> 0) by (apply Rmult_integral_contrapositive; lra).
  assert (Hbody : exists tr, cj_body bump_gas (300, k, k, fresh) (D * k) (2000, D * k, k, burnt) 2000 2000
    = (tr, Ok ((2000, D * k, k, burnt), 2000, 2000 + b D, 0, b D))).
  { unfold cj_body. rnum. rewrite !lit_002.
    rewrite error_equilibrium_R by exact NDk. rewrite bind_pure_ok.
    rewrite bumped_equilibrium, bind_some.
    rewrite error_equilibrium_R by exact NDk. rewrite bind_pure_ok.
    rewrite !pydiv_ok by lra. rewrite !bind_pure_ok.
    rewrite bumped_equilibrium, bind_some.
    rewrite error_equilibrium_R by exact NDk. rewrite bind_pure_ok.
    rewrite !pydiv_ok by lra. rewrite !bind_pure_ok.
    unfold energy_imbalance, momentum_imbalance.
    cbn [bump_gas ct_P ct_enthalpy ct_density dens temp atms].
    replace (D * k / k) with D by (field; lra). replace (k / k) with 1 by (field; lra).
    replace (2000 * k / (D * k)) with (2000 / D) by (field; lra).
    replace ((2000 + 1/50 * 2000) * k / (D * k)) with (2040 / D) by (field; lra).
    unfold bumped_P, bumped_h. destruct (Rle_dec D 1) as [H1|_]; [lra|].
    destruct (Rle_dec 1 1) as [_|H1]; [|lra].
    match goal with |- context [solve2 pydiv ?a ?b ?c ?d ?e ?f] =>
      set (hT := a); set (pT := b); set (hV := c); set (pV := d); set (eh := e); set (ep := f) end.
    assert (EhT : hT = 1000 * (1 - 1 / D^2)) by (unfold hT; field; lra).
    assert (EpT : pT = 0) by (unfold pT; field; lra).
    assert (EhV : hV = - 2020 * (1 - 1 / D^2)) by (unfold hV; field; lra).
    assert (EpV : pV = - 4040 * k * (1 - 1 / D)) by (unfold pV; field; lra).
    assert (Eeh : eh = 2020 * (1 - 1 / D^2) * b D) by (unfold eh; field; lra).
    assert (Eep : ep = 4040 * k * (1 - 1 / D) * b D) by (unfold ep; field; lra).
    assert (ND1 : 1 - 1 / D <> 0).
    { intros E. apply (f_equal (fun z => z * D)) in E.
      replace ((1 - 1 / D) * D) with (D - 1) in E by (field; lra). lra. }
    assert (ND2 : 1 - 1 / D^2 <> 0).
    { intros E. apply (f_equal (fun z => z * D^2)) in E.
      replace ((1 - 1 / D^2) * D^2) with (D^2 - 1) in E by (field; lra). nra. }
    assert (Es : solve2 pydiv hT pT hV pV eh ep = Ok (0, b D)).
    { unfold solve2. rnum. rewrite EhT, EpT, EhV, EpV, Eeh, Eep.
      clear - Hk ND1 ND2. revert ND1 ND2. generalize (1 - 1 / D) (1 - 1 / D^2) (b D).
      intros q m b' ND1 ND2.
      assert (N : 1000 * m * (- 4040 * k * q) - 0 * (- 2020 * m) <> 0).
      { replace (_ - _) with (- 4040000 * (k * (m * q))) by ring.
        apply Rmult_integral_contrapositive; split; [lra|].
        apply Rmult_integral_contrapositive; split; [lra|].
        apply Rmult_integral_contrapositive. auto. }
      rewrite !pydiv_ok by exact N. cbn [bind].
      f_equal. f_equal; field; repeat split; try assumption; lra. }
    rewrite Es, bind_pure_ok.
    assert (El : limit_temperature 0 2000 = Ok 0).
    { unfold limit_temperature. rnum. rewrite lit_02, Rabs_R0.
      rewrite QLemmas.Rltb_false by lra. reflexivity. }
    rewrite El, bind_pure_ok. rewrite bumped_equilibrium, bind_some.
    unfold after, ret. cbn [fst snd app atms].
    replace (2000 + 0) with 2000 by ring. eexists. reflexivity. }
  destruct Hbody as (tr & Hbody). rewrite Hbody, bind_some, value_after.
  rewrite Rabs_R0. rewrite QLemmas.Rltb_false by lra. 
  rewrite QLemmas.Rltb_false by lra. reflexivity.
Qed.

Lemma bumped_cj_result P mech D : 0 < P -> 1 < D -> Rabs (b D) <= 1/10 ->
  cj_result bump_gas P 300 fresh mech D
    (2000, D * (P / 101325), P / 101325, burnt) (2000 + b D).
Proof.
  intros HP HD Hb. set (k := P / 101325).
  assert (Hk : 0 < k) by (unfold k; lra).
  exists (300, k, k, fresh), (300, k, k, fresh).
  split; [exists (300, 1, 1, fresh); split; reflexivity|].
  split; [exists (300, 1, 1, fresh); split; reflexivity|].
  apply bumped_cj_state; assumption.
Qed.

End Bump.
