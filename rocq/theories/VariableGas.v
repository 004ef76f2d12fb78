(** * VariableGas: ExampleGas with pressure-dependent chemistry.  The state carries a scale
    [s] in place of the initial pressure in atm and an offset [d] of the CJ speed; both are
    given functions of the initial pressure.  Used only to show that the hypotheses of
    theorems are met. *)
From Coq Require Import String ZArith QArith Reals Qreals List Bool Lra Lia Psatz Permutation.
From Verif Require Import PyBase Pint UnitsM Spec Gas GasP FitM QLemmas FitP FitSpec SdM SdSpec SdP SpeedSpec SpeedP
  ThermoM ThermoSpec ThermoP ExampleGas Properties_Speed Properties_Thermo.
Import ListNotations.
Local Open Scope R_scope.

Definition vstate : Type := (R * R * R * R * composition)%type.
Definition vbump (d D : R) : R := (D - 9/5)^2 / 10 + d.
(** square of the CJ speed, for small offsets *)
Definition vsq (d : R) : R := 4000000 + 4040 * d.
Definition vshape_P (d D : R) : R :=
  if Rlt_dec 5 D then 101325 + 8/9 * vsq d
  else if Rle_dec D 1 then 101325
  else 101325 + 4000000 * (1 - 1 / D) + 4040 * (1 - 1 / D) * vbump d D.
Definition vT_start (d : R) : R :=
  400 * (101325 + 4/9 * vsq d + 36/25 * (2000 + d)^2) / (101325 + 4/9 * vsq d).
Definition vshape_h (d T D : R) : R :=
  if Rlt_dec 5 D then 2000000 * (56/81) + 2020 * (56/81) * d + 4/27 * vsq d + (T - vT_start d)
  else 1000 * (T - 2000) * (1 - 1 / D^2)
       + 2000000 * (1 - 1 / D^2) + 2020 * (1 - 1 / D^2) * vbump d D.

Definition vtemp (g : vstate) := let '(T, _, _, _, _) := g in T.
Definition vdens (g : vstate) := let '(_, D, _, _, _) := g in D.
Definition vscale (g : vstate) := let '(_, _, s, _, _) := g in s.
Definition voff (g : vstate) := let '(_, _, _, d, _) := g in d.
Definition vcomp (g : vstate) := let '(_, _, _, _, c) := g in c.

Section Varying.
  Context (scale offset : R -> R).

  Definition vgas : cantera R vstate composition :=
    mkCantera R vstate composition
      (fun _ _ => Ok (300, 1, 1, 0, fresh))
      (fun g T P c => match c with
                      | fresh => Ok (T, scale P, scale P, offset P, fresh)
                      | burnt => Ok (T, 9 * vscale g, vscale g, voff g, burnt) end)
      (fun g T D => Ok (T, D, vscale g, voff g, vcomp g))
      (fun g _ P => Ok g)
      (fun g mode => Ok (vtemp g, vdens g, vscale g, voff g, burnt))
      vtemp
      (fun g => vscale g * vshape_P (voff g) (vdens g / vscale g))
      vdens
      (fun g => vshape_h (voff g) (vtemp g) (vdens g / vscale g))
      (fun _ => 0) vcomp (fun _ => Ok (1/100000)) (fun _ => Ok (2/5)).

Lemma vequilibrium g D T :
  equilibrium vgas g D T
  = ([EvTD T D; EvEquilibrate "TV"], Ok (T, D, vscale g, voff g, burnt)).
Proof. destruct g as [[[[? ?] ?] ?] ?]. reflexivity. Qed.

Lemma vcj_state k d D : 0 < k -> 0 <= d <= 1/10 -> 1 < D -> D <= 5 -> vbump d D <= 1/5 ->
  value (cj_state vgas 500 npdiv (300, k, k, d, fresh) (300, k, k, d, fresh)
                  (1/10000) (1/10000) D 500)
  = Ok ((2000, D * k, k, d, burnt), 2000 + vbump d D).
Proof.
  intros Hk Hd HD HD5 Hb.
  assert (Hb0 : 0 <= vbump d D) by (unfold vbump; pose proof (pow2_ge_0 (D - 9/5)); lra).
  unfold cj_state. rnum. rewrite lit_2000, lit_1000, one_R.
  cbn [vgas ct_density vdens].
  rewrite (pydiv_ok 1 k) by lra. rewrite bind_pure_ok.
  rewrite (npdiv_ok (1/k) D) by lra. rewrite bind_pure_ok.
  assert (ND : 1 / k / D <> 0).
  { apply Rgt_not_eq. apply Rdiv_lt_0_compat; [apply Rdiv_lt_0_compat; lra|lra]. }
  rewrite npdiv_ok by exact ND. rewrite bind_pure_ok. fold vgas.
  rewrite vequilibrium, bind_some, value_after.
  replace (1 / (1 / k / D)) with (D * k) by (field; lra). cbn [vscale voff].
  change 500%nat with (S (S 498)). cbn [cj_loop]. rnum.
  rewrite (Rabs_pos_eq 1000) by lra.
  rewrite QLemmas.Rltb_true by lra. cbn [orb].
  change (Z.eqb (0 + 1) 500) with false. cbv iota.
  assert (NDk : D * k <> 0) by (apply Rmult_integral_contrapositive; lra).
  assert (Hbody : exists tr, cj_body vgas (300, k, k, d, fresh) (D * k) (2000, D * k, k, d, burnt) 2000 2000
    = (tr, Ok ((2000, D * k, k, d, burnt), 2000, 2000 + vbump d D, 0, vbump d D))).
  { unfold cj_body. rnum. rewrite !lit_002.
    rewrite error_equilibrium_R by exact NDk. rewrite bind_pure_ok.
    rewrite vequilibrium, bind_some.
    rewrite error_equilibrium_R by exact NDk. rewrite bind_pure_ok.
    rewrite !pydiv_ok by lra. rewrite !bind_pure_ok.
    rewrite vequilibrium, bind_some.
    rewrite error_equilibrium_R by exact NDk. rewrite bind_pure_ok.
    rewrite !pydiv_ok by lra. rewrite !bind_pure_ok.
    unfold energy_imbalance, momentum_imbalance.
    cbn [vgas ct_P ct_enthalpy ct_density vdens vtemp vscale voff].
    replace (D * k / k) with D by (field; lra). replace (k / k) with 1 by (field; lra).
    replace (2000 * k / (D * k)) with (2000 / D) by (field; lra).
    replace ((2000 + 1/50 * 2000) * k / (D * k)) with (2040 / D) by (field; lra).
    unfold vshape_P, vshape_h. destruct (Rlt_dec 5 D) as [H5|_]; [lra|].
    destruct (Rlt_dec 5 1) as [H5|_]; [lra|]. destruct (Rle_dec D 1) as [H1|_]; [lra|].
    destruct (Rle_dec 1 1) as [_|H1]; [|lra].
    match goal with |- context [solve2 pydiv ?a ?b ?c ?d ?e ?f] =>
      set (hT := a); set (pT := b); set (hV := c); set (pV := d); set (eh := e); set (ep := f) end.
    assert (EhT : hT = 1000 * (1 - 1 / D^2)) by (unfold hT; field; lra).
    assert (EpT : pT = 0) by (unfold pT; field; lra).
    assert (EhV : hV = - 2020 * (1 - 1 / D^2)) by (unfold hV; field; lra).
    assert (EpV : pV = - 4040 * k * (1 - 1 / D)) by (unfold pV; field; lra).
    assert (Eeh : eh = 2020 * (1 - 1 / D^2) * vbump d D) by (unfold eh, vbump; field; lra).
    assert (Eep : ep = 4040 * k * (1 - 1 / D) * vbump d D) by (unfold ep, vbump; field; lra).
    assert (ND1 : 1 - 1 / D <> 0).
    { intros E. apply (f_equal (fun z => z * D)) in E.
      replace ((1 - 1 / D) * D) with (D - 1) in E by (field; lra). lra. }
    assert (ND2 : 1 - 1 / D^2 <> 0).
    { intros E. apply (f_equal (fun z => z * D^2)) in E.
      replace ((1 - 1 / D^2) * D^2) with (D^2 - 1) in E by (field; lra). nra. }
    assert (Es : solve2 pydiv hT pT hV pV eh ep = Ok (0, vbump d D)).
    { unfold solve2. rnum. rewrite EhT, EpT, EhV, EpV, Eeh, Eep.
      clear - Hk ND1 ND2. revert ND1 ND2. generalize (1 - 1 / D) (1 - 1 / D^2) (vbump d D).
      intros q m b ND1 ND2.
      assert (N : 1000 * m * (- 4040 * k * q) - 0 * (- 2020 * m) <> 0).
      { replace (_ - _) with (- 4040000 * (k * (m * q))) by ring.
        apply Rmult_integral_contrapositive; split; [lra|].
        apply Rmult_integral_contrapositive; split; [lra|].
        apply Rmult_integral_contrapositive. auto. }
      rewrite !pydiv_ok by exact N. cbn [bind].
      f_equal. f_equal; field; repeat split; try assumption; lra. }
    rewrite Es, bind_pure_ok.
    assert (El : limit_temperature 0 2000 = Ok 0).
    { unfold limit_temperature. rnum. rewrite lit_02, Rabs_R0.
      rewrite QLemmas.Rltb_false by lra. reflexivity. }
    rewrite El, bind_pure_ok. rewrite vequilibrium, bind_some.
    unfold after, ret. cbn [fst snd app vscale voff].
    replace (2000 + 0) with 2000 by ring. eexists. reflexivity. }
  destruct Hbody as (tr & Hbody). rewrite Hbody, bind_some, value_after.
  rewrite Rabs_R0. rewrite QLemmas.Rltb_false by lra. rewrite (Rabs_pos_eq (vbump d D)) by lra.
  rewrite QLemmas.Rltb_false by lra. reflexivity.
Qed.

Lemma vcj_result P mech D : 0 < scale P -> 0 <= offset P <= 1/10 -> 1 < D -> D <= 5 ->
  vbump (offset P) D <= 1/5 ->
  cj_result vgas P 300 fresh mech D
    (2000, D * scale P, scale P, offset P, burnt) (2000 + vbump (offset P) D).
Proof.
  intros Hk Hd HD H5 Hb. set (k := scale P) in *. set (d := offset P) in *.
  exists (300, k, k, d, fresh), (300, k, k, d, fresh).
  split; [exists (300, 1, 1, 0, fresh); split; reflexivity|].
  split; [exists (300, 1, 1, 0, fresh); split; reflexivity|].
  apply vcj_state; assumption.
Qed.

(** ** The reflected shock *)
Lemma vreflect k d : 0 < k -> 0 <= d <= 1/10 ->
  value (reflect vgas (300, k, k, d, fresh) (2000, 9/5 * k, k, d, burnt) (300, k, k, d, fresh) (2000 + d))
  = Ok (k * (101325 + 8/9 * vsq d), sqrt (vsq d) / 9, (vT_start d, 9 * k, k, d, burnt)).
Proof.
  intros Hk Hd.
  assert (Hv : 4000000 <= vsq d) by (unfold vsq; lra).
  set (u := 4/9 * sqrt (vsq d)).
  assert (Hsq : sqrt (vsq d) * sqrt (vsq d) = vsq d) by (apply sqrt_sqrt; lra).
  assert (Hsp : 0 < sqrt (vsq d)) by (apply sqrt_lt_R0; lra).
  assert (Hu : 0 < u) by (unfold u; lra).
  assert (Eu : u^2 = 16/81 * vsq d) by (transitivity (16/81 * (sqrt (vsq d) * sqrt (vsq d))); [unfold u; field|rewrite Hsq; reflexivity]).
  assert (HP2 : vshape_P d (9/5) = 101325 + 4/9 * vsq d).
  { unfold vshape_P. destruct (Rlt_dec 5 (9/5)); [lra|]. destruct (Rle_dec (9/5) 1); [lra|]. unfold vbump, vsq. field. }
  assert (HP1 : vshape_P d 1 = 101325).
  { unfold vshape_P. destruct (Rlt_dec 5 1); [lra|]. destruct (Rle_dec 1 1); [reflexivity|lra]. }
  assert (HPhi : forall D, 5 < D -> vshape_P d D = 101325 + 8/9 * vsq d).
  { intros D HD. unfold vshape_P. destruct (Rlt_dec 5 D); [reflexivity|lra]. }
  assert (Hh2 : vshape_h d 2000 (9/5) = 2000000 * (56/81) + 2020 * (56/81) * d).
  { unfold vshape_h. destruct (Rlt_dec 5 (9/5)); [lra|]. unfold vbump. field. }
  assert (Hhhi : forall T D, 5 < D -> vshape_h d T D
     = 2000000 * (56/81) + 2020 * (56/81) * d + 4/27 * vsq d + (T - vT_start d)).
  { intros T D HD. unfold vshape_h. destruct (Rlt_dec 5 D); [reflexivity|lra]. }
  assert (HT : 0 < vT_start d).
  { unfold vT_start. pose proof (pow2_ge_0 (2000 + d)). apply Rdiv_lt_0_compat; lra. }
  unfold reflect. rnum. rewrite one_R, lit_02.
  cbn [vgas ct_density ct_P ct_T ct_X vdens vscale voff vtemp vcomp].
  replace (k / k) with 1 by (field; lra). replace (9 / 5 * k / k) with (9/5) by (field; lra).
  rewrite HP1, HP2.
  rewrite (pydiv_ok 1 k) by lra. rewrite bind_pure_ok.
  rewrite (pydiv_ok 1 (9/5 * k)) by lra. rewrite bind_pure_ok.
  replace ((k * (101325 + 4 / 9 * vsq d) - k * 101325) * (1 / k - 1 / (9 / 5 * k)))
    with (u * u) by (replace (u * u) with (u^2) by ring; rewrite Eu; field; lra).
  unfold npsqrt at 1. rnum. rewrite zero_R, QLemmas.Rltb_false by nra. rewrite sqrt_square by lra.
  rewrite bind_pure_ok.
  rewrite (pydiv_ok (1/5) (9/5 * k)) by lra. rewrite bind_pure_ok.
  assert (Nv : 0 < 1 / (9/5 * k)) by (apply Rdiv_lt_0_compat; lra).
  rewrite pydiv_ok by lra. rewrite bind_pure_ok.
  replace (1 / 5 / (9 / 5 * k) / (1 / (9 / 5 * k))) with (1/5) by (field; lra).
  assert (Np : k * (101325 + 4/9 * vsq d) * (1 / (9/5 * k)) <> 0).
  { apply Rgt_not_eq. apply Rmult_lt_0_compat; [apply Rmult_lt_0_compat; lra|exact Nv]. }
  rewrite pydiv_ok by exact Np. rewrite bind_pure_ok.
  set (Tw := _ / _).
  assert (ETw : Tw = vT_start d) by (unfold Tw, vT_start, sq; rnum; field; lra).
  rewrite ETw. clear Tw ETw Np Nv.
  match goal with |- context [set_TPX _ _ _ ?P0 _] => set (Pw := P0) end. fold vgas.
  unfold set_TPX, act. cbn [vgas ct_set_TPX vscale voff]. fold vgas.
  rewrite bind_some, value_after.
  (* the iteration *)
  assert (Ev : value (get_eq_state vgas 500 npdiv u (2000, 9/5 * k, k, d, burnt)
                  (vT_start d, 9 * k, k, d, burnt) (Q2R 0.0001) (Q2R 0.0001) 500)
               = Ok (vT_start d, 9 * k, k, d, burnt)).
  { assert (Etol : Q2R 0.0001 = 1/10000) by (unfold Q2R; simpl; lra). rewrite Etol.
    unfold get_eq_state. rnum. rewrite lit_1000, one_R.
    cbn [vgas ct_density ct_T vdens vtemp]. fold vgas.
    rewrite (pydiv_ok 1 (9/5 * k)) by lra. rewrite bind_pure_ok.
    rewrite (pydiv_ok 1 (9 * k)) by lra. rewrite bind_pure_ok.
    rewrite vequilibrium, bind_some, value_after. cbn [vscale voff].
    change 500%nat with (S (S 498)). cbn [eq_loop]. rnum.
    assert (HT9 : vT_start d < 10000).
    { unfold vT_start. apply Rmult_lt_reg_r with (101325 + 4/9 * vsq d); [lra|].
      unfold Rdiv at 1. rewrite Rmult_assoc, Rinv_l by lra. unfold vsq in *. nra. }
    rewrite (Rabs_pos_eq 1000) by lra.
    rewrite QLemmas.Rltb_true by lra. cbn [orb].
    change (Z.eqb (0 + 1) 500) with false. cbv iota.
    assert (Hbody : exists tr,
      eq_body vgas npdiv u (2000, 9/5 * k, k, d, burnt) (1 / (9/5 * k))
              (vT_start d, 9 * k, k, d, burnt) (vT_start d) (1 / (9 * k)) (9 * k)
      = (tr, Ok ((vT_start d, 9 * k, k, d, burnt), vT_start d, 1 / (9 * k), 9 * k, 0, 0))).
    { unfold eq_body. rnum. rewrite !lit_002, ?one_R.
      assert (Ev1 : 1 / (1 / (9 * k) + 1/50 * (1 / (9 * k))) = 50/51 * (9 * k)) by (field; lra).
      assert (Nv1 : 1 / (9 * k) + 1/50 * (1 / (9 * k)) <> 0).
      { assert (0 < 1 / (9 * k)) by (apply Rdiv_lt_0_compat; lra). lra. }
      assert (Hv9 : 0 < 1 / (9 * k)) by (apply Rdiv_lt_0_compat; lra).
      assert (Er1 : 9 * k / (9/5 * k) = 5) by (field; lra).
      assert (Er2 : 50/51 * (9 * k) / (9/5 * k) = 250/51) by (field; lra).
      rewrite error_reflected_R; [|right; reflexivity|cbn; lra|cbn; lra]. rewrite bind_pure_ok.
      rewrite vequilibrium, bind_some.
      rewrite error_reflected_R; [|right; reflexivity|cbn; lra|cbn; lra]. rewrite bind_pure_ok.
      rewrite !npdiv_ok by lra. rewrite !bind_pure_ok.
      rewrite pydiv_ok by exact Nv1. rewrite bind_pure_ok, Ev1.
      rewrite vequilibrium, bind_some.
      rewrite error_reflected_R; [|right; reflexivity|cbn; lra|cbn; lra]. rewrite bind_pure_ok.
      rewrite !npdiv_ok by lra. rewrite !bind_pure_ok.
      unfold reflected_energy_imbalance, reflected_momentum_imbalance.
      cbn [vgas ct_P ct_enthalpy ct_density vdens vtemp vscale voff]. fold vgas.
      rewrite Er1, Er2.
      replace (9 * k / k) with 9 by (field; lra).
      replace (9 / 5 * k / k) with (9/5) by (field; lra).
      replace (50 / 51 * (9 * k) / k) with (450/51) by (field; lra).
      rewrite HP2, Hh2, !HPhi, !Hhhi by lra.
      match goal with |- context [solve2 npdiv ?a ?b ?c ?d ?e ?f] =>
        set (hT := a); set (pT := b); set (hv := c); set (pv := d); set (eh := e); set (ep := f) end.
      assert (EhT : hT = 1) by (unfold hT; field; lra).
      assert (EpT : pT = 0) by (unfold pT; field; lra).
      assert (Eeh : eh = 0) by (unfold eh; rewrite Eu; field).
      assert (Eep : ep = 0) by (unfold ep; rewrite Eu; field).
      assert (Epv : pv <> 0).
      { assert (E : pv = - (200 / 199 * vsq d * k^2)) by (unfold pv; rewrite !Eu; field; lra).
        rewrite E. assert (0 < k^2) by nra. nra. }
      assert (Es : solve2 npdiv hT pT hv pv eh ep = Ok (0, 0)).
      { unfold solve2. rnum. rewrite EhT, EpT, Eeh, Eep.
        assert (N : 1 * pv - 0 * hv <> 0) by lra.
        rewrite !npdiv_ok by exact N. cbn [bind]. f_equal. f_equal; field; exact Epv. }
      rewrite Es, bind_pure_ok.
      assert (El : limit_temperature_reflected npdiv 0 (vT_start d) = Ok 0).
      { unfold limit_temperature_reflected. rnum. rewrite lit_02, Rabs_R0.
        rewrite QLemmas.Rltb_false by lra. reflexivity. }
      rewrite El, bind_pure_ok.
      assert (Elv : limit_volume npdiv 0 (1 / (9 * k)) (1 / (9/5 * k)) = Ok 0).
      { unfold limit_volume. rnum. rewrite lit_02, lit_05, Rabs_R0.
        assert (1 / (9/5 * k) = 5 * (1 / (9 * k))) by (field; lra).
        rewrite (QLemmas.Rltb_false (1 / (9/5 * k))) by lra.
        rewrite QLemmas.Rltb_false by lra. reflexivity. }
      rewrite Elv, bind_pure_ok.
      rewrite npdiv_ok by lra. rewrite bind_pure_ok.
      rewrite vequilibrium, bind_some.
      replace (vT_start d + 0) with (vT_start d) by ring.
      replace (1 / (9 * k) + 0) with (1 / (9 * k)) by ring.
      replace (1 / (1 / (9 * k))) with (9 * k) by (field; lra).
      unfold after, ret. cbn [fst snd app vscale voff]. eexists. reflexivity. }
    destruct Hbody as (tr & Hbody). rewrite Hbody, bind_some, value_after.
    rewrite Rabs_R0. rewrite !QLemmas.Rltb_false.
    - reflexivity.
    - assert (0 < 1 / (9 * k)) by (apply Rdiv_lt_0_compat; lra). lra.
    - lra. }
  rewrite value_bind, Ev. cbn [bind].
  cbn [vgas ct_P vdens vscale voff]. replace (9 * k / k) with 9 by (field; lra).
  rewrite (HPhi 9) by lra.
  rewrite npdiv_ok by lra. rewrite bind_pure_ok.
  rewrite npdiv_ok by lra. rewrite bind_pure_ok, value_ret.
  f_equal. f_equal. f_equal.
  replace ((k * (101325 + 8/9 * vsq d) - k * (101325 + 4/9 * vsq d)) / u / (9/5 * k) - u)
    with ((20/81 * vsq d - u * u) / u) by (field; lra).
  replace (20/81 * vsq d) with (20/81 * (sqrt (vsq d) * sqrt (vsq d))) by (rewrite Hsq; ring).
  unfold u. field. lra.
Qed.

(** ** calculate_reflected_shock_state *)
Lemma vgas_speed p P mech (rr rs : bool) : any_pool p -> 0 < scale P -> 0 <= offset P <= 1/10 ->
  value (cj_speed vgas P 300 fresh mech p rr rs)
  = Ok ([("cj speed"%string, ENumber (2000 + offset P))]
        ++ (if rr then [("R^2"%string, EMaybe (Ok 1))] else [])
        ++ (if rs then [("cj state"%string,
                         EGas (2000, 9/5 * scale P, scale P, offset P, burnt))] else []))%list.
Proof.
  intros Hpool HP Hd. set (d := offset P) in *.
  assert (E : forall r, parabola (1/10) (-9/25) (2000 + 81/250 + d) r = 2000 + vbump d r)
    by (intros r; unfold parabola, vbump; field).
  assert (Ev : - (-9/25) / (2 * (1/10)) = 9/5) by field.
  assert (Ec : (2000 + 81/250 + d) - (-9/25)^2 / (4 * (1/10)) = 2000 + d) by field.
  rewrite (C74_exact_on_parabola vgas P 300 fresh mech p (1/10) (-9/25)
             (2000 + 81/250 + d) (2000, 9/5 * scale P, scale P, d, burnt)
             (2000 + vbump d (9/5)) rr rs Hpool); try lra.
  - rewrite Ec. reflexivity.
  - intros r Hr. rewrite E. eexists. apply vcj_result; try assumption; try lra. fold d. unfold vbump. nra.
  - intros r Hr. rewrite Ev in Hr.
    rewrite E. eexists. apply vcj_result; try assumption; try lra. fold d. unfold vbump. nra.
  - rewrite Ev. apply vcj_result; try assumption; try lra. fold d. unfold vbump. nra.
Qed.

Lemma v_shock_states temperature pressure P mech reg p :
  denotes (PQuant temperature) d_temperature 300 -> denotes (PQuant pressure) d_pressure P ->
  0 < P -> 0 < scale P -> 0 <= offset P <= 1/10 -> any_pool p ->
  exists s,
    value (calculate_reflected_shock_state vgas temperature pressure fresh mech reg p) = Ok s
    /\ is_in (cj_wave_speed s) (2000 + offset P) "m/s" reg
    /\ ct_P vgas (reflected_state s) = scale P * (101325 + 8/9 * vsq (offset P)).
Proof.
  intros HT HP H0 Hk Hd Hp. unfold calculate_reflected_shock_state.
  destruct (parse_denotes _ _ _ (q_reg temperature) HT) as (qT & ET & PT).
  destruct (parse_denotes _ _ _ (q_reg pressure) HP) as (qP & EP & PP).
  cbn [parse_quant_input] in ET, EP. injection ET as ET. injection EP as EP.
  assert (qT = temperature) as -> by (rewrite <- ET; destruct temperature; reflexivity).
  assert (qP = pressure) as -> by (rewrite <- EP; destruct pressure; reflexivity). clear ET EP.
  unfold new_solution, act. cbn [vgas ct_new]. fold vgas.
  rewrite !bind_some, !value_after.
  rewrite (in_unit_K _ _ _ PT), bind_pure_ok, (in_unit_Pa _ _ _ PP), bind_pure_ok.
  unfold set_TPX at 1 2, act. cbn [vgas ct_set_TPX]. fold vgas.
  rewrite !bind_some, !value_after.
  rewrite value_bind, (vgas_speed p P mech false true Hp Hk Hd). cbn [bind app].
  cbn [gas_at number_at String.eqb Ascii.eqb Bool.eqb]. rewrite !bind_pure_ok.
  rewrite value_bind, (vreflect _ _ Hk Hd). cbn [bind].
  destruct (quant_ms reg (sqrt (vsq (offset P)) / 9)) as (ws & -> & Hws).
  destruct (quant_ms reg (2000 + offset P)) as (cs & -> & Hcs).
  rewrite !bind_pure_ok, value_ret. eexists. split; [reflexivity|].
  cbn [cj_wave_speed reflected_speed cj_gas_state reflected_state].
  split; [exact Hcs|].
  cbn [vgas ct_P vdens vscale voff].
  replace (9 * scale P / scale P) with 9 by (field; lra).
  unfold vshape_P. destruct (Rlt_dec 5 9); [|lra]. reflexivity.
Qed.
End Varying.
