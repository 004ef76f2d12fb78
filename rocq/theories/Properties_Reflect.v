(** * Properties_Reflect: what a reflection returned without a warning is worth, for a
    calorically perfect gas (C137, C138). *)
From Coq Require Import String ZArith QArith Qreals Reals List Bool Lra Lia Psatz.
From Verif Require Import PyBase Gas GasP FitM QLemmas FitP SdM SdSpec SdP Properties_Sd
  PerfectP ReflectSpec ReflectP IdealGas WeakP.
Import ListNotations.
Local Open Scope R_scope.

(** C137.  A calorically perfect gas has exactly one state behind a reflected shock ... *)
Theorem C137_one_reflected_state :
  forall {G X} (L : cantera R G X) Rs cp q post_shock u,
    0 < ct_T L post_shock -> 0 < ct_density L post_shock -> 0 < Rs < cp -> u <> 0 ->
    perfect_gas L Rs cp q -> perfect_state L Rs cp q post_shock ->
    (exists g W, reflected_state L Rs cp q post_shock u g W)
    /\ forall g W g' W',
         reflected_state L Rs cp q post_shock u g W ->
         reflected_state L Rs cp q post_shock u g' W' ->
         ct_T L g = ct_T L g' /\ ct_density L g = ct_density L g' /\ ct_P L g = ct_P L g' /\ W = W'.
Proof.
  intros * HT HD HRs Hu Hp H2. split.
  - apply wanted_exists; tauto.
  - intros. eapply wanted_unique with (Rs := Rs) (cp := cp) (q := q); try eassumption; tauto.
Qed.
Print Assumptions C137_one_reflected_state.

(** ... and whatever [get_eq_state] started from: if it returned without a warning a gas
    at least half as dense again as the gas ahead of the shock, then pressure,
    temperature and volume are those of that state, to within the tolerance on the
    volume (62/50 of it plus second-order terms, for the pressure rise). *)
Theorem C137_unwarned_state_is_right :
  forall {G X} (L : cantera R G X) fuel div Rs cp q speed post_shock working tol_T tol_v
         max_iterations g g3 W,
    python_or_numpy div -> (1 <= max_iterations)%Z ->
    tol_T <= 1/100 -> tol_v <= 1/100 ->
    0 < ct_T L post_shock -> 0 < ct_density L post_shock -> 0 < Rs < cp -> speed <> 0 ->
    perfect_gas L Rs cp q -> perfect_state L Rs cp q post_shock ->
    0 < ct_T L working -> ct_density L post_shock <= ct_density L working ->
    tol_T * ct_T L working < 1000 \/ tol_v / ct_density L working < 1000 ->
    let call := get_eq_state L fuel div speed post_shock working tol_T tol_v max_iterations in
    value call = Ok g -> warnings (trace call) = [] ->
    3/2 * ct_density L post_shock <= ct_density L g ->
    reflected_state L Rs cp q post_shock speed g3 W ->
    let eps := tol_v * (1/50 + tol_v + tol_T) in
    perfect_state L Rs cp q g
    /\ Rabs (ct_P L g - ct_P L g3) <= 62 * eps * (ct_P L g3 - ct_P L post_shock)
    /\ Rabs (ct_T L g - ct_T L g3) <= 102 * eps * (ct_T L g3 - ct_T L post_shock)
    /\ Rabs (1 / ct_density L g - 1 / ct_density L g3) <= 12 * eps / ct_density L post_shock.
Proof.
  intros * Hd Hm Ht1 Ht2 HT2 HD2 HRs Hu Hp H2 HTw HDw Hst call Hv Hw Hden Hr eps.
  assert (Hc : compressed L post_shock working) by (split; [exact HTw|lra]).
  assert (Hst' : tol_T * ct_T L working < 1000 \/ tol_v * (1 / ct_density L working) < 1000).
  { destruct Hst as [Hs|Hs]; [left; exact Hs|right]. unfold Rdiv in *. rewrite Rmult_1_l. exact Hs. }
  destruct (returned_compressed L Rs cp q speed post_shock HD2 HT2 (proj1 HRs) (proj2 HRs) Hu Hp H2
    fuel div working tol_T tol_v max_iterations g Hd Hc Hm Hv Hw Hst' Ht2 Ht1 Hden) as (A1 & _).
  destruct (returned_close L Rs cp q speed post_shock HD2 HT2 (proj1 HRs) (proj2 HRs) Hu Hp H2
    fuel div working tol_T tol_v max_iterations g Hd Hc Hm Hv Hw Hst' Ht2 Ht1 Hden g3 W Hr)
    as (_ & B1 & B2 & B3 & _).
  split; [eapply of_at; exact A1|]. split; [exact B1|]. split; [exact B2|].
  replace (12 * eps / ct_density L post_shock) with (12 * eps * (1 / ct_density L post_shock))
    by (field; lra). exact B3.
Qed.
Print Assumptions C137_unwarned_state_is_right.

(** ** Reflection.reflect *)
Lemma lit_1e4 : Q2R 0.0001 = 1/10000. Proof. unfold Q2R; simpl; lra. Qed.

Lemma reflect_unfold {G X} (L : cantera R G X) initial g2 w U :
  let D1 := ct_density L initial in let D2 := ct_density L g2 in
  let P2 := ct_P L g2 in
  let u := sqrt ((P2 - ct_P L initial) * (1 / D1 - 1 / D2)) in
  let Pw := P2 + D2 * (U * U) * (4/5) in
  D1 <> 0 -> 0 < D2 -> 0 < P2 -> 0 <= (P2 - ct_P L initial) * (1 / D1 - 1 / D2) ->
  reflect L initial g2 w U =
  io_bind (set_TPX L w (ct_T L g2 * Pw / (5 * P2)) Pw (ct_X L g2)) (fun w' =>
  io_bind (get_eq_state L 500 npdiv u g2 w' (1/10000) (1/10000) 500) (fun g =>
  io_bind (pure (npdiv (ct_P L g - P2) u)) (fun k =>
  io_bind (pure (npdiv k D2)) (fun k => ret (ct_P L g, k - u, g))))).
Proof.
  intros D1 D2 P2 u Pw H1 H2 HP Hn. unfold reflect. rnum. rewrite !lit_02, lit_1e4, one_R.
  fold D1 D2 P2.
  rewrite (pydiv_ok 1 D1) by exact H1. rewrite bind_pure_ok.
  rewrite (pydiv_ok 1 D2) by lra. rewrite bind_pure_ok.
  assert (Es : npsqrt ((P2 - ct_P L initial) * (1 / D1 - 1 / D2)) = Ok u).
  { unfold npsqrt. rnum. rewrite zero_R, QLemmas.Rltb_false by lra. reflexivity. }
  rewrite Es, bind_pure_ok.
  rewrite (pydiv_ok (1/5) D2) by lra. rewrite bind_pure_ok.
  rewrite (pydiv_ok (1/5/D2) (1/D2)) by (apply Rgt_not_eq, Rdiv_lt_0_compat; lra).
  rewrite bind_pure_ok.
  assert (EPw : P2 + D2 * sq U * (1 - 1 / 5 / D2 / (1 / D2)) = Pw).
  { unfold Pw, sq. rnum. field. lra. }
  rewrite EPw.
  assert (N : P2 * (1 / D2) <> 0).
  { apply Rgt_not_eq. assert (0 < 1 / D2) by (apply Rdiv_lt_0_compat; lra). nra. }
  rewrite pydiv_ok by exact N. rewrite bind_pure_ok.
  replace (ct_T L g2 * Pw * (1 / 5 / D2) / (P2 * (1 / D2))) with (ct_T L g2 * Pw / (5 * P2))
    by (field; lra).
  reflexivity.
Qed.

Lemma warnings_app {A} (s t : list (event A)) :
  warnings (s ++ t) = (warnings s ++ warnings t)%list.
Proof. unfold warnings. apply filter_app. Qed.

Lemma reflect_run {G X} (L : cantera R G X) initial g2 w U P3 Wr g :
  let D2 := ct_density L g2 in let P2 := ct_P L g2 in
  let u := sqrt ((P2 - ct_P L initial) * (1 / ct_density L initial - 1 / D2)) in
  ct_density L initial <> 0 -> 0 < D2 -> 0 < P2 -> 0 < ct_T L g2 ->
  0 <= (P2 - ct_P L initial) * (1 / ct_density L initial - 1 / D2) ->
  ideal_when_set L g2 ->
  value (reflect L initial g2 w U) = Ok (P3, Wr, g) ->
  exists w', 0 < ct_T L w' /\ ct_density L w' = 5 * D2
    /\ value (get_eq_state L 500 npdiv u g2 w' (1/10000) (1/10000) 500) = Ok g
    /\ warnings (trace (reflect L initial g2 w U))
       = warnings (trace (get_eq_state L 500 npdiv u g2 w' (1/10000) (1/10000) 500))
    /\ u <> 0 /\ P3 = ct_P L g /\ Wr = (P3 - P2) / u / D2 - u.
Proof.
  intros D2 P2 u H1 H2 HP HT Hn (k & Hk & Hset) H.
  pose proof (reflect_inv L initial g2 w U P3 Wr g H) as (_ & Hu & EP & EW).
  unfold D2, P2, u in *. rewrite reflect_unfold in * by assumption.
  fold D2 in H, H2, Hk, EW |- *. fold P2 in H, HP, Hk, EW |- *. fold u in H, Hu, EW |- *.
  set (Pw := P2 + D2 * (U * U) * (4/5)) in *.
  assert (HPw : 0 < Pw).
  { unfold Pw. assert (0 <= U * U) by nra. assert (0 <= D2 * (U * U)) by nra. lra. }
  apply value_bind_ok in H. destruct H as (w' & Ew & H & Tr). rewrite Tr. clear Tr.
  apply value_bind_ok in H. destruct H as (g' & Eg & H & Tr). rewrite Tr. clear Tr.
  apply value_bind_ok in H. destruct H as (k1 & E1 & H & Tr). rewrite Tr. clear Tr.
  apply value_bind_ok in H. destruct H as (k2 & E2 & H & Tr). rewrite Tr. clear Tr.
  rewrite value_ret in H. assert (g' = g) as -> by congruence.
  unfold set_TPX, act, value in Ew. cbn [snd] in Ew.
  destruct (Hset _ _ _ _ Ew) as (EwT & EwD).
  exists w'. split.
  { rewrite EwT. apply Rdiv_lt_0_compat; nra. }
  split; [rewrite EwD, Hk; field; repeat split; lra|].
  split; [exact Eg|]. split.
  { rewrite !warnings_app. cbn. rewrite !app_nil_r. reflexivity. }
  auto.
Qed.

Lemma speed_behind {G X} (L : cantera R G X) initial post_shock U w :
  ct_density L initial <> 0 -> 0 < ct_density L post_shock ->
  wave_conserves L initial post_shock U w ->
  (ct_P L post_shock - ct_P L initial) * (1 / ct_density L initial - 1 / ct_density L post_shock)
  = (U - w)^2.
Proof.
  intros HD1 HD2 (Hm & Hmom & _). set (r1 := ct_density L initial) in *.
  set (r2 := ct_density L post_shock) in *.
  assert (EP : ct_P L post_shock - ct_P L initial = r1 * U * (U - w)).
  { replace (r2 * w^2) with (r2 * w * w) in Hmom by ring. rewrite <- Hm in Hmom. lra. }
  rewrite EP. assert (Ew : w = r1 * U / r2) by (rewrite Hm; field; lra).
  rewrite Ew. field. split; lra.
Qed.

(** The same for [reflect]: a shock at [U] into the initial gas, which follows it at
    [U - w] and has the density of a gas.  If no warning was given and the density
    returned is half as large again, the reported pressure rise and the speed at which
    the reflected shock meets the gas are right to 13 parts in 100000. *)
Theorem C137_unwarned_reflection_is_right :
  forall {G X} (L : cantera R G X) Rs cp q initial post_shock working U w P3 Wr g g3 W,
    ct_density L initial <> 0 -> wave_conserves L initial post_shock U w -> w < U ->
    0 < ct_T L post_shock -> 1/10000000 <= ct_density L post_shock -> 0 < Rs < cp ->
    perfect_gas L Rs cp q -> perfect_state L Rs cp q post_shock ->
    ideal_when_set L post_shock ->
    let call := reflect L initial post_shock working U in
    value call = Ok (P3, Wr, g) -> warnings (trace call) = [] ->
    3/2 * ct_density L post_shock <= ct_density L g ->
    reflected_state L Rs cp q post_shock (U - w) g3 W ->
    P3 = ct_P L g
    /\ Rabs (P3 - ct_P L g3) <= 13/100000 * (ct_P L g3 - ct_P L post_shock)
    /\ Rabs (Wr - W) <= 13/100000 * (U - w + W)
    /\ Rabs (ct_T L g - ct_T L g3) <= 21/100000 * (ct_T L g3 - ct_T L post_shock).
Proof.
  intros * HD1 Hw Hlt HT2 HD2 HRs Hp H2 Hid call Hv Hwarn Hden Hr.
  assert (HD2' : 0 < ct_density L post_shock) by lra.
  pose proof (speed_behind L initial post_shock U w HD1 HD2' Hw) as Es.
  assert (HP2 : 0 < ct_P L post_shock).
  { destruct H2 as (-> & _). apply Rmult_lt_0_compat; [|exact HT2]. apply Rmult_lt_0_compat; lra. }
  assert (Hnn : 0 <= (ct_P L post_shock - ct_P L initial)
               * (1 / ct_density L initial - 1 / ct_density L post_shock)) by (rewrite Es; nra).
  destruct (reflect_run L initial post_shock working U P3 Wr g HD1 HD2' HP2 HT2 Hnn Hid Hv)
    as (w' & Tw & Dw & Eg & EW & Hu & EP3 & EWr).
  unfold call in Hwarn. rewrite EW in Hwarn.
  rewrite Es in *. rewrite sqrt_pow2 in * by lra.
  assert (Hc : compressed L post_shock w') by (split; [exact Tw|lra]).
  assert (Hst : 1/10000 * ct_T L w' < 1000 \/ 1/10000 * (1 / ct_density L w') < 1000).
  { right. rewrite Dw. apply Rmult_lt_reg_r with (5 * ct_density L post_shock); [lra|].
    replace (1 / 10000 * (1 / (5 * ct_density L post_shock)) * (5 * ct_density L post_shock))
      with (1/10000) by (field; lra). lra. }
  assert (Hm500 : (1 <= 500)%Z) by lia.
  assert (Htol : 1/10000 <= 1/100) by lra.
  destruct (returned_close L Rs cp q (U - w) post_shock HD2' HT2 (proj1 HRs) (proj2 HRs) Hu Hp H2
    500 npdiv w' (1/10000) (1/10000) 500 g (or_intror eq_refl) Hc Hm500 Eg Hwarn Hst Htol Htol Hden
    g3 W Hr) as (E0 & B1 & B2 & B3 & B4).
  pose proof Hr as (HT3 & HD3 & _).
  assert (HJ : 0 <= ct_P L g3 - ct_P L post_shock /\ 0 <= ct_T L g3 - ct_T L post_shock).
  { split.
    - pose proof (Rabs_pos (ct_P L g - ct_P L g3)). nra.
    - pose proof (Rabs_pos (ct_T L g - ct_T L g3)). nra. }
  split; [exact EP3|].
  assert (B1' : Rabs (P3 - ct_P L g3) <= 13 / 100000 * (ct_P L g3 - ct_P L post_shock)).
  { rewrite EP3. eapply Rle_trans; [exact B1|]. apply Rmult_le_compat_r; lra. }
  split; [exact B1'|]. split.
  - set (D := ct_density L post_shock) in *. set (u := U - w) in *.
    assert (Pu : 0 < u) by (unfold u; lra).
    assert (EWW : Wr - W = (P3 - ct_P L g3) * / (u * D)).
    { rewrite EWr. assert (ct_P L g3 = ct_P L post_shock + D * u * (u + W)) as -> by lra.
      field. lra. }
    assert (I : 0 < / (u * D)) by (apply Rinv_0_lt_compat; nra).
    rewrite EWW, Rabs_mult, (Rabs_pos_eq (/ (u * D))) by lra.
    rewrite B4 in B1'.
    replace (13 / 100000 * (u + W)) with (13 / 100000 * (D * u * (u + W)) * / (u * D)) by (field; lra).
    apply Rmult_le_compat_r; lra.
  - eapply Rle_trans; [exact B2|]. apply Rmult_le_compat_r; lra.
Qed.
Print Assumptions C137_unwarned_reflection_is_right.

(** *** A run *)
Lemma ideal_gas_perfect Rs cp q1 : perfect_gas (ideal_gas Rs cp q1) Rs cp 0.
Proof.
  intros [[T0 D0] b] T D HT HD. exists (T, D, false). split; [|split; [|split; [|split]]].
  - exists (T, D, b). split; reflexivity.
  - reflexivity.
  - reflexivity.
  - reflexivity.
  - cbn [ideal_gas ct_enthalpy ct_T fst snd]. rnum. unfold Q2R; simpl; lra.
Qed.
Lemma ideal_gas_when_set Rs cp q1 T D : Rs <> 0 -> T <> 0 ->
  ideal_when_set (ideal_gas Rs cp q1) (T, D, false).
Proof.
  intros HR HT. exists (1 / Rs). split.
  - cbn [ideal_gas ct_density ct_P ct_T fst snd]. rnum. field. lra.
  - intros g T' P' g' E. cbn [ideal_gas ct_set_TPX] in E. rnum. injection E as <-.
    cbn [ideal_gas ct_T ct_density fst snd]. split; [reflexivity|].
    unfold Rdiv. rewrite Rinv_mult. ring.
Qed.

(** A shock at 1000 m/s into a gas at 30000 Pa and 0.2 kg/m^3 that burns to 760 K and
    190000 Pa and follows the wave at 800 m/s: the reflection takes three passes and gives
    a gas more than four times as dense. *)
Example C137_case :
  let L := ideal_gas 250 5000 320000 in
  let initial := (600, 1/5, true) in let post_shock := (760, 1, false) in
  let working := (300, 1, true) in
  ct_density L initial <> 0 /\ wave_conserves L initial post_shock 1000 200 /\ 200 < 1000
  /\ perfect_gas L 250 5000 0 /\ perfect_state L 250 5000 0 post_shock
  /\ ideal_when_set L post_shock
  /\ exists P3 Wr g,
       value (reflect L initial post_shock working 1000) = Ok (P3, Wr, g)
       /\ warnings (trace (reflect L initial post_shock working 1000)) = []
       /\ 3/2 * ct_density L post_shock <= ct_density L g.
Proof.
  intros L initial post_shock working. unfold initial, post_shock, L.
  assert (HQ : Q2R 0 = 0) by (unfold Q2R; simpl; lra).
  split; [cbn; lra|]. split.
  { unfold wave_conserves. cbn [ideal_gas ct_density ct_P ct_enthalpy fst snd]. rnum.
    rewrite HQ. repeat split; lra. }
  split; [lra|]. split; [apply ideal_gas_perfect|]. split.
  { split; [reflexivity|]. cbn [ideal_gas ct_enthalpy ct_T fst snd]. rnum. rewrite HQ. lra. }
  split; [apply ideal_gas_when_set; lra|].
  destruct strong_run as (tr & T & x & E & Ew & Hx).
  rewrite reflect_unfold;
    [|cbn; lra|cbn; lra|cbn; lra|cbn [ideal_gas ct_density ct_P fst snd]; rnum; lra].
  cbn [ideal_gas ct_density ct_P ct_T ct_X fst snd]. rnum.
  replace ((1 * 250 * 760 - 1 / 5 * 250 * 600) * (1 / (1 / 5) - 1 / 1)) with (800 * 800) by lra.
  rewrite sqrt_square by lra.
  replace (760 * (1 * 250 * 760 + 1 * (1000 * 1000) * (4 / 5)) / (5 * (1 * 250 * 760)))
    with (760 * (190000 + 1000 * 1000 * (4/5)) / (5 * 190000)) by lra.
  set (Tw := 760 * (190000 + 1000 * 1000 * (4/5)) / (5 * 190000)) in *.
  unfold set_TPX, act. cbn [ideal_gas ct_set_TPX]. rnum. rewrite bind_some.
  replace ((1 * 250 * 760 + 1 * (1000 * 1000) * (4 / 5)) / (250 * Tw)) with 5 by (unfold Tw; lra).
  rewrite E. rewrite bind_some. rewrite npdiv_ok by lra. rewrite bind_pure_ok.
  rewrite npdiv_ok by lra. rewrite bind_pure_ok.
  eexists _, _, _. split; [reflexivity|]. split.
  { unfold trace, after, ret. cbn [fst snd]. rewrite !warnings_app. cbn. rewrite app_nil_r. exact Ew. }
  cbn [ideal_gas ct_density fst snd].
  apply Rmult_le_reg_r with x; [lra|]. replace (1 / x * x) with 1 by (field; lra). lra.
Qed.

(** C138.  A shock reflected from a wall compresses the gas again.  Under the condition of
    C137 the reported state does that ... *)
Theorem C138_reflection_compresses_partial :
  forall {G X} (L : cantera R G X) Rs cp q initial post_shock working U w P3 Wr g,
    ct_density L initial <> 0 -> wave_conserves L initial post_shock U w -> w < U ->
    0 < ct_T L post_shock -> 1/10000000 <= ct_density L post_shock -> 0 < Rs < cp ->
    perfect_gas L Rs cp q -> perfect_state L Rs cp q post_shock ->
    ideal_when_set L post_shock ->
    let call := reflect L initial post_shock working U in
    value call = Ok (P3, Wr, g) -> warnings (trace call) = [] ->
    3/2 * ct_density L post_shock <= ct_density L g ->
    ct_P L post_shock < P3 /\ ct_T L post_shock < ct_T L g /\ - (U - w) < Wr.
Proof.
  intros * HD1 Hw Hlt HT2 HD2 HRs Hp H2 Hid call Hv Hwarn Hden.
  assert (HD2' : 0 < ct_density L post_shock) by lra.
  pose proof (speed_behind L initial post_shock U w HD1 HD2' Hw) as Es.
  assert (HP2 : 0 < ct_P L post_shock).
  { destruct H2 as (-> & _). apply Rmult_lt_0_compat; [|exact HT2]. apply Rmult_lt_0_compat; lra. }
  assert (Hnn : 0 <= (ct_P L post_shock - ct_P L initial)
               * (1 / ct_density L initial - 1 / ct_density L post_shock)) by (rewrite Es; nra).
  destruct (reflect_run L initial post_shock working U P3 Wr g HD1 HD2' HP2 HT2 Hnn Hid Hv)
    as (w' & Tw & Dw & Eg & EW & Hu & EP3 & EWr).
  unfold call in Hwarn. rewrite EW in Hwarn.
  rewrite Es in *. rewrite sqrt_pow2 in * by lra.
  assert (Hc : compressed L post_shock w') by (split; [exact Tw|lra]).
  assert (Hst : 1/10000 * ct_T L w' < 1000 \/ 1/10000 * (1 / ct_density L w') < 1000).
  { right. rewrite Dw. apply Rmult_lt_reg_r with (5 * ct_density L post_shock); [lra|].
    replace (1 / 10000 * (1 / (5 * ct_density L post_shock)) * (5 * ct_density L post_shock))
      with (1/10000) by (field; lra). lra. }
  assert (Hm500 : (1 <= 500)%Z) by lia.
  assert (Htol : 1/10000 <= 1/100) by lra.
  destruct (returned_compressed L Rs cp q (U - w) post_shock HD2' HT2 (proj1 HRs) (proj2 HRs) Hu Hp H2
    500 npdiv w' (1/10000) (1/10000) 500 g (or_intror eq_refl) Hc Hm500 Eg Hwarn Hst Htol Htol Hden)
    as (_ & B1 & B2).
  rewrite <- EP3 in B1. split; [exact B1|]. split; [exact B2|]. rewrite EWr.
  assert (0 < (P3 - ct_P L post_shock) / (U - w) / ct_density L post_shock); [|lra].
  apply Rdiv_lt_0_compat; [|exact HD2']. apply Rdiv_lt_0_compat; lra.
Qed.
Print Assumptions C138_reflection_compresses_partial.

(** ... but not always: a weak shock (402 m/s into a perfect gas whose sound speed is
    401 m/s, which conserves mass, momentum and energy exactly) is reflected without a warning to
    a gas colder and at a lower pressure than the one behind the shock, by a wave that
    runs into the wall.  The state wanted exists. *)
Theorem C138_reflection_compresses_refuted :
  exists (G X : Type) (L : cantera R G X) Rs cp q initial post_shock working U w P3 Wr g,
    ct_density L initial <> 0 /\ wave_conserves L initial post_shock U w /\ w < U
    /\ 0 < ct_T L post_shock /\ 1/10000000 <= ct_density L post_shock /\ 0 < Rs < cp
    /\ perfect_gas L Rs cp q /\ perfect_state L Rs cp q initial
    /\ perfect_state L Rs cp q post_shock /\ ideal_when_set L post_shock
    /\ value (reflect L initial post_shock working U) = Ok (P3, Wr, g)
    /\ warnings (trace (reflect L initial post_shock working U)) = []
    /\ P3 < ct_P L post_shock /\ ct_T L g < ct_T L post_shock /\ Wr < 0
    /\ exists g3 W, reflected_state L Rs cp q post_shock (U - w) g3 W
                    /\ ct_P L post_shock < ct_P L g3 /\ 0 < W.
Proof.
  set (L := ideal_gas 250 1000 0). set (initial := (119900 * (201/200) / 250, 200/201, true)).
  set (post_shock := (4828/10, 1, false)).
  destruct weak_run as (tr & T & x & E & Ew & HT & Hx).
  assert (HQ : Q2R 0 = 0) by (unfold Q2R; simpl; lra).
  exists (R * R * bool)%type, bool, L, 250, 1000, 0, initial, post_shock, (300, 1, true), 402, 400.
  exists (1 / x * 250 * T), ((1 / x * 250 * T - 1 * 250 * (4828/10)) / 2 / 1 - 2), (T, 1 / x, false).
  assert (W1 : wave_conserves L initial post_shock 402 400).
  { unfold wave_conserves, L, initial, post_shock.
    cbn [ideal_gas ct_density ct_P ct_enthalpy fst snd]. rnum. rewrite HQ. repeat split; lra. }
  assert (S2 : perfect_state L 250 1000 0 post_shock).
  { split; [reflexivity|]. unfold L, post_shock. cbn [ideal_gas ct_enthalpy ct_T fst snd]. rnum.
    rewrite HQ. lra. }
  assert (ER : reflect L initial post_shock (300, 1, true) 402
               = io_bind (set_TPX L (300, 1, true) (4828/10 * (120700 + 402 * 402 * (4/5)) / (5 * 120700))
                                  (120700 + 402 * 402 * (4/5)) false) (fun w' =>
                 io_bind (get_eq_state L 500 npdiv 2 post_shock w' (1/10000) (1/10000) 500) (fun g =>
                 io_bind (pure (npdiv (ct_P L g - 1 * 250 * (4828/10)) 2)) (fun k =>
                 io_bind (pure (npdiv k 1)) (fun k => ret (ct_P L g, k - 2, g)))))).
  { rewrite reflect_unfold; unfold L, initial, post_shock;
      [|cbn; lra|cbn; lra|cbn; lra|cbn [ideal_gas ct_density ct_P fst snd]; rnum; lra].
    cbn [ideal_gas ct_density ct_P ct_T ct_X fst snd]. rnum.
    replace ((1 * 250 * (4828/10) - 200/201 * 250 * (119900 * (201/200) / 250)) * (1 / (200/201) - 1 / 1))
      with (2 * 2) by lra.
    rewrite sqrt_square by lra.
    replace (4828/10 * (1 * 250 * (4828/10) + 1 * (402 * 402) * (4 / 5)) / (5 * (1 * 250 * (4828/10))))
      with (4828/10 * (120700 + 402 * 402 * (4/5)) / (5 * 120700)) by lra.
    replace (1 * 250 * (4828/10) + 1 * (402 * 402) * (4 / 5)) with (120700 + 402 * 402 * (4 / 5)) by lra.
    reflexivity. }
  set (Tw := 4828/10 * (120700 + 402 * 402 * (4/5)) / (5 * 120700)) in *.
  assert (ER2 : reflect L initial post_shock (300, 1, true) 402
     = (([EvTPX Tw (120700 + 402 * 402 * (4/5))] ++ tr)%list,
        Ok (1 / x * 250 * T, (1 / x * 250 * T - 1 * 250 * (4828/10)) / 2 / 1 - 2, (T, 1 / x, false)))).
  { rewrite ER. unfold set_TPX, act, L at 1. cbn [ideal_gas ct_set_TPX]. rnum. rewrite bind_some.
    replace ((120700 + 402 * 402 * (4 / 5)) / (250 * Tw)) with 5 by (unfold Tw; lra).
    unfold L, post_shock. rewrite E, bind_some. rewrite npdiv_ok by lra. rewrite bind_pure_ok.
    rewrite npdiv_ok by lra. rewrite bind_pure_ok. unfold after, ret. cbn [fst snd].
    rewrite app_nil_r. reflexivity. }
  assert (P3lt : 1 / x * 250 * T < 1 * 250 * (4828/10) - 700).
  { apply Rmult_lt_reg_r with x; [lra|]. replace (1 / x * 250 * T * x) with (250 * T) by (field; lra). nra. }
  split; [cbn; lra|]. split; [exact W1|]. split; [lra|].
  split; [cbn; lra|]. split; [cbn; lra|]. split; [lra|]. split; [apply ideal_gas_perfect|].
  split.
  { split; [reflexivity|]. unfold L, initial. cbn [ideal_gas ct_enthalpy ct_T fst snd]. rnum. lra. }
  split; [exact S2|]. split; [apply ideal_gas_when_set; lra|].
  split; [rewrite ER2; reflexivity|].
  split. { rewrite ER2. unfold trace. cbn [fst]. rewrite warnings_app. exact Ew. }
  split. { unfold L, post_shock. cbn [ideal_gas ct_P fst snd]. rnum. lra. }
  split. { unfold L, post_shock. cbn [ideal_gas ct_T fst snd]. lra. }
  split; [lra|].
  destruct (C137_one_reflected_state L 250 1000 0 post_shock (402 - 400)) as ((g3 & W & H) & _);
    [cbn; lra|cbn; lra|lra|lra|apply ideal_gas_perfect|exact S2|].
  exists g3, W. split; [exact H|].
  destruct H as (H1 & H2 & H3 & H4 & H5 & H6).
  change (ct_density L post_shock) with 1 in *.
  assert (0 < W) by nra. split; [|assumption]. nra.
Qed.
Print Assumptions C138_reflection_compresses_refuted.
