(** * Properties_SearchMono: raising the pressure limit (C135). *)
From Coq Require Import String ZArith QArith Reals Qreals List Bool Lra Lia Psatz Permutation.
From Verif Require Import PyBase Pint UnitsM Spec Gas GasP QLemmas FitM FitP FitSpec SdM SdSpec SdP
  SpeedSpec SpeedP ThermoM ThermoSpec ThermoP TubeM TubeP ExampleGas Properties_Speed
  Properties_Thermo InitPressureM InitPressureSpec InitPressureP Properties_Tube
  Properties_InitPressure SearchSpec SearchP VariableGas Properties_Search.
Import ListNotations.
Local Open Scope R_scope.

(** The load on the tube: reflected pressure times load factor, for the initial pressure [q]. *)
Definition load {G X} (L : cantera R G X) tube_id tube_od T (x : X) mech E rho nu f reg p
  (q : quantity R) (l : R) : Prop :=
  exists s n, value (calculate_reflected_shock_state L T q x mech reg p) = Ok s
    /\ dynamic_load_factor tube_id tube_od (cj_wave_speed s) E rho nu f = Ok n
    /\ l = ct_P L (reflected_state s) * INR n.

(** Filling the tube to a higher pressure never lowers the load; the reflected pressure of a
    positive initial pressure is positive. *)
Definition load_rises {G X} (L : cantera R G X) tube_id tube_od T (x : X) mech E rho nu f reg p : Prop :=
  (forall q P s, denotes (PQuant q) d_pressure P -> 0 < P ->
     value (calculate_reflected_shock_state L T q x mech reg p) = Ok s ->
     0 < ct_P L (reflected_state s))
  /\ forall q q' P P' l l',
     denotes (PQuant q) d_pressure P -> denotes (PQuant q') d_pressure P' -> 0 < P <= P' ->
     load L tube_id tube_od T x mech E rho nu f reg p q l ->
     load L tube_id tube_od T x mech E rho nu f reg p q' l' -> l <= l'.

(** the pressure in an answer *)
Definition pressure_of (a : answer R) : quantity R :=
  match a with Pressure q => q | PressureAndFactor q _ => q end.

Section Mono.
  Context {G X : Type} (L : cantera R G X).
  Context (tube_id tube_od T : quantity R) (x : X) (mech : string)
          (E rho : quantity R) (nu f : R) (reg : nat) (p : pool R).
  Context (Hup : load_rises L tube_id tube_od T x mech E rho nu f reg p).

  Lemma in_atm_denotes q m : is_in q m "atm" reg -> denotes (PQuant q) d_pressure (m * 101325).
  Proof. apply atm_denotes. Qed.

  Lemma trials_positive M ts : 0 < M ->
    is_search L tube_id tube_od T x mech E rho nu f true reg p M ts ->
    forall l1 t l2, ts = (l1 ++ t :: l2)%list ->
      evaluated L T x mech reg p t
      /\ factor_of tube_id tube_od E rho nu f (shocks t) (factor t)
      /\ exists m, is_in (tried t) m "atm" reg /\ 0 < m.
  Proof.
    intros HM Hs. destruct ts as [|t0 ts0]; [contradiction|]. destruct Hs as ((Hin & Hev & Hf) & Hc).
    induction l1 as [|b l1 IH] using rev_ind; intros t l2 Ets.
    - cbn in Ets. injection Ets as -> _. split; [exact Hev|]. split; [exact Hf|].
      exists 1. split; [exact Hin|lra].
    - rewrite <- app_assoc in Ets. cbn in Ets.
      destruct (IH b (t :: l2) Ets) as (Hevb & Hfb & mb & Hinb & Hmb).
      destruct (Hc b t) as ((m & Him & Hne & Em) & Hevt & Hft).
      { exists l1, l2. exact Ets. }
      split; [exact Hevt|]. split; [exact Hft|]. exists m. split; [exact Him|].
      assert (Hpk : 0 < ct_P L (reflected_state (shocks b))).
      { apply (proj1 Hup (tried b) (mb * 101325)); [apply in_atm_denotes; exact Hinb|lra|exact Hevb]. }
      destruct Hfb as (n & _ & Ek). pose proof (pos_INR n).
      assert (0 < factor b * ct_P L (reflected_state (shocks b))).
      { destruct (Rle_lt_or_eq_dec 0 (factor b)) as [C|C]; [rewrite Ek; assumption| |].
        - apply Rmult_lt_0_compat; assumption.
        - exfalso. apply Hne. rewrite <- C. ring. }
      rewrite Em. destruct Hinb as (_ & -> & _).
      apply Rdiv_lt_0_compat; [apply Rmult_lt_0_compat; assumption|assumption].
  Qed.

  Lemma converged max_pressure M r tol max_iterations rd a :
    any_pool p -> is_in max_pressure M "Pa" r -> 0 < M ->
    let call := calculate_max_initial_pressure L tube_id tube_od T x mech max_pressure E rho nu f
                  true reg tol max_iterations p "reflected" rd in
    value call = Ok a ->
    (172 * 1 < gases_created (trace call) < 172 * (1 + Z.to_nat max_iterations))%nat ->
    exists P l, stands_for (pressure_of a) d_pressure P reg /\ 0 < P
      /\ load L tube_id tube_od T x mech E rho nu f reg p (pressure_of a) l
      /\ (1 - Rabs tol) * M <= l <= (1 + Rabs tol) * M.
  Proof.
    intros Hp (_ & <- & _) HM call H Hg.
    destruct (search_inv L _ _ _ _ _ _ _ _ _ _ _ _ _ _ _ "reflected" _ _ AtReflected eq_refl H)
      as (t & ts & Hs & Hr & Hlen & _ & _ & Hm & _ & _ & Htr).
    specialize (Htr Hp). unfold call in *. rewrite Htr in Hg. cbn [length] in Hg.
    assert (Hne : ts <> []) by (intros ->; cbn [length] in Hg; lia).
    assert (Hlt : (length ts < Z.to_nat max_iterations)%nat) by lia.
    specialize (Hm Hne Hlt).
    set (l := last (t :: ts) t) in *.
    assert (Hl : exists l1, (t :: ts = l1 ++ l :: [])%list).
    { exists (removelast (t :: ts)). unfold l. apply app_removelast_last. discriminate. }
    destruct Hl as (l1 & El1).
    destruct (trials_positive _ _ HM Hs l1 l [] El1) as (Hev & (n & Hn & Ek) & m & Hin & Hmp).
    assert (Ea : pressure_of a = tried l) by (unfold reports in Hr; rewrite Hr; destruct rd; reflexivity).
    rewrite Ea. exists (m * 101325), (ct_P L (reflected_state (shocks l)) * INR n).
    split; [apply pa_stands; replace (m * 101325 / 101325) with m by field; exact Hin|].
    split; [lra|]. split; [exists (shocks l), n; auto|].
    unfold meets in Hm. cbn [state_at] in Hm. rewrite Ek in Hm.
    set (M := q_mag max_pressure) in *. set (A := ct_P L (reflected_state (shocks l)) * INR n) in *.
    assert (HA : - Rabs tol <= (A - M) / M <= Rabs tol).
    { pose proof (Rle_abs ((A - M) / M)). pose proof (Rle_abs (- ((A - M) / M))) as H2.
      rewrite Rabs_Ropp in H2. split; lra. }
    assert (Hd : A - M = (A - M) / M * M) by (field; lra).
    split; nra.
  Qed.
End Mono.

(** C135.  Raising the limit raises the answer, for a load that does not fall when the tube is
    filled to a higher pressure: if both searches converged (at least one update, and not the
    last one allowed) and the two limits differ by more than the tolerances. *)
Theorem C135_partial :
  forall {G X} (L : cantera R G X) tube_id tube_od T x mech E rho nu f reg p
         limit limit' M M' r r' tol tol' max_iterations max_iterations' rd rd' a a',
    load_rises L tube_id tube_od T x mech E rho nu f reg p -> any_pool p ->
    is_in limit M "Pa" r -> is_in limit' M' "Pa" r' -> 0 < M < M' ->
    (1 + Rabs tol) * M < (1 - Rabs tol') * M' ->
    let call := calculate_max_initial_pressure L tube_id tube_od T x mech limit E rho nu f
                  true reg tol max_iterations p "reflected" rd in
    let call' := calculate_max_initial_pressure L tube_id tube_od T x mech limit' E rho nu f
                  true reg tol' max_iterations' p "reflected" rd' in
    value call = Ok a -> value call' = Ok a' ->
    (172 * 1 < gases_created (trace call) < 172 * (1 + Z.to_nat max_iterations))%nat ->
    (172 * 1 < gases_created (trace call') < 172 * (1 + Z.to_nat max_iterations'))%nat ->
    exists P P', stands_for (pressure_of a) d_pressure P reg
      /\ stands_for (pressure_of a') d_pressure P' reg /\ 0 < P < P'.
Proof.
  intros * Hup Hp HM HM' (HM0 & HMM) Hgap call call' H H' Hg Hg'.
  destruct (converged L tube_id tube_od T x mech E rho nu f reg p Hup limit M r tol max_iterations
              rd a Hp HM HM0 H Hg) as (P & l & Hq & HP & Hl & _ & Hle).
  destruct (converged L tube_id tube_od T x mech E rho nu f reg p Hup limit' M' r' tol'
              max_iterations' rd' a' Hp HM' ltac:(lra) H' Hg') as (P' & l' & Hq' & HP' & Hl' & Hge & _).
  exists P, P'. split; [exact Hq|]. split; [exact Hq'|]. split; [exact HP|].
  destruct (Rlt_dec P P') as [C|C]; [exact C|exfalso].
  assert (l' <= l); [|lra].
  apply (proj2 Hup _ _ P' P l' l (stands_denotes _ _ _ _ Hq') (stands_denotes _ _ _ _ Hq)); auto. lra.
Qed.
Print Assumptions C135_partial.

Lemma ok_inj {A} (a a' : A) : Ok a = Ok a' -> a = a'.
Proof. intros H. injection H. auto. Qed.

(** *** The gas of C109: filling to 5000 Pa or more loads the tube four times. *)
Lemma edge_rises : load_rises edge_gas (si 1 d_length) (si 3 d_length) room fresh "gri30.cti"
  edge_E (si 1 d_density) 0 (1/10) 0 Serial.
Proof.
  split.
  - intros q P s Hq HP Hs. destruct (edge_stepping q P Hq HP I) as (s' & Hs' & Hpk & _).
    rewrite Hs in Hs'. apply ok_inj in Hs'. subst s'. rewrite Hpk. lra.
  - intros q q' P P' l l' Hq Hq' (HP & HPP) (s & n & Hs & Hn & ->) (s' & n' & Hs' & Hn' & ->).
    destruct (edge_stepping q P Hq HP I) as (t & Ht & Hpk & Hd).
    destruct (edge_stepping q' P' Hq' ltac:(lra) I) as (t' & Ht' & Hpk' & Hd').
    rewrite Hs in Ht. apply ok_inj in Ht. subst t.
    rewrite Hs' in Ht'. apply ok_inj in Ht'. subst t'.
    rewrite Hn in Hd. apply ok_inj in Hd. rewrite Hn' in Hd'. apply ok_inj in Hd'.
    rewrite Hpk, Hpk', Hd, Hd'.
    destruct (Rlt_dec P 5000), (Rlt_dec P' 5000); cbn [INR]; lra.
Qed.

(** From 1 atm, where the factor is 4, one update to M / 160, where it is still 4. *)
Lemma edge_high M rd : 800000 <= M ->
  let call := calculate_max_initial_pressure edge_gas (si 1 d_length) (si 3 d_length) room fresh
           "gri30.cti" (si M d_pressure) edge_E (si 1 d_density) 0 (1/10) true 0 (1/10000)
           500 Serial "reflected" rd in
  exists q, value call = Ok (if rd then PressureAndFactor q 4 else Pressure q)
    /\ stands_for q d_pressure (M / 160) 0 /\ gases_created (trace call) = (172 * 2)%nat.
Proof.
  intros HM0 call.
  assert (HM : 0 < q_mag (si M d_pressure)) by (cbn; lra).
  destruct (search_begin edge_gas (si 1 d_length) (si 3 d_length) room fresh "gri30.cti"
              (si M d_pressure) edge_E (si 1 d_density) 0 (1/10) true 0 Serial
              (fun _ => True) (fun P => 40 * P) _ edge_stepping HM (or_introl eq_refl) (1/10000) 500 rd I)
    as (q0 & s0 & tr0 & Hat0 & Hg0 & Ecall).
  unfold call. rewrite Ecall. clear Ecall call.
  destruct (Rlt_dec 101325 5000) as [C|_]; [lra|].
  change (q_mag (si M d_pressure)) with M.
  replace (Z.to_nat 500) with (S (Z.to_nat 499)) by lia. generalize (Z.to_nat 499). intros b.
  destruct (search_step edge_gas (si 1 d_length) (si 3 d_length) room fresh "gri30.cti"
              (si M d_pressure) edge_E (si 1 d_density) 0 (1/10) true 0 Serial
              (fun _ => True) (fun P => 40 * P) _ edge_stepping HM (or_introl eq_refl)
              b (Rabs (1/10000)) (INR 4 / M - 1) q0 (INR 4) s0 101325 (M / 160) Hat0)
    as (q1 & s1 & tr1 & Hat1 & Hg1 & El).
  - cbn [INR]. lra.
  - lra.
  - change (q_mag (si M d_pressure)) with M. cbn [INR]. field.
  - exact I.
  - rewrite tol_abs. cbn [INR].
    assert ((1 + 1 + 1 + 1) / M <= (1 + 1 + 1 + 1) / 800000).
    { apply Rmult_le_compat_l; [lra|]. apply Rinv_le_contravar; lra. }
    rewrite Rabs_left; lra.
  - unfold fac in El. destruct (Rlt_dec (M / 160) 5000) as [C|_]; [lra|].
    change (q_mag (si M d_pressure)) with M in El.
    rewrite El. clear El. exists q1.
    replace ((40 * (M / 160) * INR 4 - M) / M) with 0 by (cbn [INR]; field; lra).
    destruct Hat1 as (Hq1 & _ & _). replace 4 with (INR 4) by (cbn [INR]; lra).
    assert (Eloop : forall b', pressure_loop edge_gas (si 1 d_length) (si 3 d_length) room fresh
       "gri30.cti" (si M d_pressure) edge_E (si 1 d_density) 0 (1/10) true 0 Serial AtReflected
       b' (Rabs (1/10000)) 0 q1 (INR 4) s1 = ret (q1, INR 4)).
    { assert (En : nltb (Rabs (1/10000)) (nabs 0) = false).
      { rnum. apply QLemmas.Rltb_false. rewrite tol_abs, Rabs_R0. lra. }
      intros [|b']; cbn [pressure_loop]; rewrite En; reflexivity. }
    rewrite Eloop.
    unfold after, value, trace, io_bind, ret. cbn [fst snd].
    split; [destruct rd; reflexivity|].
    split; [exact (pa_stands 0 _ _ Hq1)|].
    rewrite ?app_nil_r, created_app, Hg0, Hg1. reflexivity.
Qed.

(** Refuted in general, with the default settings: the limit goes from 500000 Pa to 900000 Pa
    and the answer from 12500 Pa down to 5625 Pa (which is right; the 12500 Pa load the tube to
    four times the limit). *)
Theorem C135_refuted : exists low high,
  load_rises edge_gas (si 1 d_length) (si 3 d_length) room fresh "gri30.cti"
    edge_E (si 1 d_density) 0 (1/10) 0 Serial
  /\ value (calculate_max_initial_pressure edge_gas (si 1 d_length) (si 3 d_length) room fresh
           "gri30.cti" (si 500000 d_pressure) edge_E (si 1 d_density) 0 (1/10) true 0 (1/10000)
           500 Serial "reflected" false) = Ok (Pressure low)
  /\ value (calculate_max_initial_pressure edge_gas (si 1 d_length) (si 3 d_length) room fresh
           "gri30.cti" (si 900000 d_pressure) edge_E (si 1 d_density) 0 (1/10) true 0 (1/10000)
           500 Serial "reflected" false) = Ok (Pressure high)
  /\ stands_for low d_pressure 12500 0 /\ stands_for high d_pressure 5625 0.
Proof.
  destruct (C109_alternates edge_gas (si 1 d_length) (si 3 d_length) room fresh "gri30.cti"
    (si 500000 d_pressure) edge_E (si 1 d_density) 0 (1/10) 0 (1/10000) 500 Serial false 40 5000 1 4
    500000 0 edge_stepping) as (q & Hv & Hq); try (rewrite ?tol_abs; cbn [INR]; lra).
  - left. reflexivity.
  - apply Pa_in.
  - lia.
  - rewrite tol_abs. cbn [INR]. rewrite Rabs_left; lra.
  - lia.
  - change (Z.even 500) with true in *. cbv iota in *. cbn [INR] in *.
    replace (500000 / (1 * 40)) with 12500 in Hq by lra.
    destruct (edge_high 900000 false ltac:(lra)) as (q' & Hv' & Hq' & _).
    replace (900000 / 160) with 5625 in Hq' by lra.
    exists q, q'. split; [exact edge_rises|]. split; [exact Hv|]. split; [exact Hv'|]. split; assumption.
Qed.
Print Assumptions C135_refuted.

(** The hypotheses of C135_partial, on the same gas with limits of 900000 Pa and 1 MPa. *)
Example C135_case : exists q q',
  let call M := calculate_max_initial_pressure edge_gas (si 1 d_length) (si 3 d_length) room fresh
           "gri30.cti" (si M d_pressure) edge_E (si 1 d_density) 0 (1/10) true 0 (1/10000)
           500 Serial "reflected" true in
  value (call 900000) = Ok (PressureAndFactor q 4) /\ value (call 1000000) = Ok (PressureAndFactor q' 4)
  /\ (172 * 1 < gases_created (trace (call 900000%R)) < 172 * (1 + Z.to_nat 500))%nat
  /\ (172 * 1 < gases_created (trace (call 1000000%R)) < 172 * (1 + Z.to_nat 500))%nat
  /\ (1 + Rabs (1/10000)) * 900000 < (1 - Rabs (1/10000)) * 1000000
  /\ stands_for q d_pressure 5625 0 /\ stands_for q' d_pressure 6250 0.
Proof.
  destruct (edge_high 900000 true ltac:(lra)) as (q & Hv & Hq & Hg).
  destruct (edge_high 1000000 true ltac:(lra)) as (q' & Hv' & Hq' & Hg').
  exists q, q'. cbv zeta. split; [exact Hv|]. split; [exact Hv'|]. rewrite Hg, Hg'.
  split; [lia|]. split; [lia|]. rewrite tol_abs. split; [lra|].
  replace 5625 with (900000 / 160) by lra. replace 6250 with (1000000 / 160) by lra. split; assumption.
Qed.
