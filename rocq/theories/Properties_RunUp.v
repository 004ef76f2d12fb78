(** * C10-C13, C85-C88: the deflagration-to-detonation run-up distance. *)
From Coq Require Import String ZArith QArith Reals Qreals List Bool Lra Lia Psatz.
From Verif Require Import PyBase Pint UnitsM Spec Gas GasP QLemmas ThermoM ThermoSpec ThermoP
  RunUpM RunUpSpec RunUpP RunUpAnalysis ExampleGas.
Import ListNotations.
Local Open Scope R_scope.

(** C10.  Outside (0, 0.75] the call raises ValueError and has done nothing. *)
Theorem C10_range :
  forall {G X} (L : cantera R G X) BR iD iT iP x mech reg phase,
    BR <= 0 \/ 3/4 < BR ->
    is_value_error (value (calculate_run_up L BR iD iT iP x mech reg phase))
    /\ trace (calculate_run_up L BR iD iT iP x mech reg phase) = [].
Proof.
  intros * H. unfold calculate_run_up. rnum. rewrite zero_R, lit_075.
  assert (E : orb (Rleb BR 0) (Rltb (3/4) BR) = true).
  { destruct H; [rewrite Rleb_true by assumption; reflexivity|].
    rewrite (Rltb_true (3/4)) by assumption. apply orb_true_r. }
  rewrite E. split; [eexists; reflexivity|reflexivity].
Qed.
Print Assumptions C10_range.

(** What comes back is the smooth-tube correlation up to 0.1, the rough-tube correlation
    from 0.3, and the point on the straight line between the two at that ratio otherwise,
    for the properties the mixture has at the given temperature and pressure. *)
Theorem C10_correlations :
  forall {G X} (L : cantera R G X) BR iD iT iP D T P x mech reg phase q,
    0 < BR <= 3/4 ->
    denotes iD d_length D -> denotes iT d_temperature T -> denotes iP d_pressure P ->
    0 <= D -> 0 <= T -> 0 <= P ->
    value (calculate_run_up L BR iD iT iP x mech reg phase) = Ok q ->
    exists S sigma c h,
      burns L x mech phase T P S sigma c h
      /\ (3/10 <= BR -> stands_for q d_length (rough_tube BR S sigma c D) reg)
      /\ (BR < 3/10 -> exists nu, kinematic_viscosity L x T P h nu
          /\ (BR <= 1/10 -> stands_for q d_length (smooth_tube BR S sigma c nu D) reg)
          /\ (1/10 < BR -> stands_for q d_length
                (line (1/10, smooth_tube BR S sigma c nu D) (3/10, rough_tube BR S sigma c D) BR)
                reg)).
Proof.
  intros * HBR ED ET EP H0 H1 H2 H.
  destruct (run_up_eq L BR _ _ _ _ _ _ x mech phase reg HBR ED ET EP H0 H1 H2)
    as (qD & qT & qP & _ & PD & PT & PP & E). rewrite E in H. clear E.
  apply run_up_run_inv in H. destruct H as (S & sigma & c & h & qS & qc & Hb & HS & Hc & H).
  exists S, sigma, c, h. split; [exact Hb|].
  assert (Pc : 0 <= c) by (destruct Hb as (? & ? & ? & Hb); apply Hb).
  apply (pick_inv L BR D T P S sigma c x reg h qD qT qP qS qc HBR PD PT PP HS Hc H0 Pc) in H.
  destruct H as (_ & _ & _ & _ & _ & Hv & H). split.
  - intros H3. specialize (H 0 ltac:(lra)). unfold run_up_distance in H.
    destruct (Rle_dec BR (1/10)); [lra|]. destruct (Rle_dec (3/10) BR); [exact H|lra].
  - intros H3. destruct (Hv H3) as (_ & nu & Hnu & _). exists nu. split; [exact Hnu|].
    specialize (H nu (fun _ => Hnu)). unfold run_up_distance in H. split; intros H4.
    + destruct (Rle_dec BR (1/10)); [exact H|lra].
    + destruct (Rle_dec BR (1/10)); [lra|]. destruct (Rle_dec (3/10) BR); [lra|exact H].
Qed.
Print Assumptions C10_correlations.

(** It does come back for every mixture with positive flame speed, sound speed and
    viscosity whose products have another density. *)
Theorem C10_returns :
  forall {G X} (L : cantera R G X) BR iD iT iP D T P x mech reg phase S sigma c h nu,
    0 < BR <= 3/4 ->
    denotes iD d_length D -> denotes iT d_temperature T -> denotes iP d_pressure P ->
    0 < D -> 0 <= T -> 0 <= P ->
    burns L x mech phase T P S sigma c h -> 0 < S -> sigma <> 1 -> 0 < c ->
    (BR < 3/10 -> kinematic_viscosity L x T P h nu /\ 0 < nu) ->
    returns (value (calculate_run_up L BR iD iT iP x mech reg phase)) d_length
            (run_up_distance BR S sigma c nu D) reg.
Proof.
  intros * HBR ED ET EP H0 H1 H2 Hb PS Ns Pc Hv.
  destruct (run_up_eq L BR _ _ _ _ _ _ x mech phase reg HBR ED ET EP (Rlt_le _ _ H0) H1 H2)
    as (qD & qT & qP & _ & PD & PT & PP & E). rewrite E. clear E.
  destruct (run_up_run_pick L BR qD qT qP T P x mech phase reg S sigma c h Hb)
    as (qS & qc & HS & Hc & E). rewrite E. clear E.
  assert (Hq : exists q, value (pick L BR qD qT qP x reg h qS sigma qc) = Ok q).
  { apply (pick_ok L BR D T P S sigma c x reg h qD qT qP qS qc HBR PD PT PP HS Hc
             (if Rlt_dec BR (3/10) then nu else 1)); auto.
    - intros H3. destruct (Rlt_dec BR (3/10)); [apply Hv; exact H3|lra].
    - destruct (Rlt_dec BR (3/10)) as [H3|H3]; [apply Hv; exact H3|lra]. }
  destruct Hq as (q & Hq). exists q. split; [exact Hq|].
  apply (pick_inv L BR D T P S sigma c x reg h qD qT qP qS qc HBR PD PT PP HS Hc (Rlt_le _ _ H0) (Rlt_le _ _ Pc)) in Hq.
  apply Hq. intros H3. apply Hv. exact H3.
Qed.
Print Assumptions C10_returns.

(** Between 0.1 and 0.3 the distance lies between the two correlations. *)
Theorem C10_between :
  forall {G X} (L : cantera R G X) BR iD iT iP D T P x mech reg phase S sigma c h nu,
    1/10 <= BR <= 3/10 ->
    denotes iD d_length D -> denotes iT d_temperature T -> denotes iP d_pressure P ->
    0 < D -> 0 <= T -> 0 <= P ->
    burns L x mech phase T P S sigma c h -> 0 < S -> sigma <> 1 -> 0 < c ->
    kinematic_viscosity L x T P h nu -> 0 < nu ->
    exists y, returns (value (calculate_run_up L BR iD iT iP x mech reg phase)) d_length y reg
      /\ Rmin (smooth_tube BR S sigma c nu D) (rough_tube BR S sigma c D) <= y
         <= Rmax (smooth_tube BR S sigma c nu D) (rough_tube BR S sigma c D)
      /\ (BR = 1/10 -> y = smooth_tube BR S sigma c nu D)
      /\ (BR = 3/10 -> y = rough_tube BR S sigma c D).
Proof.
  intros. exists (run_up_distance BR S sigma c nu D). split.
  { eapply C10_returns; eauto. lra. }
  unfold run_up_distance.
  pose proof (line_between (smooth_tube BR S sigma c nu D) (rough_tube BR S sigma c D) BR H) as B.
  pose proof (Rmin_l (smooth_tube BR S sigma c nu D) (rough_tube BR S sigma c D)).
  pose proof (Rmin_r (smooth_tube BR S sigma c nu D) (rough_tube BR S sigma c D)).
  pose proof (Rmax_l (smooth_tube BR S sigma c nu D) (rough_tube BR S sigma c D)).
  pose proof (Rmax_r (smooth_tube BR S sigma c nu D) (rough_tube BR S sigma c D)).
  destruct (Rle_dec BR (1/10)).
  - split; [lra|]. split; [reflexivity|intros; lra].
  - destruct (Rle_dec (3/10) BR).
    + split; [lra|]. split; [intros; lra|reflexivity].
    + split; [exact B|]. split; intros; lra.
Qed.
Print Assumptions C10_between.

(** The mixture of ExampleGas burns: flame speed 0.4 m/s, expansion 8, sound speed 300 m/s. *)
Lemma example_burns mech phase T P : 0 <= T -> 0 < P ->
  burns example_gas fresh mech phase T P (2/5) 8 300 (T, P / 101325 / 8, P / 101325, burnt).
Proof.
  intros HT HP. set (k := P / 101325). assert (Hk : 0 < k) by (unfold k; lra).
  assert (E1 : forall D, D <= 1 -> shape_P D = 101325).
  { intros D HD. unfold shape_P. destruct (Rlt_dec 5 D); [lra|]. destruct (Rle_dec D 1); [reflexivity|lra]. }
  assert (EP : ct_P example_gas (T, k / 8, k, burnt) = P).
  { cbn [example_gas ct_P atms dens]. rewrite E1; [unfold k; lra|].
    apply (Rmult_le_reg_r k); [exact Hk|]. unfold Rdiv at 1. rewrite Rmult_assoc, Rinv_l by lra. lra. }
  exists (T, k, k, fresh), (T, k, k, burnt), (T, k + 1 / 10000 * P / 90000, k, burnt).
  split; [exists (300, 1, 1, fresh); split; [reflexivity|apply example_set; exact HP]|].
  split; [reflexivity|]. split; [reflexivity|]. split; [cbn; lra|]. split; [cbn; field; lra|].
  split; [cbn; exact HT|]. split; [rewrite EP; lra|].
  rewrite EP. cbn [ct_T example_gas temp]. split; [|split; [|split]].
  - exists (T, k, k, fresh), (T, k + 1 / 10000 * P / 90000, k, burnt).
    split; [exists (300, 1, 1, fresh); split; [reflexivity|apply example_set; exact HP]|].
    split; [reflexivity|]. split; [|reflexivity].
    cbn [example_gas ct_set_SP ct_P ct_entropy temp dens atms comp].
    replace (k / k) with 1 by (field; lra). rewrite E1 by lra.
    match goal with |- Ok (_, ?a, _, _) = _ => replace a with (k + 1 / 10000 * P / 90000) by (unfold k; field) end. reflexivity.
  - cbn. lra.
  - lra.
  - cbn [example_gas ct_density dens ct_P atms]. replace (k / k) with 1 by (field; lra).
    rewrite E1 by lra. unfold k. field.
Qed.
Lemma example_viscosity T P : 0 < P ->
  kinematic_viscosity example_gas fresh T P (T, P / 101325 / 8, P / 101325, burnt)
    (1/100000 / (P / 101325)).
Proof.
  intros HP. exists (T, P / 101325, P / 101325, fresh), (1/100000).
  split; [apply example_set; exact HP|]. split; [reflexivity|]. split; [cbn; lra|]. reflexivity.
Qed.
Example C10_case BR : 0 < BR <= 3/4 ->
  returns (value (calculate_run_up example_gas BR (PSeq [ENum 6; EStr "in"])
                    (PSeq [ENum 300; EStr "K"]) (PSeq [ENum 101325; EStr "Pa"])
                    fresh "gri30.cti" 0 "gri30_mix")) d_length
          (run_up_distance BR (2/5) 8 300 (1/100000) (6 * (254/10000))) 0.
Proof.
  intros H. eapply C10_returns; eauto using denotes_inch, denotes_K, denotes_Pa; try lra.
  - apply example_burns; lra.
  - intros _. split; [|lra]. replace (1/100000) with (1/100000 / (101325 / 101325)) by field.
    apply example_viscosity. lra.
Qed.

(** C11.  The rough-tube distance: the formula, and what follows from it for calls. *)
Theorem C11_rough_formula :
  forall {G X} (L : cantera R G X) BR iD iT iP D T P x mech reg phase S sigma c h,
    3/10 <= BR <= 3/4 ->
    denotes iD d_length D -> denotes iT d_temperature T -> denotes iP d_pressure P ->
    0 < D -> 0 <= T -> 0 <= P ->
    burns L x mech phase T P S sigma c h -> 0 < S -> 1 < sigma -> 0 < c ->
    exists y, returns (value (calculate_run_up L BR iD iT iP x mech reg phase)) d_length y reg
      /\ 0 < y
      /\ y = 2 * (1 - BR) / (1 + 3/2 * BR) * (c * D) / (20 * S * (sigma - 1)).
Proof.
  intros. exists (rough_tube BR S sigma c D). split; [|split].
  - replace (rough_tube BR S sigma c D) with (run_up_distance BR S sigma c 1 D).
    + eapply C10_returns; eauto; lra.
    + unfold run_up_distance. destruct (Rle_dec BR (1/10)); [lra|].
      destruct (Rle_dec (3/10) BR); [reflexivity|lra].
  - apply rough_pos; auto. lra.
  - unfold rough_tube. replace (2 * 10) with 20 by ring. reflexivity.
Qed.
Print Assumptions C11_rough_formula.

Definition gives {G X} (L : cantera R G X) BR iD iT iP x mech reg phase (y : R) : Prop :=
  returns (value (calculate_run_up L BR iD iT iP x mech reg phase)) d_length y reg.
Lemma gives_unique {G X} (L : cantera R G X) BR iD iT iP x mech reg phase y y' :
  gives L BR iD iT iP x mech reg phase y -> gives L BR iD iT iP x mech reg phase y' -> y = y'.
Proof.
  intros (q & E & H) (q' & E' & H'). assert (q = q') by congruence. subst q'.
  destruct H as (_ & _ & _ & <- & _), H' as (_ & _ & _ & <- & _). reflexivity.
Qed.

Theorem C11_scaling :
  forall {G X} (L L' : cantera R G X) BR BR' iD iD' iT iP D k T P x mech reg phase S S' sigma c h h',
    3/10 <= BR <= 3/4 -> 3/10 <= BR' <= 3/4 ->
    denotes iD d_length D -> denotes iD' d_length (k * D) ->
    denotes iT d_temperature T -> denotes iP d_pressure P ->
    0 < D -> 0 < k -> 0 <= T -> 0 <= P ->
    burns L x mech phase T P S sigma c h -> burns L' x mech phase T P S' sigma c h' ->
    0 < S -> 0 < S' -> 1 < sigma -> 0 < c ->
    exists y,
      gives L BR iD iT iP x mech reg phase y
      /\ gives L BR iD' iT iP x mech reg phase (k * y)
      /\ gives L' BR iD iT iP x mech reg phase (y * S / S')
      /\ (BR < BR' -> exists y', gives L BR' iD iT iP x mech reg phase y' /\ y' < y).
Proof.
  intros * B B' ED ED' ET EP H0 Hk H1 H2 Hb Hb' PS PS' Hs Hc.
  assert (PkD : 0 < k * D) by (apply Rmult_lt_0_compat; assumption).
  destruct (C11_rough_formula L BR iD iT iP D T P x mech reg phase S sigma c h) as (y & Hy & Py & Ey); auto.
  destruct (C11_rough_formula L BR iD' iT iP (k * D) T P x mech reg phase S sigma c h) as (y1 & Hy1 & _ & E1); auto.
  destruct (C11_rough_formula L' BR iD iT iP D T P x mech reg phase S' sigma c h') as (y2 & Hy2 & _ & E2); auto.
  exists y. split; [exact Hy|]. split; [|split].
  - replace (k * y) with y1; [exact Hy1|]. rewrite Ey, E1. field. lra.
  - replace (y * S / S') with y2; [exact Hy2|]. rewrite Ey, E2. field. lra.
  - intros Hlt.
    destruct (C11_rough_formula L BR' iD iT iP D T P x mech reg phase S sigma c h) as (y3 & Hy3 & _ & E3); auto.
    exists y3. split; [exact Hy3|]. rewrite Ey, E3.
    pose proof (rough_falls BR BR' S sigma c D) as F. unfold rough_tube in F.
    replace (2 * 10) with 20 in F by ring. apply F; lra.
Qed.
Print Assumptions C11_scaling.
Example C11_case :
  gives example_gas (43/100) (PSeq [ENum 6; EStr "in"])
    (PSeq [ENum 300; EStr "K"]) (PSeq [ENum 101325; EStr "Pa"]) fresh "gri30.cti" 0%nat ""
    (2 * (57/100) / (1 + 3/2 * (43/100)) * (300 * (6 * (254/10000))) / 56).
Proof.
  destruct (C11_rough_formula example_gas (43/100) (PSeq [ENum 6; EStr "in"])
    (PSeq [ENum 300; EStr "K"]) (PSeq [ENum 101325; EStr "Pa"]) (6 * (254/10000)) 300 101325 fresh
    "gri30.cti" 0%nat "" (2/5) 8 300 _ ltac:(lra) (denotes_inch _) (denotes_K _) (denotes_Pa _)
    ltac:(lra) ltac:(lra) ltac:(lra) (example_burns "gri30.cti" "" 300 101325 ltac:(lra) ltac:(lra))
    ltac:(lra) ltac:(lra) ltac:(lra)) as (y & Hy & _ & ->).
  unfold gives. match goal with |- returns _ _ ?v _ => replace v with
    (2 * (1 - 43/100) / (1 + 3/2 * (43/100)) * (300 * (6 * (254/10000))) / (20 * (2/5) * (8 - 1))) by field end.
  exact Hy.
Qed.

(** C12.  With everything else fixed, the distance is continuous in the blockage ratio on
    the whole range: there is no jump where one correlation hands over to the next. *)
Theorem C12_continuous :
  forall {G X} (L : cantera R G X) iD iT iP D T P x mech reg phase S sigma c h nu,
    denotes iD d_length D -> denotes iT d_temperature T -> denotes iP d_pressure P ->
    0 < D -> 0 <= T -> 0 <= P ->
    burns L x mech phase T P S sigma c h -> 0 < S -> sigma <> 1 -> 0 < c ->
    kinematic_viscosity L x T P h nu -> 0 < nu ->
    forall BR, 0 < BR <= 3/4 ->
    exists y, gives L BR iD iT iP x mech reg phase y
      /\ forall eps, 0 < eps ->
         exists delta, 0 < delta
           /\ forall BR', 0 < BR' <= 3/4 -> Rabs (BR' - BR) < delta ->
              exists y', gives L BR' iD iT iP x mech reg phase y' /\ Rabs (y' - y) < eps.
Proof.
  intros * ED ET EP H0 H1 H2 Hb PS Ns Pc Hv Pn BR HBR.
  exists (run_up_distance BR S sigma c nu D). split.
  { eapply C10_returns; eauto. }
  intros eps He.
  destruct (continuity_eps _ BR eps (run_up_cont BR S sigma c nu D HBR) He) as (delta & Hd & Hc).
  exists delta. split; [exact Hd|]. intros BR' HBR' Hnear.
  exists (run_up_distance BR' S sigma c nu D). split; [eapply C10_returns; eauto|]. apply Hc. exact Hnear.
Qed.
Print Assumptions C12_continuous.

(** C13.  The result is in the unit of the tube diameter argument and in the requested
    registry, for all three correlations and every argument the call accepts. *)
Theorem C13_unit :
  forall {G X} (L : cantera R G X) BR iD iT iP dD D dT T dP P u x mech reg phase q,
    denotes iD dD D -> denotes iT dT T -> denotes iP dP P ->
    expressed_in iD u ->
    value (calculate_run_up L BR iD iT iP x mech reg phase) = Ok q ->
    q_unit q = u /\ q_reg q = reg.
Proof.
  intros * ED ET EP Eu H.
  assert (HBR : 0 < BR <= 3/4).
  { destruct (Rle_dec BR 0) as [N|N]; [|destruct (Rlt_dec (3/4) BR) as [N'|N']; [|lra]].
    - destruct (C10_range L BR iD iT iP x mech reg phase (or_introl N)) as ((m & Hm) & _). congruence.
    - destruct (C10_range L BR iD iT iP x mech reg phase (or_intror N')) as ((m & Hm) & _). congruence. }
  destruct (parse_denotes _ _ _ reg ED) as (qD & PD & SD).
  destruct (parse_denotes _ _ _ reg ET) as (qT & PT & ST).
  destruct (parse_denotes _ _ _ reg EP) as (qP & PP & SP).
  assert (Hchk : (dD = d_length /\ 0 <= D) /\ (dT = d_temperature /\ 0 <= T) /\ (dP = d_pressure /\ 0 <= P)).
  { pose proof H as H'. unfold calculate_run_up in H'. rewrite (range_ok BR HBR), PD, PT, PP, !bind_pure_ok in H'.
    apply value_bind_ok in H'. destruct H' as (b1 & C1 & H' & _).
    apply value_bind_ok in H'. destruct H' as (b2 & C2 & H' & _).
    apply value_bind_ok in H'. destruct H' as (b3 & C3 & _).
    rewrite value_pure in C1, C2, C3.
    apply (check_q_inv _ _ d_length) in C1; [|reflexivity].
    apply (check_q_inv _ _ d_temperature) in C2; [|reflexivity].
    apply (check_q_inv _ _ d_pressure) in C3; [|reflexivity].
    rewrite (parsed_base_mag _ _ _ _ SD) in C1. rewrite (parsed_base_mag _ _ _ _ ST) in C2.
    rewrite (parsed_base_mag _ _ _ _ SP) in C3.
    destruct SD as (_ & <- & _), ST as (_ & <- & _), SP as (_ & <- & _).
    destruct C1 as (? & C1), C2 as (? & C2), C3 as (? & C3). auto. }
  destruct Hchk as ((-> & D0) & (-> & T0) & (-> & P0)).
  destruct (run_up_eq L BR _ _ _ _ _ _ x mech phase reg HBR ED ET EP D0 T0 P0)
    as (qD' & qT' & qP' & PD' & SD' & ST' & SP' & E). rewrite E in H. clear E.
  apply run_up_run_inv in H. destruct H as (S & sigma & c & h & qS & qc & Hb & HS & Hc & H).
  assert (Pc : 0 <= c) by (destruct Hb as (? & ? & ? & Hb); apply Hb).
  apply (pick_inv L BR D T P S sigma c x reg h qD' qT' qP' qS qc HBR SD' ST' SP' HS Hc D0 Pc) in H.
  destruct H as (_ & _ & _ & _ & Hu & Hv & H).
  assert (Hs : exists nu, stands_for q d_length (run_up_distance BR S sigma c nu D) reg).
  { destruct (Rlt_dec BR (3/10)) as [H3|H3].
    - destruct (Hv H3) as (_ & nu & Hnu & _). exists nu. apply H. auto.
    - exists 0. apply H. intros. lra. }
  destruct Hs as (nu & Hs). split; [|apply Hs]. rewrite Hu.
  destruct Eu as [q0|m s u Hl].
  - cbn in PD'. injection PD' as <-. reflexivity.
  - cbn in PD'. unfold quant in PD'. rewrite Hl in PD'. injection PD' as <-. reflexivity.
Qed.
Print Assumptions C13_unit.
Example C13_case : exists q, value (calculate_run_up example_gas (2/10) (PSeq [ENum 6; EStr "in"])
    (PSeq [ENum 300; EStr "K"]) (PSeq [ENum 101325; EStr "Pa"]) fresh "gri30.cti" 7 "gri30_mix") = Ok q
  /\ expressed_in (PSeq [ENum 6; EStr "in"]) (mult_unit d_length s_inch).
Proof.
  assert (B : 0 < 2/10 <= 3/4) by lra.
  assert (E : returns (value (calculate_run_up example_gas (2/10) (PSeq [ENum 6; EStr "in"])
    (PSeq [ENum 300; EStr "K"]) (PSeq [ENum 101325; EStr "Pa"]) fresh "gri30.cti" 7 "gri30_mix"))
    d_length (run_up_distance (2/10) (2/5) 8 300 (1/100000 / (101325/101325)) (6 * (254/10000))) 7).
  { eapply C10_returns; eauto using denotes_inch, denotes_K, denotes_Pa; try lra.
    - apply example_burns; lra.
    - intros _. split; [apply example_viscosity; lra|lra]. }
  destruct E as (q & Hq & _). exists q. split; [exact Hq|]. constructor. reflexivity.
Qed.

(** C85.  More blockage, shorter run-up: within each of the two correlation ranges always,
    and from any ratio to any larger one if the smooth-tube distance is at least the
    rough-tube distance at one of the two. *)
Theorem C85_falls_partial :
  forall {G X} (L : cantera R G X) BR BR' iD iT iP D T P x mech reg phase S sigma c h nu,
    0 < BR -> BR < BR' -> BR' <= 3/4 ->
    denotes iD d_length D -> denotes iT d_temperature T -> denotes iP d_pressure P ->
    0 < D -> 0 <= T -> 0 <= P ->
    burns L x mech phase T P S sigma c h -> 0 < S -> 1 < sigma -> 0 < c ->
    kinematic_viscosity L x T P h nu -> 0 < nu ->
    (BR' <= 1/10 \/ 3/10 <= BR
     \/ rough_tube BR S sigma c D <= smooth_tube BR S sigma c nu D
     \/ rough_tube BR' S sigma c D <= smooth_tube BR' S sigma c nu D) ->
    exists y y',
      gives L BR iD iT iP x mech reg phase y /\ gives L BR' iD iT iP x mech reg phase y'
      /\ y' < y.
Proof.
  intros * B1 B2 B3 ED ET EP H0 H1 H2 Hb PS Hs Pc Hv Pn Hcond.
  exists (run_up_distance BR S sigma c nu D), (run_up_distance BR' S sigma c nu D).
  split; [eapply C10_returns; eauto; lra|]. split; [eapply C10_returns; eauto; lra|].
  apply run_up_falls; auto. intros K1 K2. destruct Hcond as [K|[K|[K|K]]]; [lra|lra|left|right]; exact K.
Qed.
Print Assumptions C85_falls_partial.

(** A gas that burns to twice its volume with flame and sound speed 1 m/s and viscosity
    [nu]; its state is its density. *)
Definition thin_gas (nu : R) : cantera R R unit :=
  mkCantera R R unit (fun _ _ => Ok 1) (fun _ _ _ _ => Ok 1) (fun _ _ d => Ok d)
    (fun d _ _ => Ok (d + 1)) (fun d mode => Ok (if String.eqb mode "HP" then d / 2 else d))
    (fun _ => 300) (fun _ => 10000) (fun d => d) (fun _ => 0) (fun _ => 0) (fun _ => tt)
    (fun _ => Ok nu) (fun _ => Ok 1).
Lemma thin_burns nu mech phase T P : burns (thin_gas nu) tt mech phase T P 1 2 1 (1/2).
Proof.
  exists 1, 1, (1 + 1). split; [exists 1; split; reflexivity|].
  split; [reflexivity|]. split; [reflexivity|]. split; [cbn; lra|]. split; [cbn; field|].
  split; [cbn; lra|]. split; [cbn; lra|]. split; [|cbn; lra].
  exists 1, (1 + 1). split; [exists 1; split; reflexivity|]. split; [reflexivity|]. split; reflexivity.
Qed.
Lemma thin_viscosity nu T P : kinematic_viscosity (thin_gas nu) tt T P (1/2) nu.
Proof. exists 1, nu. split; [reflexivity|]. split; [reflexivity|]. split; [cbn; lra|cbn; field]. Qed.

Definition thin_nu : R := exp (3 * (ln (21/10) - 10 * (148/75))).
Lemma thin_group : flame_group 1 2 1 thin_nu 1 = exp (-10).
Proof.
  unfold flame_group.
  replace (21/10 * (2 - 1)^2 * 1) with (21/10) by ring.
  replace (thin_nu / 1 / 1) with thin_nu by field.
  assert (E : Rpower thin_nu (1/3) = 21/10 * exp (- (10 * (148/75)))).
  { unfold Rpower, thin_nu. rewrite ln_exp.
    replace (1/3 * (3 * (ln (21/10) - 10 * (148/75)))) with (ln (21/10) + - (10 * (148/75))) by field.
    rewrite exp_plus, exp_ln by lra. reflexivity. }
  rewrite E. replace (1 / (21/10) * (21/10 * exp (- (10 * (148/75))))) with (exp (- (10 * (148/75)))) by field.
  unfold Rpower. rewrite ln_exp. f_equal. field.
Qed.
Lemma thin_negative BR : 1/10 <= BR <= 3/4 -> smooth_tube BR 1 2 1 thin_nu 1 < 0.
Proof.
  intros B. unfold smooth_tube. rewrite thin_group.
  assert (Hroot : sqrt (1 - BR) <= 95/100).
  { rewrite <- (sqrt_square (95/100)) by lra. apply sqrt_le_1; lra. }
  assert (Hd : 0 < diameter_over_height BR <= 40).
  { unfold diameter_over_height. split; [apply Rdiv_lt_0_compat; lra|].
    apply (Rmult_le_reg_r (1 - sqrt (1 - BR))); [lra|].
    unfold Rdiv. rewrite Rmult_assoc, Rinv_l by lra. lra. }
  assert (He : 2 < exp 1) by (pose proof (exp_ineq1 1); lra).
  assert (H7 : 40 < exp 7).
  { replace 7 with (1 + (1 + (1 + (1 + (1 + (1 + 1)))))) by ring. rewrite !exp_plus.
    set (e := exp 1) in *. assert (4 < e * e) by nra. assert (8 < e * (e * e)) by nra.
    assert (64 < (e * (e * e)) * (e * (e * e))) by nra. nra. }
  assert (Hl : ln (exp (-10) * diameter_over_height BR) < -3).
  { rewrite ln_mult by (try apply exp_pos; apply Hd). rewrite ln_exp.
    assert (ln (diameter_over_height BR) < 7).
    { rewrite <- (ln_exp 7). apply ln_increasing; lra. }
    lra. }
  pose proof (exp_pos (-10)) as Pe. set (l := ln _) in *. set (e := exp (-10)) in *.
  replace (e / (2/10) * (1 / (4/10) * l + 55/10) * 1) with (25/2 * (e * (l + 22/10))) by field.
  assert (e * (l + 22/10) < 0) by nra. lra.
Qed.

(** The claim without the last condition is false: here the distance grows with the
    blockage ratio. *)
Theorem C85_refuted :
  exists (L : cantera R R unit) BR BR' iD iT iP y y',
    0 < BR < BR' /\ BR' <= 3/4
    /\ burns L tt "gri30.cti" "" 300 10000 1 2 1 (1/2)
    /\ gives L BR iD iT iP tt "gri30.cti" 0%nat "" y
    /\ gives L BR' iD iT iP tt "gri30.cti" 0%nat "" y'
    /\ y < y'.
Proof.
  exists (thin_gas thin_nu), (1/10), (3/10), (PSeq [ENum 1; EStr "m"]), (PSeq [ENum 300; EStr "K"]),
    (PSeq [ENum 10000; EStr "Pa"]), (run_up_distance (1/10) 1 2 1 thin_nu 1),
    (run_up_distance (3/10) 1 2 1 thin_nu 1).
  assert (Hg : forall BR, 0 < BR <= 3/4 ->
    gives (thin_gas thin_nu) BR (PSeq [ENum 1; EStr "m"]) (PSeq [ENum 300; EStr "K"])
      (PSeq [ENum 10000; EStr "Pa"]) tt "gri30.cti" 0%nat "" (run_up_distance BR 1 2 1 thin_nu 1)).
  { intros BR B. eapply C10_returns; eauto using denotes_m, denotes_K, denotes_Pa, thin_burns; try lra.
    intros _. split; [apply thin_viscosity|]. apply exp_pos. }
  split; [lra|]. split; [lra|]. split; [apply thin_burns|]. split; [apply Hg; lra|]. split; [apply Hg; lra|].
  unfold run_up_distance. destruct (Rle_dec (1/10) (1/10)); [|lra].
  destruct (Rle_dec (3/10) (1/10)); [lra|]. destruct (Rle_dec (3/10) (3/10)); [|lra].
  pose proof (thin_negative (1/10) ltac:(lra)). pose proof (rough_pos (3/10) 1 2 1 1). lra.
Qed.
Print Assumptions C85_refuted.

(** C86.  A diameter, temperature or pressure of the wrong dimension or below zero raises
    ValueError, and no gas object has been created. *)
Theorem C86_bad_arguments :
  forall {G X} (L : cantera R G X) BR iD iT iP dD D dT T dP P x mech reg phase,
    denotes iD dD D -> denotes iT dT T -> denotes iP dP P ->
    dD <> d_length \/ D < 0 \/ dT <> d_temperature \/ T < 0 \/ dP <> d_pressure \/ P < 0 ->
    is_value_error (value (calculate_run_up L BR iD iT iP x mech reg phase))
    /\ trace (calculate_run_up L BR iD iT iP x mech reg phase) = [].
Proof.
  intros * ED ET EP Hbad.
  destruct (Rle_dec BR 0) as [N|N]; [apply C10_range; auto|].
  destruct (Rlt_dec (3/4) BR) as [N'|N']; [apply C10_range; auto|].
  assert (HBR : 0 < BR <= 3/4) by lra.
  destruct (parse_denotes _ _ _ reg ED) as (qD & PD & SD).
  destruct (parse_denotes _ _ _ reg ET) as (qT & PT & ST).
  destruct (parse_denotes _ _ _ reg EP) as (qP & PP & SP).
  unfold calculate_run_up. rewrite (range_ok BR HBR), PD, PT, PP, !bind_pure_ok.
  destruct SD as (_ & DD & VD & _), ST as (_ & DT & VT & _), SP as (_ & DP & VP & _).
  destruct (check_cases qD dD D "length" d_length true DD VD eq_refl) as [(E1 & C1 & ->)|(_ & (m & ->))];
    [|rewrite bind_pure_err; split; [eexists; reflexivity|reflexivity]].
  rewrite bind_pure_ok.
  destruct (check_cases qT dT T "temperature" d_temperature true DT VT eq_refl) as [(E2 & C2 & ->)|(_ & (m & ->))];
    [|rewrite bind_pure_err; split; [eexists; reflexivity|reflexivity]].
  rewrite bind_pure_ok.
  destruct (check_cases qP dP P "pressure" d_pressure true DP VP eq_refl) as [(E3 & C3 & ->)|(_ & (m & ->))];
    [|rewrite bind_pure_err; split; [eexists; reflexivity|reflexivity]].
  exfalso. specialize (C1 eq_refl). specialize (C2 eq_refl). specialize (C3 eq_refl).
  destruct Hbad as [K|[K|[K|[K|[K|K]]]]]; try contradiction; lra.
Qed.
Print Assumptions C86_bad_arguments.
Example C86_case : denotes (PSeq [ENum (-1); EStr "in"]) d_length (-1 * (254/10000)) /\ -1 * (254/10000) < 0.
Proof. split; [apply denotes_inch|lra]. Qed.

(** C87.  The viscosity is needed exactly below a blockage ratio of 0.3: there a viscosity
    error comes through, and from 0.3 on the whole run is the same for any viscosity. *)
Theorem C87_viscosity_needed :
  forall {G X} (L : cantera R G X) BR iD iT iP D T P x mech reg phase S sigma c h g e,
    0 < BR < 3/10 ->
    denotes iD d_length D -> denotes iT d_temperature T -> denotes iP d_pressure P ->
    0 <= D -> 0 <= T -> 0 <= P ->
    burns L x mech phase T P S sigma c h ->
    ct_set_TPX L h T P x = Ok g -> ct_viscosity L g = Err e ->
    value (calculate_run_up L BR iD iT iP x mech reg phase) = Err e.
Proof.
  intros * B ED ET EP H0 H1 H2 Hb Hg Hv. assert (HBR : 0 < BR <= 3/4) by lra.
  destruct (run_up_eq L BR _ _ _ _ _ _ x mech phase reg HBR ED ET EP H0 H1 H2)
    as (qD & qT & qP & _ & PD & PT & PP & E). rewrite E. clear E.
  destruct (run_up_run_pick L BR qD qT qP T P x mech phase reg S sigma c h Hb)
    as (qS & qc & HS & Hc & E). rewrite E. clear E.
  apply (pick_viscosity_error L BR T P sigma x reg h qD qT qP qS qc PT PP g); auto. lra.
Qed.
Print Assumptions C87_viscosity_needed.
Theorem C87_viscosity_not_needed :
  forall {G X} (L : cantera R G X) BR iD iT iP x mech reg phase (v : G -> result R),
    3/10 <= BR ->
    calculate_run_up (with_viscosity L v) BR iD iT iP x mech reg phase
    = calculate_run_up L BR iD iT iP x mech reg phase.
Proof.
  intros * B. unfold calculate_run_up.
  assert (E : forall y : R, @nleb R _ (nofQ 0.3) BR = true).
  { intros _. rnum. rewrite lit_03. apply Rleb_true. exact B. }
  destruct (orb _ _) eqn:Er; [reflexivity|].
  assert (E2 : @nleb R _ BR (nofQ 0.75) = true).
  { apply orb_false_iff in Er. destruct Er as (_ & Er). rnum. rewrite lit_075 in *.
    apply Rleb_true. destruct (Rltb_spec (3/4) BR); [discriminate|lra]. }
  rewrite (E 0), E2. reflexivity.
Qed.
Print Assumptions C87_viscosity_not_needed.
Example C87_case :
  value (calculate_run_up (with_viscosity example_gas (fun _ => Err Unmodelled)) (2/10)
    (PSeq [ENum 6; EStr "in"]) (PSeq [ENum 300; EStr "K"]) (PSeq [ENum 101325; EStr "Pa"])
    fresh "gri30.cti" 0 "") = Err Unmodelled.
Proof.
  destruct (example_burns "gri30.cti" "" 300 101325 ltac:(lra) ltac:(lra)) as (g & g0 & g1 & Hb).
  apply (C87_viscosity_needed (with_viscosity example_gas (fun _ => Err Unmodelled)) (2/10)
    (PSeq [ENum 6; EStr "in"]) (PSeq [ENum 300; EStr "K"]) (PSeq [ENum 101325; EStr "Pa"])
    (6 * (254/10000)) 300 101325 fresh "gri30.cti" 0%nat "" (2/5) 8 300
    (300, 101325 / 101325 / 8, 101325 / 101325, burnt) (300, 101325 / 101325, 101325 / 101325, fresh));
    try apply denotes_inch; try apply denotes_K; try apply denotes_Pa; try lra; try reflexivity.
  - exists g, g0, g1. exact Hb.
  - apply example_set. lra.
Qed.

(** C88.  Up to 0.1 the distance is positive exactly when gamma * d/h > exp(-2.2); so it is
    not always positive. *)
Theorem C88_sign_partial :
  forall {G X} (L : cantera R G X) BR iD iT iP D T P x mech reg phase S sigma c h nu,
    0 < BR <= 1/10 ->
    denotes iD d_length D -> denotes iT d_temperature T -> denotes iP d_pressure P ->
    0 < D -> 0 <= T -> 0 <= P ->
    burns L x mech phase T P S sigma c h -> 0 < S -> sigma <> 1 -> 0 < c ->
    kinematic_viscosity L x T P h nu -> 0 < nu ->
    exists y, gives L BR iD iT iP x mech reg phase y
      /\ (0 < y <-> exp (-22/10) < flame_group S sigma c nu D * diameter_over_height BR).
Proof.
  intros * B ED ET EP H0 H1 H2 Hb PS Ns Pc Hv Pn.
  exists (smooth_tube BR S sigma c nu D). split.
  { replace (smooth_tube BR S sigma c nu D) with (run_up_distance BR S sigma c nu D).
    - eapply C10_returns; eauto. lra.
    - unfold run_up_distance. destruct (Rle_dec BR (1/10)); [reflexivity|lra]. }
  pose proof (gamma_pos S sigma c nu D) as Pg. unfold smooth_tube.
  set (g := flame_group S sigma c nu D) in *.
  assert (Pd : 0 < diameter_over_height BR) by (apply doh_pos; lra).
  assert (Pgd : 0 < g * diameter_over_height BR) by (apply Rmult_lt_0_compat; assumption).
  set (l := ln (g * diameter_over_height BR)).
  assert (E : exp (-22/10) < g * diameter_over_height BR <-> -22/10 < l).
  { unfold l. split; intros K.
    - rewrite <- (ln_exp (-22/10)). apply ln_increasing; [apply exp_pos|exact K].
    - rewrite <- (exp_ln (g * diameter_over_height BR)) by exact Pgd. apply exp_increasing. exact K. }
  rewrite E. clear E.
  replace (g / (2/10) * (1 / (4/10) * l + 55/10) * D) with (25/2 * (g * D) * (l + 22/10)) by field.
  assert (0 < g * D) by (apply Rmult_lt_0_compat; assumption).
  split; intros K; [|apply Rmult_lt_0_compat; lra].
  destruct (Rlt_dec (-22/10) l); [assumption|]. nra.
Qed.
Print Assumptions C88_sign_partial.
Theorem C88_refuted :
  exists (L : cantera R R unit) BR iD iT iP y,
    0 < BR <= 3/4
    /\ burns L tt "gri30.cti" "" 300 10000 1 2 1 (1/2)
    /\ (exists nu, kinematic_viscosity L tt 300 10000 (1/2) nu /\ 0 < nu)
    /\ gives L BR iD iT iP tt "gri30.cti" 0%nat "" y /\ y < 0.
Proof.
  exists (thin_gas thin_nu), (1/10), (PSeq [ENum 1; EStr "m"]), (PSeq [ENum 300; EStr "K"]),
    (PSeq [ENum 10000; EStr "Pa"]), (run_up_distance (1/10) 1 2 1 thin_nu 1).
  split; [lra|]. split; [apply thin_burns|].
  split; [exists thin_nu; split; [apply thin_viscosity|apply exp_pos]|]. split.
  - eapply C10_returns; eauto using denotes_m, denotes_K, denotes_Pa, thin_burns; try lra.
    intros _. split; [apply thin_viscosity|]. apply exp_pos.
  - unfold run_up_distance. destruct (Rle_dec (1/10) (1/10)); [|lra]. apply thin_negative. lra.
Qed.
Print Assumptions C88_refuted.
(** From 0.3 on it is positive (C11_rough_formula). *)
