(** * FlangeFoundP: get_class under rounding finds a class that is known to suffice. *)
From Coq Require Import String ZArith QArith Reals Qreals List Bool Lra Lia Psatz.
From Verif Require Import PyBase Pint UnitsM Spec QLemmas Csv TableSpec Tables Interp InterpP
  NumQ StressP PipeP FlangeM FlangeP RoundM RoundSpec RoundTempSpec RoundP RoundDdtP RoundStressP RoundFlangeP.
Import ListNotations.
Local Open Scope R_scope.
Local Opaque TUBE_MATERIALS FLANGE_LIMITS.

Section Rounded.
  Variables (u : R) (rnd : R -> R).
  Hypothesis Hr : rounding u rnd.
  Hypothesis Hs : u <= 1/1000000.
  Notation N := (Num_rounded rnd).
  Notation accepted := (accepted u).

  Lemma class_found_rated strict m f tab c0 r0 rl a name t i p pq P reg g : rates m f tab ->
    rawpts tab "2500" = r0 :: rl -> In c0 class_names ->
    denotes (PSeq [ENum a; EStr name]) d_temperature (celsius t) -> given rnd i a name ->
    accepted name (Q2R (fst r0)) (Q2R (fst (last (r0 :: rl) r0))) t ->
    denotes p d_pressure P -> 0 <= P -> P + 4000000000 * u <= Q2R (snd r0) * 100000 ->
    @parse_quant_input R N p reg = Ok pq ->
    @get_max_pressure R N strict c0 i (NStr m) = Ok g -> @base_mag R N pq <= q_mag g ->
    exists c, @get_class R N strict p i (NStr m) reg = Ok c.
  Proof.
    intros H Er Ic0 D G A Dp P0 Le Pp Eg Lg. pose proof (ra_ok _ _ _ H) as F.
    assert (I25 : In "2500"%string class_names) by (cbn; tauto).
    destruct (ra_group _ _ _ H) as (gr & Gg & L).
    assert (Each : forall c, In c class_names -> exists r0' rl' q,
        rawpts tab c = r0' :: rl' /\ fst r0 = fst r0'
        /\ fst (last (r0 :: rl) r0) = fst (last (r0' :: rl') r0')
        /\ @parse_quant_input R N i reg = Ok q /\ u_dim (q_unit q) = d_temperature
        /\ Rabs (@base_mag R N q - celsius t) <= 6820 * u
        /\ fst (roundTP rnd r0') <= @base_mag R N q <= fst (roundTP rnd (last (r0' :: rl') r0'))).
    { intros c Ic. destruct (ends_of rnd tab c F Ic) as (r0' & rl' & Er' & _).
      destruct (same_ends tab _ _ _ _ _ _ Er Er') as (S1 & S2).
      rewrite S1, S2 in A.
      destruct (in_range u rnd Hr tab c r0' rl' a name t i reg F Ic (curve_ok_of _ _ _ _ H Ic) Er' D G A)
        as (q & X). exists r0', rl', q. tauto. }
    destruct (Each _ I25) as (r0' & rl' & tq & Er' & _ & _ & Pt & Dt & Et & B1 & B2).
    rewrite Er in Er'. injection Er' as <- <-.
    pose proof (curve_ok_of _ _ _ _ H I25) as Co.
    destruct (co_small _ _ Co r0 ltac:(rewrite Er; now left)) as (S0 & S0').
    pose proof (small_range _ S0) as Sr. pose proof (temp_base_err u rnd Hr _ S0) as Se. apply abs_bounds in Se.
    cbn [roundTP fst] in B1, B2.
    destruct (parse_approx u rnd Hr p d_pressure P reg ltac:(discriminate) Dp) as (pq2 & Pp2 & Ap).
    rewrite Pp in Pp2. injection Pp2 as <-.
    pose proof (base_near u rnd Hr _ _ _ _ _ Ap) as Np.
    apply (near_err u rnd Hr) in Np; [|lia]. rewrite (Rabs_pos_eq P) in Np by exact P0.
    replace (2 * INR 11 * u) with (22 * u) in Np by (cbn; ring).
    destruct (ends_of rnd tab "2500" F I25) as (r1 & rl1 & Er1 & Ec & Erc & La & Lb).
    rewrite Er in Er1. injection Er1 as <- <-.
    pose proof (press_near u rnd Hr (snd r0)) as Nt. apply (near_err u rnd Hr) in Nt; [|lia].
    replace (2 * INR 3 * u) with (6 * u) in Nt by (cbn; ring).
    assert (Pos0 : 0 <= Q2R (snd r0) * 100000).
    { pose proof (fo_pos _ F "2500" I25 (ptTP r0)) as X. fold (curve tab "2500") in X.
      rewrite Ec in X. specialize (X (or_introl eq_refl)). exact X. }
    rewrite (Rabs_pos_eq (Q2R (snd r0) * 100000)) in Nt by exact Pos0. apply abs_bounds in Nt, Np.
    pose proof (proj1 (proj1 Hr)) as u0.
    assert (PB : 22 * u * P <= 22 * u * 41370000) by (apply Rmult_le_compat_l; lra).
    assert (TB : 6 * u * (Q2R (snd r0) * 100000) <= 6 * u * 41370000) by (apply Rmult_le_compat_l; lra).
    (* the rating known to suffice *)
    assert (Er0 : @rating R N strict tab c0 (@base_mag R N tq) = Ok (q_mag g)).
    { unfold get_max_pressure in Eg. unfold table_for in Eg.
      rewrite check_material_grade in Eg by apply H. cbn [bind] in Eg. rewrite Gg in Eg. cbn [bind] in Eg.
      rewrite L in Eg. cbn [bind] in Eg. cbv zeta in Eg.
      destruct (check_flange_class _ _) as [|]; cbn [bind] in Eg; [|discriminate].
      destruct (parse_any i reg module_reg tq Pt) as (tq2 & E2 & M2 & U2). rewrite E2 in Eg. cbn [bind] in Eg.
      destruct (check_in_range _ _ _ _); cbn [bind] in Eg; [|discriminate].
      destruct (String.eqb c0 "Temperature"); cbn [raise_if bind] in Eg; [discriminate|].
      rewrite (base_mag_any tq tq2 M2 U2) in Eg.
      destruct (rating strict tab c0 (base_mag tq)) as [v|]; cbn [bind] in Eg; [|discriminate].
      unfold quant in Eg. destruct (lookup_unit "Pa") as [w|]; [|discriminate]. now injection Eg as <-. }
    unfold get_class. rewrite Pp. cbn [bind]. rewrite Pt. cbn [bind].
    rewrite (check_approx u rnd Hr 10 pq d_pressure P reg "pressure" true eq_refl Ap P0).
    cbn [bind].
    assert (Ct : @check_q R N tq "temperature" true = Ok true).
    { unfold check_q, check_pint_quantity. cbn [bind].
      change (supported_dimension "temperature") with (Some d_temperature).
      change (@base_mag R N (mkQ (q_mag tq) (q_unit tq) 0)) with (@base_mag R N tq).
      cbn [nltb Num_rounded]. rewrite (zero_rnd u rnd Hr).
      rewrite (Rltb_false (@base_mag R N tq)) by (unfold celsius in Se; lra).
      cbn [andb raise_if bind]. rewrite Dt. reflexivity. }
    rewrite Ct. cbn [bind]. cbn [parse_quant_input bind].
    set (pq' := mkQ (q_mag pq) (q_unit pq) module_reg).
    set (tq' := mkQ (q_mag tq) (q_unit tq) module_reg).
    assert (Bp : @base_mag R N pq' = @base_mag R N pq) by reflexivity.
    assert (Bt : @base_mag R N tq' = @base_mag R N tq) by reflexivity.
    rewrite check_material_grade by apply H. cbn [bind]. rewrite Gg. cbn [bind]. rewrite L. cbn [bind].
    assert (Cl : classes tab = class_names) by (unfold classes; now rewrite (fo_cols _ F)).
    rewrite Cl. replace (max_key class_names "0") with (Ok "2500"%string) by reflexivity. cbn [bind].
    assert (Mx : exists mx, @list_max R N (@press_column R N tab "2500") = Ok mx
              /\ @press_base R N (snd r0) <= mx).
    { assert (Ep : @press_column R N tab "2500" = map (@press_base R N) (map snd (rawpts tab "2500"))).
      { unfold press_column. rewrite column_filled by (apply F; exact I25). unfold rawpts. rewrite !map_map. reflexivity. }
      rewrite Ep, Er. cbn [map].
      destruct (list_max_spec (@press_base R N (snd r0)) (map (@press_base R N) (map snd rl))) as (mx & X1 & _ & X2).
      exists mx. split; [exact X1|]. apply X2. now left. }
    destruct Mx as (mx & Emx & Lmx). rewrite Emx. cbn [bind]. rewrite Bp. cbn [nltb Num_rounded].
    rewrite (Rltb_false mx) by lra. cbn [raise_if bind].
    destruct (range_ends u rnd Hr Hs tab "2500" _ _ F Co Erc) as (R1 & R2). rewrite Lb in R2.
    rewrite (check_range_N rnd tq' d_temperature _ _ _ _ R1 R2 Dt). rewrite Bt. cbn [roundTP fst].
    rewrite !Rltb_false by lra. cbn [orb raise_if bind].
    assert (Rt : forall c, In c class_names -> exists v, @rating R N strict tab c (@base_mag R N tq) = Ok v).
    { intros c Ic. destruct (Each c Ic) as (cc & cl & q & Erc0 & _ & _ & Pq & _ & _ & Q1 & Q2).
      rewrite Pt in Pq. injection Pq as <-.
      destruct (ends_of rnd tab c F Ic) as (c0' & cl' & Ex & _ & Ey & _ & Lc).
      rewrite Erc0 in Ex. injection Ex as <- <-.
      destruct (rating_rounded u rnd Hr Hs strict tab c (roundTP rnd cc) (map (roundTP rnd) cl) (@base_mag R N tq)
        F Ic (curve_ok_of _ _ _ _ H Ic) Ey Q1) as (v & Ev & _).
      - rewrite Lc. exact Q2.
      - now exists v. }
    pose (gv := fun c => match @rating R N strict tab c (@base_mag R N tq) with Ok v => v | Err _ => 0 end).
    rewrite (mapM_ok _ (fun c => (c, gv c))).
    2:{ intros c Ic. destruct (Rt c Ic) as (v & Ev). rewrite Ev. cbn [bind]. unfold gv. now rewrite Ev. }
    cbn [bind]. cbn [nleb Num_rounded].
    set (rs := filter _ _).
    assert (In0 : In (c0, gv c0) rs).
    { unfold rs. apply filter_In. split; [exact (in_map (fun c => (c, gv c)) _ _ Ic0)|].
      cbn [snd]. apply Rleb_true. unfold gv. rewrite Er0. exact Lg. }
    destruct rs as [|cr rest]; [destruct In0|]. eauto.
  Qed.
End Rounded.
