(** * Properties_FlangeClassDouble: C155, the class of a flange's own rating, computed with
    doubles. *)
From Coq Require Import String ZArith QArith Reals Qreals List Bool Lra Lia.
From Flocq Require Import Core BinarySingleNaN.
From Verif Require Import PyBase Pint UnitsM Spec QLemmas Csv TableSpec Tables Interp InterpP FlangeM FlangeP FlangeGapP FlangeCellP FlangeFoundP
  FlangeT FlangeRoundP RoundM RoundSpec RoundTempSpec RoundP RoundFlangeP IeeeM IeeeSpec IeeeP IeeePiP IeeeFlangeP Properties_Ieee
  Properties_Flange Properties_RoundFlange Properties_IeeeFlange.
Import ListNotations.
Local Open Scope R_scope.
Local Opaque MATERIAL_LIMITS TUBE_MATERIALS flange_file FLANGE_LIMITS.

(** The rating of a class, asked back at the same temperature, is of that class: for the
    classes below 2500, and for 2500 where its rating is 1 Pa or more below the highest in
    the table. *)
Theorem C155_class_round_trip_partial :
  forall (strict : bool) (material : string) (f : frame) (cls : string)
         (m : R) (unit_name : string) (t : R) (temp : pyin b64) (temp' : pyin R) (reg : nat)
         (row1 row2 : list string) (T1 T2 : Q) (d : quantity b64),
    In material available_materials -> rated_by TUBE_MATERIALS flange_file material f ->
    In cls (pressure_classes f) ->
    In row1 (f_rows f) -> tabulated f row1 "Temperature" T1 ->
    In row2 (f_rows f) -> tabulated f row2 "Temperature" T2 ->
    reads 1e18 temp temp' -> given double temp' m unit_name ->
    denotes (PSeq [ENum m; EStr unit_name]) d_temperature (celsius t) ->
    accepted double_unit unit_name (Q2R T1) (Q2R T2) t ->
    @get_max_pressure b64 Num_b64 strict cls temp (NStr material) = Ok d ->
    (cls <> "2500"%string \/
       exists row0 p0, In row0 (f_rows f) /\ tabulated f row0 "2500" p0
         /\ real (q_mag d) + 1 <= Q2R p0 * 100000) ->
    (cls = "150"%string -> real (q_mag d) = 0 \/ / 1e18 <= real (q_mag d)) ->
    @get_class b64 Num_b64 strict (PQuant d) temp (NStr material) reg = Ok cls.
Proof.
  intros s mat f c m name t i i' reg row1 row2 T1 T2 d I Rb Pc J1 A1 J2 A2 Rd G D Acc Ed Nc Small.
  assert (Hs : double_unit <= 1/1000000) by (unfold double_unit; cbn -[IZR]; lra).
  assert (Hu : 0 <= 4000000000 * double_unit <= 1/1000000) by (unfold double_unit; cbn -[IZR]; lra).
  destruct (rates_of mat f I Rb) as (tab & H).
  pose proof Pc as Ic. rewrite (rates_classes _ _ _ H) in Ic.
  assert (I25 : In "2500"%string class_names) by (cbn; tauto).
  assert (P25 : In "2500"%string (pressure_classes f)) by (rewrite (rates_classes _ _ _ H); exact I25).
  destruct (C149_max_pressure_accuracy s mat f c m name t i i' row1 row2 T1 T2 I Rb Pc J1 A1 J2 A2 Rd G D Acc)
    as (q & x & Eq & _ & Ex & Ud & _ & Fd & B).
  assert (x = d) by congruence. subst x. apply Rabs_le_inv in B.
  destruct (C149_max_pressure_accuracy s mat f _ m name t i i' row1 row2 T1 T2 I Rb P25 J1 A1 J2 A2 Rd G D Acc)
    as (q25 & d25 & Eq25 & _).
  pose proof (rating_bounds s mat f c _ _ q I Rb Pc D Eq) as Bq.
  assert (M : moderate 1e18 (q_mag d)).
  { split; [exact Fd|]. revert Bq. destruct (String.eqb_spec c "150") as [E|E]; intros Bq.
    - destruct (Small E) as [Z|Z]; [now left|right]. rewrite Rabs_pos_eq; lra.
    - right. rewrite Rabs_pos_eq by lra. lra. }
  assert (P0 : 0 <= real (q_mag d)).
  { revert Bq. destruct (String.eqb_spec c "150") as [E|E]; intros Bq; [|lra].
    destruct (Small E) as [Z|Z]; lra. }
  destruct (C149_max_pressure s c (NStr mat) i i' Rd) as [(e & X & _)|(d0 & g & X & Eg & S)]; [congruence|].
  assert (d0 = d) by congruence. subst d0. destruct S as ((_ & Sm) & _).
  assert (Ug : @lookup_unit R (Num_rounded double) "Pa" = Some (q_unit g)).
  { clear - Eg. unfold get_max_pressure in Eg.
    destruct (table_for c (NStr mat)) as [tab|]; cbn [bind] in Eg; [|discriminate]. cbv zeta in Eg.
    destruct (parse_quant_input i' module_reg) as [a|]; cbn [bind] in Eg; [|discriminate].
    destruct (check_in_range _ _ _ _); cbn [bind] in Eg; [|discriminate].
    destruct (String.eqb c "Temperature"); cbn [raise_if bind] in Eg; [discriminate|].
    destruct (rating _ _ _ _) as [r|]; cbn [bind] in Eg; [|discriminate].
    unfold quant in Eg. destruct (lookup_unit "Pa") as [v|]; [|discriminate]. now injection Eg as <-. }
  set (p := PQuant (mkQ (real (q_mag d)) (q_unit g) (q_reg d))).
  assert (Rp : reads 1e18 (PQuant d) p).
  { unfold p. destruct d as [dm du dr]. cbn [q_mag q_unit q_reg] in *.
    eapply reads_quantity; [exact M|exact Ud|exact Ug]. }
  assert (U1 : u_scale (q_unit g) = 1 /\ Pint.u_off (q_unit g) = None /\ u_dim (q_unit g) = d_pressure).
  { clear - Ug. cbn in Ug. injection Ug as <-. cbn.
    split; [exact (one_rnd _ _ double_rounding)|split; reflexivity]. }
  destruct U1 as (U1 & U2 & U3).
  assert (Dp : denotes p d_pressure (real (q_mag d))).
  { apply denotes_quantity; cbn [q_unit q_mag].
    - split; [rewrite U1; lra|rewrite U2; now intros []].
    - exact U3.
    - unfold worth. rewrite U1, U2. lra. }
  rewrite (C149_class s (NStr mat) (PQuant d) i p i' reg Rp Rd).
  destruct (class_num c Ic) as (n & N & Dn).
  destruct (largest_class c Ic) as (n' & N' & Ln). rewrite N in N'; injection N' as <-.
  assert (Found : exists k, @get_class R (Num_rounded double) s p i' (NStr mat) reg = Ok k).
  { destruct Nc as [Nc|(row0 & p0 & J0 & A0 & Le)].
    - assert (Ln' : (n < 2500)%Q).
      { destruct (Qlt_le_dec n 2500) as [L|L]; [exact L|]. exfalso. apply Nc.
        apply (class_eq c "2500"%string 2500 Ic I25); [|reflexivity]. rewrite N. f_equal.
        unfold Qle in L, Ln. rewrite Dn in L, Ln. cbn [Qnum Qden] in L, Ln.
        destruct n as [nn nd]; cbn [Qnum Qden] in *. subst nd. f_equal. lia. }
      pose proof (rating_class_gap s mat f c "2500" n 2500 _ _ q q25 I Rb Pc P25 N eq_refl Ln' D Eq Eq25) as Gap.
      apply (C119_class_found_rounded _ _ double_rounding Hs s mat f p (real (q_mag d)) m name t i' reg
              row1 row2 T1 T2 q25 I Rb J1 A1 J2 A2 Acc Dp P0 D G Eq25). lra.
    - pose proof (ra_ok _ _ _ H) as F.
      destruct (ends_of double tab "2500"%string F I25) as (r0 & rl & Er & Ec & _).
      destruct (within double_unit double double_rounding mat f tab _ r0 rl name t row1 row2 T1 T2 H I25 Er J1 A1 J2 A2 Acc)
        as (Acc' & _).
      destruct (row_tabulated _ _ _ row0 "2500"%string H I25 J0) as [Ft _].
      pose proof (curve_pt _ _ _ _ _ _ _ H J0 Ft A0) as Y.
      assert (Fall : falling (curve tab "2500"%string)) by (apply F; exact I25).
      rewrite Ec in Y, Fall.
      assert (Top : Q2R p0 * 100000 <= Q2R (snd r0) * 100000).
      { destruct Y as [Y|Y]; [apply (f_equal snd) in Y; cbn [ptTP snd] in Y; lra|].
        pose proof (falling_all _ _ Fall _ Y) as X'. cbn [ptTP snd] in X'. exact X'. }
      apply (class_found_rated _ _ double_rounding Hs s mat f tab c r0 rl m name t i' p
               (mkQ (real (q_mag d)) (q_unit g) reg) (real (q_mag d)) reg g H Er Ic D G Acc' Dp P0);
        [lra|reflexivity|exact Eg|].
      rewrite <- Sm. unfold base_mag. cbn [q_mag q_unit]. rewrite U2, U1. cbn [nmul Num_rounded].
      rewrite Rmult_1_r. apply Req_le. unfold double. apply round_generic; [apply valid_rnd_N|].
      apply (generic_format_FLX_FLT radix2 (-1074)). unfold real. exact (generic_format_B2R 53 1024 (q_mag d)). }
  destruct Found as (k & Ek).
  rewrite Ek. f_equal.
  destruct (@get_class_any R (Num_rounded double) s p i' mat reg k _ Ek eq_refl)
    as (_ & Ik & _ & Sm').
  assert (Pk : In k (pressure_classes f)) by (rewrite (rates_classes _ _ _ H); exact Ik).
  destruct (class_num k Ik) as (nk & K & Dk).
  destruct (Z.lt_trichotomy (Qnum nk) (Qnum n)) as [L|[L|L]].
  - exfalso. assert (Lq : (nk < n)%Q) by (unfold Qlt; rewrite Dk, Dn; lia).
    assert (Bt : Q2R T1 <= t <= Q2R T2).
    { assert (0 <= double_unit) by (unfold double_unit; cbn -[IZR]; lra).
      destruct Acc as [[_ X']|X']; lra. }
    destruct (C119_class_rounded _ _ double_rounding Hs s mat f k p (real (q_mag d)) m name t i' reg
              row1 row2 T1 T2 I Rb J1 A1 J2 A2 Bt Dp P0 D G Ek) as ((qk & Eqk & Lk) & _).
    pose proof (rating_class_gap s mat f k c nk n _ _ qk q I Rb Pk Pc K N Lq D Eqk Eq) as Gap'. lra.
  - apply (class_eq k c nk Ik Ic K). rewrite N. f_equal.
    clear - L Dk Dn. destruct nk as [a b], n as [a' b']. cbn [Qnum Qden] in L, Dk, Dn. subst. reflexivity.
  - exfalso. assert (Lq : (n < nk)%Q) by (unfold Qlt; rewrite Dk, Dn; lia).
    destruct (Sm' c nk n Ic K N Lq) as (q'' & E'' & _ & F).
    assert (q'' = g) by congruence. subst q''. revert F.
    unfold base_mag. cbn [q_mag q_unit]. rewrite U2, U1. cbn [nmul nleb Num_rounded].
    rewrite Rmult_1_r. replace (double (real (q_mag d))) with (real (q_mag d)).
    + rewrite Sm. destruct (Rleb_spec (q_mag g) (q_mag g)); intros; [discriminate|lra].
    + symmetry. unfold double. apply round_generic; [apply valid_rnd_N|].
      apply (generic_format_FLX_FLT radix2 (-1074)). unfold real. exact (generic_format_B2R 53 1024 (q_mag d)).
Qed.
Print Assumptions C155_class_round_trip_partial.

(** Not so for class 2500: between -29 and 38 degC its tabulated rating is constant, but
    the interpolated one comes out a unit in the last place above it at 29.6 degC, and is
    then refused. *)
Local Transparent MATERIAL_LIMITS TUBE_MATERIALS flange_file FLANGE_LIMITS.
Theorem C155_largest_class_refuted :
  exists (temp : pyin b64) (d : quantity b64),
    temp = PSeq [ENum (@nofQ b64 Num_b64 (296#10)); EStr "degC"%string]
    /\ moderate 1e18 (@nofQ b64 Num_b64 (296#10))
    /\ Rabs (real (@nofQ b64 Num_b64 (296#10)) - 29.6) <= 1e-14
    /\ @get_max_pressure b64 Num_b64 true "2500" temp (NStr "304") = Ok d
    /\ 41370000 < real (q_mag d) <= 41370000 + 1e-8
    /\ @get_class b64 Num_b64 true (PQuant d) temp (NStr "304") 0
       = Err (ValueError "Pressure out of range.").
Proof.
  exists (PSeq [ENum (@nofQ b64 Num_b64 (296#10)); EStr "degC"%string]).
  assert (V : real (@nofQ b64 Num_b64 (296#10)) = 8331659310635418 / 281474976710656) by (vm_compute; lra).
  remember (@get_max_pressure b64 Num_b64 true "2500"
     (PSeq [ENum (@nofQ b64 Num_b64 (296#10)); EStr "degC"%string]) (NStr "304")) as r eqn:Er.
  assert (E : match r with
     | Ok d => B2SF (q_mag d) = SpecFloat.S754_finite false 5552587407360001 (-27)
        /\ @get_class b64 Num_b64 true (PQuant d)
             (PSeq [ENum (@nofQ b64 Num_b64 (296#10)); EStr "degC"%string]) (NStr "304") 0
           = Err (ValueError "Pressure out of range.")
     | Err _ => False end).
  { rewrite Er. vm_compute. split; reflexivity. }
  destruct r as [d|e]; [|destruct E]. destruct E as [E1 E2].
  exists d. split; [reflexivity|].
  split; [split; [vm_compute; reflexivity|right; rewrite V, Rabs_pos_eq by lra; lra]|].
  split; [rewrite V; apply Rabs_le; lra|].
  split; [reflexivity|]. clear Er. split; [clear E2|exact E2].
  assert (X : real (q_mag d) = 5552587407360001 / 134217728).
  { unfold real. destruct (q_mag d) as [| | |sg mm ee bb]; try discriminate.
    unfold B2SF in E1. injection E1 as -> -> ->.
    unfold B2R, F2R. cbn [Fnum Fexp cond_Zopp]. replace (bpow radix2 (-27)) with (/ 134217728) by (cbn; lra). lra. }
  rewrite X. lra.
Qed.
Print Assumptions C155_largest_class_refuted.

(** Hypotheses met: class 300 in 304 at 75 degC, in doubles (the rest is C149_case and
    C119_case). *)
Example C155_case :
  let temp := PSeq [ENum (@nofQ b64 Num_b64 75%Q); EStr "degC"%string] in
  reads 1e18 temp (PSeq [ENum 75; EStr "degC"%string])
  /\ given double (PSeq [ENum 75; EStr "degC"%string]) 75 "degC"
  /\ accepted double_unit "degC" 50 100 75
  /\ "300"%string <> "2500"%string
  /\ exists d, @get_max_pressure b64 Num_b64 true "300" temp (NStr "304") = Ok d
       /\ @get_class b64 Num_b64 true (PQuant d) temp (NStr "304") 0 = Ok "300"%string.
Proof.
  cbv zeta.
  assert (E1 : real (@nofQ b64 Num_b64 75%Q) = 75) by (vm_compute; lra).
  pose proof (reads_number 1e18 (@nofQ b64 Num_b64 75%Q) "degC") as X1. rewrite E1 in X1.
  split; [apply X1; split; [vm_compute; reflexivity|right; rewrite E1, Rabs_pos_eq by lra; lra]|].
  split; [now left|]. split; [left; split; [now left|lra]|]. split; [discriminate|].
  remember (@get_max_pressure b64 Num_b64 true "300"
     (PSeq [ENum (@nofQ b64 Num_b64 75%Q); EStr "degC"%string]) (NStr "304")) as r eqn:Er.
  assert (E : match r with
     | Ok d => @get_class b64 Num_b64 true (PQuant d)
             (PSeq [ENum (@nofQ b64 Num_b64 75%Q); EStr "degC"%string]) (NStr "304") 0 = Ok "300"%string
     | Err _ => False end).
  { rewrite Er. vm_compute. reflexivity. }
  destruct r as [d|e]; [|destruct E]. exists d. split; [reflexivity|exact E].
Qed.

(** And class 2500 at 75 degC, where its rating is well below the 413.7 bar of the first
    row. *)
Example C155_case_2500 :
  let temp := PSeq [ENum (@nofQ b64 Num_b64 75%Q); EStr "degC"%string] in
  exists d, @get_max_pressure b64 Num_b64 true "2500" temp (NStr "304") = Ok d
    /\ (exists row0 p0, In row0 (f_rows f21) /\ tabulated f21 row0 "2500" p0
         /\ real (q_mag d) + 1 <= Q2R p0 * 100000)
    /\ @get_class b64 Num_b64 true (PQuant d) temp (NStr "304") 0 = Ok "2500"%string.
Proof.
  cbv zeta.
  remember (@get_max_pressure b64 Num_b64 true "2500"
     (PSeq [ENum (@nofQ b64 Num_b64 75%Q); EStr "degC"%string]) (NStr "304")) as r eqn:Er.
  assert (E : match r with
     | Ok d => (is_finite (q_mag d) && Bltb (q_mag d) (b64_of_Z 41000000))%bool = true
         /\ @get_class b64 Num_b64 true (PQuant d)
             (PSeq [ENum (@nofQ b64 Num_b64 75%Q); EStr "degC"%string]) (NStr "304") 0 = Ok "2500"%string
     | Err _ => False end).
  { rewrite Er. vm_compute. split; reflexivity. }
  destruct r as [d|e]; [|destruct E]. destruct E as [E1 E2]. exists d. split; [reflexivity|].
  split; [|exact E2]. clear E2 Er. apply andb_true_iff in E1. destruct E1 as [F L].
  rewrite Bltb_correct in L by (exact F || reflexivity). apply Rlt_bool_true_iff in L || (revert L; case Rlt_bool_spec; [intros L _|discriminate]).
  assert (V : B2R (b64_of_Z 41000000) = 41000000) by (vm_compute; lra).
  rewrite V in L. fold (real (q_mag d)) in L.
  do 2 eexists. split; [vm_compute; left; reflexivity|].
  split; [eexists; split; [vm_compute; reflexivity|vm_compute; reflexivity]|].
  unfold Q2R. cbn -[IZR]. lra.
Qed.
