(** * Properties_RoundFlange: C119, flange ratings computed with rounded arithmetic.

    [rounding u rnd] (RoundSpec): every operation moves its result by at most the fraction
    [u] of it; double precision is one, with u = 2^-53.  [Num_rounded rnd] (RoundM): the
    model's arithmetic with that rounding after every operation.  [given] and [accepted]
    are in RoundTempSpec. *)
From Coq Require Import String ZArith QArith Reals Qreals List Bool Lra Lia.
From Verif Require Import PyBase Pint UnitsM Spec QLemmas Csv TableSpec Tables Interp InterpP
  NumQ StressP PipeP FlangeM FlangeP RoundM RoundSpec RoundTempSpec RoundP RoundDdtP RoundStressP
  RoundFlangeP FlangeT Properties_Flange.
Import ListNotations.
Local Open Scope R_scope.
Local Opaque TUBE_MATERIALS flange_file FLANGE_LIMITS lookup_unit.

Section Lemmas.
  Variables (u : R) (rnd : R -> R).
  Hypothesis Hr : rounding u rnd.

  (** A range between two rows lies inside the table. *)
  Lemma within m f tab c r0 rl name t row1 row2 T1 T2 : rates m f tab -> In c class_names ->
    rawpts tab c = r0 :: rl ->
    In row1 (f_rows f) -> tabulated f row1 "Temperature" T1 ->
    In row2 (f_rows f) -> tabulated f row2 "Temperature" T2 ->
    accepted u name (Q2R T1) (Q2R T2) t ->
    accepted u name (Q2R (fst r0)) (Q2R (fst (last (r0 :: rl) r0))) t
    /\ Q2R T1 <= t <= Q2R T2.
  Proof.
    intros H Ic Er I1 A1 I2 A2 Acc. pose proof (ra_ok _ _ _ H) as F.
    pose proof (proj1 (proj1 Hr)) as u0.
    destruct (row_tabulated _ _ _ row1 c H Ic I1) as [_ Q1].
    destruct (row_tabulated _ _ _ row2 c H Ic I2) as [_ Q2].
    pose proof (curve_pt _ _ _ c _ _ _ H I1 A1 Q1) as Y1.
    pose proof (curve_pt _ _ _ c _ _ _ H I2 A2 Q2) as Y2.
    destruct (ends_of rnd tab c F Ic) as (r0' & rl' & Er' & Ec & _ & La & _).
    rewrite Er in Er'. injection Er' as <- <-.
    assert (Inc : increasing (curve tab c)) by (apply F; exact Ic).
    rewrite Ec in Y1, Y2, Inc.
    assert (Z1 : Q2R (fst r0) <= Q2R T1).
    { destruct Y1 as [Y1|Y1]; [apply (f_equal fst) in Y1; cbn in Y1; unfold celsius in Y1; lra|].
      pose proof (increasing_all _ _ Inc _ Y1) as X; cbn in X; unfold celsius in X; lra. }
    pose proof (increasing_last _ (ptTP r0) Inc _ Y2) as Z2. rewrite La in Z2. cbn [ptTP fst] in Z2.
    unfold celsius in Z2.
    split.
    - destruct Acc as [[N [B1 B2]]|[B1 B2]]; [left; split; [exact N|lra]|right; lra].
    - destruct Acc as [[N [B1 B2]]|[B1 B2]]; lra.
  Qed.

  Lemma exact_rating strict m f tab c temp t row1 row2 T1 T2 : rates m f tab -> In c class_names ->
    In row1 (f_rows f) -> tabulated f row1 "Temperature" T1 ->
    In row2 (f_rows f) -> tabulated f row2 "Temperature" T2 ->
    rated_by TUBE_MATERIALS flange_file m f ->
    denotes temp d_temperature (celsius t) -> Q2R T1 <= t <= Q2R T2 ->
    exists q, @get_max_pressure R Num_R strict c temp (NStr m) = Ok q
      /\ is_in q (interp (curve tab c) (celsius t)) "Pa" (out_reg temp).
  Proof.
    intros H Ic I1 A1 I2 A2 Rb D B. pose proof (ra_in _ _ _ H) as I.
    assert (Ic' : In c (pressure_classes f)) by (rewrite (rates_classes _ _ _ H); exact Ic).
    destruct (max_pressure_covered _ _ c t row1 row2 _ _ I Rb Ic' I1 A1 I2 A2 B)
      as (a & b & ? & ? & ? & ? & C' & B1 & B2 & B3 & B4 & B5).
    destruct (max_pressure_line strict _ _ c _ t _ _ _ _ _ _ I Rb Ic' C' B1 B2 B3 B4 D B5) as (q & E & _).
    exists q. split; [exact E|].
    destruct (max_pressure_ok _ _ _ _ _ _ _ _ H Ic D E) as (Np & U).
    destruct (curve_split _ _ _ _ H Ic) as (p0 & l & Ec & _).
    assert (Ne : curve tab c <> []) by (rewrite Ec; discriminate).
    rewrite (interp_ok _ _ Ne) in Np. injection Np as ->. exact U.
  Qed.
End Lemmas.

(** C119: with every operation, literal and unit factor rounded, a temperature between two
    tabulated ones gives a rating in Pa within 3e9 rounding units of 1 Pa of the exact one
    (the largest rating is 4.137e7 Pa). *)
Theorem C119_rating_rounding :
  forall (u : R) (rnd : R -> R), rounding u rnd -> u <= 1/1000000 ->
  forall (strict : bool) (material : string) (f : frame) (cls : string)
         (m : R) (unit_name : string) (t : R) (temp : pyin R)
         (row1 row2 : list string) (T1 T2 : Q),
    In material available_materials -> rated_by TUBE_MATERIALS flange_file material f ->
    In cls (pressure_classes f) ->
    In row1 (f_rows f) -> tabulated f row1 "Temperature" T1 ->
    In row2 (f_rows f) -> tabulated f row2 "Temperature" T2 ->
    denotes (PSeq [ENum m; EStr unit_name]) d_temperature (celsius t) ->
    given rnd temp m unit_name ->
    accepted u unit_name (Q2R T1) (Q2R T2) t ->
    exists q q',
      @get_max_pressure R Num_R strict cls (PSeq [ENum m; EStr unit_name]) (NStr material) = Ok q
      /\ is_in q (q_mag q) "Pa" module_reg
      /\ @get_max_pressure R (Num_rounded rnd) strict cls temp (NStr material) = Ok q'
      /\ @lookup_unit R (Num_rounded rnd) "Pa" = Some (q_unit q') /\ q_reg q' = out_reg temp
      /\ Rabs (q_mag q' - q_mag q) <= 3000000000 * u.
Proof.
  intros u rnd Hr Hs strict m f c a name t temp row1 row2 T1 T2 I Rb Ic I1 A1 I2 A2 D G Acc.
  pose proof (proj1 (proj1 Hr)) as u0.
  destruct (rates_of m f I Rb) as (tab & H). rewrite (rates_classes _ _ _ H) in Ic.
  destruct (ends_of rnd tab c (ra_ok _ _ _ H) Ic) as (r0 & rl & Er & _).
  destruct (within u rnd Hr m f tab c r0 rl name t row1 row2 T1 T2 H Ic Er I1 A1 I2 A2 Acc) as (Acc' & B).
  destruct (exact_rating strict m f tab c _ t row1 row2 T1 T2 H Ic I1 A1 I2 A2 Rb D B) as (q & E & U).
  destruct (max_pressure_rounded u rnd Hr Hs strict m f tab c r0 rl a name t temp H Ic Er D G Acc')
    as (q' & E' & K & Rg & X).
  exists q, q'. pose proof U as (_ & Um & _). rewrite Um.
  split; [exact E|]. split; [exact U|]. split; [exact E'|]. split; [exact K|]. split; [exact Rg|]. lra.
Qed.
Print Assumptions C119_rating_rounding.

(** In double precision: within one millionth of a pascal. *)
Theorem C119_rating_double :
  forall (strict : bool) (material : string) (f : frame) (cls : string)
         (m : R) (unit_name : string) (t : R) (temp : pyin R)
         (row1 row2 : list string) (T1 T2 : Q),
    In material available_materials -> rated_by TUBE_MATERIALS flange_file material f ->
    In cls (pressure_classes f) ->
    In row1 (f_rows f) -> tabulated f row1 "Temperature" T1 ->
    In row2 (f_rows f) -> tabulated f row2 "Temperature" T2 ->
    denotes (PSeq [ENum m; EStr unit_name]) d_temperature (celsius t) ->
    given double temp m unit_name ->
    accepted double_unit unit_name (Q2R T1) (Q2R T2) t ->
    exists q q',
      @get_max_pressure R Num_R strict cls (PSeq [ENum m; EStr unit_name]) (NStr material) = Ok q
      /\ @get_max_pressure R (Num_rounded double) strict cls temp (NStr material) = Ok q'
      /\ Rabs (q_mag q' - q_mag q) <= 1/1000000.
Proof.
  intros strict m f c a name t temp row1 row2 T1 T2 I Rb Ic I1 A1 I2 A2 D G Acc.
  assert (Hs : double_unit <= 1/1000000) by (unfold double_unit; cbn -[IZR]; lra).
  destruct (C119_rating_rounding _ _ double_rounding Hs strict m f c a name t temp row1 row2 T1 T2
              I Rb Ic I1 A1 I2 A2 D G Acc) as (q & q' & E & _ & E' & _ & _ & B).
  exists q, q'. split; [exact E|]. split; [exact E'|]. eapply Rle_trans; [exact B|].
  unfold double_unit. cbn -[IZR]. lra.
Qed.
Print Assumptions C119_rating_double.

(** More than 20000 rounding units of 1 degC outside the table: ValueError, as in exact
    arithmetic. *)
Theorem C119_outside_rounded :
  forall (u : R) (rnd : R -> R), rounding u rnd -> u <= 1/1000000 ->
  forall (strict : bool) (material : string) (f : frame) (cls : string)
         (m : R) (unit_name : string) (t : R) (temp : pyin R),
    In material available_materials -> rated_by TUBE_MATERIALS flange_file material f ->
    In cls (pressure_classes f) ->
    denotes (PSeq [ENum m; EStr unit_name]) d_temperature (celsius t) ->
    given rnd temp m unit_name ->
    (forall row T, In row (f_rows f) -> tabulated f row "Temperature" T -> t < Q2R T - 20000 * u)
    \/ (forall row T, In row (f_rows f) -> tabulated f row "Temperature" T -> Q2R T + 20000 * u < t) ->
    is_value_error (@get_max_pressure R (Num_rounded rnd) strict cls temp (NStr material)).
Proof.
  intros u rnd Hr Hs strict m f c a name t temp I Rb Ic D G B.
  destruct (rates_of m f I Rb) as (tab & H). rewrite (rates_classes _ _ _ H) in Ic.
  destruct (ends_of rnd tab c (ra_ok _ _ _ H) Ic) as (r0 & rl & Er & Ec & _ & La & _).
  apply (max_pressure_out_rounded u rnd Hr Hs strict m f tab c r0 rl a name t temp H Ic Er D G).
  assert (X0 : In (ptTP r0) (curve tab c)) by (rewrite Ec; now left).
  assert (X1 : In (ptTP (last (r0 :: rl) r0)) (curve tab c)).
  { rewrite <- La, Ec. apply last_in. discriminate. }
  destruct (curve_rows _ _ _ _ _ H Ic X0) as (w0 & T0 & P0 & I0 & A0 & _ & E0).
  destruct (curve_rows _ _ _ _ _ H Ic X1) as (w1 & T1 & P1 & I1 & A1 & _ & E1).
  apply (f_equal fst) in E0, E1. cbn [ptTP fst] in E0, E1. unfold celsius in E0, E1.
  destruct B as [B|B]; [left; specialize (B w0 T0 I0 A0)|right; specialize (B w1 T1 I1 A1)]; lra.
Qed.
Print Assumptions C119_outside_rounded.

(** The class chosen in rounded arithmetic: its exact rating covers the pressure and those
    of all smaller classes do not, but for 4e9 rounding units of 1 Pa. *)
Theorem C119_class_rounded :
  forall (u : R) (rnd : R -> R), rounding u rnd -> u <= 1/1000000 ->
  forall (strict : bool) (material : string) (f : frame) (cls : string) (p : pyin R) (P : R)
         (m : R) (unit_name : string) (t : R) (temp : pyin R) (reg : nat)
         (row1 row2 : list string) (T1 T2 : Q),
    In material available_materials -> rated_by TUBE_MATERIALS flange_file material f ->
    In row1 (f_rows f) -> tabulated f row1 "Temperature" T1 ->
    In row2 (f_rows f) -> tabulated f row2 "Temperature" T2 -> Q2R T1 <= t <= Q2R T2 ->
    denotes p d_pressure P -> 0 <= P ->
    denotes (PSeq [ENum m; EStr unit_name]) d_temperature (celsius t) ->
    given rnd temp m unit_name ->
    @get_class R (Num_rounded rnd) strict p temp (NStr material) reg = Ok cls ->
    (exists q, @get_max_pressure R Num_R strict cls (PSeq [ENum m; EStr unit_name]) (NStr material) = Ok q
       /\ P - 4000000000 * u <= q_mag q)
    /\ forall smaller n n', In smaller class_names ->
       parse_number cls = Some n -> parse_number smaller = Some n' -> (n' < n)%Q ->
       exists q', @get_max_pressure R Num_R strict smaller (PSeq [ENum m; EStr unit_name]) (NStr material) = Ok q'
         /\ q_mag q' < P + 4000000000 * u.
Proof.
  intros u rnd Hr Hs strict m f cls p P a name t temp reg row1 row2 T1 T2 I Rb I1 A1 I2 A2 B Dp P0 D G E.
  pose proof (proj1 (proj1 Hr)) as u0.
  destruct (rates_of m f I Rb) as (tab & H).
  destruct (parse_approx u rnd Hr p d_pressure P reg ltac:(discriminate) Dp) as (pq & Pp & Ap).
  pose proof (base_near u rnd Hr _ _ _ _ _ Ap) as Np.
  apply (near_err u rnd Hr) in Np; [|lia]. rewrite (Rabs_pos_eq P) in Np by exact P0.
  replace (2 * INR 11 * u) with (22 * u) in Np by (cbn; ring). apply abs_bounds in Np.
  destruct (get_class_any strict p temp m reg cls pq E Pp) as (_ & Ic & (q' & E' & _ & L) & Sm).
  assert (Bd : forall c, In c class_names -> 0 <= interp (curve tab c) (celsius t) <= 41370000).
  { intros c Ic'. pose proof (ra_ok _ _ _ H) as F.
    pose proof (curve_ok_of _ _ _ _ H Ic') as Co.
    assert (Inc : increasing (curve tab c)) by (apply F; exact Ic').
    assert (Fall : falling (curve tab c)) by (apply F; exact Ic').
    destruct (ends_of rnd tab c F Ic') as (r0 & rl & Er & Ec & _ & La & _).
    assert (Ne : curve tab c <> []) by (rewrite Ec; discriminate).
    pose proof (interp_ok _ (celsius t) Ne) as Ip. split.
    - exact (np_interp_lower _ 0 _ _ Inc (fo_pos _ F c Ic') Ip).
    - destruct (co_small _ _ Co r0 ltac:(rewrite Er; now left)) as (_ & S0).
      destruct (Rle_or_lt (celsius t) (fst (ptTP r0))) as [Le|Gt].
      + rewrite Ec in Inc |- *. rewrite (interp_low _ _ _ Inc Le). cbn [ptTP snd]. lra.
      + pose proof (interp_falls _ _ _ Ne Inc Fall (Rlt_le _ _ Gt)) as X.
        eapply Rle_trans; [exact X|]. rewrite Ec in Inc |- *.
        rewrite (interp_low _ _ _ Inc (Rle_refl _)). cbn [ptTP snd]. lra. }
  assert (PB : P <= 42000000).
  { pose proof (max_pressure_answer u rnd Hr Hs strict m f tab cls a name t temp q' H Ic D G E') as X.
    apply abs_bounds in X. specialize (Bd _ Ic).
    cbn [nleb Num_rounded] in L. destruct (Rleb_spec (@base_mag R (Num_rounded rnd) pq) (q_mag q')) as [L'|L'];
      [|discriminate]. nra. }
  assert (PU : 22 * u * P <= 22 * u * 42000000) by (apply Rmult_le_compat_l; lra).
  split.
  - destruct (exact_rating strict m f tab cls _ t row1 row2 T1 T2 H Ic I1 A1 I2 A2 Rb D B) as (q & Eq & (_ & Um & _)).
    exists q. split; [exact Eq|]. rewrite Um.
    pose proof (max_pressure_answer u rnd Hr Hs strict m f tab cls a name t temp q' H Ic D G E') as X.
    apply abs_bounds in X.
    cbn [nleb Num_rounded] in L. destruct (Rleb_spec (@base_mag R (Num_rounded rnd) pq) (q_mag q')) as [L'|L'];
      [|discriminate]. lra.
  - intros c n n' Ic' N1 N2 Lt. destruct (Sm c n n' Ic' N1 N2 Lt) as (s' & Es & _ & Ls).
    destruct (exact_rating strict m f tab c _ t row1 row2 T1 T2 H Ic' I1 A1 I2 A2 Rb D B) as (q & Eq & (_ & Um & _)).
    exists q. split; [exact Eq|]. rewrite Um.
    pose proof (max_pressure_answer u rnd Hr Hs strict m f tab c a name t temp s' H Ic' D G Es) as X.
    apply abs_bounds in X.
    cbn [nleb Num_rounded] in Ls. destruct (Rleb_spec (@base_mag R (Num_rounded rnd) pq) (q_mag s')) as [L'|L'];
      [discriminate|].
    pose proof (Bd _ Ic'). 
    lra.
Qed.
Print Assumptions C119_class_rounded.

(** And a class is found whenever the exact rating of class 2500 exceeds the pressure by
    that much. *)
Theorem C119_class_found_rounded :
  forall (u : R) (rnd : R -> R), rounding u rnd -> u <= 1/1000000 ->
  forall (strict : bool) (material : string) (f : frame) (p : pyin R) (P : R)
         (m : R) (unit_name : string) (t : R) (temp : pyin R) (reg : nat)
         (row1 row2 : list string) (T1 T2 : Q) (q : quantity R),
    In material available_materials -> rated_by TUBE_MATERIALS flange_file material f ->
    In row1 (f_rows f) -> tabulated f row1 "Temperature" T1 ->
    In row2 (f_rows f) -> tabulated f row2 "Temperature" T2 ->
    accepted u unit_name (Q2R T1) (Q2R T2) t ->
    denotes p d_pressure P -> 0 <= P ->
    denotes (PSeq [ENum m; EStr unit_name]) d_temperature (celsius t) ->
    given rnd temp m unit_name ->
    @get_max_pressure R Num_R strict "2500" (PSeq [ENum m; EStr unit_name]) (NStr material) = Ok q ->
    P + 4000000000 * u <= q_mag q ->
    exists cls, @get_class R (Num_rounded rnd) strict p temp (NStr material) reg = Ok cls.
Proof.
  intros u rnd Hr Hs strict m f p P a name t temp reg row1 row2 T1 T2 q I Rb I1 A1 I2 A2 Acc Dp P0 D G Eq L.
  destruct (rates_of m f I Rb) as (tab & H).
  assert (I25 : In "2500"%string class_names) by (cbn; tauto).
  destruct (ends_of rnd tab _ (ra_ok _ _ _ H) I25) as (r0 & rl & Er & Ec & _).
  destruct (within u rnd Hr m f tab _ r0 rl name t row1 row2 T1 T2 H I25 Er I1 A1 I2 A2 Acc) as (Acc' & B).
  destruct (max_pressure_ok _ _ _ _ _ _ _ _ H I25 D Eq) as (Np & U).
  assert (Ne : curve tab "2500" <> []) by (rewrite Ec; discriminate).
  rewrite (interp_ok _ _ Ne) in Np. injection Np as Np.
  apply (class_found u rnd Hr Hs strict m f tab r0 rl a name t temp p P reg H Er D G Acc' Dp P0).
  rewrite Np. exact L.
Qed.
Print Assumptions C119_class_found_rounded.

Local Transparent TUBE_MATERIALS flange_file FLANGE_LIMITS lookup_unit.
(** Hypotheses met: 304 at 75 degC (in degC, by any margin) and at 348.15 K, between the rows
    of 50 and 100 degC, in double precision; 3 MPa. *)
Example C119_case :
  rounding double_unit double /\ double_unit <= 1/1000000
  /\ In "304"%string available_materials /\ rated_by TUBE_MATERIALS flange_file "304" f21
  /\ In "300"%string (pressure_classes f21)
  /\ denotes (PSeq [ENum 75; EStr "degC"]) d_temperature (celsius 75)
  /\ given double (PSeq [ENum 75; EStr "degC"]) 75 "degC"
  /\ denotes (PSeq [ENum 348.15; EStr "K"]) d_temperature (celsius 75)
  /\ (exists v, @lookup_unit R (Num_rounded double) "K" = Some v
        /\ given double (PQuant (mkQ 348.15 v 7)) 348.15 "K")
  /\ denotes (PSeq [ENum 3; EStr "MPa"]) d_pressure 3000000
  /\ (exists row1 row2, In row1 (f_rows f21) /\ In row2 (f_rows f21)
     /\ tabulated f21 row1 "Temperature" 50 /\ tabulated f21 row2 "Temperature" 100)
  /\ accepted double_unit "degC" (Q2R 50) (Q2R 100) 75
  /\ accepted double_unit "K" (Q2R 50) (Q2R 100) 75.
Proof.
  destruct C36_case as (I & Rb & Ic & D & r1 & r2 & C & A1 & _ & A2 & _ & B).
  split; [exact double_rounding|]. split; [unfold double_unit; cbn -[IZR]; lra|].
  split; [exact I|]. split; [exact Rb|]. split; [exact Ic|]. split; [exact D|].
  split; [now left|].
  split; [eapply denotes_pair; [reflexivity|reflexivity|]; unfold worth, celsius; cbn; rnum;
          rewrite ?one_R; q2r; lra|].
  split; [eexists; split; [reflexivity|]; right; eexists; split; [reflexivity|]; split; reflexivity|].
  split; [eapply denotes_pair; [reflexivity|reflexivity|]; unfold worth; cbn; rnum;
          rewrite ?one_R; q2r; lra|].
  split; [exists r1, r2; destruct (consecutive_in _ _ _ C); tauto|].
  split; [left; split; [now left|exact B]|].
  right. unfold double_unit. q2r. cbn -[IZR]. lra.
Qed.
