(** * Properties_Bolt: C43-C51.

    [internal_table], [external_table]: the shipped ANSI_inch_*_thread.csv. *)
From Coq Require Import String ZArith QArith Reals Qreals List Bool Lra Lia Psatz.
From Verif Require Import PyBase Pint UnitsM Spec QLemmas Csv CsvData Tables StressP BoltSpec BoltM BoltP.
Import ListNotations.
Local Open Scope R_scope.
Local Opaque read_csv csv_internal_thread csv_external_thread.

Theorem shipped_tables :
  THREAD_SPECS true = read_csv csv_internal_thread
  /\ THREAD_SPECS false = read_csv csv_external_thread.
Proof. split; unfold THREAD_SPECS; reflexivity. Qed.
Notation internal_table := (THREAD_SPECS true).
Notation external_table := (THREAD_SPECS false).
Notation table := THREAD_SPECS.
Notation listed_thread := (thread_in_tables internal_table external_table).
Local Opaque THREAD_SPECS.

(** C43 *)
Theorem C43_returns_table_entry :
  forall (cls : string) (internal : bool) (prop size : string) (row : list string) (v : Q) (reg : nat),
    table_for cls internal -> In prop (thread_properties (table internal)) ->
    rows_for (table internal) size cls = [row] ->
    num_cell (f_cols (table internal)) row prop = Some v ->
    exists q, get_thread_property prop size cls reg = Ok q /\ is_in q (Q2R v) "in" reg.
Proof.
  intros cls internal prop size row v reg T.  intros I Er Ev.
  rewrite (thread_property_value R _ cls internal prop size row v reg T I Er Ev).
  eexists; split; [reflexivity|]. repeat split; reflexivity.
Qed.
Print Assumptions C43_returns_table_entry.
Theorem C43_every_cell_is_a_number :
  forall (internal : bool) (row : list string) (prop : string),
    In row (f_rows (table internal)) -> In prop (thread_properties (table internal)) ->
    exists v, num_cell (f_cols (table internal)) row prop = Some v /\ (0 < v)%Q.
Proof. intros internal row prop.  apply thread_cells. Qed.
Print Assumptions C43_every_cell_is_a_number.
Theorem C43_bad_class :
  forall (cls prop size : string) (reg : nat),
    ~ (exists internal, table_for cls internal) ->
    is_value_error (get_thread_property (A:=R) prop size cls reg).
Proof. exact (bad_thread_class R _). Qed.
Print Assumptions C43_bad_class.
(** Unknown property, unknown size, or a known size that has no row of this class. *)
Theorem C43_unknown :
  forall (cls : string) (internal : bool) (prop size : string) (reg : nat),
    table_for cls internal ->
    (~ In prop (thread_properties (table internal)) ->
     is_key_error (get_thread_property (A:=R) prop size cls reg))
    /\ (~ size_listed (table internal) size ->
        is_key_error (get_thread_property (A:=R) prop size cls reg))
    /\ (rows_for (table internal) size cls = [] ->
        is_key_error (get_thread_property (A:=R) prop size cls reg)).
Proof.
  intros cls internal prop size reg T. 
  destruct (thread_property_errors R _ cls internal prop size reg T) as (A & B).
  split; [exact A|]. split; [|exact B]. intros N. apply B. now apply unlisted_rows.
Qed.
Print Assumptions C43_unknown.
(** Two rows with the same size and class (2-6 in class 2A): the call raises. *)
Theorem C43_ambiguous :
  forall (cls : string) (internal : bool) (prop size : string) (r1 r2 : list string) rs (reg : nat),
    table_for cls internal -> rows_for (table internal) size cls = r1 :: r2 :: rs ->
    raises (get_thread_property (A:=R) prop size cls reg).
Proof.
  intros cls internal prop size r1 r2 rs reg T.  intros E.
  exact (thread_property_duplicate R _ cls internal prop size reg r1 r2 rs T E).
Qed.
Print Assumptions C43_ambiguous.
Example C43_case :
  table_for "2B" true /\ In "minor diameter max"%string (thread_properties (table true))
  /\ rows_for (table true) "1/4-20" "2B"
     = [["1/4-20"; "2B"; "0.2500"; "0.1960"; "0.2070"; "0.2175"; "0.2248"; "0.2500"]%string]
  /\ table_for "3A" false /\ ~ (exists internal, table_for "4A" internal)
  /\ length (rows_for (table false) "2-6" "2A") = 2%nat.
Proof.
  assert (O : forall p s, contains p s = true -> occurs_in p s) by (intros; now apply StrLemmas.contains_iff).
  assert (O' : forall p s, contains p s = false -> ~ occurs_in p s) by (intros; now apply StrLemmas.contains_false).
  split; [split; [left; apply O; reflexivity|split; [apply O; reflexivity|apply O'; reflexivity]]|].
  split; [apply str_mem_In; vm_compute; reflexivity|].
  split; [vm_compute; reflexivity|].
  split; [split; [right; apply O; reflexivity|apply O; reflexivity]|].
  split; [|vm_compute; reflexivity].
  intros (i & [A|A] & _); revert A; apply O'; reflexivity.
Qed.

(** C44: a call with accepted strengths and engagement works exactly for the threads
    that have one row in each table. *)
Theorem C44_usable_threads :
  forall (size grade : string) (bolt plate len : quantity R) (xb xp xl : R) (rb rp rl reg : nat),
    stands_for bolt d_pressure xb rb -> stands_for plate d_pressure xp rp ->
    stands_for len d_length xl rl -> 0 <= xb -> 0 < xp -> 0 < xl ->
    (exists r, calculate_stress_areas size grade bolt plate len reg = Ok r)
    <-> (exists t, listed_thread size grade t).
Proof.
  intros size grade bolt plate len xb xp xl rb rp rl reg Hb Hp Hl Pb Pp Pl. split.
  - intros (r & E). exact (stress_areas_needs R _ _ _ _ _ _ _ _ E).
  - intros (t & T).
    destruct (stress_areas_ok size grade t bolt plate len xb xp xl rb rp rl reg T Hb Hp Hl Pb Pp Pl)
      as (r & E & _). exists r; exact E.
Qed.
Print Assumptions C44_usable_threads.
(** False as stated: these sizes are listed and no class makes them work. *)
Theorem C44_refuted :
  (size_listed internal_table "1 1/8-7" /\ forall grade t, ~ listed_thread "1 1/8-7" grade t)
  /\ (size_listed external_table "1-1/8-7" /\ forall grade t, ~ listed_thread "1-1/8-7" grade t)
  /\ (size_listed internal_table "2-6" /\ size_listed external_table "2-6"
      /\ forall grade t, ~ listed_thread "2-6" grade t).
Proof.
  assert (L : forall i s, str_mem s (index_of (THREAD_SPECS i)) = true -> size_listed (THREAD_SPECS i) s)
    by (intros; now apply index_size_listed).
  assert (NL : forall i s, str_mem s (index_of (THREAD_SPECS i)) = false -> ~ size_listed (THREAD_SPECS i) s)
    by (intros i s H X; apply index_size_listed in X; congruence).
  split; [|split; [|split; [|split]]].
  - split; [apply (L true); vm_compute; reflexivity|].
    intros g t (rB & rA & kn & en & es & ds & D & n & _ & EA & _).
    rewrite unlisted_rows in EA; [discriminate|]. apply (NL false); vm_compute; reflexivity.
  - split; [apply (L false); vm_compute; reflexivity|].
    intros g t (rB & rA & kn & en & es & ds & D & n & EB & _).
    rewrite unlisted_rows in EB; [discriminate|]. apply (NL true); vm_compute; reflexivity.
  - apply (L true); vm_compute; reflexivity.
  - apply (L false); vm_compute; reflexivity.
  - exact two_six_unusable.
Qed.
Print Assumptions C44_refuted.
(** Every other size: listed in both tables, works in grade 2. *)
Theorem C44_partial :
  forall size, size_listed internal_table size -> size_listed external_table size ->
    size <> "2-6"%string -> exists t, listed_thread size "2" t.
Proof. exact grade2_usable. Qed.
Print Assumptions C44_partial.
Lemma quarter_twenty : listed_thread "1/4-20" "2"
  (mkThreadDims (Q2R 0.2070) (Q2R 0.2248) (Q2R 0.2127) (Q2R 0.2489) (Q2R 0.2500) (Q2R 20)).
Proof.
  exists ["1/4-20"; "2B"; "0.2500"; "0.1960"; "0.2070"; "0.2175"; "0.2248"; "0.2500"]%string,
    ["1/4-20"; "2A"; "0.2500"; "0.2489"; "0.2408"; "0.2164"; "0.2127"; "0.1876"]%string,
    0.2070%Q, 0.2248%Q, 0.2127%Q, 0.2489%Q, 0.2500%Q, 20%Q.
  do 7 (split; [vm_compute; reflexivity|]). split; [|reflexivity].
  exists "1/4"%string, "20"%string. split; [reflexivity|]. split; [|reflexivity].
  apply StrLemmas.contains_false. reflexivity.
Qed.
Example C44_case : size_listed internal_table "1/4-20" /\ size_listed external_table "1/4-20"
  /\ "1/4-20"%string <> "2-6"%string.
Proof.
  split; [|split; [|discriminate]].
  - apply (proj1 (index_size_listed internal_table "1/4-20")). vm_compute. reflexivity.
  - apply (proj1 (index_size_listed external_table "1/4-20")). vm_compute. reflexivity.
Qed.

(** C45 and C46, the values.  With [xb], [xp] (Pa) the strengths and [xl] (m) the
    engagement; the plate's strength and the engagement must be positive (with a zero
    there, the minimum engagement is not a number). *)
Theorem C45_screw_area_is_the_weaker :
  forall (size grade : string) (t : thread) (bolt plate len : quantity R)
         (xb xp xl : R) (rb rp rl reg : nat),
    listed_thread size grade t ->
    stands_for bolt d_pressure xb rb -> stands_for plate d_pressure xp rp ->
    stands_for len d_length xl rl -> 0 <= xb -> 0 < xp -> 0 < xl ->
    exists r, calculate_stress_areas size grade bolt plate len reg = Ok r
      /\ stands_for (screw_area r) d_area (Rmin (area_in_tension t xb) (area_in_shear t xl)) reg
      /\ stands_for (plate_area r) d_area (area_of_plate t xl) reg
      /\ (shear_warning r = true <-> area_in_shear t xl < area_in_tension t xb)
      /\ 0 < area_in_tension t xb /\ 0 < area_in_shear t xl /\ 0 < area_of_plate t xl.
Proof.
  intros size grade t bolt plate len xb xp xl rb rp rl reg T Hb Hp Hl Pb Pp Pl.
  destruct (stress_areas_ok size grade t bolt plate len xb xp xl rb rp rl reg T Hb Hp Hl Pb Pp Pl)
    as (r & E & A & B & _ & D).
  exists r. split; [exact E|]. split; [exact A|]. split; [exact B|]. split; [exact D|].
  pose proof (table_sound _ _ _ T) as S. split; [now apply tension_pos|].
  split; [apply Rmult_lt_0_compat; [now apply screw_shear_pos|exact Pl]|].
  apply Rmult_lt_0_compat; [now apply plate_shear_pos|exact Pl].
Qed.
Print Assumptions C45_screw_area_is_the_weaker.

Theorem C46_minimum_engagement :
  forall (size grade : string) (t : thread) (bolt plate len : quantity R)
         (xb xp xl : R) (rb rp rl reg : nat),
    listed_thread size grade t ->
    stands_for bolt d_pressure xb rb -> stands_for plate d_pressure xp rp ->
    stands_for len d_length xl rl -> 0 <= xb -> 0 < xp -> 0 < xl ->
    exists r, calculate_stress_areas size grade bolt plate len reg = Ok r
      /\ stands_for (minimum_engagement r) d_length
           (2 * area_in_tension t xb * xb / (plate_shear_per_length t * xp)) reg.
Proof.
  intros size grade t bolt plate len xb xp xl rb rp rl reg T Hb Hp Hl Pb Pp Pl.
  destruct (stress_areas_ok size grade t bolt plate len xb xp xl rb rp rl reg T Hb Hp Hl Pb Pp Pl)
    as (r & E & _ & _ & M & _). exists r; split; [exact E|exact M].
Qed.
Print Assumptions C46_minimum_engagement.
(** Two calls that differ only in the engagement given return the same minimum; a
    plate [k] times as strong needs 1/k of it; a bolt [k] times as strong, on the same
    side of 100 000 psi, [k] times. *)
Lemma value_unique q d d' x x' r r' : stands_for q d x r -> stands_for q d' x' r' -> x = x'.
Proof. intros (_ & _ & _ & <- & _) (_ & _ & _ & <- & _). reflexivity. Qed.
Theorem C46_laws :
  forall (size grade : string) (bolt plate len bolt' plate' len' : quantity R)
         (xb xp xl k xb' xp' xl' : R) (rb rp rl rb' rp' rl' reg : nat)
         (a a' : thread_areas R) (d d' : dim) (m m' : R),
    stands_for bolt d_pressure xb rb -> stands_for plate d_pressure xp rp ->
    stands_for len d_length xl rl ->
    stands_for bolt' d_pressure xb' rb' -> stands_for plate' d_pressure xp' rp' ->
    stands_for len' d_length xl' rl' ->
    0 <= xb -> 0 < xp -> 0 < xl -> 0 < k -> 0 < xl' ->
    calculate_stress_areas size grade bolt plate len reg = Ok a ->
    calculate_stress_areas size grade bolt' plate' len' reg = Ok a' ->
    stands_for (minimum_engagement a) d m reg -> stands_for (minimum_engagement a') d' m' reg ->
    (xb' = xb -> xp' = xp -> m' = m)
    /\ (xb' = xb -> xp' = k * xp -> m' = m / k)
    /\ (xb' = k * xb -> xp' = xp -> (xb < 100000 * psi <-> xb' < 100000 * psi) -> m' = k * m).
Proof.
  intros size grade bolt plate len bolt' plate' len' xb xp xl k xb' xp' xl' rb rp rl rb' rp' rl' reg
    a a' d d' m m' Hb Hp Hl Hb' Hp' Hl' Pb Pp Pl Pk Pl' E E' M M'.
  destruct (stress_areas_needs R _ _ _ _ _ _ _ _ E) as (t & T).
  destruct (stress_areas_ok size grade t bolt plate len xb xp xl rb rp rl reg T Hb Hp Hl Pb Pp Pl)
    as (r & Er & _ & _ & Mr & _).
  rewrite E in Er; injection Er as <-.
  pose proof (value_unique _ _ _ _ _ _ _ M Mr) as V.
  pose proof (plate_shear_pos _ (table_sound _ _ _ T)) as Q.
  assert (G : 0 <= xb' -> 0 < xp' -> m' = engagement_for_tension t xb' xp').
  { intros Pb' Pp'.
    destruct (stress_areas_ok size grade t bolt' plate' len' xb' xp' xl' rb' rp' rl' reg T Hb' Hp' Hl' Pb' Pp' Pl')
      as (r & Er & _ & _ & Mr' & _).
    rewrite E' in Er; injection Er as <-. exact (value_unique _ _ _ _ _ _ _ M' Mr'). }
  rewrite V. unfold engagement_for_tension in *. repeat split.
  - intros -> ->. rewrite G by assumption. reflexivity.
  - intros -> ->. rewrite G by (try assumption; nra). field. repeat split; lra.
  - intros Ek -> B. rewrite G by (try assumption; rewrite Ek; nra).
    assert (At : area_in_tension t xb' = area_in_tension t xb).
    { unfold area_in_tension. destruct (Rlt_dec xb (100000 * psi)), (Rlt_dec xb' (100000 * psi)); tauto. }
    rewrite At, Ek. field. split; lra.
Qed.
Print Assumptions C46_laws.
(** 1/4-20 class 2, 30 ksi bolt and plate, half an inch of engagement *)
Example C45_C46_case :
  listed_thread "1/4-20" "2"
    (mkThreadDims (Q2R 0.2070) (Q2R 0.2248) (Q2R 0.2127) (Q2R 0.2489) (Q2R 0.2500) (Q2R 20))
  /\ stands_for (mkQ 30 (mult_unit d_pressure 6894757) 1) d_pressure (30 * 6894757) 1
  /\ stands_for (mkQ 0.5 (mult_unit d_length 0.0254) 2) d_length (0.5 * 0.0254) 2
  /\ 0 < 30 * 6894757 /\ 0 < 0.5 * 0.0254.
Proof. split; [exact quarter_twenty|]. unfold stands_for; cbn. repeat split; lra. Qed.

(** C47 *)
Theorem C47_plate_twice_as_strong :
  forall (size grade : string) (bolt plate len : quantity R) (xb xp xl : R) (rb rp rl reg : nat)
         (a : thread_areas R) (m s p : R),
    stands_for bolt d_pressure xb rb -> stands_for plate d_pressure xp rp ->
    stands_for len d_length xl rl -> 0 <= xb -> 0 < xp -> 0 < xl ->
    calculate_stress_areas size grade bolt plate len reg = Ok a ->
    stands_for (minimum_engagement a) d_length m reg -> m <= xl ->
    stands_for (screw_area a) d_area s reg -> stands_for (plate_area a) d_area p reg ->
    (exists t, listed_thread size grade t /\ p * xp >= 2 * (area_in_tension t xb * xb))
    /\ p * xp >= 2 * (s * xb).
Proof.
  intros size grade bolt plate len xb xp xl rb rp rl reg a m s p Hb Hp Hl Pb Pp Pl E M L S P.
  destruct (stress_areas_needs R _ _ _ _ _ _ _ _ E) as (t & T).
  destruct (stress_areas_ok size grade t bolt plate len xb xp xl rb rp rl reg T Hb Hp Hl Pb Pp Pl)
    as (r & Er & Sr & Pr & Mr & _).
  rewrite E in Er; injection Er as <-.
  rewrite (value_unique _ _ _ _ _ _ _ M Mr) in L.
  rewrite (value_unique _ _ _ _ _ _ _ S Sr), (value_unique _ _ _ _ _ _ _ P Pr).
  pose proof (table_sound _ _ _ T) as Sd.
  pose proof (plate_shear_pos _ Sd) as Q. pose proof (tension_pos t xb Sd) as At0.
  assert (X : area_of_plate t xl * xp >= 2 * (area_in_tension t xb * xb)).
  { unfold area_of_plate, engagement_for_tension in *.
    assert (D : 0 < plate_shear_per_length t * xp) by now apply Rmult_lt_0_compat.
    apply (Rmult_le_compat_r (plate_shear_per_length t * xp)) in L; [|lra].
    unfold Rdiv in L. rewrite Rmult_assoc, Rinv_l in L by lra. lra. }
  split; [exists t; split; [exact T|exact X]|].
  pose proof (Rmin_l (area_in_tension t xb) (area_in_shear t xl)). nra.
Qed.
Print Assumptions C47_plate_twice_as_strong.
(** In safety factors, above atmospheric pressure. *)
Theorem C47_safety_factors :
  forall (size grade : string) mp wa (N : R) bolt plate len (xP xA xb xp xl : R) (reg : nat)
         (b' p' l' : quantity R) (rb rp rl : nat) (a : thread_areas R) (m : R) (f : bolt_factors R),
    denotes mp d_pressure xP -> denotes wa d_area xA -> denotes bolt d_pressure xb ->
    denotes plate d_pressure xp -> denotes len d_length xl ->
    atmosphere < xP -> 0 < xA -> 0 < N -> 0 <= xb -> 0 < xp -> 0 < xl ->
    stands_for b' d_pressure xb rb -> stands_for p' d_pressure xp rp -> stands_for l' d_length xl rl ->
    calculate_stress_areas size grade b' p' l' reg = Ok a ->
    stands_for (minimum_engagement a) d_length m reg -> m <= xl ->
    calculate_safety_factors mp wa N size grade bolt plate len reg = Ok f ->
    sf_plate f >= 2 * sf_bolt f.
Proof.
  intros size grade mp wa N bolt plate len xP xA xb xp xl reg b' p' l' rb rp rl a m f
    HP HA Hb Hp Hl P1 P2 P3 P4 P5 P6 Hb' Hp' Hl' E M L F.
  destruct (stress_areas_needs R _ _ _ _ _ _ _ _ E) as (t & T).
  destruct (stress_areas_ok size grade t b' p' l' xb xp xl rb rp rl reg T Hb' Hp' Hl' P4 P5 P6)
    as (r & Er & Sr & Pr & _).
  rewrite E in Er; injection Er as <-.
  destruct (C47_plate_twice_as_strong _ _ _ _ _ _ _ _ _ _ _ _ _ _ _ _ Hb' Hp' Hl' P4 P5 P6 E M L Sr Pr)
    as (_ & X).
  destruct (safety_factors_ok size grade t mp wa N bolt plate len xP xA xb xp xl reg T HP HA Hb Hp Hl)
    as (f' & F' & SB & SP & _); try assumption; try (unfold atmosphere in *; lra).
  rewrite F in F'; injection F' as <-. rewrite SB, SP.
  assert (D : 0 < (xP - atmosphere) * xA / N).
  { apply Rdiv_lt_0_compat; [apply Rmult_lt_0_compat; lra|lra]. }
  set (G := (xP - atmosphere) * xA / N) in *.
  apply Rle_ge. replace (2 * (xb * Rmin (area_in_tension t xb) (area_in_shear t xl) / G))
    with (2 * (xb * Rmin (area_in_tension t xb) (area_in_shear t xl)) / G) by (field; lra).
  unfold Rdiv. apply Rmult_le_compat_r; [left; now apply Rinv_0_lt_compat|lra].
Qed.
Print Assumptions C47_safety_factors.

(** C48.  False as stated; exactly when it holds: the screw thread's shear strength is
    at least half the plate thread's. *)
Theorem C48_exact_condition :
  forall (size grade : string) (t : thread) (bolt plate : quantity R) (xb xp : R) (rb rp reg : nat),
    listed_thread size grade t ->
    stands_for bolt d_pressure xb rb -> stands_for plate d_pressure xp rp -> 0 < xb -> 0 < xp ->
    (forall (len : quantity R) (xl : R) (rl : nat) (a : thread_areas R) (m : R),
       stands_for len d_length xl rl -> 0 < xl ->
       calculate_stress_areas size grade bolt plate len reg = Ok a ->
       stands_for (minimum_engagement a) d_length m reg -> m <= xl ->
       shear_warning a = false)
    <-> screw_shear_per_length t * xb >= plate_shear_per_length t * xp / 2.
Proof.
  intros size grade t bolt plate xb xp rb rp reg T Hb Hp Pb Pp.
  pose proof (table_sound _ _ _ T) as Sd.
  pose proof (plate_shear_pos _ Sd) as Qp. pose proof (screw_shear_pos _ Sd) as Qs.
  pose proof (tension_pos t xb Sd) as At0.
  assert (D : 0 < plate_shear_per_length t * xp) by now apply Rmult_lt_0_compat.
  assert (ME : forall (len : quantity R) xl rl, stands_for len d_length xl rl -> 0 < xl ->
    exists a, calculate_stress_areas size grade bolt plate len reg = Ok a
      /\ stands_for (minimum_engagement a) d_length (engagement_for_tension t xb xp) reg
      /\ (shear_warning a = true <-> area_in_shear t xl < area_in_tension t xb)).
  { intros len xl rl Hl Pl.
    destruct (stress_areas_ok size grade t bolt plate len xb xp xl rb rp rl reg T Hb Hp Hl
                (Rlt_le _ _ Pb) Pp Pl) as (r & Er & _ & _ & Mr & W).
    exists r. split; [exact Er|]. split; [exact Mr|exact W]. }
  assert (Em : 0 < engagement_for_tension t xb xp).
  { unfold engagement_for_tension. apply Rdiv_lt_0_compat; [|exact D]. nra. }
  split.
  - intros H.
    set (m := engagement_for_tension t xb xp) in *.
    pose (len := mkQ m (mult_unit d_length 1) 0 : quantity R).
    assert (Hl : stands_for len d_length m 0).
    { unfold stands_for, len; cbn. repeat split; lra. }
    destruct (ME len m 0%nat Hl Em) as (a & Ea & Ma & W).
    pose proof (H len m 0%nat a m Hl Em Ea Ma (Rle_refl _)) as NW.
    assert (X : area_in_tension t xb <= area_in_shear t m).
    { destruct (Rlt_or_le (area_in_shear t m) (area_in_tension t xb)) as [X|X]; [|exact X].
      apply W in X. congruence. }
    unfold area_in_shear, m, engagement_for_tension in X.
    apply (Rmult_le_compat_r (plate_shear_per_length t * xp)) in X; [|lra].
    replace (screw_shear_per_length t *
        (2 * area_in_tension t xb * xb / (plate_shear_per_length t * xp)) *
        (plate_shear_per_length t * xp)) with
      (2 * area_in_tension t xb * (screw_shear_per_length t * xb)) in X by (field; split; lra).
    apply Rle_ge. apply (Rmult_le_reg_l (area_in_tension t xb)); [exact At0|]. lra.
  - intros J len xl rl a m Hl Pl E M L.
    destruct (ME len xl rl Hl Pl) as (a' & Ea & Ma & W). rewrite E in Ea; injection Ea as <-.
    rewrite (value_unique _ _ _ _ _ _ _ M Ma) in L.
    destruct (shear_warning a); [|reflexivity]. exfalso.
    assert (X : area_in_shear t xl < area_in_tension t xb) by now apply W.
    unfold area_in_shear, engagement_for_tension in *.
    apply (Rmult_le_compat_r (plate_shear_per_length t * xp)) in L; [|lra].
    unfold Rdiv in L. rewrite Rmult_assoc, Rinv_l in L by lra.
    assert (Y : screw_shear_per_length t * (2 * area_in_tension t xb * xb) <=
                screw_shear_per_length t * (xl * (plate_shear_per_length t * xp)))
      by (apply Rmult_le_compat_l; lra).
    assert (Z : screw_shear_per_length t * xl * (plate_shear_per_length t * xp)
                < area_in_tension t xb * (plate_shear_per_length t * xp))
      by (apply Rmult_lt_compat_r; lra).
    assert (2 * area_in_tension t xb * (screw_shear_per_length t * xb)
            >= 2 * area_in_tension t xb * (plate_shear_per_length t * xp / 2)).
    { apply Rle_ge, Rmult_le_compat_l; lra. }
    lra.
Qed.
Print Assumptions C48_exact_condition.
(** The full claim fails: 1/4-20, a 1 MPa bolt in a 1 GPa plate. *)
Theorem C48_refuted :
  exists (bolt plate len : quantity R) (a : thread_areas R) (m xl : R),
    stands_for len d_length xl 0 /\ 0 < xl
    /\ calculate_stress_areas "1/4-20" "2" bolt plate len 0 = Ok a
    /\ stands_for (minimum_engagement a) d_length m 0 /\ m <= xl
    /\ shear_warning a = true.
Proof.
  pose (bolt := mkQ 1000000 (mult_unit d_pressure 1) 0 : quantity R).
  pose (plate := mkQ 1000000000 (mult_unit d_pressure 1) 0 : quantity R).
  assert (Hb : stands_for bolt d_pressure 1000000 0) by (unfold stands_for, bolt; cbn; repeat split; lra).
  assert (Hp : stands_for plate d_pressure 1000000000 0) by (unfold stands_for, plate; cbn; repeat split; lra).
  set (t := mkThreadDims (Q2R 0.2070) (Q2R 0.2248) (Q2R 0.2127) (Q2R 0.2489) (Q2R 0.2500) (Q2R 20)).
  pose proof (table_sound _ _ _ quarter_twenty) as Sd. fold t in Sd.
  pose proof (plate_shear_pos _ Sd) as Qp. pose proof (tension_pos t 1000000 Sd) as At0.
  set (m := engagement_for_tension t 1000000 1000000000).
  assert (Em : 0 < m).
  { unfold m, engagement_for_tension. apply Rdiv_lt_0_compat; nra. }
  pose (len := mkQ m (mult_unit d_length 1) 0 : quantity R).
  assert (Hl : stands_for len d_length m 0) by (unfold stands_for, len; cbn; repeat split; lra).
  destruct (stress_areas_ok "1/4-20" "2" t bolt plate len _ _ _ _ _ _ 0 quarter_twenty Hb Hp Hl
              ltac:(lra) ltac:(lra) Em) as (a & Ea & _ & _ & Ma & W).
  exists bolt, plate, len, a, m, m.
  split; [exact Hl|]. split; [exact Em|]. split; [exact Ea|]. split; [exact Ma|].
  split; [lra|]. apply W.
  unfold area_in_shear, m, engagement_for_tension.
  apply (Rmult_lt_reg_r (plate_shear_per_length t * 1000000000)); [lra|].
  replace (screw_shear_per_length t *
      (2 * area_in_tension t 1000000 * 1000000 / (plate_shear_per_length t * 1000000000)) *
      (plate_shear_per_length t * 1000000000)) with
    (area_in_tension t 1000000 * (2 * screw_shear_per_length t * 1000000)) by (field; lra).
  apply Rmult_lt_compat_l; [exact At0|].
  unfold screw_shear_per_length, plate_shear_per_length, t;
    cbn [t_minor_int t_pitch_int t_pitch_ext t_major_ext t_basic t_tpi].
  pose proof PI_RGT_0. unfold inch. q2r. 
  replace (2 * _ * _) with (PI * (2 * (20 * / 1 * (2070 * / 10000) * (1 / (2 * (20 * / 1)) + 57735 / 100000 * (2127 * / 10000 - 2070 * / 10000)) * (254/10000)) * 1000000)) by ring.
  replace (PI * _ * _ * _ * _ * 1000000000) with (PI * (20 * / 1 * (2489 * / 10000) * (1 / (2 * (20 * / 1)) + 57735 / 100000 * (2489 * / 10000 - 2248 * / 10000)) * (254/10000) * 1000000000)) by ring.
  apply Rmult_lt_compat_l; [exact PI_RGT_0|]. lra.
Qed.
Print Assumptions C48_refuted.
(** Proved part: bolts not weaker in shear than half the plate. *)
Theorem C48_no_warning_partial :
  forall (size grade : string) (t : thread) (bolt plate len : quantity R) (xb xp xl : R)
         (rb rp rl reg : nat) (a : thread_areas R) (m : R),
    listed_thread size grade t ->
    stands_for bolt d_pressure xb rb -> stands_for plate d_pressure xp rp ->
    stands_for len d_length xl rl -> 0 < xb -> 0 < xp -> 0 < xl ->
    screw_shear_per_length t * xb >= plate_shear_per_length t * xp / 2 ->
    calculate_stress_areas size grade bolt plate len reg = Ok a ->
    stands_for (minimum_engagement a) d_length m reg -> m <= xl ->
    shear_warning a = false.
Proof.
  intros size grade t bolt plate len xb xp xl rb rp rl reg a m T Hb Hp Hl Pb Pp Pl J E M L.
  exact (proj2 (C48_exact_condition size grade t bolt plate xb xp rb rp reg T Hb Hp Pb Pp) J
           len xl rl a m Hl Pl E M L).
Qed.
Print Assumptions C48_no_warning_partial.
(** Equal strengths meet the condition for the 1/4-20 thread. *)
Example C48_case : 
  let t := mkThreadDims (Q2R 0.2070) (Q2R 0.2248) (Q2R 0.2127) (Q2R 0.2489) (Q2R 0.2500) (Q2R 20) in
  screw_shear_per_length t * 1 >= plate_shear_per_length t * 1 / 2.
Proof.
  cbv zeta. unfold screw_shear_per_length, plate_shear_per_length;
    cbn [t_minor_int t_pitch_int t_pitch_ext t_major_ext t_basic t_tpi].
  pose proof PI_RGT_0. unfold inch. q2r.
  replace (PI * _ * _ * _ * _ * 1) with (PI * (20 * / 1 * (2070 * / 10000) * (1 / (2 * (20 * / 1)) + 57735 / 100000 * (2127 * / 10000 - 2070 * / 10000)) * (254/10000))) by ring.
  replace (PI * _ * _ * _ * _ * 1 / 2) with (PI * (20 * / 1 * (2489 * / 10000) * (1 / (2 * (20 * / 1)) + 57735 / 100000 * (2489 * / 10000 - 2248 * / 10000)) * (254/10000) / 2)) by (unfold Rdiv; ring).
  apply Rle_ge, Rmult_le_compat_l; lra.
Qed.

(** C49 *)
Theorem C49_safety_factors :
  forall (size grade : string) (t : thread) mp wa (N : R) bolt plate len
         (xP xA xb xp xl : R) (reg : nat),
    listed_thread size grade t ->
    denotes mp d_pressure xP -> denotes wa d_area xA -> denotes bolt d_pressure xb ->
    denotes plate d_pressure xp -> denotes len d_length xl ->
    0 <= xP -> xP <> atmosphere -> 0 < xA -> N <> 0 -> 0 <= xb -> 0 < xp -> 0 < xl ->
    exists f, calculate_safety_factors mp wa N size grade bolt plate len reg = Ok f
      /\ sf_bolt f = xb * Rmin (area_in_tension t xb) (area_in_shear t xl)
                     / ((xP - atmosphere) * xA / N)
      /\ sf_plate f = xp * area_of_plate t xl / ((xP - atmosphere) * xA / N)
      /\ (sf_warning f = true <-> area_in_shear t xl < area_in_tension t xb).
Proof. exact safety_factors_ok. Qed.
Print Assumptions C49_safety_factors.
(** Proportional to the number of bolts, inversely to window area and to gauge pressure;
    the plate's also to engagement. *)
Theorem C49_laws :
  forall (size grade : string) mp wa (N : R) bolt plate len mp' wa' (N' : R) len'
         (xP xA xb xp xl xP' xA' xl' k : R) (reg : nat) (f f' : bolt_factors R),
    denotes mp d_pressure xP -> denotes wa d_area xA -> denotes bolt d_pressure xb ->
    denotes plate d_pressure xp -> denotes len d_length xl ->
    denotes mp' d_pressure xP' -> denotes wa' d_area xA' -> denotes len' d_length xl' ->
    atmosphere < xP -> 0 < xA -> 0 < N -> 0 <= xb -> 0 < xp -> 0 < xl -> 0 < k ->
    calculate_safety_factors mp wa N size grade bolt plate len reg = Ok f ->
    calculate_safety_factors mp' wa' N' size grade bolt plate len' reg = Ok f' ->
    (xP' = xP -> xA' = xA -> xl' = xl -> N' = k * N ->
       sf_bolt f' = k * sf_bolt f /\ sf_plate f' = k * sf_plate f)
    /\ (xP' = xP -> xA' = k * xA -> xl' = xl -> N' = N ->
       sf_bolt f' = sf_bolt f / k /\ sf_plate f' = sf_plate f / k)
    /\ (xP' - atmosphere = k * (xP - atmosphere) -> xA' = xA -> xl' = xl -> N' = N ->
       sf_bolt f' = sf_bolt f / k /\ sf_plate f' = sf_plate f / k)
    /\ (xP' = xP -> xA' = xA -> xl' = k * xl -> N' = N ->
       sf_plate f' = k * sf_plate f).
Proof.
  intros size grade mp wa N bolt plate len mp' wa' N' len' xP xA xb xp xl xP' xA' xl' k reg f f'
    HP HA Hb Hp Hl HP' HA' Hl' P1 P2 P3 P4 P5 P6 Pk F F'.
  assert (T : exists t, listed_thread size grade t).
  { pose proof F as G. unfold calculate_safety_factors in G.
    do 14 (apply bind_inv in G as (? & _ & G)).
    apply bind_inv in G as (a & Ea & _). exact (stress_areas_needs R _ _ _ _ _ _ _ _ Ea). }
  destruct T as (t & T).
  assert (At1 : 0 < atmosphere) by (unfold atmosphere; lra).
  destruct (safety_factors_ok size grade t mp wa N bolt plate len xP xA xb xp xl reg T HP HA Hb Hp Hl)
    as (f1 & F1 & SB & SP & _); try assumption; try lra.
  rewrite F in F1; injection F1 as <-.
  assert (X : atmosphere < xP' -> 0 < xA' -> 0 < xl' -> 0 < N' ->
    sf_bolt f' = xb * Rmin (area_in_tension t xb) (area_in_shear t xl') / ((xP' - atmosphere) * xA' / N')
    /\ sf_plate f' = xp * area_of_plate t xl' / ((xP' - atmosphere) * xA' / N')).
  { intros Q1 Q2 Q3 Q4.
    destruct (safety_factors_ok size grade t mp' wa' N' bolt plate len' xP' xA' xb xp xl' reg T HP' HA' Hb Hp Hl')
      as (f2 & F2 & SB' & SP' & _); try assumption; try lra.
    rewrite F' in F2; injection F2 as <-. auto. }
  rewrite SB, SP. set (g := xP - atmosphere) in *. assert (Pg : 0 < g) by (unfold g; lra).
  split; [|split; [|split]].
  - intros E1 E2 E3 E4. destruct X as (X1 & X2); try (subst; nra).
    rewrite X1, X2, E1, E2, E3, E4. fold g. split; field; repeat split; nra.
  - intros E1 E2 E3 E4. destruct X as (X1 & X2); try (subst; nra).
    rewrite X1, X2, E1, E2, E3, E4. fold g. split; field; repeat split; nra.
  - intros E1 E2 E3 E4. destruct X as (X1 & X2); try (subst; nra).
    rewrite X1, X2, E1, E2, E3, E4. split; field; repeat split; nra.
  - intros E1 E2 E3 E4. destruct X as (X1 & X2); try (subst; nra).
    rewrite X2, E1, E2, E3, E4. fold g. unfold area_of_plate. field; repeat split; nra.
Qed.
Print Assumptions C49_laws.


(** Also the positivity C49 speaks of.  C50: false below one atmosphere. *)
Theorem C50_sign :
  forall (size grade : string) (t : thread) mp wa (N : R) bolt plate len
         (xP xA xb xp xl : R) (reg : nat) (f : bolt_factors R),
    listed_thread size grade t ->
    denotes mp d_pressure xP -> denotes wa d_area xA -> denotes bolt d_pressure xb ->
    denotes plate d_pressure xp -> denotes len d_length xl ->
    0 <= xP -> 0 < xA -> 0 < N -> 0 < xb -> 0 < xp -> 0 < xl ->
    calculate_safety_factors mp wa N size grade bolt plate len reg = Ok f ->
    (atmosphere < xP -> 0 < sf_bolt f /\ 0 < sf_plate f)
    /\ (xP < atmosphere -> sf_bolt f < 0 /\ sf_plate f < 0).
Proof.
  intros size grade t mp wa N bolt plate len xP xA xb xp xl reg f T HP HA Hb Hp Hl P0 P2 P3 P4 P5 P6 F.
  pose proof (table_sound _ _ _ T) as Sd.
  assert (X : xP <> atmosphere -> sf_bolt f = (xb * Rmin (area_in_tension t xb) (area_in_shear t xl) * (N / xA)) / (xP - atmosphere)
    /\ sf_plate f = (xp * area_of_plate t xl * (N / xA)) / (xP - atmosphere)).
  { intros Q.
    destruct (safety_factors_ok size grade t mp wa N bolt plate len xP xA xb xp xl reg T HP HA Hb Hp Hl)
      as (f2 & F2 & SB' & SP' & _); try assumption; try lra.
    rewrite F in F2; injection F2 as <-. rewrite SB', SP'.
    split; field; repeat split; lra. }
  assert (M : 0 < xb * Rmin (area_in_tension t xb) (area_in_shear t xl) * (N / xA)).
  { apply Rmult_lt_0_compat; [|now apply Rdiv_lt_0_compat]. apply Rmult_lt_0_compat; [lra|].
    apply Rmin_glb_lt; [now apply tension_pos|].
    apply Rmult_lt_0_compat; [now apply screw_shear_pos|lra]. }
  assert (M2 : 0 < xp * area_of_plate t xl * (N / xA)).
  { apply Rmult_lt_0_compat; [|now apply Rdiv_lt_0_compat]. apply Rmult_lt_0_compat; [lra|].
    apply Rmult_lt_0_compat; [now apply plate_shear_pos|lra]. }
  split; intros L; destruct X as (-> & ->); try lra.
  - split; apply Rdiv_lt_0_compat; lra.
  - assert (V : / (xP - atmosphere) < 0) by (apply Rinv_lt_0_compat; lra).
    unfold Rdiv at 1 3. split; nra.
Qed.
Print Assumptions C50_sign.
Lemma quarter_inputs :
  denotes (PSeq [ENum 1; EStr "in^2"]) d_area (254/10000 * (254/10000))
  /\ denotes (PSeq [ENum 0.5; EStr "in"]) d_length (0.5 * (254/10000))
  /\ denotes (PSeq [ENum 200; EStr "MPa"]) d_pressure (200 * 1000000)
  /\ denotes (PSeq [ENum 50000; EStr "Pa"]) d_pressure 50000
  /\ denotes (PSeq [ENum 10; EStr "MPa"]) d_pressure (10 * 1000000).
Proof.
  split.
  { eapply denotes_pair; [reflexivity|reflexivity|].
    unfold worth; cbn; rnum; rewrite inch_scale; unfold inch; lra. }
  split; [apply denotes_inch|]. split; [apply denotes_MPa|]. split; [apply denotes_Pa|apply denotes_MPa].
Qed.
Theorem C50_refuted :
  exists f, calculate_safety_factors (PSeq [ENum 50000; EStr "Pa"]) (PSeq [ENum 1; EStr "in^2"]) 8
      "1/4-20" "2" (PSeq [ENum 200; EStr "MPa"]) (PSeq [ENum 200; EStr "MPa"])
      (PSeq [ENum 0.5; EStr "in"]) 0 = Ok f
    /\ sf_bolt f < 0 /\ sf_plate f < 0.
Proof.
  destruct quarter_inputs as (A & B & C & D & _).
  destruct (safety_factors_ok "1/4-20" "2" _ _ _ 8 _ _ _ _ _ _ _ _ 0 quarter_twenty D A C C B)
    as (f & F & _); try (unfold atmosphere; lra).
  exists f. split; [exact F|].
  refine (proj2 (C50_sign "1/4-20" "2" _ _ _ 8 _ _ _ _ _ _ _ _ 0 f quarter_twenty D A C C B _ _ _ _ _ _ F) _);
    unfold atmosphere; lra.
Qed.
Print Assumptions C50_refuted.
Theorem C50_not_negative_partial :
  forall (size grade : string) mp wa (N : R) bolt plate len
         (xP xA xb xp xl : R) (reg : nat) (f : bolt_factors R),
    denotes mp d_pressure xP -> denotes wa d_area xA -> denotes bolt d_pressure xb ->
    denotes plate d_pressure xp -> denotes len d_length xl ->
    atmosphere < xP -> 0 < xA -> 0 < N -> 0 < xb -> 0 < xp -> 0 < xl ->
    calculate_safety_factors mp wa N size grade bolt plate len reg = Ok f ->
    0 < sf_bolt f /\ 0 < sf_plate f.
Proof.
  intros size grade mp wa N bolt plate len xP xA xb xp xl reg f HP HA Hb Hp Hl P0 P2 P3 P4 P5 P6 F.
  assert (T : exists t, listed_thread size grade t).
  { pose proof F as G. unfold calculate_safety_factors in G.
    do 14 (apply bind_inv in G as (? & _ & G)).
    apply bind_inv in G as (a & Ea & _). exact (stress_areas_needs R _ _ _ _ _ _ _ _ Ea). }
  destruct T as (t & T).
  refine (proj1 (C50_sign size grade t mp wa N bolt plate len _ _ _ _ _ reg f T HP HA Hb Hp Hl _ _ _ _ _ _ F) P0);
    try assumption. unfold atmosphere in P0; lra.
Qed.
Print Assumptions C50_not_negative_partial.
Theorem C49_positive :
  forall (size grade : string) mp wa (N : R) bolt plate len
         (xP xA xb xp xl : R) (reg : nat) (f : bolt_factors R),
    denotes mp d_pressure xP -> denotes wa d_area xA -> denotes bolt d_pressure xb ->
    denotes plate d_pressure xp -> denotes len d_length xl ->
    atmosphere < xP -> 0 < xA -> 0 < N -> 0 < xb -> 0 < xp -> 0 < xl ->
    calculate_safety_factors mp wa N size grade bolt plate len reg = Ok f ->
    0 < sf_bolt f /\ 0 < sf_plate f.
Proof. exact C50_not_negative_partial. Qed.
Print Assumptions C49_positive.
(** 10 MPa on one square inch, eight 1/4-20 bolts: the hypotheses of C47, C49, C50. *)
Example C49_case : exists f,
  calculate_safety_factors (PSeq [ENum 10; EStr "MPa"]) (PSeq [ENum 1; EStr "in^2"]) 8
      "1/4-20" "2" (PSeq [ENum 200; EStr "MPa"]) (PSeq [ENum 200; EStr "MPa"])
      (PSeq [ENum 0.5; EStr "in"]) 0 = Ok f /\ 0 < sf_bolt f.
Proof.
  destruct quarter_inputs as (A & B & C & _ & D).
  destruct (safety_factors_ok "1/4-20" "2" _ _ _ 8 _ _ _ _ _ _ _ _ 0 quarter_twenty D A C C B)
    as (f & F & _); try (unfold atmosphere; lra).
  exists f. split; [exact F|].
  refine (proj1 (C50_not_negative_partial "1/4-20" "2" _ _ 8 _ _ _ _ _ _ _ _ 0 f D A C C B _ _ _ _ _ _ F));
    unfold atmosphere; lra.
Qed.

(** C51 *)
Theorem C51_refuted :
  exists row lo hi, In row (f_rows external_table)
    /\ num_cell (f_cols external_table) row "major diameter min" = Some lo
    /\ num_cell (f_cols external_table) row "major diameter max" = Some hi /\ (hi < lo)%Q.
Proof.
  exists ["1/4-20"; "2A"; "0.2500"; "0.2489"; "0.2408"; "0.2164"; "0.2127"; "0.1876"]%string,
    0.2489%Q, 0.2408%Q.
  split; [|split; [vm_compute; reflexivity|split; [vm_compute; reflexivity|vm_compute; reflexivity]]].
  assert (I : In ["1/4-20"; "2A"; "0.2500"; "0.2489"; "0.2408"; "0.2164"; "0.2127"; "0.1876"]%string
                 (rows_for external_table "1/4-20" "2A")).
  { assert (E : rows_for external_table "1/4-20" "2A" =
      [["1/4-20"; "2A"; "0.2500"; "0.2489"; "0.2408"; "0.2164"; "0.2127"; "0.1876"]%string])
      by (vm_compute; reflexivity).
    rewrite E. left. reflexivity. }
  exact (proj1 (rows_for_in _ _ _ _ I)).
Qed.
Print Assumptions C51_refuted.
(** The two columns are the wrong way round in every row; the other limits are in order. *)
Theorem C51_limits_ordered_partial :
  (forall row lo hi, In row (f_rows external_table) ->
     num_cell (f_cols external_table) row "major diameter min" = Some lo ->
     num_cell (f_cols external_table) row "major diameter max" = Some hi -> (hi <= lo)%Q)
  /\ (forall row lo hi, In row (f_rows external_table) ->
     num_cell (f_cols external_table) row "pitch diameter min" = Some lo ->
     num_cell (f_cols external_table) row "pitch diameter max" = Some hi -> (lo <= hi)%Q)
  /\ (forall row lo hi, In row (f_rows internal_table) ->
     num_cell (f_cols internal_table) row "pitch diameter min" = Some lo ->
     num_cell (f_cols internal_table) row "pitch diameter max" = Some hi -> (lo <= hi)%Q)
  /\ (forall row lo hi, In row (f_rows internal_table) ->
     num_cell (f_cols internal_table) row "minor diameter min" = Some lo ->
     num_cell (f_cols internal_table) row "minor diameter max" = Some hi -> (lo <= hi)%Q).
Proof.
  destruct cols_ordered as (A & B & C & D). split; [|split; [|split]].
  - intros row lo hi I E1 E2. exact (ordered_col_ok _ _ _ D row hi lo I E2 E1).
  - exact (ordered_col_ok _ _ _ C).
  - exact (ordered_col_ok _ _ _ B).
  - exact (ordered_col_ok _ _ _ A).
Qed.
Print Assumptions C51_limits_ordered_partial.
