(** * RoundStressP: temperatures and the stress table under rounding. *)
From Coq Require Import String ZArith QArith Reals Qreals List Bool Lra Lia Psatz.
From Verif Require Import PyBase Pint UnitsM Spec QLemmas Csv Tables Interp InterpP NumQ TubeM
  StressP RoundM RoundSpec RoundTempSpec RoundP RoundDdtP.
Import ListNotations.
Local Open Scope R_scope.

(** ** How much a table can change over a distance *)
Definition gentle (L : R) (l : list (R * R)) : Prop :=
  forall p q, consecutive l p q -> snd p - snd q <= L * (fst q - fst p).
Lemma gentle_tl L p l : gentle L (p :: l) -> gentle L l.
Proof. intros H a b C. apply H. now apply consecutive_cons. Qed.
Lemma gentle_hd L p q l : gentle L (p :: q :: l) -> snd p - snd q <= L * (fst q - fst p).
Proof. intros H. apply H, consecutive_hd. Qed.

Lemma line_slope p q x y L : fst p < fst q -> snd p - snd q <= L * (fst q - fst p) -> x <= y ->
  line p q x - line p q y <= L * (y - x).
Proof.
  intros I G X. unfold line.
  replace (snd p + (snd q - snd p) * ((x - fst p) / (fst q - fst p))
           - (snd p + (snd q - snd p) * ((y - fst p) / (fst q - fst p))))
    with ((snd p - snd q) * ((y - x) / (fst q - fst p))) by (field; lra).
  replace (L * (y - x)) with (L * (fst q - fst p) * ((y - x) / (fst q - fst p))) by (field; lra).
  apply Rmult_le_compat_r; [|exact G]. apply Rmult_le_pos; [lra|].
  left. apply Rinv_0_lt_compat. lra.
Qed.

Lemma np_from_gentle L pts : 0 <= L -> forall p x y,
  increasing (p :: pts) -> gentle L (p :: pts) -> fst p <= x -> x <= y ->
  np_interp_from x p pts - np_interp_from y p pts <= L * (y - x).
Proof.
  intros HL.
  induction pts as [|q pts IH]; intros p x y I G X Y.
  - cbn [np_interp_from]. replace (snd p - snd p) with 0 by ring. apply Rmult_le_pos; lra.
  - pose proof (increasing_hd _ _ _ I) as Lt. pose proof (gentle_hd _ _ _ _ G) as Gh.
    rewrite !np_from_unfold by assumption.
    destruct (Rltb_spec x (fst q)) as [A|A], (Rltb_spec y (fst q)) as [B|B].
    + now apply line_slope.
    + pose proof (line_slope p q x (fst q) L Lt Gh ltac:(lra)) as H1.
      rewrite line_right in H1 by assumption.
      pose proof (IH q (fst q) y (increasing_tl _ _ I) (gentle_tl _ _ _ G) ltac:(lra) ltac:(lra)) as H2.
      assert (E : np_interp_from (fst q) q pts = snd q).
      { destruct pts as [|r pts]; [reflexivity|].
        pose proof (increasing_hd _ _ _ (increasing_tl _ _ I)).
        rewrite np_from_unfold, Rltb_true by assumption. apply line_left. }
      rewrite E in H2. lra.
    + lra.
    + apply IH; eauto using increasing_tl, gentle_tl; lra.
Qed.

(** np.interp as a function *)
Definition interp (l : list (R * R)) (x : R) : R :=
  match l with
  | [] => 0
  | p :: rest => if Rltb x (fst p) then snd p else np_interp_from x p rest
  end.
Lemma interp_ok l x : l <> [] -> @np_interp R Num_R x l = Ok (interp l x).
Proof.
  destruct l; [congruence|]. intros _. cbn [np_interp]; rnum.
  now rewrite (Reqb_true _ _ eq_refl).
Qed.

Lemma interp_low p l x : increasing (p :: l) -> x <= fst p -> interp (p :: l) x = snd p.
Proof.
  intros I X. pose proof (np_interp_low p l x X I) as H.
  rewrite interp_ok in H by discriminate. congruence.
Qed.
Lemma interp_high l p x : increasing (l ++ [p]) -> fst p <= x -> interp (l ++ [p]) x = snd p.
Proof.
  intros I X. pose proof (np_interp_high l p x I X) as H.
  rewrite interp_ok in H by (destruct l; discriminate). congruence.
Qed.

Lemma interp_gentle L l x y : 0 <= L -> l <> [] -> increasing l -> gentle L l -> x <= y ->
  interp l x - interp l y <= L * (y - x).
Proof.
  intros HL Ne I G Y. destruct l as [|p l]; [congruence|]. cbn [interp].
  destruct (Rltb_spec x (fst p)) as [A|A], (Rltb_spec y (fst p)) as [B|B].
  - replace (snd p - snd p) with 0 by ring. apply Rmult_le_pos; lra.
  - pose proof (np_from_gentle L l HL p (fst p) y I G ltac:(lra) ltac:(lra)) as H.
    assert (E : np_interp_from (fst p) p l = snd p).
    { destruct l as [|r l]; [reflexivity|]. pose proof (increasing_hd _ _ _ I).
      rewrite np_from_unfold, Rltb_true by assumption. apply line_left. }
    rewrite E in H. apply Rle_trans with (1 := H). apply Rmult_le_compat_l; lra.
  - lra.
  - apply np_from_gentle; auto; lra.
Qed.
Lemma interp_falls l x y : l <> [] -> increasing l -> falling l -> x <= y ->
  interp l y <= interp l x.
Proof. intros Ne I F Y. eapply np_interp_falling; eauto using interp_ok. Qed.

(** Two temperatures, the table clamped at both ends. *)
Lemma interp_dist L l x y : 0 <= L -> l <> [] -> increasing l -> falling l -> gentle L l ->
  Rabs (interp l y - interp l x) <= L * Rabs (y - x).
Proof.
  intros HL Ne I F G. destruct (Rle_or_lt x y) as [H|H].
  - pose proof (interp_gentle L l x y HL Ne I G H). pose proof (interp_falls l x y Ne I F H).
    rewrite (Rabs_pos_eq (y - x)) by lra. rewrite Rabs_minus_sym, Rabs_pos_eq; lra.
  - pose proof (interp_gentle L l y x HL Ne I G ltac:(lra)).
    pose proof (interp_falls l y x Ne I F ltac:(lra)).
    rewrite (Rabs_minus_sym y x), (Rabs_pos_eq (x - y)) by lra. rewrite Rabs_pos_eq; lra.
Qed.

(** ** Facts about the shipped tables *)
Definition even_small (q : Q) : bool :=
  (Pos.eqb (Qden q) 1 && Z.even (Qnum q) && Z.leb (-2048) (Qnum q) && Z.leb (Qnum q) 2048)%bool.
Fixpoint gentleQ (L : Q) (l : list (Q * Q)) : bool :=
  match l with
  | p :: ((q :: _) as r) =>
    (Qle_bool (snd p - snd q) (L * (fst q - fst p)) && gentleQ L r)%bool
  | _ => true
  end.
Lemma gentleQ_R L l : gentleQ L l = true -> gentle (Q2R L) (map pt2R l).
Proof.
  induction l as [|p [|q l] IH]; intros H.
  - intros ? ? C; now apply consecutive_nil in C.
  - intros ? ? C; now apply consecutive_one in C.
  - cbn [gentleQ] in H. apply andb_true_iff in H as [H1 H2].
    intros a b C. cbn [map] in C. apply consecutive_inv in C as [[-> ->]|C].
    + apply Qle_bool_le in H1. cbn. rewrite Q2R_minus, Q2R_mult, Q2R_minus in H1. exact H1.
    + now apply (IH H2).
Qed.
Definition round_facts (m : string) (w : bool) : bool :=
  (forallb (fun p => even_small (fst p)) (limitsQ m w)
   && forallb (fun p => Qle_bool (snd p) (188 # 10)) (limitsQ m w)
   && gentleQ (182 # 1000) (limitsQ m w))%bool.
Lemma round_facts_hold :
  forallb (fun m => round_facts m true && round_facts m false)%bool available_materials = true.
Proof. vm_compute. reflexivity. Qed.

Section Rounded.
  Variables (u : R) (rnd : R -> R).
  Hypothesis Hr : rounding u rnd.
  Notation N := (Num_rounded rnd).
  Let Hu : 0 <= u <= 1/1024. Proof. exact (proj1 Hr). Qed.

  Lemma even_exact q : even_small q = true -> rnd (Q2R q) = Q2R q.
  Proof.
    unfold even_small. intros H. repeat (apply andb_true_iff in H; destruct H as [H ?]).
    apply Pos.eqb_eq in H. destruct q as [n d]. cbn [Qnum Qden] in *. subst d.
    match goal with X : Z.even n = true |- _ => apply Z.even_spec in X; destruct X as (k & ->) end.
    apply Z.leb_le in H0, H1.
    assert (E : Q2R (2 * k # 1) = 2 * rnd (IZR k)).
    { rewrite (rnd_int u rnd Hr) by lia. unfold Q2R. cbn [Qnum Qden]. rewrite mult_IZR. lra. }
    rewrite E. apply (rnd_double u rnd Hr).
  Qed.

  Lemma rnd_nonneg x : 0 <= x -> 0 <= rnd x.
  Proof. intros H. pose proof (rnd_mono u rnd Hr _ _ H) as M. now rewrite (rnd_int u rnd Hr 0) in M by lia. Qed.
  Lemma rnd_nonpos x : x <= 0 -> rnd x <= 0.
  Proof. intros H. pose proof (rnd_mono u rnd Hr _ _ H) as M. now rewrite (rnd_int u rnd Hr 0) in M by lia. Qed.
  Lemma rnd_positive x : 0 < x -> 0 < rnd x.
  Proof.
    intros H. apply (near_pos u Hu 1 x); [|exact H]. apply (rnd_near u rnd Hr), near_refl. exact Hu.
  Qed.

  (** ** One gap of the table *)
  Lemma gap_err M T1 S1 T2 S2 x : T1 < T2 -> T1 <= x <= T2 -> 0 <= S1 <= M -> 0 <= S2 <= M ->
    Rabs (rnd (rnd (rnd (rnd (rnd S2 - rnd S1) / rnd (T2 - T1)) * rnd (x - T1)) + rnd S1)
          - line (T1, S1) (T2, S2) x) <= 13 * u * M.
  Proof.
    intros T X A1 A2.
    assert (N1 : forall S, 0 <= S <= M -> Rabs (rnd S - S) <= u * M).
    { intros S HS. pose proof (rnd_err u rnd Hr S) as E. rewrite (Rabs_pos_eq S) in E by lra. nra. }
    pose proof (N1 S1 A1) as E1. pose proof (N1 S2 A2) as E2.
    set (r := (x - T1) / (T2 - T1)).
    assert (R01 : 0 <= r <= 1).
    { unfold r. split.
      - apply Rmult_le_pos; [lra|]. left. apply Rinv_0_lt_compat. lra.
      - apply Rmult_le_reg_r with (T2 - T1); [lra|]. unfold Rdiv.
        rewrite Rmult_assoc, Rinv_l by lra. lra. }
    assert (P : near u 5 ((rnd S2 - rnd S1) * r)
                  (rnd (rnd (rnd (rnd S2 - rnd S1) / rnd (T2 - T1)) * rnd (x - T1)))).
    { replace ((rnd S2 - rnd S1) * r) with ((rnd S2 - rnd S1) / (T2 - T1) * (x - T1))
        by (unfold r; field; lra).
      change 5%nat with (S (S (1 + 1) + 1)).
      apply (rnd_near u rnd Hr), near_mul; [exact Hu| |].
      - apply (rnd_near u rnd Hr), near_div; [exact Hu| |]; apply (rnd_near u rnd Hr), near_refl; exact Hu.
      - apply (rnd_near u rnd Hr), near_refl; exact Hu. }
    apply (near_err u rnd Hr) in P; [|lia].
    replace (2 * INR 5 * u) with (10 * u) in P by (cbn; ring).
    assert (B : forall a e, Rabs a <= e -> - e <= a <= e)
      by (intros a e; unfold Rabs; destruct (Rcase_abs a); lra).
    apply B in E1, E2.
    assert (uM : 0 <= u * M) by (apply Rmult_le_pos; lra).
    assert (uuM : u * (u * M) <= (1/1024) * (u * M)) by (apply Rmult_le_compat_r; lra).
    assert (D : Rabs ((rnd S2 - rnd S1) * r) <= M + 2 * (u * M)).
    { rewrite Rabs_mult, (Rabs_pos_eq r) by lra.
      assert (Rabs (rnd S2 - rnd S1) <= M + 2 * (u * M)) by (apply Rabs_le; lra).
      pose proof (Rabs_pos (rnd S2 - rnd S1)). nra. }
    set (prod := rnd (rnd (rnd (rnd S2 - rnd S1) / rnd (T2 - T1)) * rnd (x - T1))) in *.
    assert (P' : Rabs (prod - (rnd S2 - rnd S1) * r) <= 10 * (u * M) + 20 * (u * (u * M))).
    { eapply Rle_trans; [exact P|].
      replace (10 * (u * M) + 20 * (u * (u * M))) with (10 * u * (M + 2 * (u * M))) by ring.
      apply Rmult_le_compat_l; lra. }
    apply B in P'.
    set (ln := line (T1, S1) (T2, S2) x).
    assert (EL : ln = S1 * (1 - r) + S2 * r) by (unfold ln, line, r; cbn [fst snd]; field; lra).
    assert (L0 : 0 <= ln <= M) by (rewrite EL; nra).
    assert (C : - (u * M) <= (rnd S2 - rnd S1) * r + rnd S1 - ln <= u * M).
    { rewrite EL.
      replace ((rnd S2 - rnd S1) * r + rnd S1 - (S1 * (1 - r) + S2 * r))
        with ((rnd S1 - S1) * (1 - r) + (rnd S2 - S2) * r) by ring. nra. }
    pose proof (rnd_err u rnd Hr (prod + rnd S1)) as F.
    assert (G : Rabs (prod + rnd S1) <= M + 12 * (u * M)) by (apply Rabs_le; lra).
    assert (F' : Rabs (rnd (prod + rnd S1) - (prod + rnd S1)) <= u * M + 12 * (u * (u * M))).
    { eapply Rle_trans; [exact F|]. replace (u * M + 12 * (u * (u * M))) with (u * (M + 12 * (u * M))) by ring.
      apply Rmult_le_compat_l; lra. }
    apply B in F'. apply Rabs_le. split; nra.
  Qed.

  (** ** np.interp on a rounded table *)
  Definition rounded_pt (p : R * R) : R * R := (fst p, rnd (snd p)).

  Lemma np_from_err M l : forall p x,
    increasing (p :: l) -> (forall q, In q (p :: l) -> 0 <= snd q <= M) -> fst p <= x ->
    Rabs (@np_interp_from R N x (rounded_pt p) (map rounded_pt l) - np_interp_from x p l)
      <= 13 * u * M.
  Proof.
    induction l as [|q l IH]; intros p x I B X.
    - cbn [np_interp_from map]. pose proof (B p (or_introl eq_refl)) as Bp.
      cbn [snd rounded_pt]. pose proof (rnd_err u rnd Hr (snd p)) as E.
      rewrite (Rabs_pos_eq (snd p)) in E by lra. nra.
    - pose proof (increasing_hd _ _ _ I) as Lt. rewrite np_from_unfold by assumption.
      cbn [np_interp_from map]. cbn [nltb Num_rounded]. cbn [rounded_pt fst].
      destruct (Rltb_spec x (fst q)) as [A|A].
      + cbn [nadd nsub nmul ndiv Num_rounded snd fst rounded_pt].
        destruct p as [T1 S1], q as [T2 S2]. cbn [fst snd] in *.
        apply gap_err; try lra.
        * exact (B (T1, S1) (or_introl eq_refl)).
        * exact (B (T2, S2) (or_intror (or_introl eq_refl))).
      + apply IH; [now apply increasing_tl in I| |lra]. intros r Hr'. apply B. now right.
  Qed.
  Lemma interp_err M l x : l <> [] -> increasing l -> (forall q, In q l -> 0 <= snd q <= M) ->
    exists v, @np_interp R N x (map rounded_pt l) = Ok v /\ Rabs (v - interp l x) <= 13 * u * M.
  Proof.
    intros Ne I B. destruct l as [|p l]; [congruence|]. cbn [map np_interp interp].
    eexists. split; [reflexivity|]. cbn [neqb nltb Num_rounded rounded_pt fst].
    rewrite (Reqb_true x x eq_refl); cbn [negb].
    destruct (Rltb_spec x (fst p)) as [A|A].
    - pose proof (B p (or_introl eq_refl)) as Bp. cbn [snd].
      pose proof (rnd_err u rnd Hr (snd p)) as E. rewrite (Rabs_pos_eq (snd p)) in E by lra.
      eapply Rle_trans; [exact E|]. assert (0 <= u * (M - snd p)) by (apply Rmult_le_pos; lra). nra.
    - apply np_from_err; auto; lra.
  Qed.

  (** ** The rounded table of a material *)
  Lemma limits_rounded m w : In m available_materials ->
    @get_pipe_stress_limits R N m w = Ok (map rounded_pt (limits m w))
    /\ @strictly_increasing R N (map fst (map rounded_pt (limits m w))) = true
    /\ (forall q, In q (limits m w) -> 0 <= snd q <= 188/10)
    /\ gentle (182/1000) (limits m w).
  Proof.
    intros I. destruct (stress_ok_of m w I) as [so_col0 so_temp0 so_fill0 so_inc0 so_fall0 so_pos0 so_below0 so_ends0].
    assert (F : round_facts m w = true).
    { pose proof round_facts_hold as H. rewrite forallb_forall in H. specialize (H m I).
      apply andb_true_iff in H as [H1 H2]. now destruct w. }
    unfold round_facts in F. apply andb_true_iff in F as [F F3]. apply andb_true_iff in F as [F1 F2].
    rewrite forallb_forall in F1, F2.
    split; [|split; [|split]].
    - unfold get_pipe_stress_limits. rewrite so_col0. cbn [negb raise_if bind].
      unfold limits, limitsQ. rewrite !map_map. apply mapM_ok. intros r Hrow. unfold numc.
      unfold filled in *. rewrite forallb_forall in so_temp0, so_fill0.
      specialize (so_temp0 r Hrow); specialize (so_fill0 r Hrow).
      assert (E : In (numc (f_cols (MATERIAL_LIMITS w)) r "Temp", numc (f_cols (MATERIAL_LIMITS w)) r m)
                     (limitsQ m w)).
      { unfold limitsQ. apply (in_map (fun r => (numc (f_cols (MATERIAL_LIMITS w)) r "Temp",
                                                  numc (f_cols (MATERIAL_LIMITS w)) r m))). exact Hrow. }
      apply F1 in E. cbn [fst] in E. unfold numc in E.
      destruct (num_cell _ r "Temp") as [qt|]; [|discriminate].
      destruct (num_cell _ r m); [|discriminate].
      cbn [nofQ Num_rounded]. unfold rounded_pt, pt2R. cbn [fst snd]. now rewrite even_exact.
    - rewrite map_map. cbn [rounded_pt fst].
      exact (strictly_increasing_spec _ so_inc0).
    - intros q Hq. split; [now apply so_pos0|]. apply in_map_iff in Hq as (p & <- & Hp).
      specialize (F2 p Hp). apply Qle_bool_le in F2. cbn. revert F2. q2r. lra.
    - apply gentleQ_R in F3. revert F3. unfold limits. replace (Q2R (182 # 1000)) with (182/1000) by (q2r; lra). auto.
  Qed.
  (** ** Temperatures *)
  Lemma base_err_offset m s o s' o' : 0 < s <= 1 -> 0 <= o <= 274 ->
    Rabs (s' - s) <= u * s -> Rabs (o' - o) <= u * o ->
    Rabs (rnd (rnd (m * s') + o') - (m * s + o)) <= 5 * u * (Rabs (m * s + o) + 274).
  Proof.
    intros Hs Ho Es Eo.
    assert (A1 : Rabs (m * s' - m * s) <= u * Rabs (m * s)).
    { replace (m * s' - m * s) with (m * (s' - s)) by ring. rewrite !Rabs_mult, (Rabs_pos_eq s) by lra.
      pose proof (Rabs_pos m). nra. }
    set (a := m * s) in *. set (b := m * s') in *.
    pose proof (rnd_err u rnd Hr b) as A2.
    assert (Bb : Rabs b <= (1 + u) * Rabs a).
    { replace b with ((b - a) + a) by ring. eapply Rle_trans; [apply Rabs_triang|]. lra. }
    assert (Ba : Rabs a <= Rabs (a + o) + o).
    { replace a with ((a + o) + - o) at 1 by ring. eapply Rle_trans; [apply Rabs_triang|].
      rewrite Rabs_Ropp, (Rabs_pos_eq o) by lra. lra. }
    pose proof (Rabs_pos a) as Pa. pose proof (Rabs_pos (a + o)) as Px.
    set (X := Rabs (a + o)) in *. set (Aa := Rabs a) in *.
    assert (uX : 0 <= u * (X + 274)) by (apply Rmult_le_pos; lra).
    assert (uA : 0 <= u * Aa <= u * (X + 274)) by (split; [apply Rmult_le_pos|apply Rmult_le_compat_l]; lra).
    assert (uu : u * (u * Aa) <= (1/1024) * (u * Aa)) by (apply Rmult_le_compat_r; lra).
    assert (A3 : Rabs (rnd b - a) <= 2.001 * (u * (X + 274))).
    { replace (rnd b - a) with ((rnd b - b) + (b - a)) by ring.
      eapply Rle_trans; [apply Rabs_triang|].
      assert (u * Rabs b <= u * ((1 + u) * Aa)) by (apply Rmult_le_compat_l; lra). nra. }
    assert (u274 : u * o <= u * 274) by (apply Rmult_le_compat_l; lra).
    assert (A4 : Rabs (rnd b + o' - (a + o)) <= 2.001 * (u * (X + 274)) + u * 274).
    { replace (rnd b + o' - (a + o)) with ((rnd b - a) + (o' - o)) by ring.
      eapply Rle_trans; [apply Rabs_triang|]. lra. }
    pose proof (rnd_err u rnd Hr (rnd b + o')) as A5.
    assert (A6 : Rabs (rnd b + o') <= X + (2.001 * (u * (X + 274)) + u * 274)).
    { replace (rnd b + o') with ((rnd b + o' - (a + o)) + (a + o)) by ring.
      eapply Rle_trans; [apply Rabs_triang|]. fold X. lra. }
    replace (rnd (rnd b + o') - (a + o)) with ((rnd (rnd b + o') - (rnd b + o')) + (rnd b + o' - (a + o))) by ring.
    eapply Rle_trans; [apply Rabs_triang|].
    assert (A7 : u * Rabs (rnd b + o') <= u * (X + (2.001 * (u * (X + 274)) + u * 274)))
      by (apply Rmult_le_compat_l; lra).
    assert (A8 : u * (u * (X + 274)) <= (1/1024) * (u * (X + 274))) by (apply Rmult_le_compat_r; lra).
    assert (A9 : u * (u * 274) <= (1/1024) * (u * 274)) by (apply Rmult_le_compat_r; nra).
    nra.
  Qed.

  Definition temp_unit_err (v v' : unit_ R) : Prop :=
    u_dim v' = d_temperature /\ 0 < u_scale v' /\
    forall m reg x, worth m v x ->
      Rabs (@base_mag R N (mkQ m v' reg) - x) <= 5 * u * (Rabs x + 274).

  Lemma rnd_lit q : 0 <= Q2R q -> Rabs (rnd (Q2R q) - Q2R q) <= u * Q2R q.
  Proof. intros H. pose proof (rnd_err u rnd Hr (Q2R q)) as E. now rewrite (Rabs_pos_eq (Q2R q)) in E. Qed.

  Lemma kelvin_err : temp_unit_err (@mult_unit R d_temperature (@one R Num_R)) (@mult_unit R d_temperature (@one R N)).
  Proof.
    split; [reflexivity|]. split; [cbn [mult_unit u_scale]; rewrite (one_rnd u rnd Hr); lra|].
    intros m reg x W. unfold worth in W. cbn in W. subst x.
    unfold base_mag. cbn [mult_unit u_off q_unit q_mag u_scale nmul Num_rounded].
    rewrite (one_rnd u rnd Hr), one_R, Rmult_1_r, Rplus_0_r.
    pose proof (rnd_err u rnd Hr m) as E. pose proof (Rabs_pos m). nra.
  Qed.
  Lemma offset_err (s o : Q) : 0 < Q2R s <= 1 -> 0 <= Q2R o <= 274 ->
    temp_unit_err (mkUnit d_temperature (@nofQ R Num_R s) (Some (@nofQ R Num_R o)))
                  (mkUnit d_temperature (@nofQ R N s) (Some (@nofQ R N o))).
  Proof.
    intros Hs Ho. split; [reflexivity|].
    split; [cbn [u_scale nofQ Num_rounded]; apply rnd_positive; lra|]. intros m reg x W. unfold worth in W.
    cbn [u_scale u_off nofQ Num_R] in W. subst x.
    unfold base_mag. cbn [u_off q_unit q_mag u_scale nmul nadd nofQ Num_rounded].
    apply base_err_offset; try assumption; apply rnd_lit; lra.
  Qed.

  Lemma temp_units name v : @lookup_unit R Num_R name = Some v -> u_dim v = d_temperature ->
    exists v', @lookup_unit R N name = Some v' /\ temp_unit_err v v'.
  Proof.
    intros L D.
    assert (F : Forall2 (fun a b => fst a = fst b /\ (u_dim (snd a) = d_temperature -> temp_unit_err (snd a) (snd b)))
                  (@unit_table R Num_R) (@unit_table R N)).
    { unfold unit_table.
      repeat (apply Forall2_cons; [split; [reflexivity|]; cbn [snd mult_unit u_dim]; try discriminate; intros _|]);
        try apply Forall2_nil; try apply kelvin_err;
        try (apply offset_err; q2r; lra). }
    unfold lookup_unit in *. induction F as [|[k1 v1] [k2 v2] l1 l2 (K & V) F IH]; [discriminate|].
    cbn [assoc fst snd] in *. subst k2. destruct (String.eqb k1 name); [|now apply IH].
    injection L as ->. exists v2. auto.
  Qed.

  Lemma abs_bounds a e : Rabs a <= e -> - e <= a <= e.
  Proof. unfold Rabs; destruct (Rcase_abs a); lra. Qed.
  Lemma dist_split a b c : Rabs (a - c) <= Rabs (a - b) + Rabs (b - c).
  Proof. replace (a - c) with ((a - b) + (b - c)) by ring. apply Rabs_triang. Qed.

  Lemma back_to_F t b : Rabs (b - fahrenheit t) <= 5 * u * (Rabs (fahrenheit t) + 274) ->
    Rabs (rnd (rnd (b - rnd (45967/180)) / rnd (5/9)) - t) <= u * (11 * Rabs t + 6000).
  Proof.
    intros E.
    assert (Fx : Rabs (fahrenheit t) <= 5/9 * Rabs t + 256).
    { unfold fahrenheit. replace ((t + 45967 / 100) * (5 / 9)) with (5/9 * t + 45967/180) by field.
      eapply Rle_trans; [apply Rabs_triang|]. rewrite Rabs_mult, (Rabs_pos_eq (5/9)), (Rabs_pos_eq (45967/180)) by lra. lra. }
    pose proof (Rabs_pos t) as Pt. set (a := Rabs t) in *.
    assert (ua : 0 <= u * a) by (apply Rmult_le_pos; lra).
    assert (E0 : Rabs (b - fahrenheit t) <= 2.78 * (u * a) + 2650 * u) by nra.
    clear E Fx.
    pose proof (rnd_err u rnd Hr (45967/180)) as Eo. rewrite (Rabs_pos_eq (45967/180)) in Eo by lra.
    set (o' := rnd (45967/180)) in *.
    assert (E1 : Rabs (b - o' - 5/9 * t) <= 2.78 * (u * a) + 2906 * u).
    { replace (b - o' - 5/9 * t) with ((b - fahrenheit t) + - (o' - 45967/180)) by (unfold fahrenheit; field).
      eapply Rle_trans; [apply Rabs_triang|]. rewrite Rabs_Ropp. lra. }
    assert (uu : u * (u * a) <= (1/1024) * (u * a)) by (apply Rmult_le_compat_r; lra).
    assert (u2 : u * u <= (1/1024) * u) by (apply Rmult_le_compat_r; lra).
    assert (At : Rabs (5/9 * t) = 5/9 * a) by (rewrite Rabs_mult, (Rabs_pos_eq (5/9)) by lra; reflexivity).
    assert (E2 : Rabs (b - o') <= 5/9 * a + (2.78 * (u * a) + 2906 * u)).
    { pose proof (dist_split (b - o') (5/9 * t) 0) as D. rewrite !Rminus_0_r in D. lra. }
    pose proof (rnd_err u rnd Hr (b - o')) as E3. set (w := rnd (b - o')) in *.
    assert (E4 : Rabs (w - 5/9 * t) <= 3.35 * (u * a) + 2910 * u).
    { pose proof (dist_split w (b - o') (5/9 * t)).
      assert (u * Rabs (b - o') <= u * (5/9 * a + (2.78 * (u * a) + 2906 * u))) by (apply Rmult_le_compat_l; lra).
      nra. }
    assert (P : near u 2 (w / (5/9)) (rnd (w / rnd (5/9)))).
    { change 2%nat with (S (0 + 1)). apply (rnd_near u rnd Hr), near_div; [exact Hu|apply near_refl; exact Hu|].
      apply (rnd_near u rnd Hr), near_refl; exact Hu. }
    apply (near_err u rnd Hr) in P; [|lia]. replace (2 * INR 2 * u) with (4 * u) in P by (cbn; ring).
    assert (E5 : Rabs (w / (5/9) - t) <= 6.03 * (u * a) + 5240 * u).
    { replace (w / (5/9) - t) with (9/5 * (w - 5/9 * t)) by field.
      rewrite Rabs_mult, (Rabs_pos_eq (9/5)) by lra. lra. }
    assert (E6 : Rabs (w / (5/9)) <= a + (6.03 * (u * a) + 5240 * u)).
    { pose proof (dist_split (w / (5/9)) t 0) as D. rewrite !Rminus_0_r in D. fold a in D. lra. }
    pose proof (dist_split (rnd (w / rnd (5/9))) (w / (5/9)) t).
    assert (4 * u * Rabs (w / (5/9)) <= 4 * u * (a + (6.03 * (u * a) + 5240 * u))) by (apply Rmult_le_compat_l; lra).
    nra.
  Qed.

  Lemma interp_temp m w t t' : In m available_materials ->
    Rabs (t' - t) <= u * (11 * Rabs t + 6000) ->
    Rabs (interp (limits m w) t' - interp (limits m w) t) <= 3700 * u.
  Proof.
    intros I E. destruct (stress_ok_of m w I) as [so_col0 so_temp0 so_fill0 so_inc0 so_fall0 so_pos0 so_below0 so_ends0].
    destruct (limits_rounded m w I) as (_ & _ & _ & G).
    destruct so_ends0 as (p & q & mid & El & F1 & F2).
    assert (Ne : limits m w <> []) by (rewrite El; discriminate).
    destruct (Rle_or_lt (Rabs t) 1300) as [S0|S0].
    - eapply Rle_trans; [apply (interp_dist (182/1000)); auto; lra|].
      assert (u * (11 * Rabs t + 6000) <= u * 20300) by (apply Rmult_le_compat_l; lra). lra.
    - assert (Ex : interp (limits m w) t' = interp (limits m w) t).
      { assert (B1 : u * (11 * Rabs t + 6000) <= 1/1024 * (11 * Rabs t + 6000)) by (apply Rmult_le_compat_r; lra).
        assert (B2 : Rabs (t' - t) <= 1/1024 * (11 * Rabs t + 6000)) by lra.
        apply abs_bounds in B2. rewrite El in so_inc0 |- *.
        unfold Rabs in S0, B2. destruct (Rcase_abs t) as [Neg|Pos].
        - rewrite (interp_low p _ t'), (interp_low p _ t) by (assumption || lra). reflexivity.
        - change (p :: mid ++ [q]) with ((p :: mid) ++ [q]) in *.
          rewrite (interp_high _ q t'), (interp_high _ q t) by (assumption || lra). reflexivity. }
      rewrite Ex, Rminus_diag_eq, Rabs_R0 by reflexivity. lra.
  Qed.

  (** ** calculate_max_stress *)
  Definition in_F (v : unit_ R) (a : R) : R :=
    rnd (rnd (@base_mag R N (mkQ a v 0) - rnd (45967/180)) / rnd (5/9)).

  Lemma in_F_mono v a b : 0 < u_scale v -> a <= b -> in_F v a <= in_F v b.
  Proof.
    intros P L. unfold in_F. apply (rnd_mono u rnd Hr). unfold Rdiv.
    apply Rmult_le_compat_r; [left; apply Rinv_0_lt_compat, rnd_positive; lra|].
    apply (rnd_mono u rnd Hr). apply Rplus_le_compat_r.
    unfold base_mag. cbn [q_unit q_mag]. cbn [nmul nadd Num_rounded].
    assert (H : rnd (a * u_scale v) <= rnd (b * u_scale v)) by (apply (rnd_mono u rnd Hr); nra).
    destruct (u_off v); [apply (rnd_mono u rnd Hr); lra|exact H].
  Qed.

  Lemma stress_steps m w a name reg i t :
    In m available_materials ->
    denotes (PSeq [ENum a; EStr name]) d_temperature (fahrenheit t) ->
    given rnd i a name ->
    exists v' q', @lookup_unit R N name = Some v' /\ 0 < u_scale v'
      /\ Rabs (in_F v' a - t) <= u * (11 * Rabs t + 6000)
      /\ @calculate_max_stress R N i m w reg = Ok q'
      /\ @np_interp R N (in_F v' a) (map rounded_pt (limits m w)) = Ok (q_mag q')
      /\ @lookup_unit R N "ksi" = Some (q_unit q') /\ q_reg q' = reg.
  Proof.
    intros I D G.
    assert (L : exists v, @lookup_unit R Num_R name = Some v /\ u_dim v = d_temperature
                          /\ worth a v (fahrenheit t)).
    { inversion D as [|m0 s0 v0 d0 x0 L0 D0 W0]; subst. eauto. }
    destruct L as (v & L & Dv & W).
    destruct (temp_units name v L Dv) as (v' & L' & Dv' & Pv & Ev).
    assert (F : Rabs (in_F v' a - t) <= u * (11 * Rabs t + 6000)).
    { unfold in_F. apply back_to_F. apply Ev. exact W. }
    destruct (limits_rounded m w I) as (E1 & E2 & B & _).
    destruct (stress_ok_of m w I) as [so_col0 so_temp0 so_fill0 so_inc0 so_fall0 so_pos0 so_below0 so_ends0].
    assert (Ne : limits m w <> []).
    { destruct so_ends0 as (p & q & mid & El & _). rewrite El. discriminate. }
    destruct (interp_err (188/10) (limits m w) (in_F v' a) Ne so_inc0 B) as (s & Es & Hs).
    destruct (@lookup_unit R N "ksi") as [ku|] eqn:K; [|exfalso; cbv in K; discriminate].
    exists v', (mkQ s ku reg). split; [exact L'|]. split; [exact Pv|]. split; [exact F|].
    split; [|split; [exact Es|split; reflexivity]].
    unfold calculate_max_stress.
    assert (P : @parse_quant_input R N i reg = Ok (mkQ a v' reg)).
    { destruct G as [-> | ([gm gu gr] & -> & Gm & Gl)].
      - cbn [parse_quant_input quantity_of_items]. unfold quant. now rewrite L'.
      - cbn [q_mag q_unit] in Gm, Gl. cbn [parse_quant_input q_mag q_unit]. congruence. }
    rewrite P. cbn [bind]. rewrite E1. cbn [bind]. rewrite E2. cbn [negb raise_if bind].
    assert (T : exists tF, @q_to_str R N (mkQ a v' reg) "degF" = Ok tF /\ q_mag tF = in_F v' a).
    { unfold q_to_str.
      replace (@lookup_unit R N "degF") with
        (Some (@mkUnit R d_temperature (@nofQ R N (5#9)) (Some (@nofQ R N (45967#180)))))
        by reflexivity.
      unfold q_to. cbn [u_dim q_unit]. rewrite Dv', dim_eqb_refl.
      eexists. split; [reflexivity|]. cbn [q_mag u_off u_scale ndiv nsub nofQ Num_rounded]. unfold in_F.
      replace (Q2R (5#9)) with (5/9) by (q2r; lra).
      replace (Q2R (45967#180)) with (45967/180) by (q2r; lra). reflexivity. }
    destruct T as (tF & -> & ET). cbn [bind]. rewrite ET, Es. cbn [bind].
    unfold quant. now rewrite K.
  Qed.

  Lemma stress_rounded m w a name t reg i :
    In m available_materials ->
    denotes (PSeq [ENum a; EStr name]) d_temperature (fahrenheit t) ->
    given rnd i a name ->
    exists q', @calculate_max_stress R N i m w reg = Ok q'
      /\ @lookup_unit R N "ksi" = Some (q_unit q') /\ q_reg q' = reg
      /\ Rabs (q_mag q' - interp (limits m w) t) <= 4000 * u.
  Proof.
    intros I D G.
    destruct (stress_steps m w a name reg i t I D G) as (v' & q' & _ & _ & F & E & Es & K & Rg).
    exists q'. repeat split; try assumption.
    destruct (limits_rounded m w I) as (_ & _ & B & _).
    destruct (stress_ok_of m w I) as [so_col0 so_temp0 so_fill0 so_inc0 so_fall0 so_pos0 so_below0 so_ends0].
    assert (Ne : limits m w <> []).
    { destruct so_ends0 as (p & q & mid & El & _). rewrite El. discriminate. }
    destruct (interp_err (188/10) (limits m w) (in_F v' a) Ne so_inc0 B) as (s & Es' & Hs).
    assert (s = q_mag q') by congruence. subst s.
    pose proof (interp_temp m w t (in_F v' a) I F) as H.
    pose proof (dist_split (q_mag q') (interp (limits m w) (in_F v' a)) (interp (limits m w) t)). lra.
  Qed.

  (** ** Order inside a gap *)
  Definition gap_formula (p q : R * R) (x : R) : R :=
    rnd (rnd (rnd (rnd (rnd (snd q) - rnd (snd p)) / rnd (fst q - fst p)) * rnd (x - fst p)) + rnd (snd p)).

  Lemma np_from_gap l : forall a p q x,
    increasing (a :: l) -> consecutive (a :: l) p q -> fst p <= x < fst q ->
    @np_interp_from R N x (rounded_pt a) (map rounded_pt l) = gap_formula p q x.
  Proof.
    induction l as [|b l IH]; intros a p q x I C X; [now apply consecutive_one in C|].
    pose proof (increasing_hd _ _ _ I) as Lt.
    cbn [map np_interp_from]. cbn [nltb Num_rounded rounded_pt fst].
    apply consecutive_inv in C as [[-> ->]|C].
    - rewrite Rltb_true by lra. reflexivity.
    - assert (fst b <= fst p).
      { destruct C as ([|b' pre] & post & E); cbn in E; injection E as E1 E2.
        - subst; lra.
        - subst b'. left. apply (increasing_all _ _ (increasing_tl _ _ I)).
          rewrite E2. apply in_or_app; right; left; reflexivity. }
      rewrite Rltb_false by lra. apply IH; auto. now apply increasing_tl in I.
  Qed.
  Lemma interp_gap l p q x : increasing l -> consecutive l p q -> fst p <= x < fst q ->
    @np_interp R N x (map rounded_pt l) = Ok (gap_formula p q x).
  Proof.
    intros I C X. destruct l as [|a l]; [now apply consecutive_nil in C|].
    cbn [map np_interp neqb nltb Num_rounded rounded_pt fst].
    rewrite (Reqb_true x x eq_refl); cbn [negb].
    assert (fst a <= fst p).
    { destruct C as ([|b' pre] & post & E); cbn in E; injection E as E1 E2.
      - subst; lra.
      - subst b'. left. apply (increasing_all _ _ I). rewrite E2. apply in_or_app; right; left; reflexivity. }
    rewrite Rltb_false by lra. f_equal. now apply np_from_gap.
  Qed.
  Lemma gap_falls p q x y : fst p < fst q -> snd q <= snd p -> x <= y ->
    gap_formula p q y <= gap_formula p q x.
  Proof.
    intros T S0 X. unfold gap_formula.
    assert (Sl : rnd (rnd (rnd (snd q) - rnd (snd p)) / rnd (fst q - fst p)) <= 0).
    { apply rnd_nonpos. unfold Rdiv.
      assert (A : rnd (rnd (snd q) - rnd (snd p)) <= 0).
      { apply rnd_nonpos. pose proof (rnd_mono u rnd Hr _ _ S0). lra. }
      assert (B : 0 < / rnd (fst q - fst p)) by (apply Rinv_0_lt_compat, rnd_positive; lra). nra. }
    set (sl := rnd (rnd (rnd (snd q) - rnd (snd p)) / rnd (fst q - fst p))) in *.
    apply (rnd_mono u rnd Hr). apply Rplus_le_compat_r.
    apply (rnd_mono u rnd Hr).
    assert (rnd (x - fst p) <= rnd (y - fst p)) by (apply (rnd_mono u rnd Hr); lra). nra.
  Qed.

  Lemma stress_gap m w a1 a2 name t1 t2 reg i1 i2 p q :
    In m available_materials -> consecutive (limits m w) p q ->
    denotes (PSeq [ENum a1; EStr name]) d_temperature (fahrenheit t1) ->
    denotes (PSeq [ENum a2; EStr name]) d_temperature (fahrenheit t2) ->
    given rnd i1 a1 name -> given rnd i2 a2 name -> a1 <= a2 ->
    fst p + 20000 * u <= t1 -> t2 < fst q - 20000 * u ->
    -20 <= fst p -> fst q <= 1200 -> t1 <= t2 ->
    exists q1 q2, @calculate_max_stress R N i1 m w reg = Ok q1
      /\ @calculate_max_stress R N i2 m w reg = Ok q2 /\ q_mag q2 <= q_mag q1.
  Proof.
    intros I C D1 D2 G1 G2 La L1 L2 R1 R2 Lt.
    destruct (stress_steps m w a1 name reg i1 t1 I D1 G1) as (v1 & q1 & K1 & P1 & F1 & E1 & S1 & _).
    destruct (stress_steps m w a2 name reg i2 t2 I D2 G2) as (v2 & q2 & K2 & P2 & F2 & E2 & S2 & _).
    assert (v2 = v1) by congruence. subst v2.
    exists q1, q2. split; [exact E1|]. split; [exact E2|].
    destruct (stress_ok_of m w I) as [so_col0 so_temp0 so_fill0 so_inc0 so_fall0 so_pos0 so_below0 so_ends0].
    assert (M : in_F v1 a1 <= in_F v1 a2) by now apply in_F_mono.
    assert (Sm : forall t, -20 <= t <= 1200 -> u * (11 * Rabs t + 6000) <= 20000 * u).
    { intros t Ht. assert (Rabs t <= 1200) by (apply Rabs_le; lra).
      replace (20000 * u) with (u * 20000) by ring. apply Rmult_le_compat_l; lra. }
    pose proof (Sm t1 ltac:(lra)) as X1. pose proof (Sm t2 ltac:(lra)) as X2.
    apply abs_bounds in F1, F2.
    rewrite (interp_gap _ p q) in S1 by (assumption || lra).
    rewrite (interp_gap _ p q) in S2 by (assumption || lra).
    injection S1 as <-. injection S2 as <-.
    apply gap_falls; [apply so_inc0; exact C|apply so_fall0; exact C|exact M].
  Qed.
End Rounded.
