(** * RoundFlangeP: flange ratings under rounding. *)
From Coq Require Import String ZArith QArith Reals Qreals List Bool Lra Lia Psatz.
From Verif Require Import PyBase Pint UnitsM Spec QLemmas Csv TableSpec Tables Interp InterpP
  NumQ StressP PipeP FlangeM FlangeP RoundM RoundSpec RoundTempSpec RoundP RoundDdtP RoundStressP.
Import ListNotations.
Local Open Scope R_scope.
Local Opaque TUBE_MATERIALS FLANGE_LIMITS.

(** ** Facts about the shipped tables *)
Definition small_int (q : Q) : bool :=
  (Pos.eqb (Qden q) 1 && Z.leb (-29) (Qnum q) && Z.leb (Qnum q) 816)%bool.
Fixpoint apartQ (l : list (Q * Q)) : bool :=
  match l with
  | p :: ((q :: _) as r) => (Qle_bool (fst p + 12) (fst q) && apartQ r)%bool
  | _ => true
  end.
Definition flange_round_facts (m : string) : bool :=
  match group_of m with
  | Ok g => match FLANGE_LIMITS g with
            | Ok tab => forallb (fun c =>
                forallb (fun p => small_int (fst p) && Qle_bool (snd p) (4137 # 10))%bool (rawpts tab c)
                && apartQ (rawpts tab c) && gentleQ (14 # 10) (rawpts tab c))%bool class_names
            | Err _ => false
            end
  | Err _ => false
  end.
Lemma flange_round_facts_hold : forallb flange_round_facts available_materials = true.
Proof. vm_compute. reflexivity. Qed.

Lemma apart_TP l : apartQ l = true -> forall p q, consecutive (map ptTP l) p q -> fst p + 12 <= fst q.
Proof.
  induction l as [|p [|q l] IH]; intros H a b C; cbn [map] in C.
  - now apply consecutive_nil in C.
  - now apply consecutive_one in C.
  - cbn [apartQ] in H. apply andb_true_iff in H as [H1 H2].
    apply consecutive_inv in C as [[-> ->]|C]; [|now apply IH].
    apply Qle_bool_le in H1. rewrite Q2R_plus in H1. replace (Q2R 12) with 12 in H1 by (q2r; lra).
    unfold ptTP, celsius. cbn [fst]. lra.
Qed.
Lemma gentle_TP l : gentleQ (14 # 10) l = true -> gentle 140000 (map ptTP l).
Proof.
  induction l as [|p [|q l] IH]; intros H a b C; cbn [map] in C.
  - now apply consecutive_nil in C.
  - now apply consecutive_one in C.
  - cbn [gentleQ] in H. apply andb_true_iff in H as [H1 H2].
    apply consecutive_inv in C as [[-> ->]|C]; [|now apply IH].
    apply Qle_bool_le in H1. rewrite Q2R_minus, Q2R_mult, Q2R_minus in H1.
    replace (Q2R (14 # 10)) with 1.4 in H1 by (q2r; lra).
    unfold ptTP, celsius. cbn [fst snd]. lra.
Qed.

Record curve_ok (tab : flange_table) (c : string) : Prop := {
  co_small : forall p, In p (rawpts tab c) -> small_int (fst p) = true /\ Q2R (snd p) <= 413.7;
  co_apart : forall p q, consecutive (curve tab c) p q -> fst p + 12 <= fst q;
  co_gentle : gentle 140000 (curve tab c) }.
Lemma curve_ok_of m f tab c : rates m f tab -> In c class_names -> curve_ok tab c.
Proof.
  intros H Ic. destruct (ra_group _ _ _ H) as (g & G & L).
  pose proof flange_round_facts_hold as F. rewrite forallb_forall in F.
  specialize (F m (ra_in _ _ _ H)). unfold flange_round_facts in F. rewrite G, L in F.
  rewrite forallb_forall in F. specialize (F c Ic).
  apply andb_true_iff in F as [F F3]. apply andb_true_iff in F as [F1 F2].
  rewrite forallb_forall in F1. constructor.
  - intros p Hp. specialize (F1 p Hp). apply andb_true_iff in F1 as [A B]. split; [exact A|].
    apply Qle_bool_le in B. revert B. q2r. lra.
  - now apply apart_TP.
  - now apply gentle_TP.
Qed.

Section Rounded.
  Variables (u : R) (rnd : R -> R).
  Hypothesis Hr : rounding u rnd.
  Hypothesis Hs : u <= 1/1000000.
  Notation N := (Num_rounded rnd).
  Let Hu : 0 <= u <= 1/1024. Proof. exact (proj1 Hr). Qed.

  Definition roundTP (p : Q * Q) : R * R := (@temp_base R N (fst p), @press_base R N (snd p)).

  Lemma press_near q : near u 3 (Q2R q * 100000) (@press_base R N q).
  Proof.
    unfold press_base. change 3%nat with (S (1 + 1)). apply (nmul_near u rnd Hr).
    - apply (lit_near u rnd Hr).
    - pose proof (lit_near u rnd Hr 100000) as H. replace (Q2R 100000) with 100000 in H by (q2r; lra). exact H.
  Qed.
  Definition degC : unit_ R := mkUnit d_temperature (@nofQ R N 1) (Some (@nofQ R N (27315#100))).
  Lemma temp_base_degC q reg : small_int q = true ->
    @temp_base R N q = @base_mag R N (mkQ (Q2R q) degC reg).
  Proof.
    intros H. unfold temp_base, base_mag, degC. cbn [q_unit u_off q_mag u_scale].
    unfold small_int in H. repeat (apply andb_true_iff in H; destruct H as [H ?]).
    apply Pos.eqb_eq in H. destruct q as [n d]. cbn [Qnum Qden] in *. subst d.
    apply Z.leb_le in H0, H1.
    assert (E : @nofQ R N (n # 1) = Q2R (n # 1)).
    { cbn [nofQ Num_rounded]. replace (Q2R (n # 1)) with (IZR n) by (unfold Q2R; cbn; lra).
      apply (rnd_int u rnd Hr). lia. }
    now rewrite E.
  Qed.
  Lemma small_range q : small_int q = true -> -29 <= Q2R q <= 816.
  Proof.
    intros H. unfold small_int in H. repeat (apply andb_true_iff in H; destruct H as [H ?]).
    apply Pos.eqb_eq in H. destruct q as [n d]. cbn [Qnum Qden] in *. subst d.
    apply Z.leb_le in H0, H1. replace (Q2R (n # 1)) with (IZR n) by (unfold Q2R; cbn; lra).
    split; apply IZR_le; lia.
  Qed.
  Lemma degC_err : temp_unit_err u rnd (mkUnit d_temperature (@nofQ R Num_R 1) (Some (@nofQ R Num_R (27315#100)))) degC.
  Proof. apply (offset_err u rnd Hr); q2r; lra. Qed.
  Lemma temp_base_err q : small_int q = true ->
    Rabs (@temp_base R N q - celsius (Q2R q)) <= 6820 * u.
  Proof.
    intros H. rewrite (temp_base_degC q 0 H). destruct degC_err as (_ & _ & E).
    pose proof (small_range q H) as B.
    eapply Rle_trans; [apply E|].
    - unfold worth. cbn [u_scale u_off]. unfold celsius. rnum. q2r. lra.
    - unfold celsius. rewrite Rabs_pos_eq by lra. nra.
  Qed.

  (** ** One gap *)
  Definition spline_gap (p q : R * R) (x : R) : R :=
    rnd (rnd (rnd (rnd (fst q - x) / rnd (fst q - fst p)) * snd p)
         + rnd (rnd (rnd (x - fst p) / rnd (fst q - fst p)) * snd q)).

  Lemma spline_gap_err M (p q p' q' : R * R) x e :
    fst p < fst q -> fst p' < fst q' -> fst p' <= x <= fst q' ->
    Rabs (fst p' - fst p) <= e -> Rabs (fst q' - fst q) <= e ->
    0 <= snd p <= M -> 0 <= snd q <= M ->
    near u 3 (snd p) (snd p') -> near u 3 (snd q) (snd q') ->
    exists y, fst p <= y <= fst q /\ Rabs (y - x) <= e
      /\ Rabs (spline_gap p' q' x - line p q y) <= 16 * u * M.
  Proof.
    intros T T' X Ep Eq Mp Mq Np Nq.
    set (r := (x - fst p') / (fst q' - fst p')).
    assert (D : 0 < fst q' - fst p') by lra.
    assert (R01 : 0 <= r <= 1).
    { unfold r. split.
      - apply Rmult_le_pos; [lra|]. left. now apply Rinv_0_lt_compat.
      - apply Rmult_le_reg_r with (fst q' - fst p'); [lra|]. unfold Rdiv.
        rewrite Rmult_assoc, Rinv_l by lra. lra. }
    exists (fst p + r * (fst q - fst p)). split; [nra|]. split.
    - assert (Ex : x = fst p' + r * (fst q' - fst p')) by (unfold r; field; lra).
      rewrite Ex at 1.
      apply abs_bounds in Ep, Eq. apply Rabs_le.
      replace (fst p + r * (fst q - fst p) - (fst p' + r * (fst q' - fst p')))
        with ((1 - r) * - (fst p' - fst p) + r * - (fst q' - fst q)) by ring.
      set (a := fst p' - fst p) in *. set (b := fst q' - fst q) in *. nra.
    - assert (Ln : line p q (fst p + r * (fst q - fst p)) = (1 - r) * snd p + r * snd q).
      { unfold line. replace ((fst p + r * (fst q - fst p) - fst p) / (fst q - fst p)) with r by (field; lra). ring. }
      rewrite Ln.
      assert (P : near u 8 ((1 - r) * snd p + r * snd q) (spline_gap p' q' x)).
      { unfold spline_gap. apply (rnd_near u rnd Hr), near_add; try exact Hu; try (apply Rmult_le_pos; lra).
        - change 7%nat with (S (3 + 3)). apply (rnd_near u rnd Hr), near_mul; [exact Hu| |exact Np].
          replace (1 - r) with ((fst q' - x) / (fst q' - fst p')) by (unfold r; field; lra).
          change 3%nat with (S (1 + 1)). apply (rnd_near u rnd Hr), near_div; [exact Hu| |];
            apply (rnd_near u rnd Hr), near_refl; exact Hu.
        - change 7%nat with (S (3 + 3)). apply (rnd_near u rnd Hr), near_mul; [exact Hu| |exact Nq].
          unfold r. change 3%nat with (S (1 + 1)). apply (rnd_near u rnd Hr), near_div; [exact Hu| |];
            apply (rnd_near u rnd Hr), near_refl; exact Hu. }
      apply (near_err u rnd Hr) in P; [|lia]. replace (2 * INR 8 * u) with (16 * u) in P by (cbn; ring).
      eapply Rle_trans; [exact P|]. apply Rmult_le_compat_l; [lra|].
      rewrite Rabs_pos_eq by nra. nra.
  Qed.

  (** ** The whole table *)
  Definition close_pt (e M : R) (p p' : R * R) : Prop :=
    Rabs (fst p' - fst p) <= e /\ 0 <= snd p <= M /\ near u 3 (snd p) (snd p').

  Lemma spline_err e M rest rest' : forall p p' x,
    close_pt e M p p' -> Forall2 (close_pt e M) rest rest' -> rest <> [] ->
    increasing (p :: rest) -> increasing (p' :: rest') ->
    fst p' <= x -> x <= fst (last rest' p') ->
    exists y, fst p <= y /\ Rabs (y - x) <= e
      /\ Rabs (@spline1 R N x p' rest' - np_interp_from y p rest) <= 16 * u * M.
  Proof.
    intros p p' x Cp F. revert p p' x Cp.
    induction F as [|q q' rest rest' Cq F IH]; intros p p' x Cp Ne I I' X1 X2; [congruence|].
    pose proof (increasing_hd _ _ _ I) as L. pose proof (increasing_hd _ _ _ I') as L'.
    assert (Gap : x <= fst q' -> exists y, fst p <= y /\ Rabs (y - x) <= e
              /\ Rabs (spline_gap p' q' x - np_interp_from y p (q :: rest)) <= 16 * u * M).
    { intros Xq. destruct Cp as (A1 & A2 & A3), Cq as (B1 & B2 & B3).
      destruct (spline_gap_err M p q p' q' x e L L' ltac:(lra) A1 B1 A2 B2 A3 B3) as (y & Y1 & Y2 & Y3).
      exists y. split; [lra|]. split; [exact Y2|].
      rewrite (np_from_line _ _ y p q I (consecutive_hd _ _ _) Y1). exact Y3. }
    cbn [spline1]. destruct rest' as [|r' rest'].
    - cbn [last] in X2. cbn [neqb Num_rounded]. rewrite Reqb_false by lra. exact (Gap X2).
    - cbn [nleb Num_rounded]. destruct (Rleb_spec (fst q') x) as [B|B].
      + destruct rest as [|r rest]; [inversion F|].
        destruct (IH q q' x Cq) as (y & Y1 & Y2 & Y3); try discriminate.
        * now apply increasing_tl in I.
        * now apply increasing_tl in I'.
        * exact B.
        * assert (E : forall (d d' : R * R) l a, last (a :: l) d = last (a :: l) d').
          { intros d d' l; induction l as [|b l IHl]; intros a; [reflexivity|].
            change (last (b :: l) d = last (b :: l) d'). apply IHl. }
          change (last (q' :: r' :: rest') p') with (last (r' :: rest') p') in X2.
          now rewrite (E q' p').
        * exists y. split; [lra|]. split; [exact Y2|].
          rewrite np_from_unfold, Rltb_false by lra. exact Y3.
      + exact (Gap ltac:(lra)).
  Qed.

  (** ** The rounded curve of a class *)
  Definition rcurve (tab : flange_table) (c : string) : list (R * R) := map roundTP (rawpts tab c).

  Lemma rcurve_close tab c : curve_ok tab c -> (forall p, In p (curve tab c) -> 0 <= snd p) ->
    Forall2 (close_pt (6820 * u) 41370000) (curve tab c) (rcurve tab c).
  Proof.
    intros Co Pos. unfold curve, rcurve in *. pose proof (co_small _ _ Co) as Sm. clear Co.
    induction (rawpts tab c) as [|p l IH]; [constructor|]. cbn [map]. constructor.
    - destruct (Sm p (or_introl eq_refl)) as (S1 & S2). repeat split.
      + cbn [roundTP ptTP fst]. now apply temp_base_err.
      + apply Pos. now left.
      + cbn [ptTP snd]. lra.
      + cbn [roundTP ptTP snd]. apply press_near.
    - apply IH; [intros q Hq; apply Pos; now right|intros q Hq; apply Sm; now right].
  Qed.
  Lemma rcurve_increasing tab c : curve_ok tab c -> increasing (rcurve tab c).
  Proof.
    intros Co p' q' C. unfold rcurve in C.
    apply consecutive_map_inv in C as (p & q & C & -> & ->).
    assert (In p (rawpts tab c) /\ In q (rawpts tab c)) as [Ip Iq].
    { destruct C as (b & a & ->). split; apply in_app_iff; right; [now left|right; now left]. }
    pose proof (co_apart _ _ Co _ _ (consecutive_map ptTP _ _ _ C)) as A. cbn [ptTP fst] in A.
    destruct (co_small _ _ Co p Ip) as (S1 & _), (co_small _ _ Co q Iq) as (S2 & _).
    apply temp_base_err in S1, S2. apply abs_bounds in S1, S2. cbn [roundTP fst]. lra.
  Qed.
  Lemma rcurve_pts tab c : ffilled tab "Temperature" = true -> ffilled tab c = true ->
    combine (@temps_base R N tab) (@press_column R N tab c) = rcurve tab c.
  Proof.
    intros H1 H2. unfold temps_base, press_column, rcurve, rawpts.
    rewrite !column_filled by assumption. rewrite !map_map, combine_map2. reflexivity.
  Qed.
  Lemma rcurve_temps tab c : ffilled tab "Temperature" = true ->
    @temps_base R N tab = map fst (rcurve tab c).
  Proof.
    intros H. unfold temps_base, rcurve, rawpts. rewrite column_filled by assumption.
    rewrite !map_map. reflexivity.
  Qed.

  Lemma rating_rounded strict tab c p0' l' x' : flange_ok tab -> In c class_names ->
    curve_ok tab c -> rcurve tab c = p0' :: l' ->
    fst p0' <= x' -> x' <= fst (last (p0' :: l') p0') ->
    exists v, @rating R N strict tab c x' = Ok v
      /\ forall x, Rabs (x' - x) <= 6820 * u ->
         Rabs (v - interp (curve tab c) x) <= 2600000000 * u.
  Proof.
    intros F Ic Co E X1 X2.
    pose proof (rcurve_close tab c Co (fo_pos _ F c Ic)) as Cl.
    pose proof (rcurve_increasing tab c Co) as I'.
    assert (Len : (3 <= length (rcurve tab c))%nat).
    { unfold rcurve. rewrite map_length. apply (fo_len _ F c Ic). }
    assert (I : increasing (curve tab c)) by (apply F; exact Ic).
    assert (Fa : falling (curve tab c)) by (apply F; exact Ic).
    pose proof (co_gentle _ _ Co) as G.
    rewrite E in Cl, I', Len. inversion Cl as [|p0 ? l ? C0 Cl' Ec]. subst.
    destruct l' as [|q' l']; [cbn in Len; lia|]. destruct l as [|q l]; [inversion Cl'|].
    symmetry in Ec.
    destruct (spline_err (6820 * u) 41370000 (q :: l) (q' :: l') p0 p0' x' C0 Cl')
      as (y & Y1 & Y2 & Y3); try assumption; try discriminate.
    { rewrite <- Ec. exact I. }
    exists (@spline1 R N x' p0' (q' :: l')). split.
    - unfold rating. rewrite rcurve_pts by (apply F; assumption). rewrite E.
      unfold slinear. change (@sort_pts R N (p0' :: q' :: l')) with (@sort_pts R Num_R (p0' :: q' :: l')).
      rewrite sort_increasing by exact I'.
      change (@has_duplicates R N (p0' :: q' :: l')) with (@has_duplicates R Num_R (p0' :: q' :: l')).
      rewrite no_duplicates, andb_false_r by exact I'.
      change (last (p0' :: q' :: l') p0') with (last (q' :: l') p0') in X2.
      cbn [nltb Num_rounded]. rewrite (Rltb_false x' (fst p0')) by exact X1.
      rewrite (Rltb_false (fst (last (q' :: l') p0')) x') by exact X2. reflexivity.
    - intros x Hx. rewrite <- Ec.
      assert (Ne : curve tab c <> []) by (rewrite Ec; discriminate).
      assert (Ey : np_interp_from y p0 (q :: l) = interp (curve tab c) y).
      { rewrite Ec. cbn [interp]. now rewrite Rltb_false by lra. }
      rewrite Ey in Y3.
      pose proof (interp_dist 140000 (curve tab c) x y ltac:(lra) Ne I Fa G) as D.
      pose proof (dist_split (@spline1 R N x' p0' (q' :: l')) (interp (curve tab c) y) (interp (curve tab c) x)) as D1.
      pose proof (dist_split y x' x) as D2. lra.
  Qed.

  (** ** The range check and get_max_pressure *)
  Lemma temp_given m name x i reg :
    denotes (PSeq [ENum m; EStr name]) d_temperature x -> given rnd i m name ->
    exists q, @parse_quant_input R N i reg = Ok q /\ u_dim (q_unit q) = d_temperature
      /\ @lookup_unit R N name = Some (q_unit q) /\ q_mag q = m
      /\ Rabs (@base_mag R N q - x) <= 5 * u * (Rabs x + 274).
  Proof.
    intros D G.
    assert (L : exists v, @lookup_unit R Num_R name = Some v /\ u_dim v = d_temperature /\ worth m v x).
    { inversion D as [|m0 s0 v0 d0 x0 L0 D0 W0]; subst. eauto. }
    destruct L as (v & L & Dv & W).
    destruct (temp_units u rnd Hr name v L Dv) as (v' & L' & Dv' & Pv & Ev).
    exists (mkQ m v' reg). split.
    - destruct G as [-> | ([gm gu gr] & -> & Gm & Gl)].
      + cbn [parse_quant_input quantity_of_items]. unfold quant. now rewrite L'.
      + cbn [q_mag q_unit] in Gm, Gl. cbn [parse_quant_input q_mag q_unit]. congruence.
    - cbn [q_unit q_mag]. repeat split; try assumption. now apply Ev.
  Qed.

  Lemma check_range_N (q : quantity R) d l msg lo hi : @list_min R N l = Ok lo -> @list_max R N l = Ok hi ->
    u_dim (q_unit q) = d ->
    @check_in_range R N q d l msg
    = raise_if (Rltb (@base_mag R N q) lo || Rltb hi (@base_mag R N q)) (ValueError msg).
  Proof.
    intros E1 E2 D. unfold check_in_range. rewrite E1, E2. cbn [bind].
    rewrite D, dim_eqb_refl. reflexivity.
  Qed.

  Lemma range_ends tab c p0' l' : flange_ok tab -> curve_ok tab c -> rcurve tab c = p0' :: l' ->
    @list_min R N (@temps_base R N tab) = Ok (fst p0')
    /\ @list_max R N (@temps_base R N tab) = Ok (fst (last (p0' :: l') p0')).
  Proof.
    intros F Co E. rewrite (rcurve_temps tab c) by apply F.
    pose proof (rcurve_increasing tab c Co) as I'. rewrite E in I' |- *. split.
    - exact (list_min_inc p0' l' I').
    - apply (list_max_inc (p0' :: l') p0' I'). discriminate.
  Qed.

  Lemma last_map {X Y} (g : X -> Y) l d : last (map g l) (g d) = g (last l d).
  Proof. induction l as [|a [|b l] IH]; [reflexivity|reflexivity|]. exact IH. Qed.

  Lemma ends_of tab c : flange_ok tab -> In c class_names -> exists r0 rl,
    rawpts tab c = r0 :: rl
    /\ curve tab c = ptTP r0 :: map ptTP rl /\ rcurve tab c = roundTP r0 :: map roundTP rl
    /\ last (ptTP r0 :: map ptTP rl) (ptTP r0) = ptTP (last (r0 :: rl) r0)
    /\ last (roundTP r0 :: map roundTP rl) (roundTP r0) = roundTP (last (r0 :: rl) r0).
  Proof.
    intros F Ic. pose proof (fo_len _ F c Ic) as L. unfold curve, rcurve.
    destruct (rawpts tab c) as [|r0 rl]; [cbn in L; lia|]. exists r0, rl.
    split; [reflexivity|]. split; [reflexivity|]. split; [reflexivity|].
    split; [exact (last_map ptTP (r0 :: rl) r0)|exact (last_map roundTP (r0 :: rl) r0)].
  Qed.

  Lemma degC_mono a b reg reg' : a <= b -> @base_mag R N (mkQ a degC reg) <= @base_mag R N (mkQ b degC reg').
  Proof.
    intros L. unfold base_mag, degC. cbn [q_unit u_off q_mag u_scale nmul nadd Num_rounded].
    apply (rnd_mono u rnd Hr). apply Rplus_le_compat_r. apply (rnd_mono u rnd Hr).
    apply Rmult_le_compat_r; [|exact L]. cbn [nofQ Num_rounded].
    apply (rnd_nonneg u rnd Hr). q2r. lra.
  Qed.

  Notation accepted := (accepted u).

  Lemma in_range tab c r0 rl a name t i reg : flange_ok tab -> In c class_names -> curve_ok tab c ->
    rawpts tab c = r0 :: rl ->
    denotes (PSeq [ENum a; EStr name]) d_temperature (celsius t) -> given rnd i a name ->
    accepted name (Q2R (fst r0)) (Q2R (fst (last (r0 :: rl) r0))) t ->
    exists q, @parse_quant_input R N i reg = Ok q /\ u_dim (q_unit q) = d_temperature
      /\ Rabs (@base_mag R N q - celsius t) <= 6820 * u
      /\ fst (roundTP r0) <= @base_mag R N q <= fst (roundTP (last (r0 :: rl) r0)).
  Proof.
    intros F Ic Co Er D G A.
    destruct (temp_given a name (celsius t) i reg D G) as (q & Pq & Dq & Lq & Mq & Eq).
    assert (S0 : small_int (fst r0) = true) by (apply (co_small _ _ Co); rewrite Er; now left).
    assert (Sn : small_int (fst (last (r0 :: rl) r0)) = true).
    { apply (co_small _ _ Co). rewrite Er. apply last_in. discriminate. }
    pose proof (small_range _ S0) as B0. pose proof (small_range _ Sn) as Bn.
    assert (T : Q2R (fst r0) <= t <= Q2R (fst (last (r0 :: rl) r0))) by (destruct A as [[_ A]|A]; lra).
    assert (E2 : Rabs (@base_mag R N q - celsius t) <= 6820 * u).
    { eapply Rle_trans; [exact Eq|]. unfold celsius. rewrite Rabs_pos_eq by lra. nra. }
    exists q. split; [exact Pq|]. split; [exact Dq|]. split; [exact E2|].
    cbn [roundTP fst]. destruct A as [[In_ A]|A].
    - assert (Uq : q_unit q = degC).
      { destruct In_ as [ -> | -> ]; cbn in Lq; injection Lq as <-; reflexivity. }
      assert (At : a = t).
      { inversion D as [|m0 s0 v0 d0 x0 L0 D0 W0]; subst.
        destruct In_ as [ -> | -> ]; cbn in L0; injection L0 as <-; unfold worth, celsius in W0;
          cbn [u_scale u_off] in W0; revert W0; rnum; rewrite ?one_R; q2r; lra. }
      destruct q as [qm qu qr]. cbn [q_unit q_mag] in *. subst qu qm. subst a.
      rewrite (temp_base_degC _ 0 S0), (temp_base_degC _ 0 Sn).
      split; apply degC_mono; lra.
    - apply temp_base_err in S0, Sn. apply abs_bounds in S0, Sn, E2.
      unfold celsius in *. lra.
  Qed.

  Lemma max_pressure_rounded strict m f tab c r0 rl a name t i : rates m f tab -> In c class_names ->
    rawpts tab c = r0 :: rl ->
    denotes (PSeq [ENum a; EStr name]) d_temperature (celsius t) -> given rnd i a name ->
    accepted name (Q2R (fst r0)) (Q2R (fst (last (r0 :: rl) r0))) t ->
    exists q', @get_max_pressure R N strict c i (NStr m) = Ok q'
      /\ @lookup_unit R N "Pa" = Some (q_unit q') /\ q_reg q' = out_reg i
      /\ Rabs (q_mag q' - interp (curve tab c) (celsius t)) <= 2600000000 * u.
  Proof.
    intros H Ic Er D G A. pose proof (ra_ok _ _ _ H) as F.
    pose proof (curve_ok_of _ _ _ _ H Ic) as Co.
    destruct (table_for_ok m c (ra_in _ _ _ H) Ic) as (g' & tab' & G' & L' & _ & T).
    destruct (ra_group _ _ _ H) as (g & Gg & L).
    rewrite Gg in G'; injection G' as <-. rewrite L in L'; injection L' as <-.
    destruct (in_range tab c r0 rl a name t i module_reg F Ic Co Er D G A) as (q & Pq & Dq & Eq & B1 & B2).
    destruct (ends_of tab c F Ic) as (r0' & rl' & Er' & Ec & Erc & La & Lb).
    rewrite Er in Er'. injection Er' as <- <-.
    destruct (range_ends tab c _ _ F Co Erc) as (R1 & R2). rewrite Lb in R2.
    destruct (rating_rounded strict tab c _ _ (@base_mag R N q) F Ic Co Erc B1 ltac:(rewrite Lb; exact B2))
      as (v & Ev & Hv).
    destruct (@lookup_unit R N "Pa") as [pu|] eqn:K; [|exfalso; cbv in K; discriminate].
    exists (mkQ v pu (out_reg i)). split; [|split; [reflexivity|split; [reflexivity|]]].
    - unfold get_max_pressure. rewrite T. cbn [bind]. rewrite Pq. cbn [bind].
      rewrite (check_range_N q d_temperature _ _ _ _ R1 R2 Dq).
      rewrite !Rltb_false by lra. cbn [orb raise_if bind].
      rewrite class_not_temp by exact Ic. cbn [raise_if bind]. rewrite Ev. cbn [bind].
      unfold quant. now rewrite K.
    - cbn [q_mag]. apply Hv. exact Eq.
  Qed.

  (** Outside the table by a margin: ValueError. *)
  Lemma max_pressure_out_rounded strict m f tab c r0 rl a name t i : rates m f tab -> In c class_names ->
    rawpts tab c = r0 :: rl ->
    denotes (PSeq [ENum a; EStr name]) d_temperature (celsius t) -> given rnd i a name ->
    t < Q2R (fst r0) - 20000 * u \/ Q2R (fst (last (r0 :: rl) r0)) + 20000 * u < t ->
    is_value_error (@get_max_pressure R N strict c i (NStr m)).
  Proof.
    intros H Ic Er D G A. pose proof (ra_ok _ _ _ H) as F.
    pose proof (curve_ok_of _ _ _ _ H Ic) as Co.
    destruct (table_for_ok m c (ra_in _ _ _ H) Ic) as (g' & tab' & G' & L' & _ & T).
    destruct (ra_group _ _ _ H) as (g & Gg & L).
    rewrite Gg in G'; injection G' as <-. rewrite L in L'; injection L' as <-.
    destruct (temp_given a name (celsius t) i module_reg D G) as (q & Pq & Dq & Lq & Mq & Eq).
    destruct (ends_of tab c F Ic) as (r0' & rl' & Er' & Ec & Erc & La & Lb).
    rewrite Er in Er'. injection Er' as <- <-.
    destruct (range_ends tab c _ _ F Co Erc) as (R1 & R2). rewrite Lb in R2.
    assert (S0 : small_int (fst r0) = true) by (apply (co_small _ _ Co); rewrite Er; now left).
    assert (Sn : small_int (fst (last (r0 :: rl) r0)) = true).
    { apply (co_small _ _ Co). rewrite Er. apply last_in. discriminate. }
    pose proof (small_range _ S0) as B0. pose proof (small_range _ Sn) as Bn.
    apply temp_base_err in S0, Sn. apply abs_bounds in S0, Sn, Eq.
    unfold get_max_pressure. rewrite T. cbn [bind]. rewrite Pq. cbn [bind].
    rewrite (check_range_N q d_temperature _ _ _ _ R1 R2 Dq). cbn [roundTP fst].
    assert (Out : (Rltb (@base_mag R N q) (@temp_base R N (fst r0))
                   || Rltb (@temp_base R N (fst (last (r0 :: rl) r0))) (@base_mag R N q))%bool = true).
    { apply orb_true_iff. unfold celsius in *. destruct A as [A|A].
      - left. apply Rltb_true. unfold Rabs in Eq. destruct (Rcase_abs (t + 27315/100)); nra.
      - right. apply Rltb_true. rewrite Rabs_pos_eq in Eq by lra. nra. }
    rewrite Out. cbn [raise_if bind]. unfold is_value_error. eauto.
  Qed.

  (** Whatever the temperature, an answer is close to the interpolated rating. *)
  Lemma max_pressure_answer strict m f tab c a name t i q' : rates m f tab -> In c class_names ->
    denotes (PSeq [ENum a; EStr name]) d_temperature (celsius t) -> given rnd i a name ->
    @get_max_pressure R N strict c i (NStr m) = Ok q' ->
    Rabs (q_mag q' - interp (curve tab c) (celsius t)) <= 2600000000 * u.
  Proof.
    intros H Ic D G E0. pose proof (ra_ok _ _ _ H) as F.
    pose proof (curve_ok_of _ _ _ _ H Ic) as Co.
    destruct (table_for_ok m c (ra_in _ _ _ H) Ic) as (g' & tab' & G' & L' & _ & T).
    destruct (ra_group _ _ _ H) as (g & Gg & L).
    rewrite Gg in G'; injection G' as <-. rewrite L in L'; injection L' as <-.
    destruct (temp_given a name (celsius t) i module_reg D G) as (q & Pq & Dq & Lq & Mq & Eq).
    destruct (ends_of tab c F Ic) as (r0 & rl & Er & Ec & Erc & La & Lb).
    destruct (range_ends tab c _ _ F Co Erc) as (R1 & R2). rewrite Lb in R2.
    assert (S0 : small_int (fst r0) = true) by (apply (co_small _ _ Co); rewrite Er; now left).
    assert (Sn : small_int (fst (last (r0 :: rl) r0)) = true).
    { apply (co_small _ _ Co). rewrite Er. apply last_in. discriminate. }
    pose proof (small_range _ S0) as B0. pose proof (small_range _ Sn) as Bn.
    apply temp_base_err in S0, Sn. apply abs_bounds in S0, Sn.
    unfold get_max_pressure in E0. rewrite T in E0. cbn [bind] in E0. rewrite Pq in E0. cbn [bind] in E0.
    rewrite (check_range_N q d_temperature _ _ _ _ R1 R2 Dq) in E0. cbn [roundTP fst] in E0.
    destruct (Rltb_spec (@base_mag R N q) (@temp_base R N (fst r0))) as [B1|B1];
      [cbn in E0; discriminate|].
    destruct (Rltb_spec (@temp_base R N (fst (last (r0 :: rl) r0))) (@base_mag R N q)) as [B2|B2];
      [cbn in E0; discriminate|].
    cbn [orb raise_if bind] in E0.
    rewrite class_not_temp in E0 by exact Ic. cbn [raise_if bind] in E0.
    destruct (rating_rounded strict tab c _ _ (@base_mag R N q) F Ic Co Erc ltac:(cbn [roundTP fst]; lra)
                ltac:(rewrite Lb; cbn [roundTP fst]; lra)) as (v & Ev & Hv).
    rewrite Ev in E0. cbn [bind] in E0. unfold quant in E0.
    destruct (@lookup_unit R N "Pa") as [pu|] eqn:K; [|exfalso; cbv in K; discriminate].
    injection E0 as <-. cbn [q_mag]. apply Hv.
    apply abs_bounds in Eq. apply Rabs_le. unfold celsius in *.
    set (b := @base_mag R N q) in *. clearbody b.
    assert (Bt : 0 <= t + 27315/100 <= 1090).
    { revert Eq. unfold Rabs. destruct (Rcase_abs (t + 27315/100)); intros; nra. }
    rewrite Rabs_pos_eq in Eq by lra. nra.
  Qed.

  (** ** get_class finds a class *)
  Lemma raw_temps tab c c' : map fst (rawpts tab c) = map fst (rawpts tab c').
  Proof. unfold rawpts. rewrite !map_map. reflexivity. Qed.
  Lemma map_last {X Y} (g : X -> Y) (r : X) rl : g (last (r :: rl) r) = last (map g (r :: rl)) (g r).
  Proof. symmetry. exact (last_map g (r :: rl) r). Qed.
  Lemma same_ends tab c c' r0 rl r0' rl' : rawpts tab c = r0 :: rl -> rawpts tab c' = r0' :: rl' ->
    fst r0 = fst r0' /\ fst (last (r0 :: rl) r0) = fst (last (r0' :: rl') r0').
  Proof.
    intros E E'. pose proof (raw_temps tab c c') as H. rewrite E, E' in H.
    rewrite (map_last fst), (map_last fst), H. cbn [map] in H. injection H as H _. rewrite H. split; reflexivity.
  Qed.

  Lemma class_found strict m f tab r0 rl a name t i p P reg : rates m f tab ->
    rawpts tab "2500" = r0 :: rl ->
    denotes (PSeq [ENum a; EStr name]) d_temperature (celsius t) -> given rnd i a name ->
    accepted name (Q2R (fst r0)) (Q2R (fst (last (r0 :: rl) r0))) t ->
    denotes p d_pressure P -> 0 <= P -> P + 4000000000 * u <= interp (curve tab "2500") (celsius t) ->
    exists c, @get_class R N strict p i (NStr m) reg = Ok c.
  Proof.
    intros H Er D G A Dp P0 Le. pose proof (ra_ok _ _ _ H) as F.
    assert (I25 : In "2500"%string class_names) by (cbn; tauto).
    destruct (ra_group _ _ _ H) as (g & Gg & L).
    assert (Each : forall c, In c class_names -> exists r0' rl' q,
        rawpts tab c = r0' :: rl' /\ fst r0 = fst r0'
        /\ fst (last (r0 :: rl) r0) = fst (last (r0' :: rl') r0')
        /\ @parse_quant_input R N i reg = Ok q /\ u_dim (q_unit q) = d_temperature
        /\ Rabs (@base_mag R N q - celsius t) <= 6820 * u
        /\ fst (roundTP r0') <= @base_mag R N q <= fst (roundTP (last (r0' :: rl') r0'))).
    { intros c Ic. destruct (ends_of tab c F Ic) as (r0' & rl' & Er' & _).
      destruct (same_ends tab _ _ _ _ _ _ Er Er') as (S1 & S2).
      rewrite S1, S2 in A.
      destruct (in_range tab c r0' rl' a name t i reg F Ic (curve_ok_of _ _ _ _ H Ic) Er' D G A)
        as (q & X). exists r0', rl', q. tauto. }
    destruct (Each _ I25) as (r0' & rl' & tq & Er' & _ & _ & Pt & Dt & Et & B1 & B2).
    rewrite Er in Er'. injection Er' as <- <-.
    pose proof (curve_ok_of _ _ _ _ H I25) as Co.
    destruct (co_small _ _ Co r0 ltac:(rewrite Er; now left)) as (S0 & S0').
    pose proof (small_range _ S0) as Sr. pose proof (temp_base_err _ S0) as Se. apply abs_bounds in Se.
    cbn [roundTP fst] in B1, B2.
    destruct (parse_approx u rnd Hr p d_pressure P reg ltac:(discriminate) Dp) as (pq & Pp & Ap).
    pose proof (base_near u rnd Hr _ _ _ _ _ Ap) as Np.
    apply (near_err u rnd Hr) in Np; [|lia]. rewrite (Rabs_pos_eq P) in Np by exact P0.
    replace (2 * INR 11 * u) with (22 * u) in Np by (cbn; ring).
    destruct (ends_of tab "2500" F I25) as (r1 & rl1 & Er1 & Ec & Erc & La & Lb).
    rewrite Er in Er1. injection Er1 as <- <-.
    assert (Inc : increasing (curve tab "2500")) by (apply F; exact I25).
    assert (Fall : falling (curve tab "2500")) by (apply F; exact I25).
    (* the interpolated rating is at most the first one *)
    assert (Top : interp (curve tab "2500") (celsius t) <= Q2R (snd r0) * 100000).
    { assert (T0 : Q2R (fst r0) <= t) by (destruct A as [[_ A]|A]; lra).
      pose proof (interp_falls (curve tab "2500") (celsius (Q2R (fst r0))) (celsius t)
                    ltac:(rewrite Ec; discriminate) Inc Fall ltac:(unfold celsius; lra)) as X.
      rewrite Ec in X at 2. rewrite Ec in Inc. rewrite (interp_low _ _ _ Inc) in X by (cbn [ptTP fst]; lra).
      exact X. }
    pose proof (press_near (snd r0)) as Nt. apply (near_err u rnd Hr) in Nt; [|lia].
    replace (2 * INR 3 * u) with (6 * u) in Nt by (cbn; ring).
    assert (Pos0 : 0 <= Q2R (snd r0) * 100000).
    { pose proof (fo_pos _ F "2500" I25 (ptTP r0)) as X. fold (curve tab "2500") in X.
      rewrite Ec in X. specialize (X (or_introl eq_refl)). exact X. }
    rewrite (Rabs_pos_eq (Q2R (snd r0) * 100000)) in Nt by exact Pos0. apply abs_bounds in Nt, Np.
    assert (PB : 22 * u * P <= 22 * u * 41370000) by (apply Rmult_le_compat_l; lra).
    assert (TB : 6 * u * (Q2R (snd r0) * 100000) <= 6 * u * 41370000) by (apply Rmult_le_compat_l; lra).
    unfold get_class. rewrite Pp. cbn [bind]. rewrite Pt. cbn [bind].
    rewrite (check_approx u rnd Hr 10 pq d_pressure P reg "pressure" true eq_refl Ap P0).
    cbn [bind].
    assert (Ct : @check_q R N tq "temperature" true = Ok true).
    { unfold check_q, check_pint_quantity. cbn [bind].
      change (supported_dimension "temperature") with (Some d_temperature).
      change (@base_mag R N (mkQ (q_mag tq) (q_unit tq) 0)) with (@base_mag R N tq).
      cbn [nltb Num_rounded]. rewrite (zero_rnd u rnd Hr).
      rewrite (Rltb_false (@base_mag R N tq)) by (unfold celsius in Se; lra).
      cbn [andb raise_if bind]. rewrite Dt. reflexivity. }
    rewrite Ct. cbn [bind]. cbn [parse_quant_input bind].
    set (pq' := mkQ (q_mag pq) (q_unit pq) module_reg).
    set (tq' := mkQ (q_mag tq) (q_unit tq) module_reg).
    assert (Bp : @base_mag R N pq' = @base_mag R N pq) by reflexivity.
    assert (Bt : @base_mag R N tq' = @base_mag R N tq) by reflexivity.
    rewrite check_material_grade by apply H. cbn [bind]. rewrite Gg. cbn [bind]. rewrite L. cbn [bind].
    assert (Cl : classes tab = class_names) by (unfold classes; now rewrite (fo_cols _ F)).
    rewrite Cl. replace (max_key class_names "0") with (Ok "2500"%string) by reflexivity. cbn [bind].
    assert (Mx : exists mx, @list_max R N (@press_column R N tab "2500") = Ok mx
              /\ @press_base R N (snd r0) <= mx).
    { assert (Ep : @press_column R N tab "2500" = map (@press_base R N) (map snd (rawpts tab "2500"))).
      { unfold press_column. rewrite column_filled by (apply F; exact I25). unfold rawpts. rewrite !map_map. reflexivity. }
      rewrite Ep, Er. cbn [map].
      destruct (list_max_spec (@press_base R N (snd r0)) (map (@press_base R N) (map snd rl))) as (mx & X1 & _ & X2).
      exists mx. split; [exact X1|]. apply X2. now left. }
    destruct Mx as (mx & Emx & Lmx). rewrite Emx. cbn [bind]. rewrite Bp. cbn [nltb Num_rounded].
    rewrite (Rltb_false mx) by lra. cbn [raise_if bind].
    destruct (range_ends tab "2500" _ _ F Co Erc) as (R1 & R2). rewrite Lb in R2.
    rewrite (check_range_N tq' d_temperature _ _ _ _ R1 R2 Dt). rewrite Bt. cbn [roundTP fst].
    rewrite !Rltb_false by lra. cbn [orb raise_if bind].
    assert (Rt : forall c, In c class_names -> exists v, @rating R N strict tab c (@base_mag R N tq) = Ok v
              /\ forall x, Rabs (@base_mag R N tq - x) <= 6820 * u ->
                  Rabs (v - interp (curve tab c) x) <= 2600000000 * u).
    { intros c Ic. destruct (Each c Ic) as (c0 & cl & q & Erc0 & _ & _ & Pq & _ & _ & Q1 & Q2).
      rewrite Pt in Pq. injection Pq as <-.
      destruct (ends_of tab c F Ic) as (c0' & cl' & Ex & _ & Ey & _ & Lc).
      rewrite Erc0 in Ex. injection Ex as <- <-.
      apply (rating_rounded strict tab c _ _ _ F Ic (curve_ok_of _ _ _ _ H Ic) Ey Q1).
      rewrite Lc. exact Q2. }
    pose (gv := fun c => match @rating R N strict tab c (@base_mag R N tq) with Ok v => v | Err _ => 0 end).
    rewrite (mapM_ok _ (fun c => (c, gv c))).
    2:{ intros c Ic. destruct (Rt c Ic) as (v & Ev & _). rewrite Ev. cbn [bind]. unfold gv. now rewrite Ev. }
    cbn [bind]. cbn [nleb Num_rounded].
    set (rs := filter _ _).
    assert (In25 : In ("2500"%string, gv "2500"%string) rs).
    { unfold rs. apply filter_In. split; [exact (in_map (fun c => (c, gv c)) _ _ I25)|].
      cbn [snd]. apply Rleb_true. destruct (Rt _ I25) as (v & Ev & Hv). unfold gv. rewrite Ev.
      specialize (Hv _ Et). apply abs_bounds in Hv. lra. }
    destruct rs as [|cr rest]; [destruct In25|]. eauto.
  Qed.
End Rounded.
