(** * RoundFlangeTP: Flange.get_max_temperature under rounding. *)
From Coq Require Import String ZArith QArith Reals Qreals List Bool Lra Lia Psatz.
From Verif Require Import PyBase Pint UnitsM Spec QLemmas Csv TableSpec Tables Interp InterpP
  NumQ StressP PipeP FlangeM FlangeP RoundM RoundSpec RoundTempSpec RoundP RoundDdtP RoundStressP
  RoundFlangeP FlangeT.
Import ListNotations.
Local Open Scope R_scope.
Local Opaque TUBE_MATERIALS FLANGE_LIMITS.

(** ** Facts about the shipped tables: two ratings of a class are equal or 0.1 bar apart,
    and equal ones strictly between 0 and the highest belong to one temperature. *)
Definition apart_or_same (p q : Q * Q) : bool :=
  (Qeq_bool (snd p) (snd q) || Qle_bool (snd p + (1#10)) (snd q) || Qle_bool (snd q + (1#10)) (snd p))%bool.
Definition same_temp (top : Q) (p q : Q * Q) : bool :=
  (negb (Qeq_bool (snd p) (snd q)) || Qeq_bool (fst p) (fst q) || Qeq_bool (snd p) 0 || Qeq_bool (snd p) top)%bool.
Definition same_gap (a b p q : Q * Q) : bool :=
  (Qle_bool (fst b) (fst a) || Qle_bool (fst q) (fst p) || negb (Qeq_bool (fst a) (fst p))
   || (Qeq_bool (snd a) (snd p) && Qeq_bool (snd b) (snd q)))%bool.
Definition same_gaps (l : list (Q * Q)) : bool :=
  forallb (fun ab => forallb (fun pq => same_gap (fst ab) (snd ab) (fst pq) (snd pq))
    (combine l (tl l))) (combine l (tl l)).
Lemma consecutive_combine {A} (l : list A) a b : consecutive l a b -> In (a, b) (combine l (tl l)).
Proof.
  intros (l1 & l2 & ->). induction l1 as [|x l1 IH]; [now left|].
  destruct l1 as [|y l1]; [right; now left|]. right. exact IH.
Qed.
Definition temp_round_facts (m : string) : bool :=
  match group_of m with
  | Ok g => match FLANGE_LIMITS g with
            | Ok tab => forallb (fun c => same_gaps (sortedQ tab c) &&
                forallb (fun p => forallb (fun q =>
                   apart_or_same p q && same_temp (topQ tab c) p q)%bool (rawpts tab c)) (rawpts tab c))%bool class_names
            | Err _ => false
            end
  | Err _ => false
  end.
Lemma temp_round_facts_hold : forallb temp_round_facts available_materials = true.
Proof. vm_compute. reflexivity. Qed.

Record tempr_ok (tab : flange_table) (c : string) : Prop := {
  tr_apart : forall p q, In p (rawpts tab c) -> In q (rawpts tab c) ->
    Q2R (snd p) = Q2R (snd q) \/ Q2R (snd p) + 1/10 <= Q2R (snd q) \/ Q2R (snd q) + 1/10 <= Q2R (snd p);
  tr_same : forall p q, In p (rawpts tab c) -> In q (rawpts tab c) -> Q2R (snd p) = Q2R (snd q) ->
    0 < Q2R (snd p) < Q2R (topQ tab c) -> Q2R (fst p) = Q2R (fst q);
  tr_gap : forall a b p q, consecutive (sortedQ tab c) a b -> consecutive (sortedQ tab c) p q ->
    Q2R (fst a) < Q2R (fst b) -> Q2R (fst p) < Q2R (fst q) -> Q2R (fst a) = Q2R (fst p) ->
    Q2R (snd a) = Q2R (snd p) /\ Q2R (snd b) = Q2R (snd q) }.
Lemma tempr_of m f tab c : rates m f tab -> In c class_names -> tempr_ok tab c.
Proof.
  intros H Ic. destruct (ra_group _ _ _ H) as (g & G & L).
  pose proof temp_round_facts_hold as F. rewrite forallb_forall in F.
  specialize (F m (ra_in _ _ _ H)). unfold temp_round_facts in F. rewrite G, L in F.
  rewrite forallb_forall in F. specialize (F c Ic). apply andb_true_iff in F as (Gp & F).
  assert (K : forall p q, In p (rawpts tab c) -> In q (rawpts tab c) ->
     apart_or_same p q = true /\ same_temp (topQ tab c) p q = true).
  { intros p q Ip Iq. rewrite forallb_forall in F. specialize (F p Ip). rewrite forallb_forall in F.
    specialize (F q Iq). now apply andb_true_iff in F. }
  constructor; [intros p q Ip Iq; destruct (K p q Ip Iq) as (A & B)..|].
  - unfold apart_or_same in A. apply orb_true_iff in A as [A|A]; [apply orb_true_iff in A as [A|A]|].
    + left. now apply Qeq_R.
    + right. left. apply Qle_bool_le in A. rewrite Q2R_plus in A. replace (Q2R (1#10)) with (1/10) in A by (q2r; lra). lra.
    + right. right. apply Qle_bool_le in A. rewrite Q2R_plus in A. replace (Q2R (1#10)) with (1/10) in A by (q2r; lra). lra.
  - intros E X. unfold same_temp in B.
    assert (E' : Qeq_bool (snd p) (snd q) = true).
    { apply Qeq_bool_iff. now apply eqR_Qeq. }
    rewrite E' in B. cbn [negb orb] in B.
    apply orb_true_iff in B as [B|B]; [apply orb_true_iff in B as [B|B]|]; apply Qeq_R in B.
    + exact B.
    + replace (Q2R 0) with 0 in B by (q2r; lra). lra.
    + lra.
  - intros a b p q C1 C2 L1 L2 E. unfold same_gaps in Gp. rewrite forallb_forall in Gp.
    specialize (Gp _ (consecutive_combine _ _ _ C1)). rewrite forallb_forall in Gp.
    specialize (Gp _ (consecutive_combine _ _ _ C2)). cbn [fst snd] in Gp. unfold same_gap in Gp.
    assert (E' : Qeq_bool (fst a) (fst p) = true) by (apply Qeq_bool_iff; now apply eqR_Qeq).
    rewrite E' in Gp. cbn [negb] in Gp. rewrite orb_false_r in Gp.
    apply orb_true_iff in Gp as [Gp|Gp]; [apply orb_true_iff in Gp as [Gp|Gp]; apply Qle_bool_le in Gp; lra|].
    apply andb_true_iff in Gp as (G1 & G2). split; now apply Qeq_R.
Qed.

(** The exact sorted points. *)
Lemma insert_In {A} {NA : Num A} (p : A * A) l x : In x (insert_pt p l) <-> x = p \/ In x l.
Proof.
  induction l as [|q l IH]; cbn [insert_pt].
  - cbn. intuition congruence.
  - destruct (nleb (fst p) (fst q)); cbn [In] in *; [intuition congruence|rewrite IH; tauto].
Qed.
Lemma sort_In {A} {NA : Num A} (l : list (A * A)) x : In x (sort_pts l) <-> In x l.
Proof. induction l as [|p l IH]; cbn [sort_pts]; [tauto|]. rewrite insert_In, IH. cbn [In]. intuition congruence. Qed.
Lemma sortedQ_raw tab c p : In p (sortedQ tab c) <-> In (snd p, fst p) (rawpts tab c).
Proof.
  unfold sortedQ. rewrite sort_In, in_map_iff. split.
  - intros ((a & b) & <- & I). exact I.
  - intros I. exists (snd p, fst p). split; [now destruct p|exact I].
Qed.

Lemma lineR_slope (u v : R * R) x y K : fst u < fst v -> Rabs (snd v - snd u) <= K * (fst v - fst u) ->
  Rabs (line u v x - line u v y) <= K * Rabs (x - y).
Proof.
  intros L S. unfold line.
  replace (snd u + (snd v - snd u) * ((x - fst u) / (fst v - fst u))
           - (snd u + (snd v - snd u) * ((y - fst u) / (fst v - fst u))))
    with ((snd v - snd u) / (fst v - fst u) * (x - y)) by (field; lra).
  rewrite Rabs_mult. apply Rmult_le_compat_r; [apply Rabs_pos|].
  unfold Rdiv. rewrite Rabs_mult, (Rabs_pos_eq (/ _)) by (left; apply Rinv_0_lt_compat; lra).
  apply Rmult_le_reg_r with (fst v - fst u); [lra|]. rewrite Rmult_assoc, Rinv_l by lra. lra.
Qed.
Lemma line_left (u v : R * R) : line u v (fst u) = snd u.
Proof. unfold line. replace (fst u - fst u) with 0 by ring. unfold Rdiv. ring. Qed.
Lemma line_right (u v : R * R) : fst u < fst v -> line u v (fst v) = snd v.
Proof. intros L. unfold line. field. lra. Qed.

Section Rounded.
  Variables (u : R) (rnd : R -> R).
  Hypothesis Hr : rounding u rnd.
  Hypothesis Hs : u <= 1/1000000.
  Notation N := (Num_rounded rnd).
  Let Hu : 0 <= u <= 1/1024. Proof. exact (proj1 Hr). Qed.

  Definition roundK (p : Q * Q) : R * R := (@press_base R N (fst p), @temp_base R N (snd p)).

  Lemma press_same a b : Q2R a = Q2R b -> @press_base R N a = @press_base R N b.
  Proof. intros E. unfold press_base. cbn [nofQ Num_rounded]. now rewrite E. Qed.
  Lemma press_mono a b : Q2R a <= Q2R b -> @press_base R N a <= @press_base R N b.
  Proof.
    intros L. unfold press_base. cbn [nofQ nmul Num_rounded].
    apply (rnd_mono u rnd Hr). apply Rmult_le_compat_r; [|now apply (rnd_mono u rnd Hr)].
    apply (rnd_nonneg u rnd Hr). q2r. lra.
  Qed.
  Lemma press_err a : 0 <= Q2R a <= 413.7 -> Rabs (@press_base R N a - Q2R a * 100000) <= 250000000 * u.
  Proof.
    intros B. pose proof (press_near u rnd Hr a) as P. apply (near_err u rnd Hr) in P; [|lia].
    replace (2 * INR 3 * u) with (6 * u) in P by (cbn; ring).
    rewrite (Rabs_pos_eq (Q2R a * 100000)) in P by lra. nra.
  Qed.
  Lemma press_lt a b : 0 <= Q2R a <= 413.7 -> 0 <= Q2R b <= 413.7 -> Q2R a + 1/10 <= Q2R b ->
    @press_base R N a + 9000 <= @press_base R N b.
  Proof.
    intros A B L. pose proof (press_err a A) as EA. pose proof (press_err b B) as EB.
    apply abs_bounds in EA, EB. lra.
  Qed.

  (** ** The order of the points is the exact one *)
  Definition good (S : list (Q * Q)) : Prop := forall p q, In p S -> In q S ->
    (0 <= Q2R (fst p) <= 413.7)
    /\ (Q2R (fst p) = Q2R (fst q) \/ Q2R (fst p) + 1/10 <= Q2R (fst q) \/ Q2R (fst q) + 1/10 <= Q2R (fst p)).
  Lemma leb_K S p q : good S -> In p S -> In q S ->
    Rleb (fst (roundK p)) (fst (roundK q)) = Qle_bool (fst p) (fst q).
  Proof.
    intros G Ip Iq. rewrite Qle_bool_R. cbn [roundK fst].
    destruct (G p q Ip Iq) as (A & [E|[L|L]]), (G q p Iq Ip) as (B & _).
    - rewrite (press_same _ _ E), E. destruct (Rleb_spec (Q2R (fst q)) (Q2R (fst q))), (Rleb_spec (@press_base R N (fst q)) (@press_base R N (fst q))); auto; lra.
    - pose proof (press_lt _ _ A B L).
      destruct (Rleb_spec (Q2R (fst p)) (Q2R (fst q))), (Rleb_spec (@press_base R N (fst p)) (@press_base R N (fst q))); auto; lra.
    - pose proof (press_lt _ _ B A L).
      destruct (Rleb_spec (Q2R (fst p)) (Q2R (fst q))), (Rleb_spec (@press_base R N (fst p)) (@press_base R N (fst q))); auto; lra.
  Qed.
  Lemma insert_roundK S p l : good S -> In p S -> (forall q, In q l -> In q S) ->
    map roundK (@insert_pt Q Num_Q p l) = @insert_pt R N (roundK p) (map roundK l).
  Proof.
    intros G Ip. induction l as [|q l IH]; intros Il; [reflexivity|]. cbn [insert_pt map].
    change (@nleb Q Num_Q) with Qle_bool. change (@nleb R N) with Rleb.
    rewrite (leb_K S p q G Ip (Il q (or_introl eq_refl))).
    destruct (Qle_bool _ _); cbn [map]; [reflexivity|]. f_equal. apply IH. intros x Hx. apply Il. now right.
  Qed.
  Lemma sort_roundK S l : good S -> (forall q, In q l -> In q S) ->
    map roundK (@sort_pts Q Num_Q l) = @sort_pts R N (map roundK l).
  Proof.
    intros G. induction l as [|p l IH]; intros Il; [reflexivity|]. cbn [sort_pts map].
    rewrite (insert_roundK S); [|exact G|apply Il; now left|].
    - rewrite IH; [reflexivity|]. intros q Hq. apply Il. now right.
    - intros q Hq. rewrite sort_In in Hq. apply Il. now right.
  Qed.
  Lemma good_raw tab c : (forall p, In p (curve tab c) -> 0 <= snd p) -> curve_ok tab c -> tempr_ok tab c ->
    good (map swapQ (rawpts tab c)).
  Proof.
    intros Pos Co T p q Ip Iq. apply in_map_iff in Ip as (a & <- & Ia), Iq as (b & <- & Ib). cbn [swapQ fst].
    split.
    - destruct (co_small _ _ Co a Ia) as (_ & B). split; [|lra].
      pose proof (Pos _ (in_map ptTP _ _ Ia)) as X. cbn [ptTP snd] in X. lra.
    - apply (tr_apart _ _ T); assumption.
  Qed.
  Lemma roundK_pts tab c : ffilled tab "Temperature" = true -> ffilled tab c = true ->
    combine (@press_column R N tab c) (@temps_base R N tab) = map roundK (map swapQ (rawpts tab c)).
  Proof.
    intros H1 H2. unfold temps_base, press_column, rawpts.
    rewrite !column_filled by assumption. rewrite !map_map, combine_map2. reflexivity.
  Qed.
  Lemma sorted_roundK tab c : flange_ok tab -> In c class_names -> curve_ok tab c -> tempr_ok tab c ->
    @sort_pts R N (combine (@press_column R N tab c) (@temps_base R N tab)) = map roundK (sortedQ tab c).
  Proof.
    intros F Ic Co T. rewrite roundK_pts by (apply F; assumption). unfold sortedQ. symmetry.
    apply sort_roundK with (map swapQ (rawpts tab c)); [|auto]. apply good_raw; try assumption.
    apply (fo_pos _ F c Ic).
  Qed.

  (** ** The interval used *)
  Lemma spline_findN rest : forall (p : R * R) x,
    rest <> [] -> fst p <= x -> x < fst (last rest p) ->
    exists a b, consecutive (p :: rest) a b /\ fst a <= x < fst b
      /\ @spline1 R N x p rest = spline_gap rnd a b x.
  Proof.
    induction rest as [|q rest IH]; intros p x Ne A B; [contradiction|].
    destruct rest as [|r rest].
    - cbn in B. exists p, q. split; [apply consecutive_hd|]. split; [lra|].
      cbn [spline1 neqb Num_rounded]. rewrite Reqb_false by lra. reflexivity.
    - cbn [spline1]. cbn [nleb Num_rounded]. destruct (Rleb_spec (fst q) x) as [L|L].
      + destruct (IH q x) as (a & b & C & X & E); [discriminate|assumption| |].
        * change (last (q :: r :: rest) p) with (last (r :: rest) p) in B.
          assert (Z : forall (d d' : R * R) l a, last (a :: l) d = last (a :: l) d').
          { intros d d' l; induction l as [|b l IHl]; intros a; [reflexivity|].
            change (last (b :: l) d = last (b :: l) d'). apply IHl. }
          now rewrite (Z q p).
        * exists a, b. split; [now apply consecutive_cons|]. split; [lra|]. exact E.
      + exists p, q. split; [apply consecutive_hd|]. split; [lra|]. reflexivity.
  Qed.

  Lemma gap_abs (a b a' b' : R * R) x e :
    fst a < fst b -> fst a' < fst b' -> fst a' <= x <= fst b' ->
    Rabs (fst a' - fst a) <= e -> Rabs (fst b' - fst b) <= e ->
    244 <= snd a <= 1090 -> 244 <= snd b <= 1090 ->
    Rabs (snd a' - snd a) <= 6820 * u -> Rabs (snd b' - snd b) <= 6820 * u ->
    exists y, fst a <= y <= fst b /\ Rabs (y - x) <= e
      /\ Rabs (spline_gap rnd a' b' x - line a b y) <= 20000 * u.
  Proof.
    intros T T' X Ea Eb Ma Mb Na Nb.
    set (r := (x - fst a') / (fst b' - fst a')).
    assert (D : 0 < fst b' - fst a') by lra.
    assert (R01 : 0 <= r <= 1).
    { unfold r. split.
      - apply Rmult_le_pos; [lra|]. left. now apply Rinv_0_lt_compat.
      - apply Rmult_le_reg_r with (fst b' - fst a'); [lra|]. unfold Rdiv.
        rewrite Rmult_assoc, Rinv_l by lra. lra. }
    apply abs_bounds in Na, Nb.
    exists (fst a + r * (fst b - fst a)). split; [nra|]. split.
    - assert (Ex : x = fst a' + r * (fst b' - fst a')) by (unfold r; field; lra).
      rewrite Ex at 1.
      apply abs_bounds in Ea, Eb. apply Rabs_le.
      replace (fst a + r * (fst b - fst a) - (fst a' + r * (fst b' - fst a')))
        with ((1 - r) * - (fst a' - fst a) + r * - (fst b' - fst b)) by ring.
      set (aa := fst a' - fst a) in *. set (bb := fst b' - fst b) in *. nra.
    - assert (Ln : line a b (fst a + r * (fst b - fst a)) = (1 - r) * snd a + r * snd b).
      { unfold line. replace ((fst a + r * (fst b - fst a) - fst a) / (fst b - fst a)) with r by (field; lra). ring. }
      rewrite Ln.
      assert (P : near u 5 ((1 - r) * snd a' + r * snd b') (spline_gap rnd a' b' x)).
      { unfold spline_gap. apply (rnd_near u rnd Hr), near_add; try exact Hu; try (apply Rmult_le_pos; lra).
        - change 4%nat with (S (3 + 0)). apply (rnd_near u rnd Hr), near_mul; [exact Hu| |apply near_refl; exact Hu].
          replace (1 - r) with ((fst b' - x) / (fst b' - fst a')) by (unfold r; field; lra).
          change 3%nat with (S (1 + 1)). apply (rnd_near u rnd Hr), near_div; [exact Hu| |];
            apply (rnd_near u rnd Hr), near_refl; exact Hu.
        - change 4%nat with (S (3 + 0)). apply (rnd_near u rnd Hr), near_mul; [exact Hu| |apply near_refl; exact Hu].
          unfold r. change 3%nat with (S (1 + 1)). apply (rnd_near u rnd Hr), near_div; [exact Hu| |];
            apply (rnd_near u rnd Hr), near_refl; exact Hu. }
      apply (near_err u rnd Hr) in P; [|lia]. replace (2 * INR 5 * u) with (10 * u) in P by (cbn; ring).
      rewrite (Rabs_pos_eq ((1 - r) * snd a' + r * snd b')) in P by nra.
      assert (P2 : Rabs (spline_gap rnd a' b' x - ((1 - r) * snd a' + r * snd b')) <= 11000 * u).
      { eapply Rle_trans; [exact P|]. assert ((1 - r) * snd a' + r * snd b' <= 1100) by nra. nra. }
      apply abs_bounds in P2. apply Rabs_le.
      assert (W : - (6820 * u) <= (1 - r) * snd a' + r * snd b' - ((1 - r) * snd a + r * snd b) <= 6820 * u).
      { replace ((1 - r) * snd a' + r * snd b' - ((1 - r) * snd a + r * snd b))
          with ((1 - r) * (snd a' - snd a) + r * (snd b' - snd b)) by ring.
        set (aa := snd a' - snd a) in *. set (bb := snd b' - snd b) in *. nra. }
      lra.
  Qed.

  (** ** The exact answer near the one found *)
  Notation eps := (1500000000 * u).
  Lemma pt_bounds tab c p : flange_ok tab -> In c class_names -> curve_ok tab c -> In p (sortedQ tab c) ->
    0 <= Q2R (fst p) <= 413.7 /\ small_int (snd p) = true /\ 244 <= snd (ptK p) <= 1090.
  Proof.
    intros F Ic Co I. apply sortedQ_raw in I. destruct (co_small _ _ Co _ I) as (A & B). cbn [fst snd] in *.
    pose proof (fo_pos _ F c Ic _ (in_map ptTP _ _ I)) as X. cbn [ptTP snd] in X.
    pose proof (small_range _ A). split; [lra|]. split; [exact A|]. cbn [ptK snd]. unfold celsius. lra.
  Qed.
  Lemma slope tab c p q : flange_ok tab -> In c class_names -> curve_ok tab c -> tempr_ok tab c ->
    In p (sortedQ tab c) -> In q (sortedQ tab c) -> fst (ptK p) < fst (ptK q) ->
    Rabs (snd (ptK q) - snd (ptK p)) <= 9/100 * (fst (ptK q) - fst (ptK p)).
  Proof.
    intros F Ic Co T Ip Iq L.
    destruct (pt_bounds tab c p F Ic Co Ip) as (_ & _ & B1), (pt_bounds tab c q F Ic Co Iq) as (_ & _ & B2).
    apply sortedQ_raw in Ip, Iq. pose proof (tr_apart _ _ T _ _ Ip Iq) as A. cbn [fst snd] in A.
    cbn [ptK fst] in L |- *. apply Rle_trans with 846; [apply Rabs_le; lra|]. lra.
  Qed.

  Lemma exact_near tab c x y a b : flange_ok tab -> In c class_names -> curve_ok tab c -> tempr_ok tab c ->
    temp_ok tab c ->
    consecutive (sortedQ tab c) a b -> fst (ptK a) < fst (ptK b) ->
    fst (ptK a) <= y <= fst (ptK b) -> Rabs (y - x) <= eps ->
    (exists r, In r (curve tab c) /\ 0 < snd r <= x) -> x < topP tab c ->
    exists q rest, map ptK (sortedQ tab c) = q :: rest
      /\ Rabs (line (ptK a) (ptK b) y - spline1 x q rest) <= 18/100 * eps.
  Proof.
    intros F Ic Co T To C L Y E (r0 & Ir0 & Pr0) X. apply abs_bounds in E.
    assert (Lo : lowP tab c <= x).
    { pose proof (to_first _ _ To _ Ir0). unfold lowP. lra. }
    destruct (max_temp_interval tab c x To Lo X) as (w & rest & a0 & b0 & Es & C0 & B0 & Esp).
    exists w, rest. split; [exact Es|]. rewrite Esp. clear Esp.
    pose proof C0 as C0'. apply consecutive_map_inv in C0' as (p0 & q0 & Cq & -> & ->).
    destruct (consecutive_in _ _ _ C) as (Ia & Ib). destruct (consecutive_in _ _ _ Cq) as (Ip & Iq).
    assert (e0 : 0 <= eps) by lra.
    assert (e1 : eps <= 1500) by lra.
    pose proof (slope tab c a b F Ic Co T Ia Ib L) as Sl.
    pose proof (slope tab c p0 q0 F Ic Co T Ip Iq ltac:(lra)) as Sl0.
    assert (Pt : forall p, In p (sortedQ tab c) -> In (fst (ptK p)) (map snd (curve tab c))).
    { intros p I. destruct (to_mem _ _ To _ (in_map ptK _ _ I)) as (r & Ir & _ & Er). rewrite <- Er. now apply in_map. }
    assert (Cut : forall p, In p (sortedQ tab c) -> fst (ptK p) <= fst (ptK p0) \/ fst (ptK q0) <= fst (ptK p)).
    { intros p I. apply Pt in I. apply in_map_iff in I as (r & Er & Ir).
      destruct (to_gap _ _ To _ _ r C0 Ir); rewrite <- Er; auto. }
    assert (Sep : forall p q, In p (sortedQ tab c) -> In q (sortedQ tab c) -> Rabs (fst (ptK p) - fst (ptK q)) <= eps ->
      fst (ptK p) = fst (ptK q)).
    { intros p q I J B. apply abs_bounds in B. apply sortedQ_raw in I, J.
      pose proof (tr_apart _ _ T _ _ I J) as A. cbn [fst snd] in A. cbn [ptK fst] in *. lra. }
    assert (Same : forall p q, In p (sortedQ tab c) -> In q (sortedQ tab c) -> fst (ptK p) = fst (ptK q) ->
      0 < fst (ptK p) < topP tab c -> snd (ptK p) = snd (ptK q)).
    { intros p q I J Ef B. apply sortedQ_raw in I, J. unfold topP in B. cbn [ptK fst snd] in *.
      f_equal. apply (tr_same _ _ T _ _ I J); cbn [fst snd]; lra. }
    destruct (Rlt_or_le x (fst (ptK a))) as [Xa|Xa]; [|destruct (Rlt_or_le x (fst (ptK b))) as [Xb|Xb]].
    - (* just below *)
      destruct (Cut a Ia) as [Q|Q]; [lra|].
      assert (Ef : fst (ptK q0) = fst (ptK a)) by (apply Sep; try assumption; apply Rabs_le; lra).
      assert (Ub : fst (ptK b) <= topP tab c).
      { pose proof (Pt b Ib) as J. apply in_map_iff in J as (r & Er & Ir). rewrite <- Er. exact (to_top _ _ To _ Ir). }
      assert (Et : snd (ptK q0) = snd (ptK a)) by (apply Same; try assumption; lra).
      pose proof (lineR_slope (ptK a) (ptK b) y (fst (ptK a)) _ L Sl) as D1. rewrite line_left in D1.
      pose proof (lineR_slope (ptK p0) (ptK q0) x (fst (ptK q0)) _ ltac:(lra) Sl0) as D2. rewrite line_right in D2 by lra.
      rewrite Et, Ef in D2.
      rewrite (Rabs_pos_eq (y - _)) in D1 by lra. rewrite (Rabs_left (x - _)) in D2 by lra.
      apply abs_bounds in D1, D2. apply Rabs_le. lra.
    - (* the same interval *)
      assert (Ea : fst (ptK a) = fst (ptK p0)).
      { destruct (Cut a Ia) as [Q|Q]; [|lra]. destruct (Rle_lt_or_eq_dec _ _ Q) as [Q'|Q']; [|exact Q'].
        exfalso. assert (J : In (fst (ptK p0)) (map snd (curve tab c))) by now apply Pt.
        apply in_map_iff in J as (r & Er & Ir).
        destruct (to_gap _ _ To _ _ r (consecutive_map ptK _ _ _ C) Ir); lra. }
      assert (Eb : fst (ptK b) = fst (ptK q0)).
      { destruct (Cut b Ib) as [Q|Q]; [lra|]. destruct (Rle_lt_or_eq_dec _ _ Q) as [Q'|Q']; [|now symmetry].
        exfalso. assert (J : In (fst (ptK q0)) (map snd (curve tab c))) by now apply Pt.
        apply in_map_iff in J as (r & Er & Ir).
        destruct (to_gap _ _ To _ _ r (consecutive_map ptK _ _ _ C) Ir); lra. }
      assert (Eq : line (ptK p0) (ptK q0) x = line (ptK a) (ptK b) x).
      { assert (Hab : ptK p0 = ptK a /\ ptK q0 = ptK b).
        { cbn [ptK fst] in Ea, L, B0. destruct (tr_gap _ _ T a b p0 q0 C Cq ltac:(lra) ltac:(lra) ltac:(lra)) as (S1 & S2).
          cbn [ptK fst] in Eb. unfold ptK.
          replace (Q2R (fst p0) * 100000) with (Q2R (fst a) * 100000) by lra.
          replace (Q2R (fst q0) * 100000) with (Q2R (fst b) * 100000) by lra. now rewrite S1, S2. }
        now destruct Hab as (-> & ->). }
      rewrite Eq. pose proof (lineR_slope (ptK a) (ptK b) y x _ L Sl) as D.
      eapply Rle_trans; [exact D|]. assert (Rabs (y - x) <= eps) by (apply Rabs_le; lra). lra.
    - (* just above *)
      destruct (Cut b Ib) as [Q|Q]; [|lra].
      assert (Ef : fst (ptK p0) = fst (ptK b)) by (apply Sep; try assumption; apply Rabs_le; lra).
      assert (Ub : fst (ptK q0) <= topP tab c).
      { pose proof (Pt q0 Iq) as J. apply in_map_iff in J as (r & Er & Ir). rewrite <- Er. exact (to_top _ _ To _ Ir). }
      assert (La : 0 <= fst (ptK a)) by (destruct (pt_bounds tab c a F Ic Co Ia) as (Z & _); cbn [ptK fst]; lra).
      assert (Et : snd (ptK p0) = snd (ptK b)) by (apply Same; try assumption; lra).
      pose proof (lineR_slope (ptK a) (ptK b) y (fst (ptK b)) _ L Sl) as D1. rewrite line_right in D1 by lra.
      pose proof (lineR_slope (ptK p0) (ptK q0) x (fst (ptK p0)) _ ltac:(lra) Sl0) as D2. rewrite line_left in D2.
      rewrite Et, Ef in D2.
      rewrite (Rabs_left1 (y - _)) in D1 by lra. rewrite (Rabs_pos_eq (x - _)) in D2 by lra.
      apply abs_bounds in D1, D2. apply Rabs_le. lra.
  Qed.

  (** ** The method *)
  Lemma sorted_ends tab c : temp_ok tab c ->
    exists w rest, sortedQ tab c = w :: rest /\ rest <> []
      /\ fst (ptK w) = lowP tab c /\ fst (ptK (last rest w)) = topP tab c.
  Proof.
    intros T. destruct (to_split _ _ T) as (s & a & b & E & Ne & Ea & Eb).
    unfold lowP, topP. rewrite E. destruct s as [|w s]; [contradiction|].
    exists w, (s ++ [a; b]). split; [reflexivity|]. split; [destruct s; discriminate|]. split; [reflexivity|].
    change (s ++ [a; b]) with (s ++ [a] ++ [b]). rewrite app_assoc, last_last. cbn [ptK fst]. now rewrite Eb.
  Qed.
  Lemma last_map {A B} (g : A -> B) l d : last (map g l) (g d) = g (last l d).
  Proof.
    induction l as [|a l IH]; [reflexivity|]. destruct l as [|b l]; [reflexivity|]. exact IH.
  Qed.

  Lemma dup_roundK l : @has_duplicates Q Num_Q l = true -> @has_duplicates R N (map roundK l) = true.
  Proof.
    induction l as [|p [|q l] IH]; try discriminate.
    cbn [has_duplicates map] in *. intros B. apply orb_true_iff in B as [B|B]; apply orb_true_iff.
    - left. cbn [neqb Num_rounded]. cbn [roundK fst]. apply Qeq_R in B. rewrite (press_same _ _ B).
      destruct (Reqb_spec (@press_base R N (fst q)) (@press_base R N (fst q))); [reflexivity|contradiction].
    - right. now apply IH.
  Qed.

  (** The method in closed form. *)
  Lemma max_temp_closedN strict m f tab c p x : rates m f tab -> In c class_names -> denotes p d_pressure x ->
    exists x' w rest, Rabs (x' - x) <= 22 * u * Rabs x
      /\ sortedQ tab c = w :: rest /\ rest <> []
      /\ fst (ptK w) = lowP tab c /\ fst (ptK (last rest w)) = topP tab c
      /\ @get_max_temperature R N strict c p (NStr m)
         = if (Rltb x' (@press_base R N (fst w)) || Rltb (@press_base R N (fst (last rest w))) x')%bool
           then Err (ValueError "Pressure out of range.")
           else if strict then Err (ValueError "Expect x to not have duplicates")
           else @quant R N (out_reg p) (@spline1 R N x' (roundK w) (map roundK rest)) "K".
  Proof.
    intros H Ic D. pose proof (ra_ok _ _ _ H) as F.
    destruct (ra_group _ _ _ H) as (g & G & L).
    pose proof (temp_ok_of m g tab c (ra_in _ _ _ H) Ic G L) as To.
    pose proof (tempr_of _ _ _ _ H Ic) as T.
    pose proof (curve_ok_of _ _ _ _ H Ic) as Co.
    destruct (table_for_ok m c (ra_in _ _ _ H) Ic) as (g' & tab' & G' & L' & _ & Tf).
    rewrite G in G'; injection G' as <-. rewrite L in L'; injection L' as <-.
    destruct (parse_approx u rnd Hr p d_pressure x module_reg ltac:(discriminate) D) as (pq & Pp & Ap).
    pose proof (base_near u rnd Hr _ _ _ _ _ Ap) as Np.
    assert (Dp : u_dim (q_unit pq) = d_pressure) by apply Ap.
    apply (near_err u rnd Hr) in Np; [|lia].
    replace (2 * INR 11 * u) with (22 * u) in Np by (cbn; ring).
    set (x' := @base_mag R N pq) in *.
    destruct (sorted_ends tab c To) as (w & rest & Es & Ns & Ew & El).
    exists x', w, rest. split; [exact Np|]. split; [exact Es|]. split; [exact Ns|].
    split; [exact Ew|]. split; [exact El|].
    set (z := last rest w) in *.
    assert (Iw : In w (sortedQ tab c)) by (rewrite Es; now left).
    assert (Iz : In z (sortedQ tab c)).
    { unfold z. rewrite Es. destruct (exists_last Ns) as (l0 & y & ->). rewrite last_last.
      right. apply in_app_iff. right. now left. }
    pose proof (sorted_roundK tab c F Ic Co T) as So.
    assert (Ends : forall s, In s (sortedQ tab c) -> Q2R (fst w) <= Q2R (fst s) <= Q2R (fst z)).
    { intros s Is. destruct (to_mem _ _ To _ (in_map ptK _ _ Is)) as (r & Ir & _ & Er). cbn [ptK fst] in Er.
      pose proof (to_first _ _ To _ Ir : lowP tab c <= snd r). pose proof (to_top _ _ To _ Ir : snd r <= topP tab c).
      cbn [ptK fst] in Ew, El. lra. }
    assert (Col : forall v, In v (@press_column R N tab c) <-> exists s, In s (sortedQ tab c) /\ v = @press_base R N (fst s)).
    { intros v. unfold press_column. rewrite column_filled by (apply F; assumption). rewrite map_map, in_map_iff. split.
      - intros (w0 & <- & I0). exists (swapQ (fnum tab w0 "Temperature"%string, fnum tab w0 c)).
        split; [|reflexivity]. apply sortedQ_raw. cbn [swapQ fst snd]. unfold rawpts.
        now apply (in_map (fun row => (fnum tab row "Temperature"%string, fnum tab row c))).
      - intros (s & Is & ->). apply sortedQ_raw in Is. unfold rawpts in Is. apply in_map_iff in Is as (w0 & E0 & I0).
        exists w0. split; [|exact I0]. injection E0 as _ <-. reflexivity. }
    assert (Rg : @list_min R N (@press_column R N tab c) = Ok (@press_base R N (fst w))
                 /\ @list_max R N (@press_column R N tab c) = Ok (@press_base R N (fst z))).
    { destruct (@press_column R N tab c) as [|c0 cl] eqn:Ec.
      { exfalso. apply (proj2 (Col (@press_base R N (fst w)))). now exists w. }
      destruct (list_min_spec c0 cl) as (mn & Emn & Imn & Mmn).
      destruct (list_max_spec c0 cl) as (mx & Emx & Imx & Mmx).
      split.
      - etransitivity; [exact Emn|]. f_equal. apply Rle_antisym; [apply Mmn, Col; now exists w|].
        apply Col in Imn as (s & Is & ->). apply press_mono. now apply Ends.
      - etransitivity; [exact Emx|]. f_equal. apply Rle_antisym; [|apply Mmx, Col; now exists z].
        apply Col in Imx as (s & Is & ->). apply press_mono. now apply Ends. }
    destruct Rg as (Emn & Emx).
    unfold get_max_temperature. rewrite Tf. cbn [bind]. rewrite Pp. cbn [bind].
    rewrite class_not_temp by exact Ic. cbn [raise_if bind].
    rewrite (check_range_N rnd pq d_pressure _ _ _ _ Emn Emx Dp). fold x'.
    destruct (Rltb x' _ || _)%bool eqn:Rg; [reflexivity|]. cbn [raise_if bind].
    unfold slinear. rewrite So, (dup_roundK _ (to_dup _ _ To)).
    destruct strict; [reflexivity|]. cbn [andb]. rewrite Es. cbn [map].
    destruct rest as [|w1 rest]; [contradiction|]. cbn [map].
    change (roundK w1 :: map roundK rest) with (map roundK (w1 :: rest)).
    change (last (roundK w :: map roundK (w1 :: rest)) (roundK w)) with (last (map roundK (w1 :: rest)) (roundK w)).
    rewrite last_map. fold z. cbn [nltb Num_rounded]. cbn [roundK fst]. rewrite Rg. reflexivity.
  Qed.

  Lemma max_temperature_rounded m f tab c p x : rates m f tab -> In c class_names ->
    denotes p d_pressure x ->
    (exists r, In r (curve tab c) /\ 0 < snd r /\ snd r + eps <= x) ->
    (exists r, In r (curve tab c) /\ x + eps <= snd r /\ x < snd r) ->
    exists q q', @get_max_temperature R Num_R false c p (NStr m) = Ok q
      /\ is_in q (q_mag q) "K" (out_reg p)
      /\ @get_max_temperature R N false c p (NStr m) = Ok q'
      /\ @lookup_unit R N "K" = Some (q_unit q') /\ q_reg q' = out_reg p
      /\ Rabs (q_mag q' - q_mag q) <= 300000000 * u.
  Proof.
    intros H Ic D (r & Ir & Pr & Xr) (rt & Irt & Xt & Prt). pose proof (ra_ok _ _ _ H) as F.
    pose proof (rates_temp _ _ _ _ H Ic) as To.
    pose proof (tempr_of _ _ _ _ H Ic) as T.
    pose proof (curve_ok_of _ _ _ _ H Ic) as Co.
    assert (e0 : 0 <= eps) by lra. assert (e1 : eps <= 1500) by lra.
    pose proof (to_first _ _ To _ Ir : lowP tab c <= snd r) as Lo.
    pose proof (to_top _ _ To _ Irt : snd rt <= topP tab c) as Hi.
    (* the exact answer *)
    pose proof (max_temp_closed false c p x m f tab H Ic To D) as Cl.
    rewrite !Rltb_false in Cl by lra. cbn [orb] in Cl.
    destruct (max_temp_closedN false m f tab c p x H Ic D) as (x' & w & rest & Np & Es & Ns & Ew & El & Rn).
    rewrite Rn. clear Rn.
    set (z := last rest w) in *.
    assert (Iw : In w (sortedQ tab c)) by (rewrite Es; now left).
    assert (Iz : In z (sortedQ tab c)).
    { unfold z. rewrite Es. destruct (exists_last Ns) as (l0 & y & ->). rewrite last_last.
      right. apply in_app_iff. right. now left. }
    destruct (pt_bounds tab c w F Ic Co Iw) as (Bw & _). destruct (pt_bounds tab c z F Ic Co Iz) as (Bz & _).
    rewrite (Rabs_pos_eq x) in Np by lra.
    assert (X1 : x <= 41370000) by (cbn [ptK fst] in El; lra).
    assert (Np' : Rabs (x' - x) <= 950000000 * u) by (eapply Rle_trans; [exact Np|nra]).
    clear Np. apply abs_bounds in Np'.
    pose proof (press_err (fst w) Bw) as Pw. pose proof (press_err (fst z) Bz) as Pz. apply abs_bounds in Pw, Pz.
    cbn [ptK fst] in Ew, El.
    assert (Low : @press_base R N (fst w) <= x') by lra.
    assert (High : x' < @press_base R N (fst z)) by lra.
    rewrite !Rltb_false by lra. cbn [orb].
    (* the interval *)
    destruct (spline_findN (map roundK rest) (roundK w) x') as (a' & b' & C' & Bx & Ev).
    { destruct rest; [contradiction|discriminate]. }
    { exact Low. }
    { rewrite last_map. exact High. }
    change (roundK w :: map roundK rest) with (map roundK (w :: rest)) in C'. rewrite <- Es in C'.
    apply consecutive_map_inv in C' as (a & b & C & -> & ->).
    destruct (consecutive_in _ _ _ C) as (Ia & Ib).
    destruct (pt_bounds tab c a F Ic Co Ia) as (Ba & Sa & Ta). destruct (pt_bounds tab c b F Ic Co Ib) as (Bb & Sb & Tb).
    pose proof (press_err (fst a) Ba) as Pa. pose proof (press_err (fst b) Bb) as Pb.
    cbn [roundK fst] in Bx.
    assert (Lab : fst (ptK a) < fst (ptK b)).
    { cbn [ptK fst]. destruct (Rle_or_lt (Q2R (fst b)) (Q2R (fst a))) as [Z|Z]; [|lra].
      pose proof (press_mono _ _ Z). lra. }
    destruct (gap_abs (ptK a) (ptK b) (roundK a) (roundK b) x' (250000000 * u)) as (y & Y1 & Y2 & Y3);
      try assumption; cbn [roundK fst snd]; try lra.
    { cbn [ptK snd]. exact (temp_base_err u rnd Hr (snd a) Sa). }
    { cbn [ptK snd]. exact (temp_base_err u rnd Hr (snd b) Sb). }
    apply abs_bounds in Y2.
    destruct (exact_near tab c x y a b F Ic Co T To C Lab Y1) as (q0 & rest0 & Es0 & Y4).
    { apply Rabs_le. lra. }
    { exists r. split; [exact Ir|]. lra. }
    { lra. }
    rewrite Es0 in Cl.
    destruct (quant_is_in (out_reg p) (spline1 x q0 rest0) "K" K_known) as (q & Eq & Iq).
    rewrite Eq in Cl.
    destruct (@lookup_unit R N "K") as [ku|] eqn:K; [|exfalso; cbv in K; discriminate].
    exists q, (mkQ (@spline1 R N x' (roundK w) (map roundK rest)) ku (out_reg p)).
    assert (Um : q_mag q = spline1 x q0 rest0) by apply Iq.
    split; [exact Cl|]. split; [now rewrite Um|]. split; [|split; [reflexivity|split; [reflexivity|]]].
    - unfold quant. now rewrite K.
    - cbn [q_mag]. rewrite Um, Ev. apply abs_bounds in Y3, Y4. apply Rabs_le. lra.
  Qed.

  (** Out of the ratings: ValueError. *)
  Lemma max_temperature_out strict m f tab c p x : rates m f tab -> In c class_names ->
    denotes p d_pressure x ->
    (forall r, In r (curve tab c) -> x + eps < snd r) \/ (forall r, In r (curve tab c) -> snd r + eps < x - 22 * u * x) ->
    is_value_error (@get_max_temperature R N strict c p (NStr m)).
  Proof.
    intros H Ic D B. pose proof (ra_ok _ _ _ H) as F.
    pose proof (rates_temp _ _ _ _ H Ic) as To.
    pose proof (curve_ok_of _ _ _ _ H Ic) as Co.
    assert (e0 : 0 <= eps) by lra. assert (e1 : eps <= 1500) by lra.
    destruct (max_temp_closedN strict m f tab c p x H Ic D) as (x' & w & rest & Np & Es & Ns & Ew & El & Rn).
    rewrite Rn. clear Rn.
    set (z := last rest w) in *.
    assert (Iw : In w (sortedQ tab c)) by (rewrite Es; now left).
    assert (Iz : In z (sortedQ tab c)).
    { unfold z. rewrite Es. destruct (exists_last Ns) as (l0 & y & ->). rewrite last_last.
      right. apply in_app_iff. right. now left. }
    destruct (pt_bounds tab c w F Ic Co Iw) as (Bw & _). destruct (pt_bounds tab c z F Ic Co Iz) as (Bz & _).
    pose proof (press_err (fst w) Bw) as Pw. pose proof (press_err (fst z) Bz) as Pz. apply abs_bounds in Pw, Pz.
    destruct (to_mem _ _ To _ (in_map ptK _ _ Iw)) as (rw & Irw & _ & Erw).
    destruct (to_mem _ _ To _ (in_map ptK _ _ Iz)) as (rz & Irz & _ & Erz).
    cbn [ptK fst] in Erw, Erz.
    enough (E : (Rltb x' (@press_base R N (fst w)) || Rltb (@press_base R N (fst z)) x')%bool = true).
    { rewrite E. eexists; reflexivity. }
    apply orb_true_iff. destruct B as [B|B]; [left; specialize (B _ Irw)|right; specialize (B _ Irz)];
      apply Rltb_true; apply abs_bounds in Np.
    - destruct (Rle_or_lt 0 x) as [P|P].
      + rewrite (Rabs_pos_eq x) in Np by lra. nra.
      + rewrite (Rabs_left x) in Np by lra.
        assert (0 <= @press_base R N (fst w)).
        { unfold press_base. cbn [nofQ nmul Num_rounded]. apply (rnd_nonneg u rnd Hr), Rmult_le_pos; apply (rnd_nonneg u rnd Hr); q2r; lra. }
        nra.
    - assert (0 < x) by nra. rewrite (Rabs_pos_eq x) in Np by lra. lra.
  Qed.

  (** A scipy that rejects repeated abscissae. *)
  Lemma max_temperature_strict m f tab c p x : rates m f tab -> In c class_names ->
    denotes p d_pressure x -> is_value_error (@get_max_temperature R N true c p (NStr m)).
  Proof.
    intros H Ic D. destruct (max_temp_closedN true m f tab c p x H Ic D) as (x' & w & rest & _ & _ & _ & _ & _ & Rn).
    rewrite Rn. destruct (_ || _)%bool; eexists; reflexivity.
  Qed.
End Rounded.
