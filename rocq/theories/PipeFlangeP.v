(** * PipeFlangeP: a catalogue pipe and its flange (docs/example.ipynb, sections
    "Determine tube size" and "Select proper flanges": the limit of the pipe goes to
    Flange.get_class). *)
From Coq Require Import String ZArith QArith Reals Qreals List Bool Lra Lia.
From Verif Require Import PyBase Pint UnitsM Spec QLemmas Csv TableSpec Tables Interp
  TubeM TubeP StressP PipeP DesignP NumQ InterpP FlangeM FlangeP FlangeT.
Import ListNotations.
Local Open Scope R_scope.

(** ** The tables: finite checks, by computation *)
(** The relatively thickest pipe is 1/2 in XXH: 2 w / (OD - w) = 14/13. *)
Definition thick_row (row : list string) : bool :=
  forallb (fun c =>
    match num_cell (f_cols PIPE_SCHEDULES) row "OD", num_cell (f_cols PIPE_SCHEDULES) row c with
    | Some od, Some w => (Qle_bool (26 * w) (14 * (od - w))
        || (String.eqb (hd ""%string row) "28" && String.eqb c "10"))%bool
    | _, _ => true
    end) (filter (fun c => negb (String.eqb c "Size") && negb (String.eqb c "OD"))%bool
                 (f_cols PIPE_SCHEDULES)).
Lemma thick_rows : forallb thick_row (f_rows PIPE_SCHEDULES) = true.
Proof. vm_compute. reflexivity. Qed.
Lemma pipe_sizes_distinct : NoDup (labels PIPE_SCHEDULES).
Proof. apply nodupb_NoDup. vm_compute. reflexivity. Qed.

(** [fits m w K tmax]: the stress at the lower end of every flange interval that starts
    below [tmax], times 14/13 and divided by [K], is at most the rating of class 2500 at the
    upper end.  1 ksi is less than 68.94758 bar. *)
Definition ksi_bar : Q := 68.94758.
Definition stress_below (l : list (Q * Q)) (x bound : Q) : bool :=
  (existsb (fun ab => let '(a, b) := ab in
      Qle_bool (fst a) x && Qle_bool x (fst b)
      && Qle_bool (snd a * (fst b - fst a) + (snd b - snd a) * (x - fst a)) (bound * (fst b - fst a)))
      (pairs l)
   || existsb (fun p => Qle_bool (fst p) x && Qle_bool (snd p) bound) l
   || match l with p :: _ => Qle_bool x (fst p) && Qle_bool (snd p) bound | [] => false end)%bool.
Definition fits (m : string) (w : bool) (K tmax : Q) : bool :=
  match group_of m with
  | Ok g => match FLANGE_LIMITS g with
    | Ok tab => match rawpts tab "2500" with p :: _ => Qltb (fst p) tmax | [] => false end
        && forallb (fun ab => let '(a, b) := ab in
        negb (Qltb (fst a) tmax)
        || stress_below (limitsQ m w) (fst a * 1.8 + 32) (snd b * 13 * K / (14 * ksi_bar)))%bool
        (pairs (rawpts tab "2500"))
    | Err _ => false end
  | Err _ => false end.
Definition usual (m : string) : bool :=
  match group_of m with
  | Ok g => match FLANGE_LIMITS g with
    | Ok tab => forallb (fun p => Qle_bool (-273) (fst p) && Qle_bool (fst p) 10000)%bool
                  (rawpts tab "2500")
    | Err _ => false end
  | Err _ => false end.
Lemma usual_hold : forallb usual available_materials = true.
Proof. vm_compute. reflexivity. Qed.
Lemma fits_hold : forallb (fun m => fits m true 4 550 && fits m false 4 550
    && fits m true 24 10000 && fits m false 24 10000)%bool available_materials = true.
Proof. vm_compute. reflexivity. Qed.

Lemma rev_case {X} (l : list X) : l = [] \/ exists l' z, l = l' ++ [z].
Proof.
  destruct (rev l) as [|z r] eqn:E.
  - left. rewrite <- (rev_involutive l), E. reflexivity.
  - right. exists (rev r), z. now rewrite <- (rev_involutive l), E.
Qed.

(** ** From the checks to the reals *)
Lemma Q2R_const_le a b : Qle_bool a b = true -> Q2R a <= Q2R b.
Proof. apply Qle_bool_le. Qed.

Lemma stress_below_R (l : list (Q * Q)) x bound v :
  increasing (map pt2R l) -> falling (map pt2R l) ->
  stress_below l x bound = true -> np_interp (Q2R x) (map pt2R l) = Ok v -> v <= Q2R bound.
Proof.
  intros I F H E. unfold stress_below in H.
  apply orb_true_iff in H as [H|H]; [apply orb_true_iff in H as [H|H]|].
  - apply existsb_exists in H as ((a & b) & Hp & H).
    apply andb_true_iff in H as [H H3]. apply andb_true_iff in H as [H1 H2].
    apply Qle_bool_le in H1, H2, H3.
    apply pairs_consecutive in Hp.
    pose proof (consecutive_map pt2R _ _ _ Hp) as C.
    assert (L : fst (pt2R a) < fst (pt2R b)) by now apply I.
    rewrite (np_interp_line _ _ _ _ I C) in E by (cbn; lra). injection E as <-.
    unfold line. cbn [pt2R fst snd] in *.
    rewrite Q2R_plus, !Q2R_mult, !Q2R_minus in H3.
    apply Rmult_le_reg_r with (Q2R (fst b) - Q2R (fst a)); [lra|].
    eapply Rle_trans; [|exact H3]. right. field. lra.
  - apply existsb_exists in H as (p & Hp & H). apply andb_true_iff in H as [H1 H2].
    apply Qle_bool_le in H1, H2.
    assert (J : In (pt2R p) (map pt2R l)) by now apply in_map.
    assert (X : np_interp (fst (pt2R p)) (map pt2R l) = Ok (snd (pt2R p))).
    { destruct (map pt2R l) as [|p0 r] eqn:El; [easy|].
      destruct J as [->|J]; [apply np_interp_low; [lra|exact I]|].
      apply in_split in J as (l1 & l2 & ->).
      destruct (rev_case l1) as [->|(l1' & z & ->)].
      - rewrite (np_interp_line _ (fst (pt2R p)) p0 (pt2R p) I (consecutive_hd _ _ _)) by
          (split; [left; apply I, consecutive_hd | lra]).
        f_equal. apply line_right. apply I, consecutive_hd.
      - assert (C : consecutive (p0 :: (l1' ++ [z]) ++ pt2R p :: l2) z (pt2R p)).
        { exists (p0 :: l1'), l2. cbn. now rewrite <- app_assoc. }
        rewrite (np_interp_line _ (fst (pt2R p)) z (pt2R p) I C) by (split; [left; now apply I | lra]).
        f_equal. apply line_right. now apply I. }
    pose proof (np_interp_falling _ _ _ _ _ I F H1 X E) as Y. cbn in Y. lra.
  - destruct l as [|p l]; [discriminate|]. apply andb_true_iff in H as [H1 H2].
    apply Qle_bool_le in H1, H2. cbn [map] in *.
    rewrite (np_interp_low (pt2R p) _ _ H1 I) in E. injection E as <-. exact H2.
Qed.

Lemma np_interp_some (x : R) l : l <> [] -> exists v, np_interp x l = Ok v.
Proof. destruct l; [contradiction|]. intros _. apply np_interp_defined. Qed.

Lemma find_interval' (p0 : R * R) l x : l <> [] -> fst p0 <= x -> x <= fst (last (p0 :: l) p0) ->
  exists a b, consecutive (p0 :: l) a b /\ fst a <= x <= fst b /\ (fst a < x \/ a = p0).
Proof.
  revert p0; induction l as [|q l IH]; intros p0 N A B; [contradiction|].
  destruct (Rle_dec x (fst q)) as [L|L].
  - exists p0, q. split; [apply consecutive_hd | split; [lra | now right]].
  - destruct l as [|r l]; [cbn in B; lra|].
    destruct (IH q) as (a & b & C & X & Y); [discriminate | lra | |].
    + assert (E : forall d d' : R * R, last (q :: r :: l) d = last (q :: r :: l) d').
      { clear. generalize q r. induction l as [|s l IH]; intros; [reflexivity|].
        change (last (r0 :: s :: l) d = last (r0 :: s :: l) d'). apply (IH r0 s). }
      change (last (p0 :: q :: r :: l) p0) with (last (q :: r :: l) p0) in B.
      now rewrite (E q p0).
    + exists a, b. split; [now apply consecutive_cons | split; [assumption|]].
      left. destruct Y as [Y| ->]; lra.
Qed.

Local Opaque FLANGE_LIMITS PIPE_SCHEDULES MATERIAL_LIMITS TUBE_MATERIALS flange_file.

Lemma fits_of m w K tmax : In m available_materials ->
  (K = 4%Q /\ tmax = 550%Q) \/ (K = 24%Q /\ tmax = 10000%Q) -> fits m w K tmax = true.
Proof.
  intros I X. pose proof fits_hold as H. rewrite forallb_forall in H. specialize (H m I).
  apply andb_true_iff in H as [H H4]. apply andb_true_iff in H as [H H3].
  apply andb_true_iff in H as [H1 H2].
  destruct X as [(-> & ->)|(-> & ->)]; destruct w; assumption.
Qed.

(** The allowable stress at a temperature inside the flange table, against class 2500. *)
Lemma stress_fits m f tab w K tmax t v r : rates m f tab ->
  (K = 4%Q /\ tmax = 550%Q) \/ (K = 24%Q /\ tmax = 10000%Q) -> t <= Q2R tmax ->
  (exists p0 l, curve tab "2500" = p0 :: l /\ l <> []
     /\ fst p0 <= celsius t <= fst (last (p0 :: l) p0)) ->
  np_interp (t * 1.8 + 32) (limits m w) = Ok v ->
  np_interp (celsius t) (curve tab "2500") = Ok r ->
  v * (14 * Q2R ksi_bar) * 100000 <= r * 13 * Q2R K.
Proof.
  intros H X Lt (p0 & l & E & N & A) Ev Er.
  pose proof (ra_in _ _ _ H) as I.
  assert (I25 : In "2500"%string class_names) by (cbn; tauto).
  pose proof (ra_ok _ _ _ H) as Fo.
  assert (Inc : increasing (curve tab "2500")) by now apply Fo.
  assert (Fal : falling (curve tab "2500")) by now apply Fo.
  destruct (find_interval' p0 l (celsius t) N (proj1 A) (proj2 A)) as (a & b & C & B & S).
  rewrite <- E in C. unfold curve in C.
  apply consecutive_map_inv in C as (a' & b' & C' & -> & ->).
  pose proof (fits_of m w K tmax I X) as Fi. unfold fits in Fi.
  destruct (ra_group _ _ _ H) as (g & G & L). rewrite G, L in Fi.
  apply andb_true_iff in Fi as [F0 Fi].
  rewrite forallb_forall in Fi. specialize (Fi (a', b') (proj2 (pairs_consecutive _ _ _) C')).
  cbv beta iota in Fi.
  assert (Ta : Q2R (fst a') < Q2R tmax).
  { destruct S as [S|S]; [cbn in S; unfold celsius in S; lra|].
    unfold curve in E. destruct (rawpts tab "2500") as [|z zs]; [discriminate|].
    cbn [map] in E. injection E as <- _. apply Qltb_lt in F0.
    apply (f_equal fst) in S. cbn in S. unfold celsius in S. lra. }
  apply orb_true_iff in Fi as [Fi|Fi].
  { apply negb_true_iff in Fi. rewrite Qltb_R in Fi. rewrite Rltb_true in Fi by assumption. discriminate. }
  destruct (stress_ok_of m w I).
  destruct (np_interp_some (Q2R (fst a' * 1.8 + 32)) (limits m w)) as (va & Eva).
  { intros Z. rewrite Z in Ev. discriminate. }
  pose proof (stress_below_R _ _ _ _ so_inc so_fall Fi Eva) as Bv.
  assert (XF : Q2R (fst a' * 1.8 + 32) <= t * 1.8 + 32).
  { rewrite Q2R_plus, Q2R_mult. replace (Q2R 1.8) with 1.8 by (q2r; lra).
    replace (Q2R 32) with 32 by (q2r; lra).
    destruct B as [B _]. cbn in B. unfold celsius in B. lra. }
  pose proof (np_interp_falling _ _ _ _ _ so_inc so_fall XF Eva Ev) as V1.
  assert (Rb : np_interp (fst (ptTP b')) (curve tab "2500") = Ok (snd (ptTP b'))).
  { pose proof (consecutive_map ptTP _ _ _ C') as C2. fold (curve tab "2500") in C2.
    rewrite (np_interp_line _ _ _ _ Inc C2) by (split; [left; now apply Inc | lra]).
    f_equal. apply line_right. now apply Inc. }
  pose proof (np_interp_falling _ _ _ _ _ Inc Fal (proj2 B) Er Rb) as V2.
  cbn [ptTP snd] in V2.
  assert (Kp : 0 < Q2R K) by (destruct X as [(-> & _)|(-> & _)]; q2r; lra).
  assert (Bp : Q2R (14 * ksi_bar) = 14 * Q2R ksi_bar) by (rewrite Q2R_mult; f_equal; q2r; lra).
  assert (Kb : 0 < Q2R ksi_bar) by (unfold ksi_bar; q2r; lra).
  rewrite Q2R_div, !Q2R_mult in Bv by (unfold ksi_bar; discriminate).
  replace (Q2R 14) with 14 in Bv by (q2r; lra). replace (Q2R 13) with 13 in Bv by (q2r; lra).
  assert (M : v * (14 * Q2R ksi_bar) <= Q2R (snd b') * 13 * Q2R K).
  { apply Rle_trans with (Q2R (snd b') * 13 * Q2R K / (14 * Q2R ksi_bar) * (14 * Q2R ksi_bar)).
    - apply Rmult_le_compat_r; lra.
    - right. field. lra. }
  assert (M2 : Q2R (snd b') * 100000 * 13 * Q2R K <= r * 13 * Q2R K).
  { apply Rmult_le_compat_r; lra. }
  lra.
Qed.

Lemma thick size schedule od w :
  schedule <> "Size"%string -> schedule <> "OD"%string ->
  (size, schedule) <> ("28"%string, "10"%string) ->
  entry PIPE_SCHEDULES size "OD" od -> entry PIPE_SCHEDULES size schedule w ->
  26 * Q2R w <= 14 * (Q2R od - Q2R w).
Proof.
  intros N1 N2 N3 (row & I & E & Co) (row' & I' & E' & Cw).
  pose proof (nodup_labels_row _ _ _ pipe_sizes_distinct I E) as R1.
  pose proof (nodup_labels_row _ _ _ pipe_sizes_distinct I' E') as R2.
  rewrite R1 in R2. injection R2 as <-.
  pose proof thick_rows as H. rewrite forallb_forall in H. specialize (H row I).
  unfold thick_row in H. rewrite forallb_forall in H.
  assert (J : In schedule (filter (fun c => negb (String.eqb c "Size") && negb (String.eqb c "OD"))%bool
                 (f_cols PIPE_SCHEDULES))).
  { apply filter_In. split.
    - exact (num_cell_col _ _ _ _ Cw).
    - destruct (String.eqb_spec schedule "Size"), (String.eqb_spec schedule "OD"); easy. }
  specialize (H schedule J). rewrite Co, Cw in H.
  apply orb_true_iff in H as [H|H].
  - apply Qle_bool_le in H. rewrite !Q2R_mult, Q2R_minus in H.
    replace (Q2R 26) with 26 in H by (q2r; lra). replace (Q2R 14) with 14 in H by (q2r; lra). exact H.
  - apply andb_true_iff in H as [H1 H2]. apply String.eqb_eq in H1, H2. congruence.
Qed.

Lemma ksi_value (q : quantity R) m reg S :
  is_in q m "ksi" reg -> stands_for q d_pressure S reg -> 0 <= m ->
  S <= m * (Q2R ksi_bar * 100000).
Proof.
  intros (L & M & G) (_ & _ & _ & <- & _) P. cbn in L. injection L as L. rewrite <- L. cbn.
  rewrite M. apply Rmult_le_compat_l; [exact P|].
  rnum; unfold s_psi, s_inch; rnum; unfold ksi_bar; q2r. lra.
Qed.

Lemma pipe_flange strict size schedule m f temp t sf w reg row1 row2 T1 T2 :
  offered_pipe size schedule -> (size, schedule) <> ("28"%string, "10"%string) ->
  In m available_materials -> rated_by TUBE_MATERIALS flange_file m f ->
  In row1 (f_rows f) -> tabulated f row1 "Temperature" T1 ->
  In row2 (f_rows f) -> tabulated f row2 "Temperature" T2 -> Q2R T1 <= t <= Q2R T2 ->
  denotes temp d_temperature (celsius t) ->
  (4 <= sf /\ t <= 550) \/ 24 <= sf ->
  exists limit x cls q,
    pipe_limit size schedule temp m w sf reg = Ok limit
    /\ stands_for limit d_pressure x reg /\ 0 <= x
    /\ get_class strict (PQuant limit) temp (NStr m) reg = Ok cls
    /\ get_max_pressure strict cls temp (NStr m) = Ok q /\ x <= q_mag q.
Proof.
  intros O N I Rb I1 A1 I2 A2 B D Sf.
  assert (S4 : 4 <= sf) by (destruct Sf as [(? & _)|?]; lra).
  destruct (rates_of m f I Rb) as (tab & H).
  assert (I25 : In "2500"%string class_names) by (cbn; tauto).
  pose proof (ra_ok _ _ _ H) as Fo.
  assert (D' : denotes temp d_temperature (fahrenheit (t * 1.8 + 32))).
  { replace (fahrenheit (t * 1.8 + 32)) with (celsius t) by (unfold fahrenheit, celsius; lra). exact D. }
  destruct (pipe_limit_closed size schedule temp _ m w sf reg O I D' ltac:(lra)) as
    (dims & od & wall & stress & S & _ & Eo & Ew & Pw & Po & Bo & Es & Is & Ps & St & R).
  specialize (Bo N). specialize (R ltac:(lra)). destruct R as (limit & El & Sl).
  destruct O as (_ & _ & Oa & Ob).
  pose proof (thick size schedule od wall Oa Ob N Eo Ew) as Th.
  pose proof (ksi_value _ _ _ _ Is St Ps) as Sv.
  destruct (max_stress_inv temp _ m w reg stress I D' Es) as (Ev & _).
  (* class 2500 at this temperature *)
  destruct (curve_split _ _ _ _ H I25) as (p0 & l & E & Nl).
  assert (Inc : increasing (p0 :: l)) by (rewrite <- E; now apply H).
  assert (Rg : fst p0 <= celsius t <= fst (last (p0 :: l) p0)).
  { destruct (row_tabulated _ _ _ row1 "2500" H I25 I1) as [_ Q1].
    destruct (row_tabulated _ _ _ row2 "2500" H I25 I2) as [_ Q2].
    pose proof (curve_pt _ _ _ "2500" _ _ _ H I1 A1 Q1) as Y1.
    pose proof (curve_pt _ _ _ "2500" _ _ _ H I2 A2 Q2) as Y2. rewrite E in Y1, Y2.
    pose proof (increasing_last _ p0 Inc _ Y2) as Z2. cbn in Z2.
    split; [|cbn; unfold celsius in *; lra].
    destruct Y1 as [->|Y1]; [cbn; unfold celsius; lra|].
    pose proof (increasing_all _ _ Inc _ Y1) as X; cbn in X; unfold celsius in *; lra. }
  assert (Us : -273 <= t <= 10000).
  { pose proof usual_hold as U. rewrite forallb_forall in U. specialize (U m I). unfold usual in U.
    destruct (ra_group _ _ _ H) as (g & Gg & L). rewrite Gg, L in U. rewrite forallb_forall in U.
    assert (Y : forall p, In p (p0 :: l) -> celsius (-273) <= fst p <= celsius 10000).
    { intros p Hp. rewrite <- E in Hp. unfold curve in Hp.
      apply in_map_iff in Hp as (p' & <- & Hp). specialize (U p' Hp).
      apply andb_true_iff in U as [U1 U2]. apply Qle_bool_le in U1, U2. cbn. unfold celsius.
      replace (Q2R (-273)) with (-273) in U1 by (q2r; lra).
      replace (Q2R 10000) with 10000 in U2 by (q2r; lra). lra. }
    pose proof (Y p0 (or_introl eq_refl)) as Y0.
    pose proof (Y _ (last_in (p0 :: l) p0 ltac:(discriminate))) as Y1.
    unfold celsius in *. lra. }
  destruct (np_interp_some (celsius t) (curve tab "2500")) as (r & Er); [rewrite E; discriminate|].
  assert (P0 : 0 <= S).
  { destruct St as (_ & _ & Sc & <- & _). apply Rmult_le_pos; lra. }
  set (x := S * (2 * Q2R wall) / (sf * (Q2R od - Q2R wall))) in *.
  assert (G : 0 < sf * (Q2R od - Q2R wall)) by (apply Rmult_lt_0_compat; lra).
  assert (X0 : 0 <= x).
  { apply Rmult_le_pos; [apply Rmult_le_pos; lra | left; now apply Rinv_0_lt_compat]. }
  assert (V : exists K, Q2R K <= sf /\ q_mag stress * (14 * Q2R ksi_bar) * 100000 <= r * 13 * Q2R K
                        /\ 0 < Q2R K).
  { destruct Sf as [(Sf & Lt)|Sf].
    - exists 4%Q. split; [q2r; lra|]. split; [|q2r; lra].
      apply (stress_fits m f tab w 4 550 t _ _ H); auto; [q2r; lra|]. exists p0, l. auto.
    - exists 24%Q. split; [q2r; lra|]. split; [|q2r; lra].
      apply (stress_fits m f tab w 24 10000 t _ _ H); auto.
      + q2r; lra.
      + exists p0, l. auto. }
  destruct V as (K & K1 & K2 & K3).
  assert (Xr : x <= r).
  { apply Rle_trans with (S * (14/13) / sf).
    - unfold x. replace (S * (2 * Q2R wall) / (sf * (Q2R od - Q2R wall)))
        with (S / sf * (2 * Q2R wall / (Q2R od - Q2R wall))) by (field; lra).
      replace (S * (14/13) / sf) with (S / sf * (14/13)) by (field; lra).
      apply Rmult_le_compat_l; [apply Rmult_le_pos; [lra|left; apply Rinv_0_lt_compat; lra]|].
      apply Rmult_le_reg_r with (Q2R od - Q2R wall); [lra|].
      replace (2 * Q2R wall / (Q2R od - Q2R wall) * (Q2R od - Q2R wall)) with (2 * Q2R wall) by (field; lra).
      lra.
    - apply Rmult_le_reg_r with sf; [lra|].
      replace (S * (14/13) / sf * sf) with (S * (14/13)) by (field; lra).
      assert (r0 : 0 <= r).
      { refine (np_interp_lower _ _ _ _ _ _ Er); [rewrite E; exact Inc|]. now apply Fo. }
      assert (r * Q2R K <= r * sf) by (apply Rmult_le_compat_l; lra).
      lra. }
  pose proof (stands_denotes _ _ _ _ Sl) as Dl.
  assert (T0 : 0 <= celsius t) by (unfold celsius; lra).
  assert (Eq2 : exists q, get_max_pressure strict "2500" temp (NStr m) = Ok q /\ q_mag q = r).
  { destruct (max_pressure_rates strict _ _ _ "2500" _ _ H I25 D) as (p0' & l' & E' & _ & Em).
    rewrite E in E'. injection E' as <- <-.
    rewrite !Rltb_false in Em by lra. cbn [orb] in Em. rewrite Er in Em. cbn [bind] in Em.
    destruct (quant_is_in (out_reg temp) r "Pa" Pa_known) as (q' & Eq' & (_ & M & _)).
    exists q'. rewrite Em, Eq'. auto. }
  destruct Eq2 as (q & Eq & Mq).
  assert (C : exists c, get_class strict (PQuant limit) temp (NStr m) reg = Ok c).
  { destruct (get_class_outcome strict (PQuant limit) temp m f reg x (celsius t) I Rb Dl D X0 T0)
      as [(q' & Eq' & [(Lq & C)|[(Lq & _)|(Lq & _)]])|((e & Bad) & _)].
    - exact C.
    - rewrite Eq in Eq'. injection Eq' as <-. lra.
    - exfalso.
      assert (Top : r <= snd p0).
      { refine (np_interp_falling _ (fst p0) _ _ _ _ _ (proj1 Rg) _ Er).
        - rewrite E; exact Inc.
        - now apply Fo.
        - rewrite E. apply np_interp_low; [lra | exact Inc]. }
      assert (J0 : In p0 (curve tab "2500")) by (rewrite E; now left).
      destruct (curve_rows _ _ _ _ _ H I25 J0) as (row & T & P & Ir & _ & Tp & ->).
      specialize (Lq row P Ir Tp). cbn in Top. lra.
    - rewrite Eq in Bad. discriminate. }
  destruct C as (c & Ec).
  destruct (parse_denotes _ _ _ reg Dl) as (pq & Epq & Pp).
  destruct (get_class_any strict _ temp m reg c pq Ec Epq) as (_ & _ & (q' & Eq' & _ & L) & _).
  rewrite (parsed_base_mag _ _ _ _ Pp) in L.
  exists limit, x, c, q'.
  split; [exact El|]. split; [exact Sl|]. split; [exact X0|]. split; [exact Ec|]. split; [exact Eq'|].
  revert L; rnum. destruct (Rleb_spec x (q_mag q')); intros; [assumption|discriminate].
Qed.
