(** * IeeeInterpP: interpolation of tables in double precision. *)
From Coq Require Import String Ascii ZArith QArith Reals Qreals List Bool Lra Lia.
From Flocq Require Import Core BinarySingleNaN.
From Verif Require Import PyBase Pint UnitsM Csv Tables Interp TubeM FlangeM RoundM RoundSpec RoundP
  IeeeM IeeeSpec QLemmas IeeeP IeeePiP IeeeBoltP.
Import ListNotations.
Local Open Scope R_scope.
Local Opaque MATERIAL_LIMITS TUBE_MATERIALS FLANGE_LIMITS.
Ltac step H := eapply rsim_bind; [exact H|].

(** ** Numbers *)
Lemma sub_nz k x y x' y' : (k <= 940)%Z -> sim k x y -> sim k x' y' -> y <> y' ->
  @nsub R ND y y' <> 0.
Proof.
  intros K A B N. pose proof (size_add _ _ _ _ _ A (sim_opp _ _ _ B)) as S. cbn [nsub Num_rounded].
  apply (double_nz (k + 52)); [lia|exact S|]. lra.
Qed.
Lemma eqb_R x y : @neqb R ND x y = true -> x = y.
Proof. cbn [neqb Num_rounded]. unfold Reqb. now destruct (Req_EM_T x y). Qed.
Lemma eqb_R_refl x : @neqb R ND x x = true.
Proof. cbn [neqb Num_rounded]. unfold Reqb. now destruct (Req_EM_T x x). Qed.
Lemma ltb_R x y : @nltb R ND x y = true <-> x < y.
Proof. cbn [nltb Num_rounded]. unfold Rltb. destruct (Rlt_dec x y); split; intros; try easy; try lra. Qed.
Lemma leb_R x y : @nleb R ND x y = true <-> x <= y.
Proof. cbn [nleb Num_rounded]. unfold Rleb. destruct (Rle_dec x y); split; intros; try easy; try lra. Qed.

(** ** Points *)
Definition psim (k l : Z) (p : b64 * b64) (p' : R * R) : Prop :=
  sim k (fst p) (fst p') /\ sim l (snd p) (snd p').

Section Table.
  Variables (k l : Z).
  Hypotheses (K : (0 <= k <= 250)%Z) (L : (0 <= l <= 250)%Z).
  Notation ptsim := (Forall2 (psim k l)).

  Lemma increasing_sim p p' : ptsim p p' ->
    @strictly_increasing b64 NB (map fst p) = @strictly_increasing R ND (map fst p').
  Proof.
    induction 1 as [|a a' r r' A F IH]; [reflexivity|]. cbn [map] in *.
    destruct F as [|b b' s s' B F]; [reflexivity|]. cbn [map] in *.
    cbn [strictly_increasing] in *. rewrite IH. f_equal. apply (sim_ltb k k); [apply A|apply B].
  Qed.
  Lemma interp_from_sim r r' : ptsim r r' -> forall x x' p p',
    sim k x x' -> psim k l p p' -> @strictly_increasing R ND (map fst (p' :: r')) = true ->
    sim (2 * k + 2 * l + 208) (@np_interp_from b64 NB x p r) (@np_interp_from R ND x' p' r').
  Proof.
    induction 1 as [|q q' r r' A F IH]; intros x x' p p' X P I; cbn [np_interp_from].
    { apply (sim_weaken l); [lia|apply P]. }
    cbn [map strictly_increasing] in I. apply andb_true_iff in I. destruct I as (I1 & I2).
    rewrite (sim_ltb k k _ _ _ _ X (proj1 A)). destruct (@nltb R ND x' (fst q')).
    - apply ltb_R in I1.
      assert (N : @nsub R ND (fst q') (fst p') <> 0).
      { apply (sub_nz k (fst q) _ (fst p)); [lia|apply A|apply P|lra]. }
      pose proof (sim_sub l _ _ _ _ ltac:(lia) (proj2 A) (proj2 P)) as D1.
      pose proof (sim_sub k _ _ _ _ ltac:(lia) (proj1 A) (proj1 P)) as D2.
      pose proof (sim_sub k _ _ _ _ ltac:(lia) X (proj1 P)) as D3.
      pose proof (sim_div (l + 52) (k + 52) _ _ _ _ ltac:(lia) N D1 D2) as S.
      pose proof (sim_mul (l + 52 + (k + 52)) (k + 52) _ _ _ _ ltac:(lia) S D3) as M.
      apply (sim_weaken (l + 52 + (k + 52) + (k + 52) + 52)); [lia|].
      apply sim_add; [lia|exact M|]. apply (sim_weaken l); [lia|apply P].
    - apply IH; assumption.
  Qed.
  Lemma interp_sim p p' x x' : ptsim p p' -> sim k x x' ->
    @strictly_increasing R ND (map fst p') = true ->
    rsim (sim (2 * k + 2 * l + 208)) (@np_interp b64 NB x p) (@np_interp R ND x' p').
  Proof.
    intros F X I. destruct F as [|a a' r r' A F]; cbn [np_interp rsim]; [reflexivity|].
    rewrite (sim_eqb k k _ _ _ _ X X), eqb_R_refl. cbn [negb].
    rewrite (sim_ltb k k _ _ _ _ X (proj1 A)). destruct (@nltb R ND x' (fst a')).
    - apply (sim_weaken l); [lia|apply A].
    - now apply interp_from_sim.
  Qed.

  Lemma insert_sim p p' : psim k l p p' -> forall r r', ptsim r r' ->
    ptsim (@insert_pt b64 NB p r) (@insert_pt R ND p' r').
  Proof.
    intros P r r' F. induction F as [|q q' r r' A F IH]; cbn [insert_pt].
    { apply Forall2_cons; [exact P|apply Forall2_nil]. }
    rewrite (sim_leb k k _ _ _ _ (proj1 P) (proj1 A)).
    destruct (@nleb R ND (fst p') (fst q')).
    - apply Forall2_cons; [exact P|]. now apply Forall2_cons.
    - apply Forall2_cons; [exact A|exact IH].
  Qed.
  Lemma sort_sim r r' : ptsim r r' -> ptsim (@sort_pts b64 NB r) (@sort_pts R ND r').
  Proof.
    induction 1 as [|p p' r r' A F IH]; cbn [sort_pts]; [constructor|]. now apply insert_sim.
  Qed.
  Lemma duplicates_sim r r' : ptsim r r' ->
    @has_duplicates b64 NB r = @has_duplicates R ND r'.
  Proof.
    induction 1 as [|p p' r r' A F IH]; [reflexivity|].
    destruct F as [|q q' s s' B F]; [reflexivity|]. cbn [has_duplicates] in *. rewrite IH. f_equal.
    apply (sim_eqb k k); [apply A|apply B].
  Qed.
  Lemma piece_sim x x' p p' q q' : sim k x x' -> psim k l p p' -> psim k l q q' -> fst q' <> fst p' ->
    sim (2 * k + 2 * l + 208)
      (@nadd b64 NB (@nmul b64 NB (@ndiv b64 NB (@nsub b64 NB (fst q) x) (@nsub b64 NB (fst q) (fst p))) (snd p))
                    (@nmul b64 NB (@ndiv b64 NB (@nsub b64 NB x (fst p)) (@nsub b64 NB (fst q) (fst p))) (snd q)))
      (@nadd R ND (@nmul R ND (@ndiv R ND (@nsub R ND (fst q') x') (@nsub R ND (fst q') (fst p'))) (snd p'))
                  (@nmul R ND (@ndiv R ND (@nsub R ND x' (fst p')) (@nsub R ND (fst q') (fst p'))) (snd q'))).
  Proof.
    intros X P Q N0.
    assert (N : @nsub R ND (fst q') (fst p') <> 0).
    { apply (sub_nz k (fst q) _ (fst p)); [lia|apply Q|apply P|exact N0]. }
    pose proof (sim_sub k _ _ _ _ ltac:(lia) (proj1 Q) (proj1 P)) as D.
    pose proof (sim_sub k _ _ _ _ ltac:(lia) (proj1 Q) X) as D1.
    pose proof (sim_sub k _ _ _ _ ltac:(lia) X (proj1 P)) as D2.
    apply (sim_weaken (k + 52 + (k + 52) + l + 52)); [lia|].
    apply sim_add; [lia| |].
    - apply sim_mul; [lia|exact (sim_div (k + 52) (k + 52) _ _ _ _ ltac:(lia) N D1 D)|apply P].
    - apply sim_mul; [lia|exact (sim_div (k + 52) (k + 52) _ _ _ _ ltac:(lia) N D2 D)|apply Q].
  Qed.
  Lemma spline_sim r r' : ptsim r r' -> forall x x' p p',
    sim k x x' -> psim k l p p' -> fst p' <= x' ->
    sim (2 * k + 2 * l + 208) (@spline1 b64 NB x p r) (@spline1 R ND x' p' r').
  Proof.
    induction 1 as [|q q' r r' A F IH]; intros x x' p p' X P I.
    { cbn [spline1]. apply (sim_weaken l); [lia|apply P]. }
    destruct F as [|s s' t t' B F]; cbn [spline1].
    - rewrite (sim_eqb k k _ _ _ _ (proj1 A) (proj1 P)).
      destruct (@neqb R ND (fst q') (fst p')) eqn:E.
      + apply (sim_weaken 0); [lia|apply sim_zero].
      + apply piece_sim; try assumption. intros Z. rewrite Z, eqb_R_refl in E. discriminate.
    - rewrite (sim_leb k k _ _ _ _ (proj1 A) X). destruct (@nleb R ND (fst q') x') eqn:E.
      + apply leb_R in E. cbn [spline1] in IH. now apply IH.
      + apply piece_sim; try assumption.
        assert (~ fst q' <= x') by (intros Z; apply leb_R in Z; congruence). lra.
  Qed.
  Lemma slinear_sim strict r r' x x' : ptsim r r' -> sim k x x' ->
    rsim (sim (2 * k + 2 * l + 208)) (@slinear b64 NB strict r x) (@slinear R ND strict r' x').
  Proof.
    intros F X. unfold slinear. cbv zeta. pose proof (sort_sim _ _ F) as G. revert G.
    generalize (@sort_pts b64 NB r) (@sort_pts R ND r'). intros s s' G.
    rewrite (duplicates_sim _ _ G). destruct (strict && _)%bool; [reflexivity|].
    destruct G as [|p p' t t' P G]; [reflexivity|]. destruct G as [|q q' t t' Q G]; [reflexivity|].
    assert (Lst : psim k l (last (q :: t) p) (last (q' :: t') p')).
    { assert (G' : ptsim (q :: t) (q' :: t')) by now constructor.
      clear - G' P. revert p p' P. induction G' as [|a a' u u' A H IH]; intros p p' P; [exact P|].
      destruct H; [exact A|]. change (last (?a :: ?b :: ?c) ?d) with (last (b :: c) d). apply IH. exact P. }
    rewrite (sim_ltb k k _ _ _ _ X (proj1 P)), (sim_ltb k k _ _ _ _ (proj1 Lst) X).
    destruct (@nltb R ND x' (fst p')) eqn:E; cbn [orb]; [reflexivity|].
    destruct (@nltb R ND _ x'); cbn [rsim]; [reflexivity|].
    apply spline_sim; [now constructor|exact X|exact P|].
    assert (~ x' < fst p') by (intros Z; apply ltb_R in Z; congruence). lra.
  Qed.
End Table.

Lemma fold_sim k f f' (H : forall m m' y y', sim k m m' -> sim k y y' -> sim k (f m y) (f' m' y')) :
  forall r r', Forall2 (sim k) r r' -> forall m m', sim k m m' -> sim k (fold_left f r m) (fold_left f' r' m').
Proof. induction 1; intros m m' M; cbn [fold_left]; auto. Qed.
Lemma list_min_sim k r r' : Forall2 (sim k) r r' -> rsim (sim k) (@list_min b64 NB r) (@list_min R ND r').
Proof.
  destruct 1 as [|x x' r r' X F]; cbn [list_min rsim]; [reflexivity|].
  apply fold_sim; try assumption. intros m m' y y' M Y. rewrite (sim_ltb k k _ _ _ _ Y M). now destruct (nltb y' m').
Qed.
Lemma list_max_sim k r r' : Forall2 (sim k) r r' -> rsim (sim k) (@list_max b64 NB r) (@list_max R ND r').
Proof.
  destruct 1 as [|x x' r r' X F]; cbn [list_max rsim]; [reflexivity|].
  apply fold_sim; try assumption. intros m m' y y' M Y. rewrite (sim_ltb k k _ _ _ _ M Y). now destruct (nltb m' y').
Qed.
Lemma mapM_sim {A B C} (S : B -> C -> Prop) (f : A -> result B) (f' : A -> result C) l :
  (forall x, In x l -> rsim S (f x) (f' x)) -> rsim (Forall2 S) (mapM f l) (mapM f' l).
Proof.
  induction l as [|x l IH]; intros H; cbn [mapM]; [constructor|].
  apply (rsim_bind S); [apply H; now left|]. intros a b E.
  apply (rsim_bind (Forall2 S)); [apply IH; intros y I; apply H; now right|]. intros a' b' E'. now constructor.
Qed.

(** ** Conversion to a unit of a scale with an offset *)
Lemma degF_sim q q' : qsim 60 32 q q' ->
  rsim (fun a b => sim 228 (q_mag a) (q_mag b)) (@q_to_str b64 NB q "degF") (@q_to_str R ND q' "degF").
Proof.
  intros H. unfold q_to_str. pose proof (lookup_sim "degF") as U.
  destruct (@lookup_unit b64 NB "degF") as [v|], (@lookup_unit R ND "degF") as [v'|]; try contradiction; [|reflexivity].
  unfold q_to. pose proof (base_sim q q' 60 32 H ltac:(lia) ltac:(lia)) as B. change (60 + 32 + 52)%Z with 144%Z in B.
  destruct H as (_ & (D & _) & _), U as (Dv & Uv & Pv & Ov). rewrite D, Dv.
  destruct (dim_eqb _ _); cbn [rsim q_mag]; [|reflexivity]. cbv zeta.
  destruct (Pint.u_off v) as [o|], (Pint.u_off v') as [o'|]; try contradiction.
  - apply (sim_div 196 32); [lia|lra| |exact Uv]. apply (sim_sub 144); [lia|exact B|].
    now apply (sim_weaken 62).
  - apply (sim_weaken (144 + 32)); [lia|]. apply sim_div; [lia|lra|exact B|exact Uv].
Qed.
Lemma quant_plain k reg m m' name u : sim k m m' -> @lookup_unit b64 NB name = Some u -> plain u ->
  rsim (qplain k 32) (@quant b64 NB reg m name) (@quant R ND reg m' name).
Proof.
  intros M L P. unfold quant. pose proof (lookup_sim name) as U. rewrite L in U |- *.
  destruct (@lookup_unit R ND name) as [v'|]; [|contradiction]. cbn [rsim]. repeat split; try assumption; apply U || apply M.
Qed.

(** ** Allowable stress *)
Definition stress_sizes : bool :=
  forallb (fun welded => forallb (fun row => forallb (fun c =>
      match num_cell (f_cols (MATERIAL_LIMITS welded)) row c with Some q => cell_size q | None => true end)
    (f_cols (MATERIAL_LIMITS welded))) (f_rows (MATERIAL_LIMITS welded))) [true; false].
Lemma stress_sizes_ok : stress_sizes = true.
Proof. vm_compute. reflexivity. Qed.
Lemma stress_size welded row c q : In row (f_rows (MATERIAL_LIMITS welded)) -> In c (f_cols (MATERIAL_LIMITS welded)) ->
  num_cell (f_cols (MATERIAL_LIMITS welded)) row c = Some q -> cell_size q = true.
Proof.
  intros Ir Ic E. pose proof stress_sizes_ok as H. unfold stress_sizes in H.
  assert (Ii : In welded [true; false]) by (destruct welded; cbn; auto).
  rewrite forallb_forall in H. specialize (H _ Ii). rewrite forallb_forall in H. specialize (H _ Ir).
  rewrite forallb_forall in H. specialize (H _ Ic). now rewrite E in H.
Qed.
Lemma temp_column welded : In "Temp"%string (f_cols (MATERIAL_LIMITS welded)).
Proof.
  apply str_mem_In. destruct welded; vm_compute; reflexivity.
Qed.
Lemma limits_sim material welded :
  rsim (Forall2 (psim 228 15)) (@get_pipe_stress_limits b64 NB material welded)
                               (@get_pipe_stress_limits R ND material welded).
Proof.
  unfold get_pipe_stress_limits. cbv zeta.
  destruct (str_mem material _) eqn:M; cbn [negb raise_if bind]; [|reflexivity]. apply str_mem_In in M.
  apply mapM_sim. intros row I.
  destruct (num_cell _ row "Temp") as [t|] eqn:Et; [|reflexivity].
  destruct (num_cell _ row material) as [s|] eqn:Es; [|reflexivity]. cbn [rsim].
  split; cbn [fst snd].
  - apply (sim_weaken 15); [lia|]. exact (cell_size_sim _ (stress_size _ _ _ _ I (temp_column welded) Et)).
  - exact (cell_size_sim _ (stress_size _ _ _ _ I M Es)).
Qed.
Lemma max_stress_sim i i' material welded reg : reads 1e18 i i' ->
  rsim (qplain 694 32) (@calculate_max_stress b64 NB i material welded reg)
                       (@calculate_max_stress R ND i' material welded reg).
Proof.
  intros Rd. unfold calculate_max_stress.
  step (parse_sim i i' reg Rd). intros q q' Q.
  step (limits_sim material welded). intros p p' P.
  rewrite (increasing_sim 228 15 p p' P).
  destruct (@strictly_increasing R ND (map fst p')) eqn:I; cbn [negb raise_if bind]; [|reflexivity].
  step (degF_sim q q' Q). intros t t' T. cbn beta in T.
  eapply rsim_bind; [exact (interp_sim 228 15 ltac:(lia) ltac:(lia) p p' _ _ P T I)|]. intros s s' S.
  eapply quant_plain; [exact S|unfold lookup_unit, unit_table; cbn [assoc String.eqb Ascii.eqb Bool.eqb]; reflexivity|reflexivity].
Qed.
