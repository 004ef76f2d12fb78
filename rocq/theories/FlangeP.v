(** * FlangeP: lemmas about class Flange. *)
From Coq Require Import String ZArith QArith Reals Qreals List Bool Lra Lia Psatz.
From Verif Require Import PyBase Pint UnitsM Spec QLemmas Csv TableSpec Tables Interp InterpP
  NumQ StressP PipeP FlangeM.
Import ListNotations.
Local Open Scope R_scope.
Local Opaque TUBE_MATERIALS FLANGE_LIMITS.

(** ** Columns of a loaded table *)
Definition fnum (tab : flange_table) (row : list Q) (c : string) : Q :=
  match fl_cell (fl_columns tab) row c with Some q => q | None => 0 end.
Definition rawpts (tab : flange_table) (c : string) : list (Q * Q) :=
  map (fun row => (fnum tab row "Temperature", fnum tab row c)) (fl_rows tab).
Definition ffilled (tab : flange_table) (c : string) : bool :=
  forallb (fun row => match fl_cell (fl_columns tab) row c with
                      | Some _ => true | None => false end) (fl_rows tab).

Lemma column_filled tab c : ffilled tab c = true ->
  column tab c = map (fun row => fnum tab row c) (fl_rows tab).
Proof.
  unfold ffilled, column, fnum. induction (fl_rows tab) as [|r l IH]; [reflexivity|].
  cbn. intros H. apply andb_true_iff in H as [H1 H2].
  destruct (fl_cell _ r c); [|discriminate]. cbn. now rewrite IH.
Qed.
Lemma combine_map2 {A B C} (f : A -> B) (g : A -> C) l :
  combine (map f l) (map g l) = map (fun x => (f x, g x)) l.
Proof. induction l; [reflexivity|]. cbn. congruence. Qed.

(** Kelvin and pascal points of the code. *)
Definition ptTP (p : Q * Q) : R * R := (celsius (Q2R (fst p)), Q2R (snd p) * 100000).
Definition ptPT (p : Q * Q) : R * R := (Q2R (snd p) * 100000, celsius (Q2R (fst p))).

Lemma temp_base_R t : temp_base t = celsius (Q2R t).
Proof. unfold temp_base, celsius; rnum; rewrite one_R; q2r; lra. Qed.
Lemma press_base_R t : press_base t = Q2R t * 100000.
Proof. unfold press_base; rnum; q2r; lra. Qed.

Lemma pts_TP tab c : ffilled tab "Temperature" = true -> ffilled tab c = true ->
  combine (temps_base tab) (press_column tab c) = map ptTP (rawpts tab c).
Proof.
  intros H1 H2. unfold temps_base, press_column, rawpts.
  rewrite !column_filled by assumption. rewrite !map_map, combine_map2.
  apply map_ext. intros r. cbv beta. unfold ptTP; cbn [fst snd].
  now rewrite temp_base_R, press_base_R.
Qed.
Lemma pts_PT tab c : ffilled tab "Temperature" = true -> ffilled tab c = true ->
  combine (press_column tab c) (temps_base tab) = map ptPT (rawpts tab c).
Proof.
  intros H1 H2. unfold temps_base, press_column, rawpts.
  rewrite !column_filled by assumption. rewrite !map_map, combine_map2.
  apply map_ext. intros r. cbv beta. unfold ptPT; cbn [fst snd].
  now rewrite temp_base_R, press_base_R.
Qed.
Lemma temps_eq tab c : ffilled tab "Temperature" = true ->
  temps_base tab = map fst (map ptTP (rawpts tab c)).
Proof.
  intros H. unfold temps_base, rawpts. rewrite column_filled by assumption.
  rewrite !map_map. apply map_ext. intros; cbn. apply temp_base_R.
Qed.
Lemma press_eq tab c : ffilled tab c = true ->
  press_column tab c = map snd (map ptTP (rawpts tab c)).
Proof.
  intros H. unfold press_column, rawpts. rewrite column_filled by assumption.
  rewrite !map_map. apply map_ext. intros; cbn. apply press_base_R.
Qed.

Lemma increasing_map_gen (h : Q * Q -> R * R) l :
  (forall p q, (Q2R (fst p) < Q2R (fst q)) -> fst (h p) < fst (h q)) ->
  increasing (map pt2R l) -> increasing (map h l).
Proof.
  intros Hh I a b C. apply consecutive_map_inv in C as (p & q & C & -> & ->).
  apply Hh. apply (I (pt2R p) (pt2R q)). now apply consecutive_map.
Qed.
Lemma increasing_TP l : incQ l = true -> increasing (map ptTP l).
Proof.
  intros H; apply incQ_R in H. revert H; apply increasing_map_gen.
  intros; cbn; unfold celsius; lra.
Qed.
Lemma falling_TP l : fallQ l = true -> falling (map ptTP l).
Proof.
  intros H; apply fallQ_R in H. intros a b C.
  apply consecutive_map_inv in C as (p & q & C & -> & ->).
  pose proof (H (pt2R p) (pt2R q)) as X. cbn in *.
  assert (Q2R (snd q) <= Q2R (snd p)) by (apply X; now apply (consecutive_map pt2R)). lra.
Qed.
Lemma below_TP l1 l2 : belowQ l1 l2 = true -> below (map ptTP l1) (map ptTP l2).
Proof.
  intros H; apply belowQ_R in H. unfold below in *.
  remember (map pt2R l1) as m1 eqn:E1; remember (map pt2R l2) as m2 eqn:E2.
  revert l1 l2 E1 E2; induction H as [|p q m1 m2 [E L] H IH]; intros [|a l1] [|b l2] E1 E2;
    try discriminate; constructor.
  - cbn in E1, E2. injection E1 as -> ->; injection E2 as -> ->. cbn in *.
    unfold celsius; lra.
  - cbn in E1, E2. injection E1 as -> ->; injection E2 as -> ->. auto.
Qed.

(** ** The shipped tables *)

Fixpoint pairs_ok {A} (f : A -> A -> bool) (l : list A) : bool :=
  match l with
  | a :: ((b :: _) as r) => (f a b && pairs_ok f r)%bool
  | _ => true
  end.
Lemma pairs_ok_consecutive {A} (f : A -> A -> bool) l a b :
  pairs_ok f l = true -> consecutive l a b -> f a b = true.
Proof.
  induction l as [|x [|y l] IH]; intros H C.
  - now apply consecutive_nil in C.
  - now apply consecutive_one in C.
  - cbn [pairs_ok] in H. apply andb_true_iff in H as [H1 H2].
    apply consecutive_inv in C as [[-> ->]|C]; auto.
Qed.

Definition flange_facts (tab : flange_table) : bool :=
  (list_eqb (fl_columns tab) ("Temperature"%string :: class_names)
   && ffilled tab "Temperature"
   && forallb (fun c => ffilled tab c && incQ (rawpts tab c) && fallQ (rawpts tab c)
                        && forallb (fun p => Qle_bool 0 (snd p)) (rawpts tab c)
                        && Nat.leb 3 (length (rawpts tab c))) class_names
   && forallb (fun c1 => forallb (fun c2 =>
         match int_of c1, int_of c2 with
         | Ok a, Ok b => if Z.leb a b then belowQ (rawpts tab c1) (rawpts tab c2) else true
         | _, _ => false
         end) class_names) class_names)%bool.

Definition group_facts (m : string) : bool :=
  match group_of m with
  | Ok g => match FLANGE_LIMITS g with
            | Ok tab => flange_facts tab
            | Err _ => false
            end
  | Err _ => false
  end.
Lemma group_facts_hold : forallb group_facts available_materials = true.
Proof. vm_compute. reflexivity. Qed.

Record flange_ok (tab : flange_table) : Prop := {
  fo_cols : fl_columns tab = "Temperature"%string :: class_names;
  fo_temp : ffilled tab "Temperature" = true;
  fo_fill : forall c, In c class_names -> ffilled tab c = true;
  fo_inc : forall c, In c class_names -> increasing (map ptTP (rawpts tab c));
  fo_fall : forall c, In c class_names -> falling (map ptTP (rawpts tab c));
  fo_pos : forall c, In c class_names -> forall p, In p (map ptTP (rawpts tab c)) -> 0 <= snd p;
  fo_len : forall c, In c class_names -> (3 <= length (rawpts tab c))%nat;
  fo_below : forall c1 c2 a b, In c1 class_names -> In c2 class_names ->
    int_of c1 = Ok a -> int_of c2 = Ok b -> (a <= b)%Z ->
    below (map ptTP (rawpts tab c1)) (map ptTP (rawpts tab c2)) }.

Lemma flange_ok_of m : In m available_materials ->
  exists g tab, group_of m = Ok g /\ FLANGE_LIMITS g = Ok tab /\ flange_ok tab.
Proof.
  intros I. pose proof group_facts_hold as H. rewrite forallb_forall in H.
  specialize (H m I). unfold group_facts in H.
  destruct (group_of m) as [g|]; [|discriminate].
  destruct (FLANGE_LIMITS g) as [tab|] eqn:E; [|discriminate].
  exists g, tab. split; [reflexivity|]. split; [assumption|].
  unfold flange_facts in H.
  apply andb_true_iff in H as [H H4]. apply andb_true_iff in H as [H H3].
  apply andb_true_iff in H as [H1 H2].
  rewrite forallb_forall in H3, H4.
  assert (F : forall c, In c class_names ->
    ffilled tab c = true /\ incQ (rawpts tab c) = true /\ fallQ (rawpts tab c) = true
    /\ forallb (fun p => Qle_bool 0 (snd p)) (rawpts tab c) = true
    /\ Nat.leb 3 (length (rawpts tab c)) = true).
  { intros c Ic. specialize (H3 c Ic).
    repeat (apply andb_true_iff in H3; destruct H3 as [H3 ?]). auto. }
  constructor.
  - now apply list_eqb_eq.
  - assumption.
  - intros c Ic; apply (F c Ic).
  - intros c Ic; apply increasing_TP, (F c Ic).
  - intros c Ic; apply falling_TP, (F c Ic).
  - intros c Ic p Hp. apply in_map_iff in Hp as (q & <- & Hq).
    destruct (F c Ic) as (_ & _ & _ & P & _). rewrite forallb_forall in P.
    specialize (P q Hq). apply Qle_bool_le in P. cbn.
    replace (Q2R 0) with 0 in P by (q2r; lra). lra.
  - intros c Ic. apply Nat.leb_le, (F c Ic).
  - intros c1 c2 a b I1 I2 E1 E2 L. specialize (H4 c1 I1). rewrite forallb_forall in H4.
    specialize (H4 c2 I2). rewrite E1, E2 in H4. apply Z.leb_le in L. rewrite L in H4.
    now apply below_TP.
Qed.

(** ** Range checks *)
Lemma fold_min_first l : forall x : R, (forall y, In y l -> x <= y) ->
  fold_left (fun m y => if (y <? m)%num then y else m) l x = x.
Proof.
  induction l as [|y l IH]; intros x H; [reflexivity|]. cbn [fold_left]; rnum.
  rewrite Rltb_false by (apply H; now left). apply IH. intros; apply H; now right.
Qed.
Lemma fold_max_ge l : forall x : R,
  let m := fold_left (fun m y => if (m <? y)%num then y else m) l x in
  (m = x \/ In m l) /\ x <= m /\ (forall y, In y l -> y <= m).
Proof.
  induction l as [|y l IH]; intros x; cbn [fold_left].
  - split; [now left|]. split; [lra|easy].
  - rnum. destruct (Rltb_spec x y) as [L|L].
    + destruct (IH y) as (A & B & C). split; [|split].
      * right. destruct A as [->|A]; [now left | now right].
      * cbv zeta in *; lra.
      * intros z [->|Hz]; auto.
    + destruct (IH x) as (A & B & C). split; [|split].
      * destruct A as [->|A]; [now left | right; now right].
      * assumption.
      * intros z [->|Hz]; [cbv zeta in *; lra | auto].
Qed.
Lemma list_min_inc p l : increasing (p :: l) -> list_min (map fst (p :: l)) = Ok (fst p).
Proof.
  intros I. cbn [map list_min]. f_equal. apply fold_min_first.
  intros y Hy. apply in_map_iff in Hy as (q & <- & Hq). left.
  now apply (increasing_all _ _ I).
Qed.
Lemma list_max_spec x l : exists m, list_max (x :: l) = Ok m /\ In m (x :: l)
  /\ forall y, In y (x :: l) -> y <= m.
Proof.
  unfold list_max. eexists; split; [reflexivity|].
  destruct (fold_max_ge l x) as (A & B & C). split.
  - destruct A as [->|A]; [now left | now right].
  - intros y [->|Hy]; auto.
Qed.
Lemma list_min_spec x l : exists m, list_min (x :: l) = Ok m /\ In m (x :: l)
  /\ forall y, In y (x :: l) -> m <= y.
Proof.
  unfold list_min. eexists; split; [reflexivity|].
  enough (G : forall x : R,
    let m := fold_left (fun m y => if (y <? m)%num then y else m) l x in
    (m = x \/ In m l) /\ m <= x /\ (forall y, In y l -> m <= y)).
  { destruct (G x) as (A & B & C). split.
    - destruct A as [->|A]; [now left | now right].
    - intros y [->|Hy]; auto. }
  clear x; induction l as [|y l IH]; intros x; cbn [fold_left].
  - split; [now left|]. split; [lra|easy].
  - rnum. destruct (Rltb_spec y x) as [L|L].
    + destruct (IH y) as (A & B & C). split; [|split].
      * right. destruct A as [->|A]; [now left | now right].
      * cbv zeta in *; lra.
      * intros z [->|Hz]; auto.
    + destruct (IH x) as (A & B & C). split; [|split].
      * destruct A as [->|A]; [now left | right; now right].
      * assumption.
      * intros z [->|Hz]; [cbv zeta in *; lra | auto].
Qed.
Lemma last_in {A} (l : list A) d : l <> [] -> In (last l d) l.
Proof.
  induction l as [|a [|b l] IH]; intros N; [contradiction | now left |].
  right. apply IH. discriminate.
Qed.
Lemma increasing_last l d : increasing l -> forall p, In p l -> fst p <= fst (last l d).
Proof.
  induction l as [|a [|b l] IH]; intros I p Hp; [easy | |].
  - destruct Hp as [->|[]]; cbn; lra.
  - change (last (a :: b :: l) d) with (last (b :: l) d).
    specialize (IH (increasing_tl _ _ I)).
    destruct Hp as [->|Hp]; [|now apply IH].
    pose proof (increasing_hd _ _ _ I). pose proof (IH b (or_introl eq_refl)). lra.
Qed.

Lemma list_max_inc l d : increasing l -> l <> [] ->
  list_max (map fst l) = Ok (fst (last l d)).
Proof.
  intros I N. destruct l as [|p l]; [contradiction|].
  destruct (list_max_spec (fst p) (map fst l)) as (m & E & Im & Hm).
  change (fst p :: map fst l) with (map fst (p :: l)) in *.
  rewrite E; f_equal. apply Rle_antisym.
  - apply in_map_iff in Im as (q & <- & Hq). now apply increasing_last.
  - apply Hm. apply in_map. now apply last_in.
Qed.

Lemma check_range_spec q d l msg lo hi x :
  list_min l = Ok lo -> list_max l = Ok hi -> u_dim (q_unit q) = d -> base_mag q = x ->
  check_in_range q d l msg
  = raise_if (Rltb x lo || Rltb hi x) (ValueError msg).
Proof.
  intros E1 E2 D B. unfold check_in_range. rewrite E1, E2. cbn [bind].
  rewrite D, dim_eqb_refl, B. reflexivity.
Qed.

(** First and last points. *)
Lemma rawpts_split tab c : (3 <= length (rawpts tab c))%nat ->
  exists p l, map ptTP (rawpts tab c) = p :: l /\ l <> [].
Proof.
  destruct (rawpts tab c) as [|a [|b l]]; cbn; intros; try lia.
  eexists _, _; split; [reflexivity|discriminate].
Qed.

(** The rating of a class at [T] kelvin, as a function of the table. *)
Definition curve (tab : flange_table) (c : string) : list (R * R) := map ptTP (rawpts tab c).

Lemma rating_in strict tab c T p0 l d :
  flange_ok tab -> In c class_names -> curve tab c = p0 :: l ->
  fst p0 <= T <= fst (last (p0 :: l) d) ->
  rating strict tab c T = np_interp T (curve tab c).
Proof.
  intros F Ic E [A B]. unfold rating. rewrite pts_TP by (apply F; assumption).
  fold (curve tab c). apply slinear_np.
  - now apply F.
  - unfold curve; rewrite map_length. pose proof (fo_len _ F c Ic); lia.
  - rewrite E. intros p [= ->]. assumption.
  - intros p d' N Ep. rewrite E in Ep. subst p.
    assert (X : forall d d' : R * R, last (p0 :: l) d = last (p0 :: l) d').
    { clear. generalize p0. induction l as [|b l' IH]; intros a d d'; [reflexivity|].
      change (last (b :: l') d = last (b :: l') d'). apply IH. }
    now rewrite (X d' d).
Qed.
Lemma np_interp_defined (x : R) p l : exists v, np_interp x (p :: l) = Ok v.
Proof. cbn. eauto. Qed.

(** All classes share the temperature column. *)
Lemma curve_temps tab c c' : ffilled tab "Temperature" = true ->
  map fst (curve tab c) = map fst (curve tab c').
Proof. intros H. unfold curve. now rewrite <- !temps_eq by assumption. Qed.

Lemma check_material_grade m : In m available_materials -> check_material (NStr m) = Ok true.
Proof. intros I. unfold check_material. apply str_mem_In in I. unfold available_materials in I. now rewrite I. Qed.

Lemma table_for_ok m c : In m available_materials -> In c class_names ->
  exists g tab, group_of m = Ok g /\ FLANGE_LIMITS g = Ok tab /\ flange_ok tab
    /\ table_for c (NStr m) = Ok tab.
Proof.
  intros I Ic. destruct (flange_ok_of m I) as (g & tab & G & L & F).
  exists g, tab. split; [assumption|]. split; [assumption|]. split; [assumption|].
  unfold table_for. rewrite check_material_grade by assumption. cbn [bind].
  rewrite G. cbn [bind]. rewrite L. cbn [bind]. unfold check_flange_class.
  rewrite (fo_cols _ F).
  replace (str_mem c _) with true; [reflexivity|].
  symmetry; apply str_mem_In. now right.
Qed.
Lemma class_not_temp c : In c class_names -> String.eqb c "Temperature" = false.
Proof.
  intros I. assert (H : forallb (fun c => negb (String.eqb c "Temperature")) class_names = true)
    by reflexivity. rewrite forallb_forall in H. specialize (H c I). now apply negb_true_iff.
Qed.

(** get_max_pressure in closed form. *)
Lemma max_pressure_closed strict c temp x m g tab p0 l :
  In m available_materials -> In c class_names ->
  group_of m = Ok g -> FLANGE_LIMITS g = Ok tab -> curve tab c = p0 :: l ->
  denotes temp d_temperature x ->
  get_max_pressure strict c temp (NStr m)
  = if (Rltb x (fst p0) || Rltb (fst (last (p0 :: l) p0)) x)%bool
    then Err (ValueError "Temperature out of range.")
    else let* v := np_interp x (curve tab c) in quant (out_reg temp) v "Pa".
Proof.
  intros I Ic G L E D.
  destruct (table_for_ok m c I Ic) as (g' & tab' & G' & L' & F & T).
  rewrite G in G'; injection G' as <-. rewrite L in L'; injection L' as <-.
  unfold get_max_pressure. rewrite T; cbn [bind].
  destruct (parse_denotes _ _ _ module_reg D) as (q & -> & P); cbn [bind].
  assert (Inc : increasing (p0 :: l)) by (rewrite <- E; now apply F).
  rewrite (check_range_spec q d_temperature (temps_base tab) _ (fst p0)
             (fst (last (p0 :: l) p0)) x).
  - destruct (Rltb_spec x (fst p0)); [reflexivity|].
    destruct (Rltb_spec (fst (last (p0 :: l) p0)) x); [reflexivity|].
    cbn [orb raise_if bind]. rewrite class_not_temp by assumption. cbn [raise_if bind].
    rewrite (parsed_base_mag _ _ _ _ P).
    rewrite (rating_in strict tab c x p0 l p0) by (assumption || lra). reflexivity.
  - rewrite (temps_eq tab c) by apply F. fold (curve tab c). rewrite E. now apply list_min_inc.
  - rewrite (temps_eq tab c) by apply F. fold (curve tab c). rewrite E.
    apply list_max_inc; [assumption|discriminate].
  - apply P.
  - now apply parsed_base_mag in P.
Qed.

(** ** From the CSV file to the loaded table *)
Local Transparent FLANGE_LIMITS.
Lemma fl_cell_map cols row c :
  fl_cell cols (map num_or_zero row) c = option_map num_or_zero (cell cols row c).
Proof.
  revert row; induction cols as [|k cols IH]; intros [|x row]; try reflexivity.
  cbn [map fl_cell cell]. destruct (String.eqb k c); [reflexivity | apply IH].
Qed.

Record rates (m : string) (f : frame) (tab : flange_table) : Prop := {
  ra_in : In m available_materials;
  ra_group : exists g, group_of m = Ok g /\ FLANGE_LIMITS g = Ok tab;
  ra_ok : flange_ok tab;
  ra_cols : fl_columns tab = f_cols f;
  ra_rows : fl_rows tab = map (map num_or_zero) (f_rows f) }.

Lemma rates_of m f : In m available_materials -> rated_by TUBE_MATERIALS flange_file m f ->
  exists tab, rates m f tab.
Proof.
  intros I (row & g & Fr & Fc & Ff).
  destruct (flange_ok_of m I) as (g' & tab & G & L & F).
  exists tab.
  assert (g' = g) as ->.
  { unfold group_of, row_of in G. rewrite Fr, Fc in G. congruence. }
  assert (tab = mkFlange (f_cols f) (map (map num_or_zero) (f_rows f))) as E.
  { unfold FLANGE_LIMITS in L. rewrite Ff in L. unfold load_flange in L.
    destruct (forallb _ _); [|discriminate]. now injection L as <-. }
  constructor.
  - exact I.
  - exists g. split; [exact G | exact L].
  - exact F.
  - now rewrite E.
  - now rewrite E.
Qed.
Local Opaque FLANGE_LIMITS.

Lemma every_material_rated m : In m available_materials ->
  exists f, rated_by TUBE_MATERIALS flange_file m f.
Proof.
  intros I. destruct (flange_ok_of m I) as (g & tab & G & L & F).
  unfold group_of, row_of in G.
  destruct (find _ _) as [row|] eqn:Ef; [|discriminate].
  destruct (cell _ row "Group") as [g'|] eqn:Ec; [|discriminate]. injection G as <-.
  Local Transparent FLANGE_LIMITS.
  unfold FLANGE_LIMITS in L. Local Opaque FLANGE_LIMITS.
  destruct (flange_file g') as [f|] eqn:Eff; [|discriminate].
  exists f, row, g'. split; [exact Ef|]. split; [exact Ec|exact Eff].
Qed.

Lemma rates_classes m f tab : rates m f tab -> pressure_classes f = class_names.
Proof.
  intros H. unfold pressure_classes. rewrite <- (ra_cols _ _ _ H), (fo_cols _ (ra_ok _ _ _ H)).
  reflexivity.
Qed.

Lemma tabulated_fnum m f tab row c q : rates m f tab ->
  tabulated f row c q -> fnum tab (map num_or_zero row) c = q.
Proof.
  intros H (s & E & ->). unfold fnum. rewrite (ra_cols _ _ _ H), fl_cell_map, E. reflexivity.
Qed.
Lemma curve_map m f tab c : rates m f tab ->
  curve tab c = map (fun row => ptTP (fnum tab (map num_or_zero row) "Temperature",
                                      fnum tab (map num_or_zero row) c)) (f_rows f).
Proof.
  intros H. unfold curve, rawpts. rewrite (ra_rows _ _ _ H), !map_map. reflexivity.
Qed.
Lemma curve_pt m f tab c row T P : rates m f tab -> In row (f_rows f) ->
  tabulated f row "Temperature" T -> tabulated f row c P ->
  In (ptTP (T, P)) (curve tab c).
Proof.
  intros H I Ht Hp. rewrite (curve_map _ _ _ _ H). apply in_map_iff. exists row.
  rewrite (tabulated_fnum _ _ _ _ _ _ H Ht), (tabulated_fnum _ _ _ _ _ _ H Hp). auto.
Qed.
Lemma curve_consecutive m f tab c row1 row2 T1 P1 T2 P2 : rates m f tab ->
  consecutive (f_rows f) row1 row2 ->
  tabulated f row1 "Temperature" T1 -> tabulated f row1 c P1 ->
  tabulated f row2 "Temperature" T2 -> tabulated f row2 c P2 ->
  consecutive (curve tab c) (ptTP (T1, P1)) (ptTP (T2, P2)).
Proof.
  intros H C A1 A2 A3 A4. rewrite (curve_map _ _ _ _ H).
  apply (consecutive_map (fun row => ptTP (fnum tab (map num_or_zero row) "Temperature",
                                      fnum tab (map num_or_zero row) c))) in C.
  rewrite (tabulated_fnum _ _ _ _ _ _ H A1), (tabulated_fnum _ _ _ _ _ _ H A2),
    (tabulated_fnum _ _ _ _ _ _ H A3), (tabulated_fnum _ _ _ _ _ _ H A4) in C.
  exact C.
Qed.
(** Every row has a number in every column. *)
Lemma row_tabulated m f tab row c : rates m f tab -> In c class_names ->
  In row (f_rows f) ->
  tabulated f row "Temperature" (fnum tab (map num_or_zero row) "Temperature")
  /\ tabulated f row c (fnum tab (map num_or_zero row) c).
Proof.
  intros H Ic I.
  assert (X : forall c, ffilled tab c = true ->
            tabulated f row c (fnum tab (map num_or_zero row) c)).
  { intros c' Hf. unfold ffilled in Hf. rewrite forallb_forall in Hf.
    specialize (Hf (map num_or_zero row)).
    rewrite (ra_rows _ _ _ H) in Hf. specialize (Hf (in_map _ _ _ I)).
    unfold fnum. rewrite (ra_cols _ _ _ H) in *. rewrite fl_cell_map in *.
    unfold tabulated. destruct (cell (f_cols f) row c') as [s|]; [|discriminate].
    exists s. split; reflexivity. }
  split; apply X, H; assumption.
Qed.
Lemma curve_rows m f tab c p : rates m f tab -> In c class_names -> In p (curve tab c) ->
  exists row T P, In row (f_rows f) /\ tabulated f row "Temperature" T
                  /\ tabulated f row c P /\ p = ptTP (T, P).
Proof.
  intros H Ic I. rewrite (curve_map _ _ _ _ H) in I. apply in_map_iff in I as (row & <- & I).
  destruct (row_tabulated _ _ _ row c H Ic I) as [A B].
  eexists row, _, _. split; [exact I|]. split; [exact A|]. split; [exact B|]. reflexivity.
Qed.
Lemma curve_consecutive_rows m f tab c p q : rates m f tab -> In c class_names ->
  consecutive (curve tab c) p q ->
  exists row1 row2 T1 P1 T2 P2, consecutive (f_rows f) row1 row2
    /\ tabulated f row1 "Temperature" T1 /\ tabulated f row1 c P1
    /\ tabulated f row2 "Temperature" T2 /\ tabulated f row2 c P2
    /\ p = ptTP (T1, P1) /\ q = ptTP (T2, P2).
Proof.
  intros H Ic C. rewrite (curve_map _ _ _ _ H) in C.
  apply consecutive_map_inv in C as (r1 & r2 & C & -> & ->).
  assert (In r1 (f_rows f) /\ In r2 (f_rows f)) as [I1 I2].
  { destruct C as (b & a & ->). split; apply in_app_iff; right; [now left|right; now left]. }
  destruct (row_tabulated _ _ _ r1 c H Ic I1) as [A1 B1],
    (row_tabulated _ _ _ r2 c H Ic I2) as [A2 B2].
  eexists r1, r2, _, _, _, _. split; [exact C|]. split; [exact A1|]. split; [exact B1|].
  split; [exact A2|]. split; [exact B2|]. split; reflexivity.
Qed.

Lemma curve_split m f tab c : rates m f tab -> In c class_names ->
  exists p0 l, curve tab c = p0 :: l /\ l <> [].
Proof. intros H Ic. apply rawpts_split, H. assumption. Qed.

Lemma find_interval (p0 : R * R) l x : l <> [] -> fst p0 <= x -> x <= fst (last (p0 :: l) p0) ->
  exists a b, consecutive (p0 :: l) a b /\ fst a <= x <= fst b.
Proof.
  revert p0; induction l as [|q l IH]; intros p0 N A B; [contradiction|].
  destruct (Rle_dec x (fst q)) as [L|L].
  - exists p0, q. split; [apply consecutive_hd | lra].
  - destruct l as [|r l]; [cbn in B; lra|].
    destruct (IH q) as (a & b & C & X); [discriminate | lra | |].
    + assert (E : forall d d' : R * R, last (q :: r :: l) d = last (q :: r :: l) d').
      { clear. generalize q r. induction l as [|s l IH]; intros; [reflexivity|].
        change (last (r0 :: s :: l) d = last (r0 :: s :: l) d'). apply (IH r0 s). }
      change (last (p0 :: q :: r :: l) p0) with (last (q :: r :: l) p0) in B.
      now rewrite (E q p0).
    + exists a, b. split; [now apply consecutive_cons | assumption].
Qed.

Lemma line_celsius T1 P1 T2 P2 t :
  line (ptTP (T1, P1)) (ptTP (T2, P2)) (celsius t)
  = line (Q2R T1, Q2R P1 * 100000) (Q2R T2, Q2R P2 * 100000) t.
Proof.
  unfold line, ptTP, celsius; cbn [fst snd].
  replace (t + 27315/100 - (Q2R T1 + 27315/100)) with (t - Q2R T1) by ring.
  replace (Q2R T2 + 27315/100 - (Q2R T1 + 27315/100)) with (Q2R T2 - Q2R T1) by ring.
  reflexivity.
Qed.

Lemma quant_is_in reg (v : R) s : lookup_unit (A:=R) s <> None ->
  exists q, quant reg v s = Ok q /\ is_in q v s reg.
Proof.
  intros H. unfold quant. destruct (lookup_unit s) as [u|] eqn:E; [|contradiction].
  eexists; split; [reflexivity|]. repeat split. exact E.
Qed.
Lemma Pa_known : lookup_unit (A:=R) "Pa" <> None. Proof. discriminate. Qed.
Lemma K_known : lookup_unit (A:=R) "K" <> None. Proof. discriminate. Qed.

(** get_max_pressure on a material with its file. *)
Lemma max_pressure_rates strict m f tab c temp x : rates m f tab -> In c class_names ->
  denotes temp d_temperature x ->
  exists p0 l, curve tab c = p0 :: l /\ l <> [] /\
  get_max_pressure strict c temp (NStr m)
  = if (Rltb x (fst p0) || Rltb (fst (last (p0 :: l) p0)) x)%bool
    then Err (ValueError "Temperature out of range.")
    else let* v := np_interp x (curve tab c) in quant (out_reg temp) v "Pa".
Proof.
  intros H Ic D. destruct (curve_split _ _ _ _ H Ic) as (p0 & l & E & N).
  destruct (ra_group _ _ _ H) as (g & G & L).
  exists p0, l. split; [assumption|]. split; [assumption|].
  exact (max_pressure_closed strict c temp x m g tab p0 l (ra_in _ _ _ H) Ic G L E D).
Qed.

Lemma max_pressure_line strict m f c temp t row1 row2 T1 P1 T2 P2 :
  In m available_materials -> rated_by TUBE_MATERIALS flange_file m f ->
  In c (pressure_classes f) ->
  consecutive (f_rows f) row1 row2 ->
  tabulated f row1 "Temperature" T1 -> tabulated f row1 c P1 ->
  tabulated f row2 "Temperature" T2 -> tabulated f row2 c P2 ->
  denotes temp d_temperature (celsius t) -> Q2R T1 <= t <= Q2R T2 ->
  exists q, get_max_pressure strict c temp (NStr m) = Ok q
    /\ is_in q (line (Q2R T1, Q2R P1 * 100000) (Q2R T2, Q2R P2 * 100000) t) "Pa" (out_reg temp).
Proof.
  intros I Rb Ic C A1 A2 A3 A4 D B.
  destruct (rates_of m f I Rb) as (tab & H). rewrite (rates_classes _ _ _ H) in Ic.
  destruct (max_pressure_rates strict _ _ _ c _ _ H Ic D) as (p0 & l & E & N & ->).
  pose proof (curve_consecutive _ _ _ c _ _ _ _ _ _ H C A1 A2 A3 A4) as Cc.
  assert (Inc : increasing (curve tab c)) by (apply H; assumption).
  assert (L0 : fst p0 <= celsius t).
  { assert (In (ptTP (T1,P1)) (p0 :: l)) as [E0|I0].
    { rewrite <- E. destruct Cc as (b & a & ->). apply in_app_iff; right; now left. }
    - try rewrite E0; cbn; unfold celsius; lra.
    - rewrite E in Inc. pose proof (increasing_all _ _ Inc _ I0) as X.
      cbn in X; unfold celsius in *; lra. }
  assert (L1 : celsius t <= fst (last (p0 :: l) p0)).
  { pose proof (increasing_last (p0 :: l) p0) as X. rewrite <- E in X at 1.
    specialize (X Inc (ptTP (T2,P2))). rewrite <- E in X.
    assert (In (ptTP (T2,P2)) (curve tab c)) as Y.
    { destruct Cc as (b & a & ->). apply in_app_iff; right; right; now left. }
    specialize (X Y). rewrite E in X. cbn in X |- *. unfold celsius in *. lra. }
  rewrite !Rltb_false by assumption. cbn [orb].
  rewrite (np_interp_line _ _ _ _ Inc Cc) by (cbn; unfold celsius; lra).
  cbn [bind]. rewrite line_celsius. apply quant_is_in, Pa_known.
Qed.

Lemma max_pressure_out strict m f c temp t :
  In m available_materials -> rated_by TUBE_MATERIALS flange_file m f ->
  In c (pressure_classes f) -> denotes temp d_temperature (celsius t) ->
  (forall row T, In row (f_rows f) -> tabulated f row "Temperature" T -> t < Q2R T)
  \/ (forall row T, In row (f_rows f) -> tabulated f row "Temperature" T -> Q2R T < t) ->
  is_value_error (get_max_pressure strict c temp (NStr m)).
Proof.
  intros I Rb Ic D B.
  destruct (rates_of m f I Rb) as (tab & H). rewrite (rates_classes _ _ _ H) in Ic.
  destruct (max_pressure_rates strict _ _ _ c _ _ H Ic D) as (p0 & l & E & N & ->).
  assert (X0 : In p0 (curve tab c)) by (rewrite E; now left).
  assert (X1 : In (last (p0 :: l) p0) (curve tab c)) by (rewrite E; apply last_in; discriminate).
  destruct (curve_rows _ _ _ _ _ H Ic X0) as (r0 & T0 & P0 & I0 & A0 & _ & E0).
  destruct (curve_rows _ _ _ _ _ H Ic X1) as (r1 & T1 & P1 & I1 & A1 & _ & E1).
  destruct B as [B|B].
  - specialize (B r0 T0 I0 A0). rewrite Rltb_true; [eexists; reflexivity|].
    rewrite E0; cbn; unfold celsius; lra.
  - specialize (B r1 T1 I1 A1). rewrite (Rltb_true (fst _)); [rewrite orb_true_r; eexists; reflexivity|].
    rewrite E1; cbn; unfold celsius; lra.
Qed.

Lemma max_pressure_covered m f c t row1 row2 T1 T2 :
  In m available_materials -> rated_by TUBE_MATERIALS flange_file m f ->
  In c (pressure_classes f) ->
  In row1 (f_rows f) -> tabulated f row1 "Temperature" T1 ->
  In row2 (f_rows f) -> tabulated f row2 "Temperature" T2 -> Q2R T1 <= t <= Q2R T2 ->
  exists row1 row2 T1 P1 T2 P2, consecutive (f_rows f) row1 row2
    /\ tabulated f row1 "Temperature" T1 /\ tabulated f row1 c P1
    /\ tabulated f row2 "Temperature" T2 /\ tabulated f row2 c P2
    /\ Q2R T1 <= t <= Q2R T2.
Proof.
  intros I Rb Ic I1 A1 I2 A2 B.
  destruct (rates_of m f I Rb) as (tab & H). rewrite (rates_classes _ _ _ H) in Ic.
  destruct (curve_split _ _ _ _ H Ic) as (p0 & l & E & N).
  assert (Inc : increasing (p0 :: l)) by (rewrite <- E; now apply H).
  destruct (row_tabulated _ _ _ row1 c H Ic I1) as [_ Q1].
  destruct (row_tabulated _ _ _ row2 c H Ic I2) as [_ Q2].
  pose proof (curve_pt _ _ _ c _ _ _ H I1 A1 Q1) as Y1.
  pose proof (curve_pt _ _ _ c _ _ _ H I2 A2 Q2) as Y2.
  rewrite E in Y1, Y2.
  assert (Z1 : fst p0 <= celsius (Q2R T1)).
  { destruct Y1 as [->|Y1]; [cbn; lra|]. pose proof (increasing_all _ _ Inc _ Y1) as X; cbn in X; lra. }
  pose proof (increasing_last _ p0 Inc _ Y2) as Z2. cbn in Z2.
  destruct (find_interval p0 l (celsius t) N) as (a & b & C & X).
  { unfold celsius in *; lra. }
  { cbn; unfold celsius in *; lra. }
  rewrite <- E in C.
  destruct (curve_consecutive_rows _ _ _ _ _ _ H Ic C) as
    (r1 & r2 & t1 & p1 & t2 & p2 & C' & ? & ? & ? & ? & -> & ->).
  exists r1, r2, t1, p1, t2, p2. cbn in X; unfold celsius in X. intuition lra.
Qed.

(** ** Monotonicity *)
Lemma class_number c n : In c class_names -> parse_number c = Some n ->
  int_of c = Ok (Qnum n) /\ Qden n = 1%positive.
Proof.
  intros I. unfold class_names in I.
  repeat (destruct I as [<-|I]; [intros [= <-]; split; reflexivity|]). destruct I.
Qed.
Lemma max_pressure_ok strict m f tab c temp x q : rates m f tab -> In c class_names ->
  denotes temp d_temperature x -> get_max_pressure strict c temp (NStr m) = Ok q ->
  np_interp x (curve tab c) = Ok (q_mag q) /\ is_in q (q_mag q) "Pa" (out_reg temp).
Proof.
  intros H Ic D. destruct (max_pressure_rates strict _ _ _ c _ _ H Ic D) as (p0 & l & E & N & ->).
  destruct (Rltb _ _ || _)%bool; [discriminate|].
  rewrite E. destruct (np_interp_defined x p0 l) as (v & ->). cbn [bind].
  destruct (quant_is_in (out_reg temp) v "Pa" Pa_known) as (q' & -> & Iq).
  intros [= <-]. destruct Iq as (U & M & Rg). rewrite M. split; [reflexivity|].
  repeat split; assumption.
Qed.

Lemma max_pressure_falls strict m f c temp1 temp2 x1 x2 q1 q2 :
  In m available_materials -> rated_by TUBE_MATERIALS flange_file m f ->
  In c (pressure_classes f) ->
  denotes temp1 d_temperature x1 -> denotes temp2 d_temperature x2 -> x1 <= x2 ->
  get_max_pressure strict c temp1 (NStr m) = Ok q1 ->
  get_max_pressure strict c temp2 (NStr m) = Ok q2 ->
  0 <= q_mag q2 <= q_mag q1 /\ q_unit q1 = q_unit q2.
Proof.
  intros I Rb Ic D1 D2 X E1 E2.
  destruct (rates_of m f I Rb) as (tab & H). rewrite (rates_classes _ _ _ H) in Ic.
  destruct (max_pressure_ok _ _ _ _ _ _ _ _ H Ic D1 E1) as (N1 & U1 & _).
  destruct (max_pressure_ok _ _ _ _ _ _ _ _ H Ic D2 E2) as (N2 & U2 & _).
  assert (Inc : increasing (curve tab c)) by (apply H; assumption).
  split; [split|].
  - refine (np_interp_lower _ _ _ _ Inc _ N2). apply H; assumption.
  - refine (np_interp_falling _ _ _ _ _ Inc _ X N1 N2). apply H; assumption.
  - congruence.
Qed.
Lemma max_pressure_class strict m f c1 c2 n1 n2 temp x q1 q2 :
  In m available_materials -> rated_by TUBE_MATERIALS flange_file m f ->
  In c1 (pressure_classes f) -> In c2 (pressure_classes f) ->
  parse_number c1 = Some n1 -> parse_number c2 = Some n2 -> (n1 <= n2)%Q ->
  denotes temp d_temperature x ->
  get_max_pressure strict c1 temp (NStr m) = Ok q1 ->
  get_max_pressure strict c2 temp (NStr m) = Ok q2 ->
  q_mag q1 <= q_mag q2 /\ q_unit q1 = q_unit q2.
Proof.
  intros I Rb I1 I2 A1 A2 L D E1 E2.
  destruct (rates_of m f I Rb) as (tab & H). rewrite (rates_classes _ _ _ H) in I1, I2.
  destruct (max_pressure_ok _ _ _ _ _ _ _ _ H I1 D E1) as (N1 & U1 & _).
  destruct (max_pressure_ok _ _ _ _ _ _ _ _ H I2 D E2) as (N2 & U2 & _).
  destruct (class_number _ _ I1 A1) as [Z1 Y1], (class_number _ _ I2 A2) as [Z2 Y2].
  split; [|congruence].
  refine (np_interp_below _ _ _ _ _ _ _ _ N1 N2); try (apply H; assumption).
  refine (fo_below _ (ra_ok _ _ _ H) _ _ _ _ I1 I2 Z1 Z2 _).
  unfold Qle in L. rewrite Y1, Y2 in L. lia.
Qed.

(** ** get_class *)
Lemma mapM_spec {X Y} (f : X -> result Y) l ys :
  mapM f l = Ok ys -> Forall2 (fun x y => f x = Ok y) l ys.
Proof.
  revert ys; induction l as [|x l IH]; cbn; intros ys; [intros [= <-]; constructor|].
  destruct (f x) as [y|] eqn:E; [|discriminate]. cbn.
  destruct (mapM f l) as [ys'|]; [|discriminate]. cbn. intros [= <-]. constructor; auto.
Qed.
Lemma forall2_first {X Y} (P : X -> Y -> Prop) (b : Y -> bool) l ys y rest :
  Forall2 P l ys -> filter b ys = y :: rest ->
  exists x, In x l /\ P x y /\ b y = true
    /\ exists l1 l2 ys1, l = l1 ++ x :: l2 /\ Forall2 P l1 ys1 /\ forallb (fun y => negb (b y)) ys1 = true.
Proof.
  intros F; induction F as [|x y0 l ys H F IH]; intros E; [discriminate|].
  cbn in E. destruct (b y0) eqn:B.
  - injection E as <- <-. exists x. split; [now left|]. split; [assumption|]. split; [assumption|].
    exists [], l, []. repeat split; constructor.
  - destruct (IH E) as (x' & I & Hx & By & l1 & l2 & ys1 & -> & F1 & G).
    exists x'. split; [now right|]. split; [assumption|]. split; [assumption|].
    exists (x :: l1), l2, (y0 :: ys1). split; [reflexivity|].
    split; [now constructor|]. cbn. now rewrite B.
Qed.

Section Any.
  Context {A : Type} {NA : Num A}.
  Local Open Scope num_scope.

  (** The class names of the loaded table do not depend on the arithmetic. *)
  Lemma flange_cols m : In m available_materials ->
    exists g tab, group_of m = Ok g /\ FLANGE_LIMITS g = Ok tab
      /\ fl_columns tab = "Temperature"%string :: class_names.
  Proof.
    intros I. destruct (flange_ok_of m I) as (g & tab & G & L & F).
    exists g, tab. split; [exact G|]. split; [exact L|]. apply F.
  Qed.

  Lemma parse_any (i : pyin A) r1 r2 q : parse_quant_input i r1 = Ok q ->
    exists q', parse_quant_input i r2 = Ok q' /\ q_mag q' = q_mag q /\ q_unit q' = q_unit q.
  Proof.
    destruct i as [q0|l|]; cbn; try discriminate.
    - intros [= <-]. eexists; split; [reflexivity|]. now cbn.
    - destruct l as [|[m|s] [|[m'|s'] [|]]]; cbn; try discriminate.
      unfold quant. destruct (lookup_unit s') as [u|]; [|discriminate].
      intros [= <-]. eexists; split; [reflexivity|]. now cbn.
  Qed.
End Any.

Lemma smaller_before l1 c l2 c' n n' : class_names = l1 ++ c :: l2 ->
  In c' class_names -> parse_number c = Some n -> parse_number c' = Some n' -> (n' < n)%Q ->
  In c' l1.
Proof.
  intros E I N N' L. rewrite E in I. apply in_app_iff in I as [I|I]; [assumption|].
  exfalso. revert E I N N' L. unfold class_names.
  assert (X : forall c c' n n', parse_number c = Some n -> parse_number c' = Some n' ->
    (n' < n)%Q -> match parse_number c, parse_number c' with
                  | Some n, Some n' => Qle_bool n n' = false | _, _ => True end).
  { intros. rewrite H, H0. destruct (Qle_bool n0 n'0) eqn:B; [|reflexivity].
    apply Qle_bool_iff in B. exfalso. apply (Qlt_not_le _ _ H1 B). }
  repeat (destruct l1 as [|? l1]; [cbn [app]; intros [= <- <-] I N N' L;
    specialize (X _ _ _ _ N N' L); clear N N' L;
    repeat (destruct I as [<-|I]; [vm_compute in X; discriminate|]); destruct I
    | cbn [app]; intros E; injection E as <- E; revert E]).
  destruct l1; discriminate.
Qed.

Section Any2.
  Context {A : Type} {NA : Num A}.
  Local Open Scope num_scope.

  Lemma base_mag_any (q q' : quantity A) : q_mag q' = q_mag q -> q_unit q' = q_unit q ->
    base_mag q' = base_mag q.
  Proof. unfold base_mag. now intros -> ->. Qed.
  Lemma check_in_range_any (q q' : quantity A) d l msg :
    q_mag q' = q_mag q -> q_unit q' = q_unit q ->
    check_in_range q' d l msg = check_in_range q d l msg.
  Proof. intros M U. unfold check_in_range. rewrite (base_mag_any _ _ M U), U. reflexivity. Qed.

  Lemma check_material_in m b : check_material (NStr m) = Ok b -> In m available_materials.
  Proof.
    unfold check_material. destruct (str_mem m grades) eqn:E; [|discriminate].
    intros _. now apply str_mem_In.
  Qed.
  Local Opaque check_material group_of available_materials grades.

  Lemma get_class_any strict (p temp : pyin A) m reg c pq :
    get_class strict p temp (NStr m) reg = Ok c -> parse_quant_input p reg = Ok pq ->
    In m available_materials /\ In c class_names
    /\ (exists q, get_max_pressure strict c temp (NStr m) = Ok q
          /\ lookup_unit "Pa" = Some (q_unit q) /\ base_mag pq <=? q_mag q = true)
    /\ forall c' n n', In c' class_names -> parse_number c = Some n ->
       parse_number c' = Some n' -> (n' < n)%Q ->
       exists q', get_max_pressure strict c' temp (NStr m) = Ok q'
          /\ lookup_unit "Pa" = Some (q_unit q') /\ base_mag pq <=? q_mag q' = false.
  Proof.
    intros G P. unfold get_class in G. rewrite P in G. cbn [bind] in G.
    destruct (parse_quant_input temp reg) as [tq|] eqn:T; [|discriminate]. cbn [bind] in G.
    destruct (check_q pq _ _); [|discriminate]. cbn [bind] in G.
    destruct (check_q tq _ _); [|discriminate]. cbn [bind] in G.
    unfold parse_quant_input at 1 2 in G. cbn [bind] in G.
    destruct (check_material (NStr m)) eqn:Cm; [|discriminate]. cbn [bind] in G.
    assert (I : In m available_materials).
    { exact (check_material_in _ _ Cm). }
    destruct (flange_cols m I) as (g & tab & Gr & L & Cols).
    rewrite Gr in G. cbn [bind] in G. rewrite L in G. cbn [bind] in G.
    set (pq' := mkQ (q_mag pq) (q_unit pq) module_reg) in G.
    set (tq' := mkQ (q_mag tq) (q_unit tq) module_reg) in G.
    destruct (max_key _ _) as [key|]; [|discriminate]. cbn [bind] in G.
    destruct (list_max _) as [mx|]; [|discriminate]. cbn [bind] in G.
    destruct (raise_if _ _); [|discriminate]. cbn [bind] in G.
    destruct (check_in_range tq' _ _ _) as [[]|] eqn:Cr; [|discriminate]. cbn [bind] in G.
    destruct (mapM _ _) as [rs|] eqn:M; [|discriminate]. cbn [bind] in G.
    destruct (filter _ rs) as [|cr rest] eqn:Fl; [discriminate|]. injection G as <-.
    apply mapM_spec in M.
    assert (Cl : classes tab = class_names) by (unfold classes; now rewrite Cols).
    rewrite Cl in M.
    assert (Gm : forall c0 v, In c0 class_names ->
      (let* r := rating strict tab c0 (base_mag tq') in Ok (c0, r)) = Ok v ->
      fst v = c0 /\ exists q, get_max_pressure strict c0 temp (NStr m) = Ok q
                    /\ lookup_unit "Pa" = Some (q_unit q) /\ q_mag q = snd v).
    { intros c0 v I0 E0.
      destruct (rating strict tab c0 (base_mag tq')) as [r|] eqn:Er; [|discriminate].
      injection E0 as <-. split; [reflexivity|].
      unfold get_max_pressure.
      assert (Tf : table_for c0 (NStr m) = Ok tab).
      { unfold table_for. rewrite Cm. cbn [bind]. rewrite Gr. cbn [bind]. rewrite L. cbn [bind].
        unfold check_flange_class. rewrite Cols.
        replace (str_mem c0 _) with true; [reflexivity|].
        symmetry; apply str_mem_In. now right. }
      rewrite Tf. cbn [bind].
      destruct (parse_any temp reg module_reg tq T) as (tq2 & -> & M2 & U2). cbn [bind].
      rewrite (check_in_range_any tq' tq2) by assumption. rewrite Cr. cbn [bind].
      rewrite class_not_temp by assumption. cbn [raise_if bind].
      rewrite (base_mag_any tq' tq2) by assumption. rewrite Er. cbn [bind].
      unfold quant. destruct (lookup_unit "Pa") as [u|] eqn:Lu; [|discriminate].
      eexists; split; [reflexivity|]. split; reflexivity. }
    destruct (forall2_first _ _ _ _ _ _ M Fl) as (c & Ic & Ec & Bc & l1 & l2 & ys1 & El & F1 & N1).
    destruct (Gm _ _ Ic Ec) as (-> & q & Eq & Uq & Mq).
    split; [exact I|]. split; [exact Ic|]. split.
    - exists q. split; [exact Eq|]. split; [exact Uq|]. rewrite Mq. exact Bc.
    - intros c' n n' Ic' Nc Nc' Lt.
      pose proof (smaller_before _ _ _ _ _ _ El Ic' Nc Nc' Lt) as I1.
      assert (exists y, In y ys1 /\ (let* r := rating strict tab c' (base_mag tq') in Ok (c', r)) = Ok y)
        as (y & Iy & Ey).
      { clear -F1 I1. induction F1 as [|a b l1 ys1 H F1 IH]; [destruct I1|].
        destruct I1 as [->|I1]; [exists b; split; [now left|exact H]|].
        destruct (IH I1) as (y & ? & ?). exists y. split; [now right|assumption]. }
      destruct (Gm _ _ Ic' Ey) as (_ & q' & Eq' & Uq' & Mq').
      exists q'. split; [exact Eq'|]. split; [exact Uq'|]. rewrite Mq'.
      rewrite forallb_forall in N1. specialize (N1 y Iy). now apply negb_true_iff.
  Qed.
End Any2.

Local Opaque check_material group_of available_materials grades.
Local Opaque lookup_unit.

Definition rt (tab : flange_table) (x : R) (c : string) : R :=
  match np_interp x (curve tab c) with Ok v => v | Err _ => 0 end.

Lemma get_class_closed strict p temp m f tab reg x T :
  rates m f tab -> denotes p d_pressure x -> denotes temp d_temperature T ->
  exists top p0 l,
    curve tab "150" = p0 :: l /\ l <> []
    /\ In top (map snd (curve tab "2500"))
    /\ (forall y, In y (map snd (curve tab "2500")) -> y <= top) /\
  get_class strict p temp (NStr m) reg =
  if Rltb x 0 then Err (ValueError "Input value < 0")
  else if Rltb T 0 then Err (ValueError "Input value < 0")
  else if Rltb top x then Err (ValueError "Pressure out of range.")
  else if (Rltb T (fst p0) || Rltb (fst (last (p0 :: l) p0)) T)%bool
  then Err (ValueError "Temperature out of range.")
  else match filter (fun cr => Rleb x (snd cr)) (map (fun c => (c, rt tab T c)) class_names) with
       | [] => Err IndexError
       | cr :: _ => Ok (fst cr)
       end.
Proof.
  intros H Dp Dt.
  assert (I150 : In "150"%string class_names) by now left.
  assert (I2500 : In "2500"%string class_names) by (cbn; tauto).
  destruct (curve_split _ _ _ _ H I2500) as (k0 & kl & Ek & _).
  destruct (curve_split _ _ _ _ H I150) as (p0 & l & E & N).
  destruct (list_max_spec (snd k0) (map snd kl)) as (top & Etop & Itop & Mtop).
  change (snd k0 :: map snd kl) with (map snd (k0 :: kl)) in *.
  rewrite <- Ek in *.
  exists top, p0, l. split; [exact E|]. split; [exact N|]. split; [exact Itop|].
  split; [exact Mtop|].
  destruct (ra_group _ _ _ H) as (g & G & L).
  pose proof (ra_ok _ _ _ H) as F.
  assert (Inc : increasing (p0 :: l)) by (rewrite <- E; now apply F).
  unfold get_class.
  destruct (parse_denotes _ _ _ reg Dp) as (pq & -> & Pp); cbn [bind].
  destruct (parse_denotes _ _ _ reg Dt) as (tq & -> & Pt); cbn [bind].
  destruct (Rltb_spec x 0) as [X|X].
  { rewrite (check_q_neg pq "pressure" d_pressure) by
      (reflexivity || now rewrite (parsed_base_mag _ _ _ _ Pp)). reflexivity. }
  rewrite (check_q_base pq "pressure" d_pressure true) by
    (reflexivity || apply Pp || intros _; rewrite (parsed_base_mag _ _ _ _ Pp); lra).
  cbn [bind].
  destruct (Rltb_spec T 0) as [X'|X'].
  { rewrite (check_q_neg tq "temperature" d_temperature) by
      (reflexivity || now rewrite (parsed_base_mag _ _ _ _ Pt)). reflexivity. }
  rewrite (check_q_base tq "temperature" d_temperature true) by
    (reflexivity || apply Pt || intros _; rewrite (parsed_base_mag _ _ _ _ Pt); lra).
  cbn [bind]. unfold parse_quant_input. cbn [bind].
  set (pq' := mkQ (q_mag pq) (q_unit pq) module_reg).
  set (tq' := mkQ (q_mag tq) (q_unit tq) module_reg).
  assert (Bp : base_mag pq' = x) by (rewrite (base_mag_any pq pq') by reflexivity; now apply parsed_base_mag in Pp).
  assert (Bt : base_mag tq' = T) by (rewrite (base_mag_any tq tq') by reflexivity; now apply parsed_base_mag in Pt).
  rewrite check_material_grade by apply H. cbn [bind]. rewrite G. cbn [bind]. rewrite L. cbn [bind].
  assert (Cl : classes tab = class_names) by (unfold classes; now rewrite (fo_cols _ F)).
  rewrite Cl.
  replace (max_key class_names "0") with (Ok "2500"%string) by reflexivity. cbn [bind].
  rewrite (press_eq tab "2500") by (apply F; assumption). fold (curve tab "2500").
  rewrite Etop. cbn [bind]. rewrite Bp. rnum.
  destruct (Rltb_spec top x) as [Y|Y]; [reflexivity|]. cbn [raise_if bind].
  rewrite (check_range_spec tq' d_temperature (temps_base tab) _ (fst p0)
             (fst (last (p0 :: l) p0)) T);
    [| rewrite (temps_eq tab "150") by apply F; fold (curve tab "150"); rewrite E; now apply list_min_inc
     | rewrite (temps_eq tab "150") by apply F; fold (curve tab "150"); rewrite E;
       apply list_max_inc; [assumption|discriminate]
     | apply Pt | exact Bt].
  destruct (_ || _)%bool eqn:Rg; [reflexivity|]. cbn [raise_if bind].
  rewrite Bt.
  rewrite (mapM_ok _ (fun c => (c, rt tab T c))); [reflexivity|].
  intros c Ic. destruct (curve_split _ _ _ _ H Ic) as (c0 & cl & Ec & _).
  assert (Tc : map fst (c0 :: cl) = map fst (p0 :: l)).
  { rewrite <- Ec, <- E. apply curve_temps, F. }
  assert (fst c0 = fst p0) as F0 by now injection Tc.
  assert (Incc : increasing (c0 :: cl)) by (rewrite <- Ec; now apply F).
  assert (fst (last (c0 :: cl) c0) = fst (last (p0 :: l) p0)) as F1.
  { pose proof (list_max_inc (c0 :: cl) c0 Incc ltac:(discriminate)) as A1.
    pose proof (list_max_inc (p0 :: l) p0 Inc ltac:(discriminate)) as A2.
    rewrite Tc in A1. congruence. }
  apply orb_false_iff in Rg as [R1 R2].
  destruct (Rltb_spec T (fst p0)); [discriminate|].
  destruct (Rltb_spec (fst (last (p0 :: l) p0)) T); [discriminate|].
  rewrite (rating_in strict tab c T c0 cl c0) by (assumption || lra).
  unfold rt. rewrite Ec. destruct (np_interp_defined T c0 cl) as (v & ->). reflexivity.
Qed.

Lemma largest_class c : In c class_names ->
  exists n, parse_number c = Some n /\ (n <= 2500)%Q.
Proof.
  intros I. unfold class_names in I.
  repeat (destruct I as [<-|I]; [eexists; split; [reflexivity|]; vm_compute; discriminate|]).
  destruct I.
Qed.
Lemma rt_top tab T c : flange_ok tab -> In c class_names -> rt tab T c <= rt tab T "2500".
Proof.
  intros F Ic. unfold rt.
  assert (I2 : In "2500"%string class_names) by (cbn; tauto).
  destruct (largest_class c Ic) as (n & N & Ln).
  destruct (class_number _ _ Ic N) as [Z1 Y1].
  pose proof (fo_below _ F c "2500" (Qnum n) 2500 Ic I2 Z1 eq_refl) as B.
  assert (Lz : (Qnum n <= 2500)%Z) by (unfold Qle in Ln; rewrite Y1 in Ln; cbn in Ln; lia).
  specialize (B Lz). fold (curve tab c) (curve tab "2500") in B.
  destruct (np_interp T (curve tab c)) as [v1|] eqn:E1, (np_interp T (curve tab "2500")) as [v2|] eqn:E2.
  - refine (np_interp_below _ _ _ _ _ B _ _ E1 E2); apply F; assumption.
  - destruct B; discriminate.
  - destruct B; discriminate.
  - lra.
Qed.

(** Every outcome of get_class on a listed material. *)
Lemma get_class_outcome strict p temp m f reg x T :
  In m available_materials -> rated_by TUBE_MATERIALS flange_file m f ->
  denotes p d_pressure x -> denotes temp d_temperature T -> 0 <= x -> 0 <= T ->
  (exists q, get_max_pressure strict "2500" temp (NStr m) = Ok q /\
     ((x <= q_mag q /\ exists c, get_class strict p temp (NStr m) reg = Ok c)
      \/ (q_mag q < x /\
          (exists row P, In row (f_rows f) /\ tabulated f row "2500" P /\ x <= Q2R P * 100000)
          /\ get_class strict p temp (NStr m) reg = Err IndexError)
      \/ ((forall row P, In row (f_rows f) -> tabulated f row "2500" P -> Q2R P * 100000 < x)
          /\ is_value_error (get_class strict p temp (NStr m) reg))))
  \/ (is_value_error (get_max_pressure strict "2500" temp (NStr m))
      /\ is_value_error (get_class strict p temp (NStr m) reg)).
Proof.
  intros I Rb Dp Dt X X'.
  destruct (rates_of m f I Rb) as (tab & H).
  assert (I2 : In "2500"%string class_names) by (cbn; tauto).
  destruct (get_class_closed strict p temp m f tab reg x T H Dp Dt)
    as (top & p0 & l & E & N & Itop & Mtop & ->).
  destruct (max_pressure_rates strict _ _ _ "2500" _ _ H I2 Dt) as (c0 & cl & Ec & _ & ->).
  pose proof (ra_ok _ _ _ H) as F.
  assert (Inc : increasing (p0 :: l)) by (rewrite <- E; apply F; now left).
  assert (Incc : increasing (c0 :: cl)) by (rewrite <- Ec; now apply F).
  assert (Tc : map fst (c0 :: cl) = map fst (p0 :: l)).
  { rewrite <- Ec, <- E. apply curve_temps, F. }
  assert (fst c0 = fst p0) as F0 by now injection Tc.
  assert (fst (last (c0 :: cl) c0) = fst (last (p0 :: l) p0)) as F1.
  { pose proof (list_max_inc (c0 :: cl) c0 Incc ltac:(discriminate)) as A1.
    pose proof (list_max_inc (p0 :: l) p0 Inc ltac:(discriminate)) as A2.
    rewrite Tc in A1. congruence. }
  rewrite F0, F1. rewrite (Rltb_false x 0), (Rltb_false T 0) by assumption.
  destruct (_ || _)%bool eqn:Rg.
  - right. split; [eexists; reflexivity|].
    destruct (Rltb top x); eexists; reflexivity.
  - left. rewrite Ec. destruct (np_interp_defined T c0 cl) as (v & Ev). rewrite Ev. cbn [bind].
    destruct (quant_is_in (out_reg temp) v "Pa" Pa_known) as (q & -> & (_ & Mq & _)).
    exists q. split; [reflexivity|]. rewrite Mq.
    assert (Rv : rt tab T "2500" = v) by (unfold rt; now rewrite Ec, Ev).
    destruct (Rltb_spec top x) as [Y|Y].
    { right; right. split; [|eexists; reflexivity].
      intros row P Ir Tp. apply Rle_lt_trans with top; [|assumption].
      destruct (row_tabulated _ _ _ row "2500" H I2 Ir) as [Tt _].
      pose proof (curve_pt _ _ _ _ _ _ _ H Ir Tt Tp) as Ip.
      exact (Mtop _ (in_map snd _ _ Ip)). }
    destruct (Rle_dec x v) as [Lv|Lv].
    + left. split; [assumption|].
      destruct (filter _ _) as [|cr rest] eqn:Fl; [|eexists; reflexivity].
      exfalso.
      assert (In ("2500"%string, rt tab T "2500") (filter (fun cr => Rleb x (snd cr))
                (map (fun c => (c, rt tab T c)) class_names))) as W.
      { apply filter_In. split.
        - apply in_map_iff. exists "2500"%string. now split.
        - cbn. rewrite Rv. now apply Rleb_true. }
      rewrite Fl in W. destruct W.
    + right; left. split; [lra|]. split.
      * apply in_map_iff in Itop as (pt & Ept & Ipt).
        destruct (curve_rows _ _ _ _ _ H I2 Ipt) as (row & Tt & P & Ir & _ & Tp & ->).
        exists row, P. split; [exact Ir|]. split; [exact Tp|]. cbn in Ept. lra.
      * destruct (filter _ _) as [|cr rest] eqn:Fl; [reflexivity|]. exfalso.
        assert (W : In cr (cr :: rest)) by now left.
        rewrite <- Fl in W. apply filter_In in W as [W1 W2].
        apply in_map_iff in W1 as (c & <- & Ic). cbn in W2.
        destruct (Rleb_spec x (rt tab T c)) as [Lc|]; [|discriminate].
        pose proof (rt_top tab T c F Ic). lra.
Qed.

Lemma get_class_negative strict p temp m f reg x T :
  In m available_materials -> rated_by TUBE_MATERIALS flange_file m f ->
  denotes p d_pressure x -> denotes temp d_temperature T -> x < 0 \/ T < 0 ->
  is_value_error (get_class strict p temp (NStr m) reg).
Proof.
  intros I Rb Dp Dt X. destruct (rates_of m f I Rb) as (tab & H).
  destruct (get_class_closed strict p temp m f tab reg x T H Dp Dt)
    as (top & p0 & l & E & N & Itop & Mtop & ->).
  destruct (Rltb_spec x 0); [eexists; reflexivity|].
  rewrite (Rltb_true T) by lra. eexists; reflexivity.
Qed.

