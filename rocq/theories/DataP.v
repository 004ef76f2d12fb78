(** * DataP: lemmas about the import-time checks. *)
From Coq Require Import String Ascii ZArith QArith List Bool Lia.
From Verif Require Import PyBase Csv BoltSpec TextSpec DataSpec StrLemmas Tables StressP TextP.
Import ListNotations.
Local Open Scope string_scope.

Lemma found_past_start_iff p s : found_past_start p s = true <-> occurs_inside p s.
Proof.
  unfold found_past_start, occurs_inside. rewrite <- contains_iff, <- prefix_iff.
  unfold contains. destruct s as [|c s].
  - destruct p; cbn; split; intros H; try discriminate.
    + destruct H as (_ & H). exfalso; apply H; reflexivity.
    + destruct H as (H & _). discriminate.
  - cbn [String.index]. destruct (String.prefix p (String c s)).
    + split; [discriminate|]. intros (_ & H). exfalso; apply H; reflexivity.
    + destruct (String.index 0 p s); split; intros H; try discriminate; try reflexivity.
      * split; [reflexivity|discriminate].
      * destruct H; discriminate.
Qed.

Lemma dedup_In x l : In x (dedup l) <-> In x l.
Proof.
  induction l as [|y l IH]; [reflexivity|]. cbn. rewrite filter_In, IH. split.
  - intros [->|(H & _)]; auto.
  - intros [->|H]; auto. destruct (String.eqb_spec y x) as [->|N]; auto.
Qed.

Lemma app_assoc_s a b c : ((a ++ b) ++ c = a ++ (b ++ c))%string.
Proof. induction a; cbn; congruence. Qed.
Lemma app_nil_s a : (a ++ "" = a)%string.
Proof. induction a; cbn; congruence. Qed.
Lemma concat_occurs x l : In x l -> occurs_in x (String.concat "" l).
Proof.
  induction l as [|y l IH]; [contradiction|]. intros [->|H].
  - destruct l as [|z l].
    + exists "", "". cbn. now rewrite app_nil_s.
    + exists "", (String.concat "" (z :: l)). reflexivity.
  - destruct l as [|z l]; [contradiction|].
    destruct (IH H) as (b & a & E). exists (y ++ b), a.
    change (String.concat "" (y :: z :: l)) with (y ++ "" ++ String.concat "" (z :: l)).
    rewrite E. cbn. now rewrite app_assoc_s.
Qed.

Lemma lower_contains w file : small w -> contains w (lower file) = true <-> mentions file w.
Proof. intros Hw. rewrite contains_iff. apply mentions_iff. exact Hw. Qed.
Lemma lower_not_contains w file : small w -> contains w (lower file) = false <-> ~ mentions file w.
Proof. intros Hw. rewrite contains_false. rewrite <- (mentions_iff file w Hw). reflexivity. Qed.
Lemma flange_iff file : contains "flange" (lower file) = true <-> flange_name file.
Proof. apply lower_contains, small_flange. Qed.
Lemma stress_iff file : contains "stress" (lower file) = true <-> stress_name file.
Proof. apply lower_contains, small_stress. Qed.
Lemma covers_iff h g : covers h g <-> In g (tl (split_on comma (strip h))).
Proof.
  split.
  - intros (line & first & ms & T & F & I). apply strip_iff in T. apply split_iff in F.
    rewrite T. change comma with ","%char. rewrite F. exact I.
  - intros I. pose proof (split_nonempty comma (strip h)) as N.
    destruct (split_on comma (strip h)) as [|x ms] eqn:E; [congruence|].
    exists (strip h), x, ms. split; [apply strip_iff; reflexivity|].
    split; [apply split_iff; exact E|exact I].
Qed.

Definition errors_of (dir : string) (files : list (string * string))
    (materials : list (string * string)) : list string :=
  List.app (flat_map (fun f =>
        let in_file := tl (split_on comma (strip (snd f))) in
        map (fun g => "Material " ++ g ++ " not found in " ++ dir ++ fst f ++ nl)
            (filter (fun g => negb (str_mem g in_file)) (map fst materials)))
        (filter (fun f => contains "stress" (lower (fst f))) files))
   (map (fun g => "material group " ++ g ++ " not found" ++ nl)
          (filter (fun g => negb (existsb (found_past_start g)
                        (filter (fun f => contains "flange" (lower f)) (map fst files))))
                  (dedup (map (fun m => replace_char "." "_" (snd m)) materials)))).

Lemma nothing_found (files : list (string * string)) :
  (Nat.eqb (length (filter (fun f => contains "flange" (lower f)) (map fst files))) 0
   && Nat.eqb (length (filter (fun f => contains "stress" (lower (fst f))) files)) 0)%bool = true
  <-> forall file header, In (file, header) files -> ~ flange_name file /\ ~ stress_name file.
Proof.
  rewrite andb_true_iff, !Nat.eqb_eq. split.
  - intros (A & B) file header I. split; intros H; [apply flange_iff in H|apply stress_iff in H].
    + assert (X : In file (filter (fun f => contains "flange" (lower f)) (map fst files))).
      { apply filter_In. split; [|exact H]. apply in_map_iff. exists (file, header). auto. }
      destruct (filter _ (map fst files)); [contradiction|discriminate].
    + assert (X : In (file, header) (filter (fun f => contains "stress" (lower (fst f))) files)).
      { apply filter_In. split; [exact I|exact H]. }
      destruct (filter _ files); [contradiction|discriminate].
  - intros H. split.
    + destruct (filter _ (map fst files)) as [|x l] eqn:E; [reflexivity|]. exfalso.
      assert (X : In x (x :: l)) by (left; reflexivity). rewrite <- E in X.
      apply filter_In in X as (X & C). apply in_map_iff in X as ((fl & h) & <- & I).
      apply flange_iff in C. exact (proj1 (H _ _ I) C).
    + destruct (filter _ files) as [|(fl & h) l] eqn:E; [reflexivity|]. exfalso.
      assert (X : In (fl, h) ((fl, h) :: l)) by (left; reflexivity). rewrite <- E in X.
      apply filter_In in X as (I & C). apply stress_iff in C. exact (proj2 (H _ _ I) C).
Qed.

Lemma error_material dir files materials line :
  In line (errors_of dir files materials) <->
  (exists grade file, In grade (map fst materials) /\ missing_material files grade file
     /\ line = "Material " ++ grade ++ " not found in " ++ dir ++ file ++ nl)
  \/ (exists group, In group (map snd materials) /\ missing_group files group
     /\ line = "material group " ++ replace_char "." "_" group ++ " not found" ++ nl).
Proof.
  unfold errors_of. rewrite in_app_iff. 
  split; intros [H|H]; [left|right|left|right].
  - apply in_flat_map in H as ((file & header) & I & H). cbn [fst snd] in H.
    apply filter_In in I as (I & C). cbn [fst] in C. apply stress_iff in C.
    apply in_map_iff in H as (g & <- & H). apply filter_In in H as (Ig & N).
    exists g, file. split; [exact Ig|]. split; [|reflexivity].
    exists header. split; [exact I|]. split; [exact C|].
    rewrite covers_iff. intros X. apply str_mem_In in X. rewrite X in N. discriminate.
  - apply in_map_iff in H as (g & <- & H). apply filter_In in H as (Ig & N).
    apply (proj1 (dedup_In _ _)) in Ig. apply in_map_iff in Ig as ((gr & grp) & <- & Ig). cbn [snd] in *.
    exists grp. split; [apply in_map_iff; exists (gr, grp); auto|]. split; [|reflexivity].
    intros file header I Fl X. apply negb_true_iff in N.
    assert (Y : existsb (found_past_start (replace_char "." "_" grp))
       (filter (fun f => contains "flange" (lower f)) (map fst files)) = true).
    { apply existsb_exists. exists file. split; [|now apply found_past_start_iff].
      apply filter_In. split; [apply in_map_iff; exists (file, header); auto|now apply flange_iff]. }
    congruence.
  - destruct H as (g & file & Ig & (header & I & C & N) & ->).
    apply in_flat_map. exists (file, header). split.
    + apply filter_In. split; [exact I|]. now apply stress_iff.
    + cbn [fst snd]. apply in_map_iff. exists g. split; [reflexivity|].
      apply filter_In. split; [exact Ig|]. rewrite covers_iff in N.
      destruct (str_mem g _) eqn:E; [apply str_mem_In in E; contradiction|reflexivity].
  - destruct H as (grp & Ig & N & ->). apply in_map_iff. exists (replace_char "." "_" grp).
    split; [reflexivity|]. apply filter_In. split.
    + apply (proj2 (dedup_In _ _)). apply in_map_iff in Ig as ((gr & g') & <- & Ig).
      apply in_map_iff. exists (gr, g'). auto.
    + apply negb_true_iff. destruct (existsb _ _) eqn:E; [|reflexivity]. exfalso.
      apply existsb_exists in E as (file & I & X). apply filter_In in I as (I & C).
      apply in_map_iff in I as ((f' & header) & <- & I). cbn [fst] in *.
      apply flange_iff in C. apply found_past_start_iff in X. exact (N f' header I C X).
Qed.

Lemma check_list_none dir files materials :
  (forall file header, In (file, header) files -> ~ flange_name file /\ ~ stress_name file) ->
  check_materials_list dir files materials
  = ([], Err (FileNotFoundError "No files containing 'flange' or 'stress' found")).
Proof. intros H. apply nothing_found in H. unfold check_materials_list. rewrite H. reflexivity. Qed.

Lemma check_list_some dir files materials :
  (exists file header, In (file, header) files /\ (flange_name file \/ stress_name file)) ->
  snd (check_materials_list dir files materials)
  = match errors_of dir files materials with
    | [] => Ok true
    | _ => Err (ValueError (nl ++ String.concat "" (errors_of dir files materials)))
    end
  /\ forall w, In w (fst (check_materials_list dir files materials)) <->
       exists file header, In (file, header) files /\ stress_name file
         /\ ~ mentions file "welded" /\ ~ mentions file "seamless"
         /\ w = file ++ " does not indicate whether it is welded or seamless".
Proof.
  intros (file0 & header0 & I0 & H0). unfold check_materials_list.
  destruct (Nat.eqb _ 0 && Nat.eqb _ 0)%bool eqn:E.
  - pose proof (proj1 (nothing_found files) E) as E'. clear E. rename E' into E. exfalso. destruct (E _ _ I0). tauto.
  - cbn [fst snd]. split.
    + unfold errors_of. cbv zeta. destruct (_ ++ _)%list; reflexivity.
    + intros w. rewrite in_map_iff. split.
      * intros ((file & header) & <- & X). cbn [fst].
        apply filter_In in X as (X & C). apply filter_In in X as (I & S). cbn [fst] in *.
        apply andb_true_iff in C as (C1 & C2). apply negb_true_iff in C1, C2.
        apply stress_iff in S. apply (lower_not_contains _ _ small_welded) in C1.
        apply (lower_not_contains _ _ small_seamless) in C2.
        exists file, header. auto.
      * intros (file & header & I & S & N1 & N2 & ->). exists (file, header).
        split; [reflexivity|]. apply stress_iff in S. apply (lower_not_contains _ _ small_welded) in N1.
        apply (lower_not_contains _ _ small_seamless) in N2.
        apply filter_In. cbn [fst]. split; [apply filter_In; auto|]. now rewrite N1, N2.
Qed.

(** ** Flange tables *)
Lemma pressures_In cols row v :
  In v (pressures_of cols row) <->
  exists j c, nth_error row j = Some v /\ nth_error cols j = Some c /\ c <> "Temperature".
Proof.
  revert row; induction cols as [|c cols IH]; intros row.
  - cbn. split; [contradiction|]. intros (j & c & _ & H & _). destruct j; discriminate.
  - destruct row as [|x row].
    + cbn. split; [contradiction|]. intros (j & c' & H & _). destruct j; discriminate.
    + cbn [pressures_of]. destruct (String.eqb_spec c "Temperature") as [->|N].
      * rewrite IH. split; intros (j & c' & A & B & C).
        { exists (S j), c'. auto. }
        { destruct j as [|j]; [cbn in B; congruence|]. exists j, c'. auto. }
      * cbn [In]. rewrite IH. split.
        { intros [->|(j & c' & A & B & C)]; [exists 0%nat, c|exists (S j), c']; auto. }
        { intros (j & c' & A & B & C). destruct j as [|j].
          - left. cbn in A. congruence.
          - right. exists j, c'. auto. }
Qed.

Lemma number_zero s : number_or_zero s (num_or_zero s).
Proof.
  unfold number_or_zero, num_or_zero. destruct (parse_number s) as [q|] eqn:E.
  - left. apply parse_number_iff. exists q. split; [exact E|reflexivity].
  - right. split; [|reflexivity]. intros n H. apply parse_number_iff in H as (p & H & _). congruence.
Qed.
Lemma number_zero_eq s q : number_or_zero s q -> (q == num_or_zero s)%Q.
Proof.
  unfold number_or_zero, num_or_zero. intros [H|(H & Hq)].
  - apply parse_number_iff in H as (p & -> & E). symmetry. exact E.
  - destruct (parse_number s) as [n|] eqn:E; [|exact Hq]. exfalso. apply (H n).
    apply parse_number_iff. exists n. split; [exact E|reflexivity].
Qed.

Lemma nth_map {A B} (f : A -> B) l i y :
  nth_error (map f l) i = Some y <-> exists x, nth_error l i = Some x /\ y = f x.
Proof.
  rewrite nth_error_map. destruct (nth_error l i); cbn; split.
  - intros [= <-]. eauto.
  - intros (x & [= <-] & ->). reflexivity.
  - discriminate.
  - intros (x & H & _). discriminate.
Qed.

Lemma load_flange_ok f tab : load_flange f = Ok tab ->
  fl_columns tab = f_cols f /\ length (fl_rows tab) = length (f_rows f)
  /\ (forall i row, nth_error (f_rows f) i = Some row ->
        exists nums, nth_error (fl_rows tab) i = Some nums /\ length nums = length row)
  /\ forall i j c s, text_at f i j c s ->
     exists nums q, nth_error (fl_rows tab) i = Some nums /\ nth_error nums j = Some q
       /\ number_or_zero s q /\ (c <> "Temperature" -> (0 <= q)%Q).
Proof.
  unfold load_flange. destruct (forallb _ _) eqn:E; [|discriminate]. intros [= <-].
  cbn [fl_columns fl_rows]. split; [reflexivity|]. split; [apply map_length|]. split.
  - intros i row H. exists (map num_or_zero row). split; [|apply map_length].
    apply nth_map. eauto.
  - intros i j c s (row & Hi & Hj & Hc). exists (map num_or_zero row), (num_or_zero s).
    split; [apply nth_map; eauto|]. split; [apply nth_map; eauto|].
    split; [apply number_zero|]. intros N.
    rewrite forallb_forall in E. specialize (E (map num_or_zero row)).
    rewrite forallb_forall in E. apply Qle_bool_iff. apply E.
    + apply in_map. eapply nth_error_In; exact Hi.
    + apply pressures_In. exists j, c. split; [apply nth_map; eauto|]. auto.
Qed.

Lemma load_flange_err f e : load_flange f = Err e ->
  is_value_error (load_flange f)
  /\ exists i j c s q, text_at f i j c s /\ c <> "Temperature" /\ number_or_zero s q /\ (q < 0)%Q.
Proof.
  unfold load_flange. destruct (forallb _ _) eqn:E; [discriminate|]. intros _.
  split; [eexists; reflexivity|].
  assert (X : exists row, In row (map (map num_or_zero) (f_rows f))
      /\ exists v, In v (pressures_of (f_cols f) row) /\ (v < 0)%Q).
  { induction (map (map num_or_zero) (f_rows f)) as [|r l IH]; [discriminate|].
    cbn [forallb] in E. apply andb_false_iff in E as [E|E].
    - exists r. split; [left; reflexivity|].
      induction (pressures_of (f_cols f) r) as [|v vs IH2]; [discriminate|].
      cbn [forallb] in E. apply andb_false_iff in E as [E|E].
      + exists v. split; [left; reflexivity|]. apply Qnot_le_lt. intros L.
        apply Qle_bool_iff in L. congruence.
      + destruct (IH2 E) as (v' & I & L). exists v'. split; [right; exact I|exact L].
    - destruct (IH E) as (r' & I & L). exists r'. split; [right; exact I|exact L]. }
  destruct X as (nums & I & v & Iv & L). apply in_map_iff in I as (row & <- & I).
  apply pressures_In in Iv as (j & c & A & B & C). apply nth_map in A as (s & A & ->).
  apply In_nth_error in I as (i & I).
  exists i, j, c, s, (num_or_zero s). split; [exists row; auto|].
  split; [exact C|]. split; [apply number_zero|exact L].
Qed.
