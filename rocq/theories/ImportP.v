(** * ImportP: proofs for Properties_Import. *)
From Coq Require Import String Ascii ZArith QArith List Bool Lia.
From Verif Require Import PyBase Csv CsvData BoltSpec TextSpec DataSpec StrLemmas Tables TableSpec QLemmas StressP
  DataP ImportSpec ImportM.
Import ListNotations.
Local Open Scope string_scope.

Lemma bind_inv {A B} (x : result A) (f : A -> result B) b :
  bind x f = Ok b -> exists a, x = Ok a /\ f a = Ok b.
Proof. destruct x; cbn; [eauto|discriminate]. Qed.
Lemma raise_if_inv b e u : raise_if b e = Ok u -> b = false.
Proof. destruct b; [discriminate|reflexivity]. Qed.

Lemma file_text_iff d name text : file_text d name = Some text <-> has_file d name text.
Proof.
  unfold file_text, has_file. induction d as [|(n & t) d IH]; cbn [find].
  - split; [discriminate|]. intros (b & a & E & _). destruct b; discriminate.
  - cbn [fst]. destruct (String.eqb_spec n name) as [->|N].
    + split.
      * intros [= <-]. exists [], d. split; [reflexivity|intros []].
      * intros ([|p b] & a & E & X); [cbn in E; injection E as -> _; reflexivity|].
        injection E as <- _. exfalso. apply X. left. reflexivity.
    + rewrite IH. split.
      * intros (b & a & -> & X). exists ((n, t) :: b), a. split; [reflexivity|].
        cbn [map fst In]. intros [E|E]; [exact (N E)|exact (X E)].
      * intros ([|p b] & a & E & X); [exfalso; cbn in E; injection E; intros; congruence|].
        injection E as E1 E2. exists b, a. split; [exact E2|]. intros Y. apply X. right. exact Y.
Qed.
Lemma file_text_none d name : file_text d name = None <-> ~ In name (map fst d).
Proof.
  unfold file_text. induction d as [|(n & t) d IH]; cbn [find map fst In].
  - split; [intros _ []|reflexivity].
  - destruct (String.eqb_spec n name) as [->|N].
    + split; [discriminate|]. intros X. exfalso. apply X. left. reflexivity.
    + rewrite IH. tauto.
Qed.

Lemma pd_read_inv d name f : pd_read d name = Ok f ->
  exists text, file_text d name = Some text /\ nothing_in text = false /\ f = read_csv text.
Proof.
  unfold pd_read. destruct (file_text d name) as [t|]; [|discriminate].
  destruct (nothing_in t) eqn:E; [discriminate|]. intros [= <-]. eauto.
Qed.
Lemma collect_inv d f : collect_tube_materials d = Ok f ->
  exists text, file_text d "materials_list.csv" = Some text /\ nothing_in text = false
    /\ f = read_csv text.
Proof.
  unfold collect_tube_materials. destruct (file_text d _) as [t|]; [|discriminate].
  destruct (nothing_in t) eqn:E; [discriminate|]. intros H.
  apply bind_inv in H as (? & _ & H). apply bind_inv in H as (? & _ & H).
  injection H as <-. eauto.
Qed.
Lemma text_column_inv f c l : text_column f c = Ok l ->
  str_mem c (f_cols f) = true /\ l = map (text_cell f c) (f_rows f).
Proof.
  unfold text_column. intros H. apply bind_inv in H as (u & E & H).
  apply raise_if_inv in E. apply negb_false_iff in E. injection H as <-. auto.
Qed.
Lemma load_group_inv d g p : load_flange_group d g = Ok p ->
  exists text tab, p = (g, tab) /\ file_text d (flange_file_name g) = Some text
    /\ nothing_in text = false
    /\ load_flange (read_csv text) = Ok tab /\ In "Temperature" (f_cols (read_csv text)).
Proof.
  unfold load_flange_group. destruct (file_text d _) as [t|] eqn:E; [|discriminate].
  intros H. apply bind_inv in H as (f & R & H). apply bind_inv in H as (tab & L & H).
  apply bind_inv in H as (u & T & H). injection H as <-.
  apply raise_if_inv in T. apply negb_false_iff, str_mem_In in T.
  apply pd_read_inv in R as (t' & E' & N & ->). rewrite E in E'. injection E' as <-.
  exists t, tab. auto.
Qed.

Definition pairs_of (f : frame) : list (string * string) :=
  map (fun r => (text_cell f "Grade" r, text_cell f "Group" r)) (f_rows f).
Lemma combine_pairs f :
  combine (map (text_cell f "Grade") (f_rows f)) (map (text_cell f "Group") (f_rows f)) = pairs_of f.
Proof. unfold pairs_of. induction (f_rows f); cbn; congruence. Qed.

Definition headers (d : list (string * string)) : list (string * string) :=
  map (fun f => (fst f, first_line (snd f))) d.

(** Everything a successful import says. *)
Lemma import_inv dir d t : snd (import_tube dir d) = Ok t ->
  pd_read d (stress_file true) = Ok (t_welded t)
  /\ pd_read d (stress_file false) = Ok (t_seamless t)
  /\ pd_read d "pipe_schedules.csv" = Ok (t_pipes t)
  /\ collect_tube_materials d = Ok (t_materials t)
  /\ str_mem "Grade" (f_cols (t_materials t)) = true
  /\ str_mem "Group" (f_cols (t_materials t)) = true
  /\ snd (check_materials_list dir (headers d) (pairs_of (t_materials t))) = Ok true
  /\ load_flange_limits d = Ok (t_flanges t)
  /\ pd_read d "ANSI_inch_internal_thread.csv" = Ok (t_internal t)
  /\ pd_read d "ANSI_inch_external_thread.csv" = Ok (t_external t).
Proof.
  unfold import_tube, stress_file.
  destruct (pd_read d "ASME_B31_1_stress_limits_welded.csv") as [w|e] eqn:E1; [|cbn; discriminate].
  destruct (pd_read d "ASME_B31_1_stress_limits_seamless.csv") as [s|e] eqn:E2; [|cbn; discriminate].
  destruct (pd_read d "pipe_schedules.csv") as [p|e] eqn:E3; [|cbn; discriminate].
  destruct (collect_tube_materials d) as [m|e] eqn:E4; [|cbn; discriminate].
  cbn [bind].
  destruct (text_column m "Grade") as [gr|e] eqn:E5; [|cbn; discriminate].
  destruct (text_column m "Group") as [gp|e] eqn:E6; [|cbn; discriminate].
  cbn [bind]. apply text_column_inv in E5 as (G1 & ->). apply text_column_inv in E6 as (G2 & ->).
  rewrite combine_pairs. fold (headers d).
  destruct (check_materials_list dir (headers d) (pairs_of m)) as (ws & ok) eqn:E7.
  cbn [snd]. intros H. apply bind_inv in H as (b & -> & H).
  apply bind_inv in H as (fl & E8 & H). apply bind_inv in H as (i & E9 & H).
  apply bind_inv in H as (x & E10 & H). injection H as <-.
  cbn [t_welded t_seamless t_pipes t_materials t_flanges t_internal t_external].
  destruct b. 2:{ exfalso. unfold check_materials_list in E7.
    destruct (Nat.eqb _ 0 && Nat.eqb _ 0)%bool; [discriminate|]. cbv zeta in E7.
    match type of E7 with (_, match ?l with [] => _ | _ => _ end) = _ => destruct l end; discriminate. }
  rewrite E7. repeat split; assumption || reflexivity.
Qed.

Lemma import_ok dir d w s p m fl i x :
  pd_read d (stress_file true) = Ok w -> pd_read d (stress_file false) = Ok s ->
  pd_read d "pipe_schedules.csv" = Ok p -> collect_tube_materials d = Ok m ->
  str_mem "Grade" (f_cols m) = true -> str_mem "Group" (f_cols m) = true ->
  snd (check_materials_list dir (headers d) (pairs_of m)) = Ok true ->
  load_flange_limits d = Ok fl ->
  pd_read d "ANSI_inch_internal_thread.csv" = Ok i ->
  pd_read d "ANSI_inch_external_thread.csv" = Ok x ->
  import_tube dir d = (fst (check_materials_list dir (headers d) (pairs_of m)),
                       Ok (mkTables w s p m fl i x)).
Proof.
  unfold stress_file, import_tube. intros -> -> -> -> G1 G2 C -> -> ->. cbn [bind].
  unfold text_column. rewrite G1, G2. cbn [negb raise_if bind].
  rewrite combine_pairs. fold (headers d).
  destruct (check_materials_list dir (headers d) (pairs_of m)) as (ws & ok). cbn [snd] in C. subst ok.
  reflexivity.
Qed.

(** ** Headers *)
Lemma split_first_empty c s : split_on c s <> [].
Proof. apply split_nonempty. Qed.

Lemma header_cols text :
  nothing_in text = false -> first_line text <> "" ->
  f_cols (read_csv text) = split_on comma (first_line text).
Proof.
  unfold nothing_in, first_line, read_csv.
  destruct (split_on newline text) as [|l r] eqn:E; [now apply split_nonempty in E|].
  intros _ N. cbn [filter]. destruct (String.eqb_spec l "") as [->|_]; [congruence|]. reflexivity.
Qed.

Lemma in_tl {A} (x : A) l : In x (tl l) -> In x l.
Proof. destruct l; [intros []|intros H; right; exact H]. Qed.

Lemma stress_name_welded b : stress_name (stress_file b).
Proof. apply stress_iff. destruct b; reflexivity. Qed.

Lemma has_file_in d name text : has_file d name text -> In (name, text) d.
Proof. intros (b & a & -> & _). apply in_or_app. right. left. reflexivity. Qed.

Lemma headers_in d name text : has_file d name text -> In (name, first_line text) (headers d).
Proof. intros H. apply has_file_in in H. apply in_map_iff. exists (name, text). auto. Qed.

(** A completed check: every grade is in the header of both stress files. *)
Lemma checked_grade dir d materials grade b text :
  snd (check_materials_list dir (headers d) materials) = Ok true ->
  has_file d (stress_file b) text -> In grade (map fst materials) ->
  In grade (tl (split_on comma (strip (first_line text)))).
Proof.
  intros C F I.
  assert (S : exists file header, In (file, header) (headers d) /\ (flange_name file \/ stress_name file)).
  { exists (stress_file b), (first_line text). split; [now apply headers_in|right; apply stress_name_welded]. }
  pose proof (proj1 (check_list_some dir _ materials S)) as E. rewrite C in E.
  pose proof (error_material dir (headers d) materials) as EM.
  destruct (errors_of dir (headers d) materials); [|discriminate].
  destruct (in_dec string_dec grade (tl (split_on comma (strip (first_line text))))) as [Y|N]; [exact Y|].
  exfalso. refine (proj2 (EM _) (or_introl (ex_intro _ grade (ex_intro _ (stress_file b) (conj I (conj _ eq_refl)))))).
  exists (first_line text). split; [now apply headers_in|]. split; [apply stress_name_welded|].
  rewrite covers_iff. exact N.
Qed.

Lemma checked_group dir d materials group :
  snd (check_materials_list dir (headers d) materials) = Ok true ->
  In group (map snd materials) ->
  exists file text, In (file, text) d /\ flange_name file /\ occurs_inside (replace_char "." "_" group) file.
Proof.
  intros C I.
  assert (S : exists file header, In (file, header) (headers d) /\ (flange_name file \/ stress_name file)).
  { destruct (existsb (fun f => contains "flange" (lower (fst f)) || contains "stress" (lower (fst f))) (headers d)) eqn:E.
    - apply existsb_exists in E as ((f & h) & If & E). exists f, h. split; [exact If|].
      apply orb_true_iff in E as [E|E]; [left; apply flange_iff|right; apply stress_iff]; exact E.
    - exfalso. assert (N : forall file header, In (file, header) (headers d) -> ~ flange_name file /\ ~ stress_name file).
      { intros f h If. assert (X : (contains "flange" (lower f) || contains "stress" (lower f))%bool = false).
        { destruct (_ || _)%bool eqn:Y; [|reflexivity]. rewrite <- E. symmetry. apply existsb_exists.
          exists (f, h). split; assumption. }
        apply orb_false_iff in X as (X1 & X2). split; [rewrite <- flange_iff, X1|rewrite <- stress_iff, X2]; discriminate. }
      rewrite (check_list_none dir (headers d) materials N) in C. discriminate. }
  pose proof (proj1 (check_list_some dir _ materials S)) as E. rewrite C in E.
  pose proof (error_material dir (headers d) materials) as EM.
  destruct (errors_of dir (headers d) materials); [|discriminate].
  destruct (existsb (fun f => contains "flange" (lower (fst f)) && found_past_start (replace_char "." "_" group) (fst f))%bool d) eqn:X.
  - apply existsb_exists in X as ((f & t) & If & X). apply andb_true_iff in X as (X1 & X2).
    apply flange_iff in X1. apply found_past_start_iff in X2. exists f, t. auto.
  - exfalso. refine (proj2 (EM _) (or_intror (ex_intro _ group (conj I (conj _ eq_refl))))).
    intros f h If Fl O. apply in_map_iff in If as ((f' & t) & E1 & If). injection E1 as -> <-.
    apply flange_iff in Fl. apply found_past_start_iff in O.
    assert (Y : existsb (fun f => contains "flange" (lower (fst f)) && found_past_start (replace_char "." "_" group) (fst f))%bool d = true).
    { apply existsb_exists. exists (f, t). split; [exact If|]. cbn [fst]. now rewrite Fl, O. }
    congruence.
Qed.

Lemma check_outcome dir files materials :
  snd (check_materials_list dir files materials) = Ok true
  \/ (exists m, snd (check_materials_list dir files materials) = Err (ValueError m))
  \/ (exists m, snd (check_materials_list dir files materials) = Err (FileNotFoundError m)).
Proof.
  unfold check_materials_list. destruct (Nat.eqb _ 0 && Nat.eqb _ 0)%bool; [right; right; eexists; reflexivity|].
  cbv zeta. match goal with |- context [match ?l with [] => Ok true | _ => _ end] => destruct l end.
  - left; reflexivity.
  - right; left; eexists; reflexivity.
Qed.
