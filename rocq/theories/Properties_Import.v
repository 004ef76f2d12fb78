(** * Properties_Import: C92-C95 (importing the package over an arbitrary directory). *)
From Coq Require Import String Ascii ZArith QArith List Bool Lia.
From Verif Require Import PyBase Csv CsvData BoltSpec DataSpec StrLemmas Tables TableSpec QLemmas StressP
  DataP ImportSpec ImportM ImportP Properties_Data.
Import ListNotations.
Local Open Scope string_scope.

(** C92 *)
Theorem C92_every_file_is_read :
  forall dir d t, snd (import_tube dir d) = Ok t ->
    (forall name, In name data_files ->
       exists text line, has_file d name text /\ In line (split_on newline text) /\ line <> "")
    /\ (forall welded text, has_file d (stress_file welded) text ->
          (if welded then t_welded t else t_seamless t) = read_csv text)
    /\ (forall text, has_file d "pipe_schedules.csv" text -> t_pipes t = read_csv text)
    /\ (forall text, has_file d "materials_list.csv" text -> t_materials t = read_csv text)
    /\ (forall text, has_file d "ANSI_inch_internal_thread.csv" text -> t_internal t = read_csv text)
    /\ (forall text, has_file d "ANSI_inch_external_thread.csv" text -> t_external t = read_csv text).
Proof.
  intros dir d t H. apply import_inv in H
    as (E1 & E2 & E3 & E4 & _ & _ & _ & E8 & E9 & E10).
  apply pd_read_inv in E1 as (x1 & F1 & N1 & ->). apply pd_read_inv in E2 as (x2 & F2 & N2 & ->).
  apply pd_read_inv in E3 as (x3 & F3 & N3 & ->). apply collect_inv in E4 as (x4 & F4 & N4 & ->).
  apply pd_read_inv in E9 as (x9 & F9 & N9 & ->). apply pd_read_inv in E10 as (x10 & F10 & N10 & ->).
  unfold load_flange_limits, flange_groups in E8. cbn [mapM] in E8.
  apply bind_inv in E8 as (p1 & G1 & E8). apply bind_inv in E8 as (p23 & E8 & _).
  apply bind_inv in E8 as (p2 & G2 & E8). apply bind_inv in E8 as (p3' & E8 & _).
  apply bind_inv in E8 as (p3 & G3 & _).
  apply load_group_inv in G1 as (y1 & tb1 & _ & K1 & M1 & _).
  apply load_group_inv in G2 as (y2 & tb2 & _ & K2 & M2 & _).
  apply load_group_inv in G3 as (y3 & tb3 & _ & K3 & M3 & _).
  assert (NE : forall x, nothing_in x = false -> exists line, In line (split_on newline x) /\ line <> "").
  { unfold nothing_in. intros x. induction (split_on newline x) as [|l r IH]; cbn [forallb]; [discriminate|].
    destruct (String.eqb_spec l "") as [->|X].
    - cbn [andb]. intros Y. destruct (IH Y) as (l & I & Z). exists l. split; [right; exact I|exact Z].
    - intros _. exists l. split; [left; reflexivity|exact X]. }
  assert (U : forall name a b, file_text d name = Some a -> has_file d name b -> a = b)
    by (intros name a b Ha Hb; apply file_text_iff in Hb; congruence).
  split; [|split; [|split; [|split; [|split]]]].
  - intros name I.
    assert (P : exists x, file_text d name = Some x /\ nothing_in x = false).
    { unfold data_files in I. cbn [In] in I.
      repeat (destruct I as [<-|I]; [eauto|]). destruct I. }
    destruct P as (x & Fx & Nx). destruct (NE x Nx) as (l & Il & Nl).
    exists x, l. apply file_text_iff in Fx. auto.
  - intros [|] x Hx; [rewrite (U _ _ _ F1 Hx)|rewrite (U _ _ _ F2 Hx)]; reflexivity.
  - intros x Hx. rewrite (U _ _ _ F3 Hx). reflexivity.
  - intros x Hx. rewrite (U _ _ _ F4 Hx). reflexivity.
  - intros x Hx. rewrite (U _ _ _ F9 Hx). reflexivity.
  - intros x Hx. rewrite (U _ _ _ F10 Hx). reflexivity.
Qed.
Print Assumptions C92_every_file_is_read.

(** When just one file is missing, the error says so. *)
Lemma file_text_other d name text other : other <> name ->
  file_text ((name, text) :: d) other = file_text d other.
Proof.
  intros N. unfold file_text. cbn [find fst].
  destruct (String.eqb_spec name other) as [E|_]; [congruence|reflexivity].
Qed.
Lemma pd_read_other d name text other : other <> name ->
  pd_read ((name, text) :: d) other = pd_read d other.
Proof. intros N. unfold pd_read. now rewrite file_text_other. Qed.
Lemma load_group_other d name text g : flange_file_name g <> name ->
  load_flange_group ((name, text) :: d) g = load_flange_group d g.
Proof. intros N. unfold load_flange_group. now rewrite file_text_other, pd_read_other by exact N. Qed.

Definition missing_error {A} (r : result A) : Prop :=
  exists m, r = Err (FileNotFoundError m) \/ r = Err (ValueError m).

Theorem C92_missing_file_is_reported :
  forall dir d name text t,
    In name data_files -> ~ In name (map fst d) ->
    snd (import_tube dir ((name, text) :: d)) = Ok t ->
    missing_error (snd (import_tube dir d))
    /\ (name = "materials_list.csv" ->
          snd (import_tube dir d) = Err (ValueError (nl ++ "materials_list.csv does not exist"))).
Proof.
  intros dir d name text t I N H.
  assert (FN : file_text d name = None) by (apply file_text_none; exact N).
  apply import_inv in H as (E1 & E2 & E3 & E4 & G1 & G2 & C & E8 & E9 & E10).
  assert (PN : pd_read d name = Err (FileNotFoundError name)) by (unfold pd_read; now rewrite FN).
  assert (O : forall other, other <> name -> forall f, pd_read ((name, text) :: d) other = Ok f ->
    pd_read d other = Ok f) by (intros other Ne f Hf; now rewrite <- Hf, pd_read_other).
  (* the files read before the missing one *)
  unfold import_tube.
  destruct (string_dec name "ASME_B31_1_stress_limits_welded.csv") as [->|N1].
  { rewrite PN. cbn [bind snd]. split; [eexists; left; reflexivity|discriminate]. }
  rewrite (O _ (not_eq_sym N1) _ E1). cbn [bind].
  destruct (string_dec name "ASME_B31_1_stress_limits_seamless.csv") as [->|N2].
  { rewrite PN. cbn [bind snd]. split; [eexists; left; reflexivity|discriminate]. }
  rewrite (O _ (not_eq_sym N2) _ E2). cbn [bind].
  destruct (string_dec name "pipe_schedules.csv") as [->|N3].
  { rewrite PN. cbn [bind snd]. split; [eexists; left; reflexivity|discriminate]. }
  rewrite (O _ (not_eq_sym N3) _ E3). cbn [bind].
  destruct (string_dec name "materials_list.csv") as [->|N4].
  { unfold collect_tube_materials. rewrite FN. cbn [bind snd].
    split; [eexists; right; reflexivity|reflexivity]. }
  assert (E4' : collect_tube_materials d = Ok (t_materials t)).
  { rewrite <- E4. unfold collect_tube_materials. now rewrite file_text_other by congruence. }
  rewrite E4'. cbn [bind]. unfold text_column. rewrite G1, G2. cbn [negb raise_if bind].
  rewrite combine_pairs. fold (headers d).
  pose proof (check_outcome dir (headers d) (pairs_of (t_materials t))) as CO.
  destruct (check_materials_list dir (headers d) (pairs_of (t_materials t))) as (ws & ok).
  cbn [snd] in *. split; [|congruence].
  destruct CO as [->|[(m & ->)|(m & ->)]]; [|exists m; right; reflexivity|exists m; left; reflexivity].
  cbn [bind].
  unfold load_flange_limits, flange_groups in *. cbn [mapM] in *.
  apply bind_inv in E8 as (p1 & L1 & E8). apply bind_inv in E8 as (p23 & E8 & _).
  apply bind_inv in E8 as (p2 & L2 & E8). apply bind_inv in E8 as (p3' & E8 & _).
  apply bind_inv in E8 as (p3 & L3 & _).
  assert (LN : forall g, flange_file_name g = name ->
     load_flange_group d g = Err (FileNotFoundError (nl ++ flange_file_name g ++ "not found")))
    by (intros g <-; unfold load_flange_group; now rewrite FN).
  destruct (string_dec (flange_file_name "2.1") name) as [E|M1].
  { rewrite (LN _ E). cbn [bind]. eexists; left; reflexivity. }
  rewrite (load_group_other _ _ _ _ M1) in L1. rewrite L1. cbn [bind].
  destruct (string_dec (flange_file_name "2.2") name) as [E|M2].
  { rewrite (LN _ E). cbn [bind]. eexists; left; reflexivity. }
  rewrite (load_group_other _ _ _ _ M2) in L2. rewrite L2. cbn [bind].
  destruct (string_dec (flange_file_name "2.3") name) as [E|M3].
  { rewrite (LN _ E). cbn [bind]. eexists; left; reflexivity. }
  rewrite (load_group_other _ _ _ _ M3) in L3. rewrite L3. cbn [bind].
  destruct (string_dec name "ANSI_inch_internal_thread.csv") as [->|N5].
  { rewrite PN. cbn [bind snd]. eexists; left; reflexivity. }
  rewrite (O _ (not_eq_sym N5) _ E9). cbn [bind].
  destruct (string_dec name "ANSI_inch_external_thread.csv") as [->|N6].
  { rewrite PN. cbn [bind snd]. eexists; left; reflexivity. }
  exfalso. unfold data_files in I. cbn [In] in I.
  repeat (destruct I as [<-|I];
    [first [congruence | exact (M1 eq_refl) | exact (M2 eq_refl) | exact (M3 eq_refl)]|]). exact I.
Qed.
Print Assumptions C92_missing_file_is_reported.

(** C93 *)
Theorem C93_every_material_has_stress_limits :
  forall dir d t welded text row grade,
    snd (import_tube dir d) = Ok t ->
    has_file d (stress_file welded) text -> clean_header text ->
    In row (f_rows (t_materials t)) -> cell (f_cols (t_materials t)) row "Grade" = Some grade ->
    grade <> "" ->
    exists f, stress_columns_in t grade welded = Ok f /\ f = read_csv text /\ In grade (f_cols f).
Proof.
  intros dir d t welded text row grade H Hf Cl I Cg Ng.
  pose proof (C92_every_file_is_read _ _ _ H) as (_ & Fr & _).
  specialize (Fr welded text Hf).
  apply import_inv in H as (E1 & E2 & _ & _ & _ & _ & C & _).
  assert (Ig : In grade (map fst (pairs_of (t_materials t)))).
  { unfold pairs_of. rewrite map_map. apply in_map_iff. exists row. split; [|exact I].
    cbn [fst]. unfold text_cell. rewrite Cg. destruct grade; [congruence|reflexivity]. }
  pose proof (checked_grade _ _ _ _ _ _ C Hf Ig) as G.
  assert (St : strip (first_line text) = first_line text).
  { unfold first_line. destruct (split_on newline text) as [|l r] eqn:S; [reflexivity|]. eapply Cl, S. }
  rewrite St in G.
  assert (Nl : first_line text <> "") by (intros Z; rewrite Z in G; destruct G).
  assert (Nn : nothing_in text = false).
  { apply file_text_iff in Hf. destruct welded.
    - apply pd_read_inv in E1 as (x & F & X & _). congruence.
    - apply pd_read_inv in E2 as (x & F & X & _). congruence. }
  pose proof (header_cols _ Nn Nl) as HC.
  apply in_tl in G. rewrite <- HC in G.
  exists (read_csv text). split; [|split; [reflexivity|exact G]].
  unfold stress_columns_in. cbv zeta. rewrite Fr. rewrite (proj2 (str_mem_In _ _) G). reflexivity.
Qed.
Print Assumptions C93_every_material_has_stress_limits.

(** A directory with one material, of group [group], in it. *)
Definition small_dir (stress_header group : string) (extra : list (string * string))
  : list (string * string) :=
  [ ("ASME_B31_1_stress_limits_welded.csv", stress_header ++ nl ++ "70,16");
    ("ASME_B31_1_stress_limits_seamless.csv", "Temp,304" ++ nl ++ "70,20");
    ("pipe_schedules.csv", "NPS,OD,40" ++ nl ++ "1/2,0.84,0.109");
    ("materials_list.csv", "Grade,Group,ElasticModulus,Density,Poisson" ++ nl ++ "304," ++ group ++ ",200,7.8,0.28");
    ("ASME_B16_5_flange_ratings_group_2_1.csv", "Temperature,150" ++ nl ++ "50,18");
    ("ASME_B16_5_flange_ratings_group_2_2.csv", "Temperature,150" ++ nl ++ "50,18");
    ("ASME_B16_5_flange_ratings_group_2_3.csv", "Temperature,150" ++ nl ++ "50,");
    ("ANSI_inch_internal_thread.csv", "size,class,x" ++ nl ++ "0-80,2B,1");
    ("ANSI_inch_external_thread.csv", "size,class,x" ++ nl ++ "0-80,2A,1") ] ++ extra.

(** Without the condition on the header: a blank after the last name passes the check
    (which strips the line) but is part of the column's name. *)
Theorem C93_stray_space :
  exists dir d t row, snd (import_tube dir d) = Ok t
    /\ In row (f_rows (t_materials t)) /\ cell (f_cols (t_materials t)) row "Grade" = Some "304"
    /\ is_key_error (stress_columns_in t "304" true).
Proof.
  exists "", (small_dir "Temp,304 " "2.1" []).
  eexists. exists ["304"; "2.1"; "200"; "7.8"; "0.28"].
  split; [vm_compute; reflexivity|]. split; [left; reflexivity|]. split; [reflexivity|].
  eexists. vm_compute. reflexivity.
Qed.
Print Assumptions C93_stray_space.
Example C93_case : exists t row text,
  snd (import_tube "" (small_dir "Temp,304" "2.1" [])) = Ok t
  /\ has_file (small_dir "Temp,304" "2.1" []) (stress_file true) text /\ clean_header text
  /\ In row (f_rows (t_materials t)) /\ cell (f_cols (t_materials t)) row "Grade" = Some "304".
Proof.
  eexists. exists ["304"; "2.1"; "200"; "7.8"; "0.28"], ("Temp,304" ++ nl ++ "70,16").
  split; [vm_compute; reflexivity|]. split.
  { exists []. eexists. split; [reflexivity|intros []]. }
  split; [|split; [left; reflexivity|reflexivity]].
  intros l r E. vm_compute in E. injection E as <- _. reflexivity.
Qed.

(** C94: after a successful import every listed material has a flange table.  False: the
    check asks for a file of the group, but only groups 2.1-2.3 are ever loaded. *)
Theorem C94_every_material_has_a_flange_table_refuted :
  exists dir d t row, snd (import_tube dir d) = Ok t
    /\ lists (t_materials t) row "304" "2.4" /\ is_key_error (flange_table_in t "304").
Proof.
  exists "", (small_dir "Temp,304" "2.4"
                [("ASME_B16_5_flange_ratings_group_2_4.csv", "Temperature,150" ++ nl ++ "50,18")]).
  eexists. exists ["304"; "2.4"; "200"; "7.8"; "0.28"].
  split; [vm_compute; reflexivity|]. split.
  { split; [left; reflexivity|]. repeat split; discriminate. }
  eexists. vm_compute. reflexivity.
Qed.
Print Assumptions C94_every_material_has_a_flange_table_refuted.

(** Materials of the three groups do; the table is that of the group's file, with a
    Temperature column and no negative pressure. *)
Lemma find_grade f grade row : In row (f_rows f) -> cell (f_cols f) row "Grade" = Some grade ->
  grade <> "" ->
  exists r, find (fun r => String.eqb (text_cell f "Grade" r) grade) (f_rows f) = Some r
    /\ In r (f_rows f) /\ text_cell f "Grade" r = grade.
Proof.
  intros I C N. destruct (find _ _) as [r|] eqn:E.
  - apply find_some in E as (Ir & E). apply String.eqb_eq in E. eauto.
  - exfalso. apply (find_none _ _ E) in I. unfold text_cell in I. rewrite C in I.
    destruct grade; [congruence|]. rewrite String.eqb_refl in I. discriminate.
Qed.

Theorem C94_flange_table_partial :
  forall dir d t row grade,
    snd (import_tube dir d) = Ok t ->
    In row (f_rows (t_materials t)) -> cell (f_cols (t_materials t)) row "Grade" = Some grade ->
    grade <> "" -> grade <> "nan" ->
    (forall row', In row' (f_rows (t_materials t)) ->
       cell (f_cols (t_materials t)) row' "Grade" = Some grade ->
       exists group, cell (f_cols (t_materials t)) row' "Group" = Some group
                     /\ In group ["2.1"; "2.2"; "2.3"]) ->
    exists group row' text tab,
      lists (t_materials t) row' grade group /\ In group ["2.1"; "2.2"; "2.3"]
      /\ has_file d ("ASME_B16_5_flange_ratings_group_" ++ replace_char "." "_" group ++ ".csv") text
      /\ flange_table_in t grade = Ok tab /\ load_flange (read_csv text) = Ok tab
      /\ In "Temperature" (fl_columns tab)
      /\ forall i j c s, text_at (read_csv text) i j c s -> c <> "Temperature" ->
           exists nums q, nth_error (fl_rows tab) i = Some nums /\ nth_error nums j = Some q /\ (0 <= q)%Q.
Proof.
  intros dir d t row grade H I C N Nn G.
  apply import_inv in H as (_ & _ & _ & _ & _ & _ & _ & E8 & _).
  destruct (find_grade _ _ _ I C N) as (r & Fr & Ir & Tr).
  assert (Cr : cell (f_cols (t_materials t)) r "Grade" = Some grade).
  { unfold text_cell in Tr. destruct (cell _ r "Grade") as [[|a s]|]; congruence. }
  destruct (G _ Ir Cr) as (g & Cg & Ig).
  assert (Ng : g <> "") by (intros ->; cbn in Ig; intuition discriminate).
  assert (Tg : text_cell (t_materials t) "Group" r = g)
    by (unfold text_cell; rewrite Cg; destruct g; [congruence|reflexivity]).
  unfold load_flange_limits, flange_groups in E8. cbn [mapM] in E8.
  apply bind_inv in E8 as (p1 & L1 & E8). apply bind_inv in E8 as (l1 & E8 & Q1).
  apply bind_inv in E8 as (p2 & L2 & E8). apply bind_inv in E8 as (l2 & E8 & Q2).
  apply bind_inv in E8 as (p3 & L3 & E8). apply bind_inv in E8 as (l3 & E8 & Q3).
  injection E8 as <-. injection Q3 as <-. injection Q2 as <-. injection Q1 as Q1.
  apply load_group_inv in L1 as (y1 & tb1 & -> & K1 & _ & M1 & T1).
  apply load_group_inv in L2 as (y2 & tb2 & -> & K2 & _ & M2 & T2).
  apply load_group_inv in L3 as (y3 & tb3 & -> & K3 & _ & M3 & T3).
  assert (X : exists text tab, file_text d (flange_file_name g) = Some text
    /\ load_flange (read_csv text) = Ok tab /\ In "Temperature" (f_cols (read_csv text))
    /\ find (fun gt => String.eqb (fst gt) g) (t_flanges t) = Some (g, tab)).
  { rewrite <- Q1. cbn [In] in Ig. destruct Ig as [<-|[<-|[<-|[]]]]; cbn [find fst String.eqb Ascii.eqb Bool.eqb].
    - exists y1, tb1. auto.
    - exists y2, tb2. auto.
    - exists y3, tb3. auto. }
  destruct X as (text & tab & F & L & T & Fd).
  exists g, r, text, tab. split; [|split; [exact Ig|split; [now apply file_text_iff in F|]]].
  { repeat split; assumption. }
  split; [|split; [exact L|]].
  { unfold flange_table_in. cbv zeta. rewrite Fr, Tg, Fd. reflexivity. }
  pose proof (load_flange_ok _ _ L) as (Cols & _ & _ & V). split; [now rewrite Cols|].
  intros i j c s A Nc. destruct (V _ _ _ _ A) as (nums & q & A1 & A2 & _ & A4).
    exists nums, q. split; [exact A1|split; [exact A2|exact (A4 Nc)]].
Qed.
Print Assumptions C94_flange_table_partial.

(** A listed material with a blank group stops the import (unless some flange file has
    "nan" in its name). *)
Theorem C94_blank_group_is_refused :
  forall dir d t row,
    (forall file text, In (file, text) d -> ~ occurs_in "nan" file) ->
    snd (import_tube dir d) = Ok t -> In row (f_rows (t_materials t)) ->
    exists group, cell (f_cols (t_materials t)) row "Group" = Some group /\ group <> "".
Proof.
  intros dir d t row NN H I.
  apply import_inv in H as (_ & _ & _ & _ & _ & _ & C & _).
  destruct (cell (f_cols (t_materials t)) row "Group") as [[|a g]|] eqn:E.
  2:{ eexists; split; [reflexivity|discriminate]. }
  all: exfalso;
    assert (Ig : In "nan" (map snd (pairs_of (t_materials t))))
      by (unfold pairs_of; rewrite map_map; apply in_map_iff; exists row; split; [|exact I];
          cbn [snd]; unfold text_cell; rewrite E; reflexivity);
    destruct (checked_group _ _ _ _ C Ig) as (file & text & If & _ & O & _);
    exact (NN _ _ If O).
Qed.
Print Assumptions C94_blank_group_is_refused.
Example C94_case :
  (exists t row, snd (import_tube "" (small_dir "Temp,304" "2.1" [])) = Ok t
     /\ lists (t_materials t) row "304" "2.1"
     /\ flange_table_in t "304" = Ok (mkFlange ["Temperature"; "150"] [[50%Q; 18%Q]]))
  /\ is_value_error (snd (import_tube "" (small_dir "Temp,304" "" []))).
Proof.
  split.
  - eexists. exists ["304"; "2.1"; "200"; "7.8"; "0.28"].
    split; [vm_compute; reflexivity|]. split; [|vm_compute; reflexivity].
    split; [left; reflexivity|]. repeat split; discriminate.
  - eexists. vm_compute. reflexivity.
Qed.

(** C95: the shipped directory imports without a warning, and gives the tables the
    other theorems are about. *)
Theorem C95_shipped_import :
  forall dir, exists t, import_tube dir shipped = ([], Ok t)
    /\ t_welded t = MATERIAL_LIMITS true /\ t_seamless t = MATERIAL_LIMITS false
    /\ t_pipes t = PIPE_SCHEDULES /\ t_materials t = TUBE_MATERIALS
    /\ t_internal t = THREAD_SPECS true /\ t_external t = THREAD_SPECS false
    /\ materials_in t = available_materials
    /\ forall group tab, In (group, tab) (t_flanges t) <-> FLANGE_LIMITS group = Ok tab.
Proof.
  intros dir.
  assert (FL : exists fl, load_flange_limits shipped = Ok fl).
  { eexists. vm_compute. reflexivity. }
  destruct FL as (fl & FL).
  assert (Hd : headers shipped = lookup_data_dir) by (vm_compute; reflexivity).
  assert (Pr : pairs_of TUBE_MATERIALS = material_groups) by (vm_compute; reflexivity).
  assert (E : import_tube dir shipped
    = ([], Ok (mkTables (MATERIAL_LIMITS true) (MATERIAL_LIMITS false) PIPE_SCHEDULES TUBE_MATERIALS
                        fl (THREAD_SPECS true) (THREAD_SPECS false)))).
  { rewrite (import_ok dir shipped (MATERIAL_LIMITS true) (MATERIAL_LIMITS false) PIPE_SCHEDULES
               TUBE_MATERIALS fl (THREAD_SPECS true) (THREAD_SPECS false));
      first [exact FL | (rewrite Hd, Pr, C52_shipped_data_pass; reflexivity) | (vm_compute; reflexivity)]. }
  eexists. split; [exact E|]. cbn [t_welded t_seamless t_pipes t_materials t_flanges t_internal t_external].
  do 6 (split; [reflexivity|]). split; [vm_compute; reflexivity|].
  assert (G : exists a b c, FLANGE_LIMITS "2.1" = Ok a /\ FLANGE_LIMITS "2.2" = Ok b
     /\ FLANGE_LIMITS "2.3" = Ok c /\ fl = [("2.1", a); ("2.2", b); ("2.3", c)]).
  { unfold load_flange_limits, flange_groups in FL. cbn [mapM] in FL.
    apply bind_inv in FL as (p1 & L1 & FL). apply bind_inv in FL as (l1 & FL & Q1).
    apply bind_inv in FL as (p2 & L2 & FL). apply bind_inv in FL as (l2 & FL & Q2).
    apply bind_inv in FL as (p3 & L3 & FL). apply bind_inv in FL as (l3 & FL & Q3).
    injection FL as <-. injection Q3 as <-. injection Q2 as <-. injection Q1 as Q1.
    apply load_group_inv in L1 as (y1 & tb1 & -> & K1 & _ & M1 & _).
    apply load_group_inv in L2 as (y2 & tb2 & -> & K2 & _ & M2 & _).
    apply load_group_inv in L3 as (y3 & tb3 & -> & K3 & _ & M3 & _).
    exists tb1, tb2, tb3.
    assert (K1' : Some csv_flange_2_1 = Some y1) by exact K1.
    assert (K2' : Some csv_flange_2_2 = Some y2) by exact K2.
    assert (K3' : Some csv_flange_2_3 = Some y3) by exact K3.
    injection K1' as <-. injection K2' as <-. injection K3' as <-.
    repeat split; try (symmetry; exact Q1); assumption. }
  destruct G as (a & b & c & Ga & Gb & Gc & ->). intros group tab. split.
  - intros [X|[X|[X|[]]]]; injection X as <- <-; assumption.
  - intros X.
    destruct (string_dec group "2.1") as [->|N1]; [left; congruence|].
    destruct (string_dec group "2.2") as [->|N2]; [right; left; congruence|].
    destruct (string_dec group "2.3") as [->|N3]; [right; right; left; congruence|].
    exfalso. unfold FLANGE_LIMITS, flange_file in X.
    rewrite (proj2 (String.eqb_neq _ _) N1), (proj2 (String.eqb_neq _ _) N2),
      (proj2 (String.eqb_neq _ _) N3) in X. discriminate.
Qed.
Print Assumptions C95_shipped_import.
Example C92_case :
  In "pipe_schedules.csv" data_files
  /\ (exists t, snd (import_tube "" shipped) = Ok t)
  /\ missing_error (snd (import_tube "" (removelast shipped))).
Proof.
  split; [right; right; left; reflexivity|]. split.
  - destruct (C95_shipped_import "") as (t & E & _). exists t. now rewrite E.
  - eexists. left. vm_compute. reflexivity.
Qed.
