(** * Properties_Data: C52-C54 (checks made when the package is imported). *)
From Coq Require Import String Ascii ZArith QArith Reals Qreals List Bool Lra Lia.
From Verif Require Import PyBase Pint UnitsM Spec QLemmas Csv CsvData BoltSpec TextSpec DataSpec StrLemmas Tables
  TableSpec StressP PipeP TubeM FlangeM FlangeP FlangeT DataP.
Import ListNotations.
Local Open Scope string_scope.

(** C52 *)
Theorem C52_true_exactly_when_complete :
  forall (dir : string) (files materials : list (string * string)),
    (exists file header, In (file, header) files /\ (flange_name file \/ stress_name file)) ->
    snd (check_materials_list dir files materials) = Ok true
    <-> (forall grade file, In grade (map fst materials) -> ~ missing_material files grade file)
        /\ (forall group, In group (map snd materials) -> ~ missing_group files group).
Proof.
  intros dir files materials H. rewrite (proj1 (check_list_some dir files materials H)).
  pose proof (error_material dir files materials) as EM.
  destruct (errors_of dir files materials) as [|x l].
  - split; [intros _|reflexivity]. split.
    + intros g f I M. exact (proj2 (EM _) (or_introl (ex_intro _ g (ex_intro _ f (conj I (conj M eq_refl)))))).
    + intros g I M. exact (proj2 (EM _) (or_intror (ex_intro _ g (conj I (conj M eq_refl))))).
  - split; [discriminate|]. intros (A & B). exfalso.
    destruct (proj1 (EM x) (or_introl eq_refl)) as [(g & f & I & M & _)|(g & I & M & _)].
    + exact (A _ _ I M).
    + exact (B _ I M).
Qed.
Print Assumptions C52_true_exactly_when_complete.
(** Otherwise: ValueError, one line for every missing item. *)
Theorem C52_error_names_every_missing_item :
  forall (dir : string) (files materials : list (string * string)),
    (exists file header, In (file, header) files /\ (flange_name file \/ stress_name file)) ->
    snd (check_materials_list dir files materials) = Ok true
    \/ exists msg, snd (check_materials_list dir files materials) = Err (ValueError msg)
       /\ (forall grade file, In grade (map fst materials) -> missing_material files grade file ->
             occurs_in ("Material " ++ grade ++ " not found in " ++ dir ++ file ++ nl) msg)
       /\ (forall group, In group (map snd materials) -> missing_group files group ->
             occurs_in ("material group " ++ replace_char "." "_" group ++ " not found" ++ nl) msg).
Proof.
  intros dir files materials H. rewrite (proj1 (check_list_some dir files materials H)).
  pose proof (error_material dir files materials) as EM.
  destruct (errors_of dir files materials) as [|x l]; [left; reflexivity|right].
  eexists; split; [reflexivity|].
  assert (O : forall line, In line (x :: l) -> occurs_in line (nl ++ String.concat "" (x :: l))).
  { intros line I. destruct (concat_occurs _ _ I) as (b & a & E). exists (nl ++ b), a.
    rewrite E. reflexivity. }
  split.
  - intros g f I M. apply O, EM. left. exists g, f. auto.
  - intros g I M. apply O, EM. right. exists g. auto.
Qed.
Print Assumptions C52_error_names_every_missing_item.
Theorem C52_no_files :
  forall (dir : string) (files materials : list (string * string)),
    (forall file header, In (file, header) files -> ~ flange_name file /\ ~ stress_name file) ->
    exists msg, check_materials_list dir files materials = ([], Err (FileNotFoundError msg)).
Proof. intros. eexists. now apply check_list_none. Qed.
Print Assumptions C52_no_files.
(** A warning for exactly the stress files that say neither welded nor seamless. *)
Theorem C52_warnings :
  forall (dir : string) (files materials : list (string * string)) (w : string),
    (exists file header, In (file, header) files /\ (flange_name file \/ stress_name file)) ->
    In w (fst (check_materials_list dir files materials)) <->
       exists file header, In (file, header) files /\ stress_name file
         /\ ~ mentions file "welded" /\ ~ mentions file "seamless"
         /\ w = file ++ " does not indicate whether it is welded or seamless".
Proof. intros dir files materials w H. exact (proj2 (check_list_some dir files materials H) w). Qed.
Print Assumptions C52_warnings.
(** The shipped data pass, silently. *)
Theorem C52_shipped_data_pass :
  forall dir, check_materials_list dir lookup_data_dir material_groups = ([], Ok true).
Proof.
  intros dir.
  assert (H : exists file header, In (file, header) lookup_data_dir
                /\ (flange_name file \/ stress_name file)).
  { exists "ASME_B16_5_flange_ratings_group_2_1.csv", (first_line csv_flange_2_1).
    split; [right; right; left; reflexivity|]. left. apply flange_iff. reflexivity. }
  assert (E : errors_of "" lookup_data_dir material_groups = []) by (vm_compute; reflexivity).
  assert (P : forall (A B : Type) (p : A * B) a b, fst p = a -> snd p = b -> p = (a, b))
    by (intros A B (x & y) a b; cbn; congruence).
  apply P; clear P.
  - assert (W : fst (check_materials_list "" lookup_data_dir material_groups) = [])
      by (vm_compute; reflexivity).
    destruct (fst (check_materials_list dir lookup_data_dir material_groups)) as [|w l] eqn:F; [reflexivity|].
    exfalso. assert (I : In w (fst (check_materials_list dir lookup_data_dir material_groups)))
      by (rewrite F; left; reflexivity).
    apply (proj2 (check_list_some dir _ _ H)) in I.
    apply (proj2 (check_list_some "" lookup_data_dir material_groups H)) in I. rewrite W in I. exact I.
  - apply C52_true_exactly_when_complete; [exact H|].
    apply (C52_true_exactly_when_complete "" lookup_data_dir material_groups H).
    rewrite (proj1 (check_list_some "" lookup_data_dir material_groups H)), E. reflexivity.
Qed.
Print Assumptions C52_shipped_data_pass.
(** A listing with a missing group and a missing grade. *)
Example C52_case :
  let files := [("flange_2_1.csv", "T"); ("stress_welded.csv", "Temp,304,316")] in
  let materials := [("304", "2.1"); ("321", "2.5")] in
  (exists file header, In (file, header) files /\ (flange_name file \/ stress_name file))
  /\ missing_material files "321" "stress_welded.csv" /\ missing_group files "2.5"
  /\ ~ missing_group files "2.1".
Proof.
  cbv zeta. split; [|split; [|split]].
  - exists "flange_2_1.csv", "T". split; [left; reflexivity|]. left. apply flange_iff. reflexivity.
  - exists "Temp,304,316". split; [right; left; reflexivity|]. split; [apply stress_iff; reflexivity|].
    rewrite covers_iff, <- str_mem_In. vm_compute. discriminate.
  - intros file header [E|[E|[]]] _ (O & _); injection E as <- <-; apply contains_iff in O; discriminate.
  - intros M. apply (M "flange_2_1.csv" "T"); [left; reflexivity|apply flange_iff; reflexivity|].
    apply found_past_start_iff. reflexivity.
Qed.

(** C53 *)
Theorem C53_loaded_table :
  forall (f : frame) (tab : flange_table), load_flange f = Ok tab ->
    fl_columns tab = f_cols f /\ length (fl_rows tab) = length (f_rows f)
    /\ (forall i row, nth_error (f_rows f) i = Some row ->
          exists nums, nth_error (fl_rows tab) i = Some nums /\ length nums = length row)
    /\ forall i j c s, text_at f i j c s ->
       exists nums q, nth_error (fl_rows tab) i = Some nums /\ nth_error nums j = Some q
         /\ number_or_zero s q /\ (c <> "Temperature" -> (0 <= q)%Q).
Proof. exact load_flange_ok. Qed.
Print Assumptions C53_loaded_table.
Theorem C53_rejected_only_for_negative_pressure :
  forall (f : frame) (e : exn), load_flange f = Err e ->
    is_value_error (load_flange f)
    /\ exists i j c s q, text_at f i j c s /\ c <> "Temperature" /\ number_or_zero s q /\ (q < 0)%Q.
Proof. exact load_flange_err. Qed.
Print Assumptions C53_rejected_only_for_negative_pressure.
Example C53_case :
  load_flange (mkFrame ["Temperature"; "150"] [["-10"; "19"]; ["50"; ""]])
    = Ok (mkFlange ["Temperature"; "150"] [[(-10)%Q; 19%Q]; [50%Q; 0%Q]])
  /\ is_value_error (load_flange (mkFrame ["Temperature"; "150"] [["-10"; "-19"]])).
Proof. split; [vm_compute; reflexivity|eexists; vm_compute; reflexivity]. Qed.

(** C54 *)
Local Open Scope R_scope.
Local Opaque TUBE_MATERIALS flange_file FLANGE_LIMITS MATERIAL_LIMITS.
Theorem C54_every_material_works_everywhere :
  forall (material : string) (reg : nat), In material available_materials ->
    (forall welded temp t, denotes temp d_temperature (fahrenheit t) -> -20 <= t <= 1200 ->
       exists q, calculate_max_stress temp material welded reg = Ok q)
    /\ (exists q, get_elastic_modulus (A:=R) (NStr material) reg = Ok q)
    /\ (exists q, get_density (A:=R) (NStr material) reg = Ok q)
    /\ (exists nu, get_poisson (A:=R) (NStr material) = Ok nu)
    /\ (exists f, rated_by TUBE_MATERIALS flange_file material f
        /\ forall strict cls temp t row1 row2 T1 T2,
             In cls class_names -> In row1 (f_rows f) -> tabulated f row1 "Temperature" T1 ->
             In row2 (f_rows f) -> tabulated f row2 "Temperature" T2 ->
             denotes temp d_temperature (celsius t) -> Q2R T1 <= t <= Q2R T2 ->
             exists q, get_max_pressure strict cls temp (NStr material) = Ok q).
Proof.
  intros m reg I. split; [|split; [|split; [|split]]].
  - intros welded temp t D B.
    destruct (max_stress_defined m welded temp t reg I D B) as (? & ? & ? & ? & _ & _ & _ & _ & q & E).
    exists q; exact E.
  - destruct (proj1 (getters m reg) I) as (? & ? & ? & _ & _ & _ & (q & E & _) & _). exists q; exact E.
  - destruct (proj1 (getters m reg) I) as (? & ? & ? & _ & _ & _ & _ & (q & E & _) & _). exists q; exact E.
  - destruct (proj1 (getters m reg) I) as (? & ? & ? & _ & _ & _ & _ & _ & E & _). eexists; exact E.
  - destruct (every_material_rated m I) as (f & Rb). exists f. split; [exact Rb|].
    intros strict cls temp t row1 row2 T1 T2 Ic I1 E1 I2 E2 D B.
    destruct (rates_of m f I Rb) as (tab & H).
    assert (Ic' : In cls (pressure_classes f)) by (rewrite (rates_classes _ _ _ H); exact Ic).
    destruct (max_pressure_covered m f cls t row1 row2 T1 T2 I Rb Ic' I1 E1 I2 E2 B)
      as (a & b & ? & ? & ? & ? & C & A1 & A2 & A3 & A4 & A5).
    destruct (max_pressure_line strict m f cls temp t _ _ _ _ _ _ I Rb Ic' C A1 A2 A3 A4 D A5)
      as (q & E & _). exists q; exact E.
Qed.
Print Assumptions C54_every_material_works_everywhere.
Example C54_case : length available_materials = 7%nat /\ In "316L"%string available_materials.
Proof. split; [vm_compute; reflexivity|apply str_mem_In; vm_compute; reflexivity]. Qed.
