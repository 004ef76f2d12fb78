(** * Properties_Text: C106 (reading the lookup files). *)
From Coq Require Import String Ascii ZArith QArith List Bool Lia.
From Verif Require Import PyBase Csv CsvData TextSpec Tables TextP.
Import ListNotations.
Local Open Scope string_scope.

(** C106: a table holds exactly the header and rows of its CSV text. *)
Theorem C106_table_is_the_text :
  forall (text : string) (columns : list string) (rows : list (list string)),
    columns <> [] ->
    (read_csv text = mkFrame columns rows <-> csv text columns rows).
Proof. exact read_csv_iff. Qed.
Print Assumptions C106_table_is_the_text.
(** Every shipped table. *)
Theorem C106_shipped_tables :
  (forall welded : bool, csv (if welded then csv_stress_welded else csv_stress_seamless)
     (f_cols (MATERIAL_LIMITS welded)) (f_rows (MATERIAL_LIMITS welded)))
  /\ csv csv_pipe_schedules (f_cols PIPE_SCHEDULES) (f_rows PIPE_SCHEDULES)
  /\ csv csv_materials (f_cols TUBE_MATERIALS) (f_rows TUBE_MATERIALS)
  /\ (forall internal : bool, csv (if internal then csv_internal_thread else csv_external_thread)
        (f_cols (THREAD_SPECS internal)) (f_rows (THREAD_SPECS internal)))
  /\ (forall group f, flange_file group = Some f ->
        (group = "2.1" /\ csv csv_flange_2_1 (f_cols f) (f_rows f))
        \/ (group = "2.2" /\ csv csv_flange_2_2 (f_cols f) (f_rows f))
        \/ (group = "2.3" /\ csv csv_flange_2_3 (f_cols f) (f_rows f))).
Proof.
  assert (X : forall text, (match f_cols (read_csv text) with [] => true | _ => false end) = false ->
    csv text (f_cols (read_csv text)) (f_rows (read_csv text))).
  { intros text H. apply read_csv_iff; [|destruct (read_csv text); reflexivity].
    intros E. rewrite E in H. discriminate H. }
  split; [|split; [|split; [|split]]].
  - intros welded. apply X. destruct welded; vm_compute; reflexivity.
  - apply X. vm_compute; reflexivity.
  - apply X. vm_compute; reflexivity.
  - intros internal. apply X. destruct internal; vm_compute; reflexivity.
  - intros group f H. unfold flange_file in H.
    destruct (String.eqb_spec group "2.1") as [->|_];
      [left|destruct (String.eqb_spec group "2.2") as [->|_];
         [right; left|destruct (String.eqb_spec group "2.3") as [->|_]; [right; right|discriminate H]]];
      (split; [reflexivity|]; injection H as <-; apply X; vm_compute; reflexivity).
Qed.
Print Assumptions C106_shipped_tables.
(** A looked-up number is the decimal written in that row under that heading. *)
Theorem C106_numbers :
  forall (columns row : list string) (c : string) (q : Q),
    (exists p, num_cell columns row c = Some p /\ p == q)
    <-> exists s, entry_in columns row c s /\ decimal s q.
Proof.
  intros cols row c q. unfold num_cell. split.
  - intros (p & Hp & E). destruct (cell cols row c) as [s|] eqn:C; [|discriminate].
    exists s. split; [apply cell_iff; exact C|]. apply parse_number_iff. exists p. auto.
  - intros (s & C & D). apply cell_iff in C. rewrite C. apply parse_number_iff. exact D.
Qed.
Print Assumptions C106_numbers.
Theorem C106_number_text :
  forall (s : string) (q : Q), (exists p, parse_number s = Some p /\ p == q) <-> decimal s q.
Proof. exact parse_number_iff. Qed.
Print Assumptions C106_number_text.
(** Splitting, trimming and replacing in names. *)
Theorem C106_names :
  (forall (c : ascii) (s : string) (parts : list string), split_on c s = parts <-> fields c s parts)
  /\ (forall s t : string, strip s = t <-> trimmed s t)
  /\ (forall (a b : ascii) (s t : string), replace_char a b s = t <-> replaced a b s t).
Proof. split; [exact split_iff|]. split; [exact strip_iff|exact replace_iff]. Qed.
Print Assumptions C106_names.
(** One text never means two numbers. *)
Theorem C106_one_meaning :
  forall (s : string) (p q : Q), decimal s p -> decimal s q -> p == q.
Proof.
  intros s p q Hp Hq. apply parse_number_iff in Hp as (a & E1 & E2).
  apply parse_number_iff in Hq as (b & E3 & E4). rewrite E1 in E3. injection E3 as <-.
  rewrite <- E2. exact E4.
Qed.
Print Assumptions C106_one_meaning.

Example C106_case :
  decimal "-12.5" (-(25#2)) /\ decimal ".5" (1#2) /\ decimal "3." 3
  /\ (forall q, ~ decimal "1-2" q) /\ (forall q, ~ decimal "" q) /\ (forall q, ~ decimal "." q)
  /\ csv ("a,b" ++ nl ++ "1,2" ++ nl ++ nl) ["a"; "b"] [["1"; "2"]]
  /\ mentions "ASME_Flange.csv" "flange" /\ ~ mentions "ASME_flang.csv" "flange".
Proof.
  assert (N : forall s, parse_number s = None -> forall q, ~ decimal s q).
  { intros s H q D. apply parse_number_iff in D as (p & D & _). congruence. }
  repeat split.
  - apply parse_number_iff. eexists. split; [vm_compute; reflexivity|reflexivity].
  - apply parse_number_iff. eexists. split; [vm_compute; reflexivity|reflexivity].
  - apply parse_number_iff. eexists. split; [vm_compute; reflexivity|reflexivity].
  - apply N. reflexivity.
  - apply N. reflexivity.
  - apply N. reflexivity.
  - apply read_csv_iff; [discriminate|reflexivity].
  - exists "ASME_", "Flange", ".csv". split; [reflexivity|].
    cbn. repeat split; try (left; reflexivity). right. exists 5%nat. split; reflexivity.
  - intros M. apply (mentions_iff _ _ small_flange) in M. apply StrLemmas.contains_iff in M. discriminate M.
Qed.
