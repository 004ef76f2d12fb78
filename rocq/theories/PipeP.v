(** * PipeP: lemmas about the pipe-size and material look-ups of class Tube. *)
From Coq Require Import String ZArith QArith Reals Qreals List Bool Lra Psatz.
From Verif Require Import PyBase Pint UnitsM Spec QLemmas Csv TableSpec Tables NumQ StressP TubeM.
Import ListNotations.
Local Open Scope R_scope.
Local Opaque PIPE_SCHEDULES TUBE_MATERIALS MATERIAL_LIMITS.

Lemma row_of_some f k row : row_of f k = Some row -> In row (f_rows f) /\ hd ""%string row = k.
Proof.
  unfold row_of; intros H. apply find_some in H as [I E].
  split; auto. now apply String.eqb_eq in E.
Qed.
Lemma row_of_none f k : row_of f k = None <-> ~ In k (index_of f).
Proof.
  unfold row_of, index_of; split.
  - intros H I. apply in_map_iff in I as (r & E & I).
    pose proof (find_none _ _ H r I) as X. cbv beta in X. rewrite E, String.eqb_refl in X.
    discriminate.
  - intros N. destruct (find _ _) as [r|] eqn:E; auto.
    apply find_some in E as [I E]. exfalso. apply N. apply in_map_iff.
    exists r; split; auto. now apply String.eqb_eq.
Qed.
Lemma row_of_in f k : In k (index_of f) -> exists row, row_of f k = Some row.
Proof.
  intros I. destruct (row_of f k) eqn:E; eauto. apply row_of_none in E; contradiction.
Qed.

(** Wall thickness of a size and schedule in the shipped table. *)
Definition has_number (f : frame) (row : list string) (c : string) : bool :=
  match num_cell (f_cols f) row c with Some _ => true | None => false end.

Definition list_eqb (a b : list string) : bool :=
  (Nat.eqb (length a) (length b)
   && forallb (fun p => String.eqb (fst p) (snd p)) (combine a b))%bool.
Lemma list_eqb_eq a : forall b, list_eqb a b = true -> a = b.
Proof.
  induction a as [|x a IH]; intros [|y b] H; cbn in H; try discriminate; auto.
  unfold list_eqb in *. cbn in H. apply andb_true_iff in H as [L H].
  apply andb_true_iff in H as [E H]. apply String.eqb_eq in E. cbn in E.
  f_equal; auto. apply IH. now rewrite L, H.
Qed.

(** For every row: the code's selection is the filter of the schedule columns by
    "has a number", the outer diameter exists and is positive, and walls are positive. *)
Definition schedule_columns : list string :=
  filter (fun c => negb (String.eqb c "OD")) (tl (f_cols PIPE_SCHEDULES)).
Definition pipe_row_ok (row : list string) : bool :=
  let P := PIPE_SCHEDULES in
  (list_eqb (filter (fun c => negb (String.eqb c "OD"))
                    (filled_columns (tl (f_cols P)) (tl row)))
            (filter (has_number P row) schedule_columns)
   && match num_cell (f_cols P) row "OD" with
      | Some od => Qltb 0 od | None => false end
   && forallb (fun c => match num_cell (f_cols P) row c with
                        | Some w => Qltb 0 w
                        | None => true end) schedule_columns)%bool.
Lemma pipe_rows_ok : forallb pipe_row_ok (f_rows PIPE_SCHEDULES) = true.
Proof. vm_compute. reflexivity. Qed.
Lemma pipe_sizes_distinct : NoDup available_pipe_sizes.
Proof.
  assert (H : forall l, (fix nd (l : list string) := match l with
      | [] => true | x :: r => (negb (str_mem x r) && nd r)%bool end) l = true -> NoDup l).
  { induction l as [|x l IH]; intros H; constructor.
    - apply andb_true_iff in H as [H _]. apply negb_true_iff in H. now apply str_mem_false.
    - apply andb_true_iff in H as [_ H]. auto. }
  apply H. vm_compute. reflexivity.
Qed.

Lemma schedules_ok size row : row_of PIPE_SCHEDULES size = Some row ->
  get_available_pipe_schedules (NStr size)
  = Ok (filter (has_number PIPE_SCHEDULES row) schedule_columns).
Proof.
  intros E. unfold get_available_pipe_schedules; rewrite E.
  apply row_of_some in E as [I _].
  pose proof pipe_rows_ok as H. rewrite forallb_forall in H. specialize (H row I).
  unfold pipe_row_ok in H. apply andb_true_iff in H as [H _].
  apply andb_true_iff in H as [H _]. apply list_eqb_eq in H. now rewrite H.
Qed.

Lemma schedules_exact size :
  (In size available_pipe_sizes ->
   exists row, row_of PIPE_SCHEDULES size = Some row
     /\ get_available_pipe_schedules (NStr size)
        = Ok (filter (has_number PIPE_SCHEDULES row) schedule_columns))
  /\ (~ In size available_pipe_sizes ->
      is_value_error (get_available_pipe_schedules (NStr size))).
Proof.
  split.
  - intros I. destruct (row_of_in _ _ I) as (row & E). exists row; split; auto.
    now apply schedules_ok.
  - intros N. apply row_of_none in N. unfold get_available_pipe_schedules.
    rewrite N. apply value_error_intro.
Qed.

Lemma pipe_row_facts size row :
  row_of PIPE_SCHEDULES size = Some row ->
  (exists od, num_cell (f_cols PIPE_SCHEDULES) row "OD" = Some od /\ 0 < Q2R od)
  /\ (forall c w, In c schedule_columns -> num_cell (f_cols PIPE_SCHEDULES) row c = Some w ->
        0 < Q2R w).
Proof.
  intros E. apply row_of_some in E as [I _].
  pose proof pipe_rows_ok as H. rewrite forallb_forall in H. specialize (H row I).
  unfold pipe_row_ok in H. apply andb_true_iff in H as [H H3].
  apply andb_true_iff in H as [_ H2]. split.
  - destruct (num_cell _ row "OD") as [od|]; [|discriminate]. exists od; split; auto.
    apply Qltb_lt in H2. replace (Q2R 0) with 0 in H2 by (q2r; lra). exact H2.
  - intros c w Ic Ec. rewrite forallb_forall in H3. specialize (H3 c Ic).
    rewrite Ec in H3. apply Qltb_lt in H3.
    replace (Q2R 0) with 0 in H3 by (q2r; lra). exact H3.
Qed.

(** ** Entries and rows *)
Lemma nodup_labels_row f k row :
  NoDup (labels f) -> In row (f_rows f) -> hd ""%string row = k -> row_of f k = Some row.
Proof.
  unfold row_of, labels. induction (f_rows f) as [|r l IH]; cbn; [easy|].
  intros N [->|I] E.
  - rewrite E, String.eqb_refl. reflexivity.
  - inversion N as [|? ? N1 N2]; subst.
    destruct (String.eqb_spec (hd ""%string r) (hd ""%string row)) as [X|X].
    + exfalso. apply N1. rewrite X. now apply in_map.
    + now apply IH.
Qed.
Fixpoint nodupb (l : list string) : bool :=
  match l with [] => true | x :: r => (negb (str_mem x r) && nodupb r)%bool end.
Lemma nodupb_NoDup l : nodupb l = true -> NoDup l.
Proof.
  induction l as [|x l IH]; intros H; constructor.
  - apply andb_true_iff in H as [H _]. apply negb_true_iff in H. now apply str_mem_false.
  - apply andb_true_iff in H as [_ H]. auto.
Qed.
Lemma entry_row f k c q :
  NoDup (labels f) ->
  (entry f k c q <-> exists row, row_of f k = Some row /\ num_cell (f_cols f) row c = Some q).
Proof.
  intros N; split.
  - intros (row & I & E & C). exists row; split; auto. now apply nodup_labels_row.
  - intros (row & R & C). apply row_of_some in R as [I E]. exists row; auto.
Qed.
Lemma pipe_labels : NoDup (labels PIPE_SCHEDULES).
Proof. apply nodupb_NoDup. vm_compute. reflexivity. Qed.
Lemma material_labels : NoDup (labels TUBE_MATERIALS).
Proof. apply nodupb_NoDup. vm_compute. reflexivity. Qed.

(** A schedule column: any column but the size and the outer diameter. *)
Lemma schedule_columns_iff c :
  In c schedule_columns <-> In c (f_cols PIPE_SCHEDULES) /\ c <> "Size"%string /\ c <> "OD"%string.
Proof.
  assert (H : f_cols PIPE_SCHEDULES = "Size"%string :: "OD"%string :: schedule_columns)
    by (vm_compute; reflexivity).
  assert (N : ~ In "Size"%string schedule_columns /\ ~ In "OD"%string schedule_columns).
  { split; apply str_mem_false; vm_compute; reflexivity. }
  rewrite H. cbn [In]. split.
  - intros I. repeat split; auto; intros ->; tauto.
  - intros ([E|[E|I]] & N1 & N2); auto; congruence.
Qed.

Definition offered (size schedule : string) : Prop :=
  exists w, entry PIPE_SCHEDULES size schedule w
    /\ schedule <> "Size"%string /\ schedule <> "OD"%string.

Lemma num_cell_col cols row c q : num_cell cols row c = Some q -> In c cols.
Proof.
  unfold num_cell. revert row; induction cols as [|k cols IH]; intros [|x row]; cbn; try easy.
  destruct (String.eqb_spec k c); auto. intros H; right; eapply IH; eauto.
Qed.

Lemma offered_iff size schedule :
  offered size schedule <->
  exists l, get_available_pipe_schedules (NStr size) = Ok l /\ In schedule l.
Proof.
  split.
  - intros (w & E & N1 & N2). apply entry_row in E as (row & R & C); [|exact pipe_labels].
    rewrite (schedules_ok _ _ R).
    eexists; split; [reflexivity|]. apply filter_In; split.
    + apply schedule_columns_iff. apply num_cell_col in C. auto.
    + unfold has_number; now rewrite C.
  - intros (l & E & I). unfold get_available_pipe_schedules in E.
    destruct (row_of PIPE_SCHEDULES size) as [row|] eqn:R; [|discriminate].
    pose proof (schedules_ok _ _ R) as S. unfold get_available_pipe_schedules in S.
    rewrite R in S. rewrite S in E. injection E as <-.
    apply filter_In in I as [I H]. unfold has_number in H.
    destruct (num_cell _ row schedule) as [w|] eqn:C; [|discriminate].
    exists w. apply schedule_columns_iff in I as (_ & N1 & N2). split; auto.
    apply entry_row; [exact pipe_labels | eauto].
Qed.

Lemma available_schedules size :
  (In size (labels PIPE_SCHEDULES) ->
   exists l before, get_available_pipe_schedules (NStr size) = Ok l
     /\ (forall c, In c l <-> offered size c)
     /\ f_cols PIPE_SCHEDULES = (before ++ schedule_columns)%list
     /\ exists keep, l = filter keep schedule_columns)
  /\ (~ In size (labels PIPE_SCHEDULES) ->
      is_value_error (get_available_pipe_schedules (NStr size))).
Proof.
  split.
  - intros I. destruct (row_of_in _ _ I) as (row & E).
    eexists _, ["Size"%string; "OD"%string].
    split; [exact (schedules_ok _ _ E)|]. split; [|split].
    + intros c. rewrite offered_iff. rewrite (schedules_ok _ _ E). split; [eauto|].
      intros (l & [= <-] & H); exact H.
    + vm_compute; reflexivity.
    + eauto.
  - intros N. apply row_of_none in N. unfold get_available_pipe_schedules.
    rewrite N. apply value_error_intro.
Qed.

Lemma get_dimensions_ok size schedule row od w reg :
  row_of PIPE_SCHEDULES size = Some row -> In schedule schedule_columns ->
  num_cell (f_cols PIPE_SCHEDULES) row "OD" = Some od ->
  num_cell (f_cols PIPE_SCHEDULES) row schedule = Some w ->
  exists dims, get_dimensions size schedule reg = Ok dims
    /\ is_in (inner_diameter dims) (Q2R od - 2 * Q2R w) "in" reg
    /\ is_in (outer_diameter dims) (Q2R od) "in" reg
    /\ is_in (wall_thickness dims) (Q2R w) "in" reg.
Proof.
  intros E I Co Cw. unfold get_dimensions.
  rewrite (schedules_ok _ _ E); cbn [bind].
  replace (str_mem schedule _) with true.
  2:{ symmetry. apply str_mem_In, filter_In; split; auto.
      unfold has_number; now rewrite Cw. }
  cbn [negb raise_if bind]. unfold pipe_cell. rewrite E, Co, Cw. cbn [bind].
  unfold quant. cbn. eexists; split; [reflexivity|].
  repeat split; cbn; rnum; auto. q2r; lra.
Qed.

Lemma get_dimensions_bad size schedule reg :
  ~ offered size schedule -> is_value_error (get_dimensions (A:=R) size schedule reg).
Proof.
  intros N. unfold get_dimensions.
  destruct (get_available_pipe_schedules (NStr size)) as [l|e] eqn:E; cbn [bind].
  - destruct (str_mem schedule l) eqn:M.
    + apply str_mem_In in M. exfalso. apply N, offered_iff. eauto.
    + cbn. apply value_error_intro.
  - unfold get_available_pipe_schedules in E.
    destruct (row_of PIPE_SCHEDULES size); [discriminate|]. injection E as <-.
    apply value_error_intro.
Qed.

(** ** C28 *)
Lemma get_dimensions_exact size schedule reg :
  (offered size schedule ->
   exists dims od w, get_dimensions size schedule reg = Ok dims
     /\ entry PIPE_SCHEDULES size "OD" od /\ entry PIPE_SCHEDULES size schedule w
     /\ is_in (outer_diameter dims) (Q2R od) "in" reg
     /\ is_in (wall_thickness dims) (Q2R w) "in" reg
     /\ is_in (inner_diameter dims) (Q2R od - 2 * Q2R w) "in" reg
     /\ 0 < Q2R w /\ 0 < Q2R od)
  /\ (~ offered size schedule -> is_value_error (get_dimensions (A:=R) size schedule reg)).
Proof.
  split; [|apply get_dimensions_bad].
  intros (w & E & N1 & N2). pose proof E as Ew.
  apply entry_row in E as (row & R & Cw); [|exact pipe_labels].
  assert (I : In schedule schedule_columns).
  { apply schedule_columns_iff. apply num_cell_col in Cw; auto. }
  destruct (pipe_row_facts _ _ R) as [(od & Co & Po) Pw]. specialize (Pw _ _ I Cw).
  destruct (get_dimensions_ok size schedule row od w reg R I Co Cw) as (dims & G & A & B & C).
  exists dims, od, w. repeat (split; [assumption || (apply entry_row; eauto using pipe_labels)|]).
  assumption.
Qed.

(** ** C29 *)
Definition good_bore_row (row : list string) : bool :=
  forallb (fun c =>
      match num_cell (f_cols PIPE_SCHEDULES) row "OD", num_cell (f_cols PIPE_SCHEDULES) row c with
      | Some od, Some w =>
        (Qltb (2 * w) od || (String.eqb (hd ""%string row) "28" && String.eqb c "10"))%bool
      | _, _ => true
      end) schedule_columns.
Lemma good_bore_rows : forallb good_bore_row (f_rows PIPE_SCHEDULES) = true.
Proof. vm_compute. reflexivity. Qed.

Lemma bores size schedule reg dims :
  get_dimensions size schedule reg = Ok dims ->
  (size, schedule) <> ("28"%string, "10"%string) ->
  exists ID OD, is_in (inner_diameter dims) ID "in" reg /\ is_in (outer_diameter dims) OD "in" reg
     /\ 0 < ID < OD.
Proof.
  intros G N.
  assert (O : exists l, get_available_pipe_schedules (NStr size) = Ok l /\ In schedule l).
  { unfold get_dimensions in G. apply bind_inv in G as (l & E & G).
    exists l; split; auto. destruct (str_mem schedule l) eqn:M; [now apply str_mem_In|].
    discriminate. }
  apply offered_iff in O as (w & E & N1 & N2).
  apply entry_row in E as (row & R & Cw); [|exact pipe_labels].
  assert (I : In schedule schedule_columns).
  { apply schedule_columns_iff. apply num_cell_col in Cw; auto. }
  destruct (pipe_row_facts _ _ R) as [(od & Co & Po) Pw]. specialize (Pw _ _ I Cw).
  destruct (get_dimensions_ok size schedule row od w reg R I Co Cw) as (dims' & G' & A & B & C).
  rewrite G in G'; injection G' as <-.
  exists (Q2R od - 2 * Q2R w), (Q2R od). split; [assumption|]. split; [assumption|].
  split; [|lra].
  pose proof good_bore_rows as H. rewrite forallb_forall in H.
  apply row_of_some in R as [Ir Er]. specialize (H row Ir). unfold good_bore_row in H.
  rewrite forallb_forall in H. specialize (H schedule I). rewrite Co, Cw in H.
  apply orb_true_iff in H as [H|H].
  - apply Qltb_lt in H. rewrite Q2R_mult in H. replace (Q2R 2) with 2 in H by (q2r; lra). lra.
  - apply andb_true_iff in H as [H1 H2]. apply String.eqb_eq in H1, H2. congruence.
Qed.

Lemma bore_28_10 reg :
  exists dims ID, get_dimensions "28" "10" reg = Ok dims
    /\ is_in (inner_diameter dims) ID "in" reg /\ ID < 0.
Proof.
  assert (E : exists row, row_of PIPE_SCHEDULES "28" = Some row
    /\ num_cell (f_cols PIPE_SCHEDULES) row "OD" = Some (28#1)
    /\ num_cell (f_cols PIPE_SCHEDULES) row "10" = Some (312#1))
    by (vm_compute; eexists; repeat split; reflexivity).
  destruct E as (row & R & Co & Cw).
  destruct (get_dimensions_ok "28" "10" row (28#1) (312#1) reg R)
    as (dims & G & A & B & C); try assumption.
  { apply str_mem_In. vm_compute. reflexivity. }
  exists dims. eexists; split; [exact G|]. split; [exact A|]. q2r; lra.
Qed.

(** ** C30 *)
Definition material_row_ok (row : list string) : bool :=
  forallb (fun c => match num_cell (f_cols TUBE_MATERIALS) row c with
                    | Some q => Qltb 0 q | None => false end)
          ["ElasticModulus"%string; "Density"%string; "Poisson"%string].
Lemma material_rows_ok : forallb material_row_ok (f_rows TUBE_MATERIALS) = true.
Proof. vm_compute. reflexivity. Qed.

Lemma material_cell_ok m c :
  In m available_materials ->
  In c ["ElasticModulus"%string; "Density"%string; "Poisson"%string] ->
  exists q, material_cell c (NStr m) = Ok q /\ entry TUBE_MATERIALS m c q /\ 0 < Q2R q.
Proof.
  intros I Ic. destruct (row_of_in _ _ I) as (row & R). unfold material_cell; rewrite R.
  pose proof R as R'. apply row_of_some in R as [Ir Er].
  pose proof material_rows_ok as H. rewrite forallb_forall in H. specialize (H row Ir).
  unfold material_row_ok in H. rewrite forallb_forall in H. specialize (H c Ic).
  destruct (num_cell _ row c) as [q|] eqn:E; [|discriminate].
  exists q. split; auto. split; [exists row; auto|].
  apply Qltb_lt in H. replace (Q2R 0) with 0 in H by (q2r; lra). exact H.
Qed.

Lemma check_material_in m : In m available_materials -> tube_check_material (NStr m) = Ok tt.
Proof. intros I; unfold tube_check_material; cbn. apply str_mem_In in I. now rewrite I. Qed.
Lemma check_material_out m : ~ In m available_materials ->
  is_value_error (tube_check_material (NStr m)).
Proof.
  intros I; unfold tube_check_material; cbn. apply str_mem_false in I. rewrite I.
  apply value_error_intro.
Qed.

Lemma getters m reg :
  (In m available_materials ->
   exists E rho nu,
     entry TUBE_MATERIALS m "ElasticModulus" E /\ entry TUBE_MATERIALS m "Density" rho
     /\ entry TUBE_MATERIALS m "Poisson" nu
     /\ (exists q, get_elastic_modulus (NStr m) reg = Ok q /\ is_in q (Q2R E) "GPa" reg)
     /\ (exists q, get_density (NStr m) reg = Ok q /\ is_in q (Q2R rho) "g/cm^3" reg)
     /\ get_poisson (NStr m) = Ok (Q2R nu)
     /\ 0 < Q2R E /\ 0 < Q2R rho /\ 0 < Q2R nu)
  /\ (~ In m available_materials ->
      is_value_error (get_elastic_modulus (A:=R) (NStr m) reg)
      /\ is_value_error (get_density (A:=R) (NStr m) reg)
      /\ is_value_error (get_poisson (A:=R) (NStr m))).
Proof.
  split.
  - intros I.
    destruct (material_cell_ok m "ElasticModulus" I) as (E & ME & EE & PE); [cbn; auto|].
    destruct (material_cell_ok m "Density" I) as (D & MD & ED & PD); [cbn; auto|].
    destruct (material_cell_ok m "Poisson" I) as (N & MN & EN & PN); [cbn; auto|].
    exists E, D, N. unfold get_elastic_modulus, get_density, get_poisson.
    rewrite check_material_in, ME, MD, MN by assumption. cbn [bind].
    split; [assumption|]. split; [assumption|]. split; [assumption|].
    split; [eexists; split; [reflexivity | repeat split; reflexivity]|].
    split; [eexists; split; [reflexivity | repeat split; reflexivity]|].
    split; [reflexivity|]. auto.
  - intros N. unfold get_elastic_modulus, get_density, get_poisson.
    pose proof (check_material_out m N). repeat split; now apply is_value_error_bind.
Qed.

Lemma getters_int reg :
  get_elastic_modulus (A:=R) (NInt 304) reg = Err IndexError
  /\ get_density (A:=R) (NInt 304) reg = Err IndexError
  /\ get_poisson (A:=R) (NInt 304) = Err IndexError.
Proof. repeat split; vm_compute; reflexivity. Qed.
Lemma getters_int_never z reg :
  raises (get_elastic_modulus (A:=R) (NInt z) reg)
  /\ raises (get_density (A:=R) (NInt z) reg) /\ raises (get_poisson (A:=R) (NInt z)).
Proof.
  unfold get_elastic_modulus, get_density, get_poisson, raises.
  destruct (tube_check_material (NInt z)); cbn; repeat split; eauto.
Qed.
