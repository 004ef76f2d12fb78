(** * Properties_Stress: C23-C30 (allowable stress, pipe sizes, material data). *)
From Coq Require Import String ZArith QArith Reals Qreals List Lra.
From Verif Require Import PyBase Pint UnitsM Spec QLemmas Csv TableSpec Tables TubeM StressP PipeP.
Import ListNotations.
Local Open Scope R_scope.

(** C23: between neighbouring rows (T1,S1), (T2,S2) of the stress table, the straight
    line; at a tabulated temperature (t = T1 or t = T2) that is the tabulated stress. *)
Theorem C23_stress_is_straight_line :
  forall (material : string) (welded : bool) (temp : pyin R) (t : R) (reg : nat)
         (row1 row2 : list string) (T1 S1 T2 S2 : Q),
    let f := MATERIAL_LIMITS welded in
    In material available_materials ->
    consecutive (f_rows f) row1 row2 ->
    num_cell (f_cols f) row1 "Temp" = Some T1 -> num_cell (f_cols f) row1 material = Some S1 ->
    num_cell (f_cols f) row2 "Temp" = Some T2 -> num_cell (f_cols f) row2 material = Some S2 ->
    denotes temp d_temperature (fahrenheit t) -> Q2R T1 <= t <= Q2R T2 ->
    exists q, calculate_max_stress temp material welded reg = Ok q
              /\ is_in q (line (Q2R T1, Q2R S1) (Q2R T2, Q2R S2) t) "ksi" reg.
Proof. exact max_stress_line. Qed.
Print Assumptions C23_stress_is_straight_line.
(** Every cell of every listed material is a number, and every temperature from
    -20 to 1200 degF lies between two neighbouring rows. *)
Theorem C23_table_is_filled :
  forall (material : string) (welded : bool) (row : list string),
    In material available_materials -> In row (f_rows (MATERIAL_LIMITS welded)) ->
    exists T S, num_cell (f_cols (MATERIAL_LIMITS welded)) row "Temp" = Some T
                /\ num_cell (f_cols (MATERIAL_LIMITS welded)) row material = Some S.
Proof. exact table_total. Qed.
Print Assumptions C23_table_is_filled.
Theorem C23_range_is_covered :
  forall (material : string) (welded : bool) (temp : pyin R) (t : R) (reg : nat),
    In material available_materials -> denotes temp d_temperature (fahrenheit t) ->
    -20 <= t <= 1200 ->
    exists row1 row2 T1 T2, consecutive (f_rows (MATERIAL_LIMITS welded)) row1 row2
      /\ num_cell (f_cols (MATERIAL_LIMITS welded)) row1 "Temp" = Some T1
      /\ num_cell (f_cols (MATERIAL_LIMITS welded)) row2 "Temp" = Some T2
      /\ Q2R T1 <= t <= Q2R T2
      /\ exists q, calculate_max_stress temp material welded reg = Ok q.
Proof. exact max_stress_defined. Qed.
Print Assumptions C23_range_is_covered.
(** 350 degF, 304L welded: between the rows of 300 and 400 degF. *)
Example C23_case :
  In "304L"%string available_materials
  /\ denotes (PSeq [ENum 350; EStr "degF"]) d_temperature (fahrenheit 350)
  /\ exists row1 row2, consecutive (f_rows (MATERIAL_LIMITS true)) row1 row2
     /\ num_cell (f_cols (MATERIAL_LIMITS true)) row1 "Temp" = Some (300#1)%Q
     /\ num_cell (f_cols (MATERIAL_LIMITS true)) row1 "304L" = Some (102#10)%Q
     /\ num_cell (f_cols (MATERIAL_LIMITS true)) row2 "Temp" = Some (400#1)%Q
     /\ num_cell (f_cols (MATERIAL_LIMITS true)) row2 "304L" = Some (93#10)%Q.
Proof.
  split; [apply str_mem_In; vm_compute; reflexivity|]. split.
  - eapply denotes_pair; [reflexivity|reflexivity|].
    unfold worth, fahrenheit; cbn; rnum; q2r; lra.
  - exists (nth 3 (f_rows (MATERIAL_LIMITS true)) []),
      (nth 4 (f_rows (MATERIAL_LIMITS true)) []).
    split; [|vm_compute; repeat split; reflexivity].
    exists (firstn 3 (f_rows (MATERIAL_LIMITS true))),
      (skipn 5 (f_rows (MATERIAL_LIMITS true))). vm_compute. reflexivity.
Qed.

(** C24 *)
Theorem C24_stress_never_rises :
  forall (material : string) (welded : bool) (temp1 temp2 : pyin R) (t1 t2 : R) (reg : nat)
         (q1 q2 : quantity R),
    In material available_materials ->
    denotes temp1 d_temperature (fahrenheit t1) ->
    denotes temp2 d_temperature (fahrenheit t2) -> t1 <= t2 ->
    calculate_max_stress temp1 material welded reg = Ok q1 ->
    calculate_max_stress temp2 material welded reg = Ok q2 ->
    0 <= q_mag q2 <= q_mag q1 /\ q_unit q1 = q_unit q2.
Proof. exact max_stress_falls. Qed.
Print Assumptions C24_stress_never_rises.
Theorem C24_welded_below_seamless :
  forall (material : string) (temp : pyin R) (t : R) (reg : nat) (q1 q2 : quantity R),
    In material available_materials -> denotes temp d_temperature (fahrenheit t) ->
    calculate_max_stress temp material true reg = Ok q1 ->
    calculate_max_stress temp material false reg = Ok q2 ->
    q_mag q1 <= q_mag q2 /\ q_unit q1 = q_unit q2.
Proof. exact welded_below_seamless. Qed.
Print Assumptions C24_welded_below_seamless.
(** Hypotheses met: by C23_range_is_covered both calls return for -20 <= t <= 1200. *)
Example C24_case :
  exists q1 q2,
    calculate_max_stress (PSeq [ENum 350; EStr "degF"]) "316" true 0 = Ok q1
    /\ calculate_max_stress (PSeq [ENum 350; EStr "degF"]) "316" false 0 = Ok q2.
Proof.
  assert (I : In "316"%string available_materials)
    by (apply str_mem_In; vm_compute; reflexivity).
  assert (D : denotes (PSeq [ENum 350; EStr "degF"]) d_temperature (fahrenheit 350)).
  { eapply denotes_pair; [reflexivity|reflexivity|].
    unfold worth, fahrenheit; cbn; rnum; q2r; lra. }
  destruct (max_stress_defined _ true _ _ 0%nat I D) as (? & ? & ? & ? & _ & _ & _ & _ & q1 & E1);
    [lra|].
  destruct (max_stress_defined _ false _ _ 0%nat I D) as (? & ? & ? & ? & _ & _ & _ & _ & q2 & E2);
    [lra|].
  eauto.
Qed.

(** C25: false of the code: outside the table the end value is returned. *)
Theorem C25_refuted :
  exists (temp : pyin R) (q : quantity R),
    denotes temp d_temperature (fahrenheit 5000)
    /\ calculate_max_stress temp "304" true 0 = Ok q.
Proof.
  assert (D : denotes (PSeq [ENum 5000; EStr "degF"]) d_temperature (fahrenheit 5000)).
  { eapply denotes_pair; [reflexivity|reflexivity|].
    unfold worth, fahrenheit; cbn; rnum; q2r; lra. }
  assert (I : In "304"%string available_materials)
    by (apply str_mem_In; vm_compute; reflexivity).
  destruct (max_stress_clamped "304" true _ 5000 0%nat I D ltac:(lra))
    as (_ & q & _ & _ & E & _). eauto.
Qed.
Print Assumptions C25_refuted.
Theorem C25_clamped_to_table_ends :
  forall (material : string) (welded : bool) (temp : pyin R) (t : R) (reg : nat),
    In material available_materials -> denotes temp d_temperature (fahrenheit t) ->
    (t <= -20 \/ 1200 <= t) ->
    exists temp' q q',
      denotes temp' d_temperature (fahrenheit (if Rle_dec t (-20) then -20 else 1200))
      /\ calculate_max_stress temp material welded reg = Ok q
      /\ calculate_max_stress temp' material welded reg = Ok q' /\ q = q'.
Proof. exact max_stress_clamped. Qed.
Print Assumptions C25_clamped_to_table_ends.

(** C26: false of the code: "Temp" is accepted and gives a temperature as a stress. *)
Theorem C26_refuted :
  ~ In "Temp"%string available_materials
  /\ forall welded reg, exists q,
       calculate_max_stress (PSeq [ENum 100; EStr "degF"]) "Temp" welded reg = Ok q
       /\ is_in q 100 "ksi" reg.
Proof.
  split; [apply str_mem_false; vm_compute; reflexivity | exact stress_temp_accepted].
Qed.
Print Assumptions C26_refuted.
(** Missing: the name "Temp". *)
Theorem C26_unknown_material_rejected_partial :
  forall (temp : pyin R) (d : dim) (x : R) (material : string) (welded : bool) (reg : nat),
    denotes temp d x -> ~ In material available_materials -> material <> "Temp"%string ->
    is_key_error (calculate_max_stress temp material welded reg).
Proof. exact stress_unknown. Qed.
Print Assumptions C26_unknown_material_rejected_partial.
Example C26_case : ~ In "6061-T6"%string available_materials.
Proof. apply str_mem_false; vm_compute; reflexivity. Qed.

(** C27: [offered size c]: the table has a number for that size in column [c], a
    schedule column. *)
Theorem C27_available_schedules :
  forall size : string,
    (In size (labels PIPE_SCHEDULES) ->
     exists l before, get_available_pipe_schedules (NStr size) = Ok l
       /\ (forall c, In c l <->
             exists w, entry PIPE_SCHEDULES size c w /\ c <> "Size"%string /\ c <> "OD"%string)
       /\ f_cols PIPE_SCHEDULES = (before ++ schedule_columns)%list
       /\ exists keep, l = filter keep schedule_columns)
    /\ (~ In size (labels PIPE_SCHEDULES) ->
        is_value_error (get_available_pipe_schedules (NStr size))).
Proof. exact available_schedules. Qed.
Print Assumptions C27_available_schedules.
(** The sizes are text: a number is never one. *)
Theorem C27_integer_sizes :
  forall z : Z, is_value_error (get_available_pipe_schedules (NInt z)).
Proof. intros z. eexists. reflexivity. Qed.
Print Assumptions C27_integer_sizes.
Example C27_case :
  In "6"%string (labels PIPE_SCHEDULES) /\ ~ In "6.5"%string (labels PIPE_SCHEDULES).
Proof. split; [apply str_mem_In | apply str_mem_false]; vm_compute; reflexivity. Qed.

(** C28 *)
Theorem C28_get_dimensions :
  forall (size schedule : string) (reg : nat),
    ((exists w, entry PIPE_SCHEDULES size schedule w
                /\ schedule <> "Size"%string /\ schedule <> "OD"%string) ->
     exists dims od w, get_dimensions size schedule reg = Ok dims
       /\ entry PIPE_SCHEDULES size "OD" od /\ entry PIPE_SCHEDULES size schedule w
       /\ is_in (outer_diameter dims) (Q2R od) "in" reg
       /\ is_in (wall_thickness dims) (Q2R w) "in" reg
       /\ is_in (inner_diameter dims) (Q2R od - 2 * Q2R w) "in" reg
       /\ 0 < Q2R w /\ 0 < Q2R od)
    /\ (~ (exists w, entry PIPE_SCHEDULES size schedule w
                     /\ schedule <> "Size"%string /\ schedule <> "OD"%string) ->
        is_value_error (get_dimensions (A:=R) size schedule reg)).
Proof. exact get_dimensions_exact. Qed.
Print Assumptions C28_get_dimensions.
Example C28_case : entry PIPE_SCHEDULES "6" "XXH" (864#1000).
Proof.
  exists (nth 15 (f_rows PIPE_SCHEDULES) []). vm_compute. repeat split; auto 20.
Qed.

(** C29: false of the code for one pipe. *)
Theorem C29_refuted :
  forall reg, exists dims ID, get_dimensions "28" "10" reg = Ok dims
    /\ is_in (inner_diameter dims) ID "in" reg /\ ID < 0.
Proof. exact bore_28_10. Qed.
Print Assumptions C29_refuted.
(** Every other offered pipe; missing: 28 in, schedule 10. *)
Theorem C29_positive_bore_partial :
  forall (size schedule : string) (reg : nat) (dims : dimensions R),
    get_dimensions size schedule reg = Ok dims ->
    (size, schedule) <> ("28"%string, "10"%string) ->
    exists ID OD, is_in (inner_diameter dims) ID "in" reg
      /\ is_in (outer_diameter dims) OD "in" reg /\ 0 < ID < OD.
Proof. exact bores. Qed.
Print Assumptions C29_positive_bore_partial.

(** C30 *)
Theorem C30_refuted :
  forall reg,
    get_elastic_modulus (A:=R) (NInt 304) reg = Err IndexError
    /\ get_density (A:=R) (NInt 304) reg = Err IndexError
    /\ get_poisson (A:=R) (NInt 304) = Err IndexError.
Proof. exact getters_int. Qed.
Print Assumptions C30_refuted.
(** For strings the claim holds; missing: integers, which raise (C30_integers_raise)
    but not always ValueError. *)
Theorem C30_material_getters_partial :
  forall (m : string) (reg : nat),
    (In m available_materials ->
     exists E rho nu,
       entry TUBE_MATERIALS m "ElasticModulus" E /\ entry TUBE_MATERIALS m "Density" rho
       /\ entry TUBE_MATERIALS m "Poisson" nu
       /\ (exists q, get_elastic_modulus (NStr m) reg = Ok q /\ is_in q (Q2R E) "GPa" reg)
       /\ (exists q, get_density (NStr m) reg = Ok q /\ is_in q (Q2R rho) "g/cm^3" reg)
       /\ get_poisson (NStr m) = Ok (Q2R nu)
       /\ 0 < Q2R E /\ 0 < Q2R rho /\ 0 < Q2R nu)
    /\ (~ In m available_materials ->
        is_value_error (get_elastic_modulus (A:=R) (NStr m) reg)
        /\ is_value_error (get_density (A:=R) (NStr m) reg)
        /\ is_value_error (get_poisson (A:=R) (NStr m))).
Proof. exact getters. Qed.
Print Assumptions C30_material_getters_partial.
Theorem C30_integers_raise :
  forall z reg, raises (get_elastic_modulus (A:=R) (NInt z) reg)
    /\ raises (get_density (A:=R) (NInt z) reg) /\ raises (get_poisson (A:=R) (NInt z)).
Proof. exact getters_int_never. Qed.
Print Assumptions C30_integers_raise.
Example C30_case :
  In "316L"%string available_materials /\ ~ In "titanium"%string available_materials.
Proof. split; [apply str_mem_In | apply str_mem_false]; vm_compute; reflexivity. Qed.
