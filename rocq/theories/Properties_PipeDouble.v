(** * Properties_PipeDouble: C151, rating a catalogue pipe with rounded arithmetic and in
    IEEE-3504 double precision.

    [rated_pipe] (RoundPipeSpec) is what a user does: Tube.get_dimensions, then
    Tube.calculate_max_stress, then Tube.calculate_max_pressure of the two diameters and that
    stress.  [@rated_pipe R Num_R] is exact (C111 gives its value), [Num_rounded rnd] rounds
    after every operation (RoundM), [b64] computes with doubles (IeeeM). *)
From Coq Require Import String ZArith QArith Reals Qreals List Bool Lra Lia.
From Flocq Require Import Core BinarySingleNaN.
From Verif Require Import PyBase Pint UnitsM Spec QLemmas Csv TableSpec Tables NumQ
  TubeM TubeP StressP PipeP DesignP RoundM RoundSpec RoundTempSpec RoundP RoundPipeSpec RoundPipeP
  IeeeM IeeeSpec IeeeP IeeePipeP Properties_Ieee.
Import ListNotations.
Local Open Scope R_scope.
Local Opaque PIPE_SCHEDULES MATERIAL_LIMITS TUBE_MATERIALS.

(** Every size and schedule with a wall thickness in the table (but 28/10, whose entry is a
    misprint: a wall thicker than the pipe), every material, welded or not, any temperature in
    any unit, any safety factor: rounding moves the rating by at most 1e11 u / safety factor
    pascals. *)
Theorem C151_rating_rounding :
  forall (u : R) (rnd : R -> R), rounding u rnd ->
  forall (size schedule material : string) (welded : bool) (m : R) (unit_name : string) (t : R)
         (temp : pyin R) (safety_factor : R) (reg : nat),
    (exists w, entry PIPE_SCHEDULES size schedule w
               /\ schedule <> "Size"%string /\ schedule <> "OD"%string) ->
    (size, schedule) <> ("28"%string, "10"%string) ->
    In material available_materials ->
    denotes (PSeq [ENum m; EStr unit_name]) d_temperature (fahrenheit t) ->
    given rnd temp m unit_name -> 0 < safety_factor ->
    exists p p',
      returns (@rated_pipe R Num_R size schedule (PSeq [ENum m; EStr unit_name]) material welded
                 safety_factor reg) d_pressure p reg
      /\ returns (@rated_pipe R (Num_rounded rnd) size schedule temp material welded
                    safety_factor reg) d_pressure p' reg
      /\ Rabs (p' - p) <= 1e11 * u / safety_factor.
Proof.
  intros u rnd Hr size sc mat w m name t temp sf reg O N I D G F.
  exact (rated_rounded u rnd Hr size sc mat w m name t temp sf reg O N I D G F).
Qed.
Print Assumptions C151_rating_rounding.

(** In doubles nothing overflows and nothing loses digits to underflow: whatever the size and
    the schedule (in the table or not), the material and the temperature, the call raises what
    the rounded one raises or returns the same number. *)
Theorem C151_rating_double :
  forall (size schedule material : string) (welded : bool) (temp : pyin b64) (temp' : pyin R)
         (safety_factor : b64) (reg : nat),
    (size, schedule) <> ("28"%string, "10"%string) ->
    reads 1e18 temp temp' -> moderate 1e10 safety_factor ->
    same_outcome same_quantity
      (@rated_pipe b64 Num_b64 size schedule temp material welded safety_factor reg)
      (@rated_pipe R (Num_rounded double) size schedule temp' material welded (real safety_factor) reg).
Proof.
  intros size sc mat w t t' sf reg N Rd M.
  eapply rsim_outcome; [|exact (pipe_sim size sc t t' mat w sf reg N Rd M)].
  intros a b. apply qplain_same.
Qed.
Print Assumptions C151_rating_double.

(** So a rating in doubles is, to 2e-5 Pa (over the safety factor), the pressure that balances
    the hoop stress: S the exact stress limit, twice the wall over the mean diameter. *)
Theorem C151_rating_accuracy :
  forall (size schedule material : string) (welded : bool) (m : R) (unit_name : string) (t : R)
         (temp : pyin b64) (temp' : pyin R) (safety_factor : b64) (reg : nat),
    (exists w, entry PIPE_SCHEDULES size schedule w
               /\ schedule <> "Size"%string /\ schedule <> "OD"%string) ->
    (size, schedule) <> ("28"%string, "10"%string) ->
    In material available_materials ->
    reads 1e18 temp temp' -> given double temp' m unit_name ->
    denotes (PSeq [ENum m; EStr unit_name]) d_temperature (fahrenheit t) ->
    moderate 1e10 safety_factor -> 0 < real safety_factor ->
    exists od wall S q p,
      entry PIPE_SCHEDULES size "OD" od /\ entry PIPE_SCHEDULES size schedule wall
      /\ 0 < 2 * Q2R wall < Q2R od
      /\ returns (@calculate_max_stress R Num_R (PSeq [ENum m; EStr unit_name]) material welded reg)
                 d_pressure S reg
      /\ @rated_pipe b64 Num_b64 size schedule temp material welded safety_factor reg = Ok q
      /\ u_dim (q_unit q) = d_pressure /\ q_reg q = reg /\ worth_double q p
      /\ Rabs (p - S * (2 * Q2R wall) / (real safety_factor * (Q2R od - Q2R wall)))
           <= 2e-5 / real safety_factor.
Proof.
  intros size sc mat w m name t temp temp' sf reg O N I Rd G D Ms F.
  destruct (C151_rating_rounding _ _ double_rounding size sc mat w m name t temp' (real sf) reg O N I D G F)
    as (p & p' & Rp & (q & Eq & Sq) & B).
  destruct (C151_rating_double size sc mat w temp temp' sf reg N Rd Ms) as [(e & _ & X)|(x & y & Ex & Ey & Sn)];
    [congruence|].
  assert (H : y = q) by congruence. destruct Sn as ((Fx & Rx) & (Fs & Rs) & Po & _ & Dx & Gx).
  rewrite H in Rx, Rs, Dx, Gx.
  destruct (pipe_limit_closed size sc _ t mat w (real sf) reg O I D F)
    as (dims & od & wl & stress & S & _ & Eo & Ew & Pw & Po' & L & Es & _ & _ & St & Ret).
  specialize (L N). specialize (Ret ltac:(lra)). rewrite rated_exact in Rp.
  assert (Ep : p = S * (2 * Q2R wl) / (real sf * (Q2R od - Q2R wl))).
  { destruct Rp as (q1 & E1 & (_ & _ & _ & V1 & _)), Ret as (q2 & E2 & (_ & _ & _ & V2 & _)).
    rewrite E1 in E2. injection E2 as E2. rewrite <- V1, <- V2, E2. reflexivity. }
  exists od, wl, S, x, p'. split; [exact Eo|]. split; [exact Ew|]. split; [lra|].
  split; [exists stress; split; [exact Es|exact St]|]. split; [exact Ex|].
  destruct Sq as (Sq1 & _ & _ & Sq4 & Sq5).
  split; [congruence|]. split; [congruence|]. split.
  - repeat split; try assumption. rewrite Rx, Rs. exact Sq4.
  - rewrite <- Ep. eapply Rle_trans; [exact B|]. unfold Rdiv. apply Rmult_le_compat_r; [left; now apply Rinv_0_lt_compat|].
    unfold double_unit. cbn -[IZR]. lra.
Qed.
Print Assumptions C151_rating_accuracy.

Local Transparent PIPE_SCHEDULES.
(** Hypotheses met: NPS 6 schedule 40 in welded 304L at 350 degF, safety factor 4: in doubles
    between 0.2 and 0.25 ksi. *)
Example C151_case :
  let d := fun q : Q => @nofQ b64 Num_b64 q in
  let temp := PSeq [ENum (d 350%Q); EStr "degF"%string] in
  (exists w, entry PIPE_SCHEDULES "6" "40" w /\ "40"%string <> "Size"%string /\ "40"%string <> "OD"%string)
  /\ ("6"%string, "40"%string) <> ("28"%string, "10"%string)
  /\ In "304L"%string available_materials
  /\ reads 1e18 temp (PSeq [ENum 350; EStr "degF"%string])
  /\ given double (PSeq [ENum 350; EStr "degF"%string]) 350 "degF"
  /\ denotes (PSeq [ENum 350; EStr "degF"]) d_temperature (fahrenheit 350)
  /\ moderate 1e10 (d 4%Q) /\ real (d 4%Q) = 4
  /\ exists q, @rated_pipe b64 Num_b64 "6" "40" temp "304L" true (d 4%Q) 0 = Ok q
       /\ Bltb (d (1#5)%Q) (q_mag q) = true /\ Bltb (q_mag q) (d (1#4)%Q) = true.
Proof.
  cbv zeta.
  assert (E350 : real (@nofQ b64 Num_b64 350%Q) = 350) by (vm_compute; lra).
  assert (E4 : real (@nofQ b64 Num_b64 4%Q) = 4) by (vm_compute; lra).
  pose proof (reads_number 1e18 (@nofQ b64 Num_b64 350%Q) "degF") as X350. rewrite E350 in X350.
  split.
  { exists (28#100)%Q. split; [|split; discriminate].
    exists (nth 15 (f_rows PIPE_SCHEDULES) []). vm_compute. repeat split; auto 20. }
  split; [congruence|].
  split; [apply str_mem_In; vm_compute; reflexivity|].
  split; [apply X350; split; [vm_compute; reflexivity|right; rewrite E350, Rabs_pos_eq by lra; lra]|].
  split; [now left|].
  split; [eapply denotes_pair; [reflexivity|reflexivity|]; unfold worth, fahrenheit; cbn; rnum; q2r; lra|].
  split; [split; [vm_compute; reflexivity|right; rewrite E4, Rabs_pos_eq by lra; lra]|].
  split; [exact E4|].
  match goal with |- exists q, ?t = Ok q /\ Bltb ?a _ = true /\ Bltb _ ?b = true =>
    assert (H : match t with Ok q => (Bltb a (q_mag q) && Bltb (q_mag q) b)%bool | Err _ => false end = true)
      by (vm_compute; reflexivity);
    destruct t as [q|e]; [|discriminate]; exists q; split; [reflexivity|]; now apply andb_true_iff in H end.
Qed.
