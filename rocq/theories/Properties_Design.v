(** * Properties_Design: C111 (rating a catalogue pipe), C112, C113 (flange round trips). *)
From Coq Require Import String ZArith QArith Reals Qreals List Bool Lra Lia.
From Verif Require Import PyBase Pint UnitsM Spec QLemmas Csv TableSpec Tables Interp
  TubeM TubeP StressP PipeP DesignP NumQ InterpP FlangeM FlangeP FlangeT FlangeRoundP Properties_Flange.
Import ListNotations.
Local Open Scope R_scope.
Local Opaque PIPE_SCHEDULES TUBE_MATERIALS flange_file FLANGE_LIMITS MATERIAL_LIMITS
  get_dimensions calculate_max_stress calculate_max_pressure.

(** C111.  The script [pipe_limit] of DesignP.v is
      dims   = Tube.get_dimensions(size, schedule)
      stress = Tube.calculate_max_stress(temp, material, welded)
      Tube.calculate_max_pressure(dims.inner_diameter, dims.outer_diameter, stress, sf)
    Missing: the pipe 28 in schedule 10 (refuted below). *)
Theorem C111_pipe_limit_partial :
  forall (size schedule material : string) (temp : pyin R) (t sf : R) (welded : bool) (reg : nat),
    (exists w, entry PIPE_SCHEDULES size schedule w
               /\ schedule <> "Size"%string /\ schedule <> "OD"%string) ->
    (size, schedule) <> ("28"%string, "10"%string) ->
    In material available_materials -> denotes temp d_temperature (fahrenheit t) -> 0 < sf ->
    exists (od w : Q) (stress : quantity R) (S p : R),
      entry PIPE_SCHEDULES size "OD" od /\ entry PIPE_SCHEDULES size schedule w
      /\ 0 < 2 * Q2R w < Q2R od
      /\ calculate_max_stress temp material welded reg = Ok stress
      /\ stands_for stress d_pressure S reg /\ 0 <= S
      /\ returns (pipe_limit size schedule temp material welded sf reg) d_pressure p reg
      /\ p * sf * (Q2R od - Q2R w) = S * (2 * Q2R w)
      /\ 0 <= p /\ (0 < S -> 0 < p).
Proof.
  intros size schedule m temp t sf w reg O N I D F.
  destruct (pipe_limit_closed size schedule temp t m w sf reg O I D F) as
    (dims & od & wall & stress & S & _ & Eo & Ew & Pw & Po & B & Es & _ & Ps & St & R).
  specialize (B N). specialize (R ltac:(lra)).
  assert (S0 : 0 <= S).
  { destruct St as (_ & _ & Sc & <- & _). apply Rmult_le_pos; lra. }
  exists od, wall, stress, S. eexists.
  split; [exact Eo|]. split; [exact Ew|]. split; [lra|]. split; [exact Es|].
  split; [exact St|]. split; [exact S0|]. split; [exact R|].
  assert (G : 0 < sf * (Q2R od - Q2R wall)) by (apply Rmult_lt_0_compat; lra).
  split; [field; lra|]. split.
  - apply Rmult_le_pos; [apply Rmult_le_pos; lra | left; apply Rinv_0_lt_compat; lra].
  - intros S1. apply Rdiv_lt_0_compat; [apply Rmult_lt_0_compat; lra | lra].
Qed.
Print Assumptions C111_pipe_limit_partial.

(** What two calls of the script return, compared. *)
Lemma limit_value size schedule m temp t sf w reg p :
  offered_pipe size schedule -> (size, schedule) <> ("28"%string, "10"%string) ->
  In m available_materials -> denotes temp d_temperature (fahrenheit t) -> 0 < sf ->
  returns (pipe_limit size schedule temp m w sf reg) d_pressure p reg ->
  exists od wall stress S, entry PIPE_SCHEDULES size "OD" od
    /\ entry PIPE_SCHEDULES size schedule wall /\ 0 < 2 * Q2R wall < Q2R od
    /\ calculate_max_stress temp m w reg = Ok stress
    /\ is_in stress (q_mag stress) "ksi" reg /\ 0 <= q_mag stress
    /\ stands_for stress d_pressure S reg
    /\ p = S * (2 * Q2R wall) / (sf * (Q2R od - Q2R wall)).
Proof.
  intros O N I D F (q & Eq & Sq).
  destruct (pipe_limit_closed size schedule temp t m w sf reg O I D F) as
    (dims & od & wall & stress & S & _ & Eo & Ew & Pw & Po & B & Es & Is & Ps & St & R).
  specialize (B N). specialize (R ltac:(lra)). destruct R as (q' & Eq' & Sq').
  rewrite Eq in Eq'; injection Eq' as <-.
  exists od, wall, stress, S. repeat (split; [assumption || lra|]).
  destruct Sq as (_ & _ & _ & <- & _), Sq' as (_ & _ & _ & -> & _). reflexivity.
Qed.
Lemma entry_fun size c a b :
  entry PIPE_SCHEDULES size c a -> entry PIPE_SCHEDULES size c b -> a = b.
Proof.
  intros A B. apply entry_row in A as (r & Er & Cr); [|exact pipe_labels].
  apply entry_row in B as (r' & Er' & Cr'); [|exact pipe_labels].
  rewrite Er in Er'; injection Er' as <-. rewrite Cr in Cr'. now injection Cr' as <-.
Qed.
Lemma ksi_compare s1 s2 S1 S2 reg :
  is_in s1 (q_mag s1) "ksi" reg -> is_in s2 (q_mag s2) "ksi" reg ->
  stands_for s1 d_pressure S1 reg -> stands_for s2 d_pressure S2 reg ->
  0 <= q_mag s2 <= q_mag s1 -> 0 <= S2 <= S1.
Proof.
  intros (L1 & _) (L2 & _) (_ & _ & K & <- & _) (_ & _ & _ & <- & _) X.
  rewrite L1 in L2. injection L2 as L2. rewrite <- L2. split.
  - apply Rmult_le_pos; lra.
  - apply Rmult_le_compat_r; lra.
Qed.
Lemma limit_le S1 S2 w od sf : 0 <= S2 <= S1 -> 0 < 2 * w < od -> 0 < sf ->
  0 <= S2 * (2 * w) / (sf * (od - w)) <= S1 * (2 * w) / (sf * (od - w)).
Proof.
  intros X W F. assert (G : 0 < / (sf * (od - w)))
    by (apply Rinv_0_lt_compat, Rmult_lt_0_compat; lra).
  unfold Rdiv. split.
  - apply Rmult_le_pos; [apply Rmult_le_pos|]; lra.
  - apply Rmult_le_compat_r; [lra|]. apply Rmult_le_compat_r; lra.
Qed.

(** A hotter pipe is never rated higher, and a welded pipe never higher than a seamless
    one. *)
Theorem C111_hotter_or_welded_never_higher_partial :
  forall (size schedule material : string) (temp1 temp2 : pyin R) (t1 t2 sf : R)
         (welded1 welded2 : bool) (reg : nat) (p1 p2 : R),
    (exists w, entry PIPE_SCHEDULES size schedule w
               /\ schedule <> "Size"%string /\ schedule <> "OD"%string) ->
    (size, schedule) <> ("28"%string, "10"%string) ->
    In material available_materials ->
    denotes temp1 d_temperature (fahrenheit t1) -> denotes temp2 d_temperature (fahrenheit t2) ->
    0 < sf -> t1 <= t2 -> (welded1 = welded2 \/ (welded1 = false /\ welded2 = true)) ->
    returns (pipe_limit size schedule temp1 material welded1 sf reg) d_pressure p1 reg ->
    returns (pipe_limit size schedule temp2 material welded2 sf reg) d_pressure p2 reg ->
    0 <= p2 <= p1.
Proof.
  intros size schedule m temp1 temp2 t1 t2 sf w1 w2 reg p1 p2 O N I D1 D2 F L W R1 R2.
  destruct (limit_value _ _ _ _ _ _ _ _ _ O N I D1 F R1) as
    (od & wall & s1 & S1 & Eo & Ew & B & E1 & I1 & P1 & St1 & ->).
  destruct (limit_value _ _ _ _ _ _ _ _ _ O N I D2 F R2) as
    (od' & wall' & s2 & S2 & Eo' & Ew' & B' & E2 & I2 & P2 & St2 & ->).
  rewrite (entry_fun _ _ _ _ Eo' Eo), (entry_fun _ _ _ _ Ew' Ew).
  apply limit_le; [|lra|lra].
  apply (ksi_compare s1 s2 S1 S2 reg I1 I2 St1 St2). split; [exact P2|].
  destruct (stress_any m w1 temp2 t2 reg I D2) as (s' & E' & _ & _).
  pose proof (max_stress_falls m w1 temp1 temp2 t1 t2 reg s1 s' I D1 D2 L E1 E') as [X _].
  destruct W as [<-|[-> ->]].
  - rewrite E2 in E'; injection E' as <-. lra.
  - pose proof (welded_below_seamless m temp2 t2 reg s2 s' I D2 E2 E') as [Y _]. lra.
Qed.
Print Assumptions C111_hotter_or_welded_never_higher_partial.

(** Of two schedules of one size the thicker is rated higher (strictly, where the
    material carries load at all). *)
Theorem C111_thicker_is_stronger_partial :
  forall (size schedule1 schedule2 material : string) (w1 w2 : Q) (temp : pyin R) (t sf : R)
         (welded : bool) (reg : nat) (p1 p2 : R),
    entry PIPE_SCHEDULES size schedule1 w1 -> entry PIPE_SCHEDULES size schedule2 w2 ->
    schedule1 <> "Size"%string -> schedule1 <> "OD"%string ->
    schedule2 <> "Size"%string -> schedule2 <> "OD"%string ->
    (size, schedule1) <> ("28"%string, "10"%string) ->
    (size, schedule2) <> ("28"%string, "10"%string) ->
    In material available_materials -> denotes temp d_temperature (fahrenheit t) -> 0 < sf ->
    Q2R w1 < Q2R w2 ->
    returns (pipe_limit size schedule1 temp material welded sf reg) d_pressure p1 reg ->
    returns (pipe_limit size schedule2 temp material welded sf reg) d_pressure p2 reg ->
    p1 <= p2 /\ (0 < p1 -> p1 < p2).
Proof.
  intros size sc1 sc2 m w1 w2 temp t sf w reg p1 p2 E1 E2 A1 A1' A2 A2' N1 N2 I D F L R1 R2.
  assert (O1 : offered_pipe size sc1) by (exists w1; auto).
  assert (O2 : offered_pipe size sc2) by (exists w2; auto).
  destruct (limit_value _ _ _ _ _ _ _ _ _ O1 N1 I D F R1) as
    (od & wall & s1 & S1 & Eo & Ew & B & X1 & I1 & P1 & St1 & ->).
  destruct (limit_value _ _ _ _ _ _ _ _ _ O2 N2 I D F R2) as
    (od' & wall' & s2 & S2 & Eo' & Ew' & B' & X2 & I2 & P2 & St2 & ->).
  rewrite (entry_fun _ _ _ _ Eo' Eo) in *.
  rewrite (entry_fun _ _ _ _ Ew E1), (entry_fun _ _ _ _ Ew' E2) in *.
  rewrite X1 in X2; injection X2 as <-.
  assert (S2 = S1) as -> by (destruct St1 as (_ & _ & _ & <- & _), St2 as (_ & _ & _ & <- & _); reflexivity).
  assert (S0 : 0 <= S1).
  { destruct St1 as (_ & _ & K & <- & _). apply Rmult_le_pos; lra. }
  assert (V : forall x, S1 * (2 * Q2R x) / (sf * (Q2R od - Q2R x))
                        = S1 * 2 / sf * (Q2R x / (Q2R od - Q2R x)) \/ Q2R od = Q2R x).
  { intros x. destruct (Req_dec (Q2R od) (Q2R x)) as [e|e]; [now right|]. left. field. lra. }
  destruct (V w1) as [-> | ?]; [|lra]. destruct (V w2) as [-> | ?]; [|lra].
  assert (K : Q2R w1 / (Q2R od - Q2R w1) < Q2R w2 / (Q2R od - Q2R w2)).
  { apply Rmult_lt_reg_r with ((Q2R od - Q2R w1) * (Q2R od - Q2R w2)).
    - apply Rmult_lt_0_compat; lra.
    - replace (Q2R w1 / (Q2R od - Q2R w1) * ((Q2R od - Q2R w1) * (Q2R od - Q2R w2)))
        with (Q2R w1 * (Q2R od - Q2R w2)) by (field; lra).
      replace (Q2R w2 / (Q2R od - Q2R w2) * ((Q2R od - Q2R w1) * (Q2R od - Q2R w2)))
        with (Q2R w2 * (Q2R od - Q2R w1)) by (field; lra).
      assert (0 < Q2R od * (Q2R w2 - Q2R w1)) by (apply Rmult_lt_0_compat; lra). lra. }
  assert (G : 0 < / sf) by (apply Rinv_0_lt_compat; lra).
  assert (H : 0 <= S1 * 2 / sf) by (apply Rmult_le_pos; lra).
  split.
  - apply Rmult_le_compat_l; lra.
  - intros P. assert (H1 : 0 < S1 * 2 / sf).
    { destruct H as [H|H]; [exact H|]. rewrite <- H in P. lra. }
    apply Rmult_lt_compat_l; lra.
Qed.
Print Assumptions C111_thicker_is_stronger_partial.

(** False of the code for the one pipe whose tabulated wall is thicker than the pipe: a
    negative pressure limit is returned. *)
Local Transparent PIPE_SCHEDULES.
Lemma entry_28 : entry PIPE_SCHEDULES "28" "10" (312#1) /\ entry PIPE_SCHEDULES "28" "OD" (28#1).
Proof.
  split; (apply entry_row; [exact pipe_labels|]);
    (destruct (row_of PIPE_SCHEDULES "28") as [row|] eqn:E; [|vm_compute in E; discriminate]);
    exists row; (split; [reflexivity|]); vm_compute in E; injection E as <-; vm_compute; reflexivity.
Qed.
Local Opaque PIPE_SCHEDULES.
Theorem C111_negative_limit_refuted :
  (exists w, entry PIPE_SCHEDULES "28" "10" w)
  /\ forall reg, exists p,
       returns (pipe_limit "28" "10" (PSeq [ENum 70; EStr "degF"]) "304" false 4 reg) d_pressure p reg
       /\ p < 0.
Proof.
  split; [exists (312#1)%Q; exact (proj1 entry_28)|]. intros reg.
  assert (D : denotes (PSeq [ENum 70; EStr "degF"]) d_temperature (fahrenheit 70)).
  { eapply denotes_pair; [reflexivity|reflexivity|]. unfold worth, fahrenheit; cbn; rnum; q2r; lra. }
  assert (I : In "304"%string available_materials) by (apply str_mem_In; vm_compute; reflexivity).
  assert (O : offered_pipe "28" "10").
  { exists (312#1)%Q. split; [exact (proj1 entry_28)|]. split; discriminate. }
  destruct (pipe_limit_closed "28" "10" _ 70 "304" false 4 reg O I D ltac:(lra)) as
    (dims & od & wall & stress & S & _ & Eo & Ew & Pw & Po & _ & Es & Is & Ps & St & R).
  rewrite (entry_fun _ _ _ _ Eo (proj2 entry_28)), (entry_fun _ _ _ _ Ew (proj1 entry_28)) in R.
  replace (Q2R (28#1)) with 28 in R by (q2r; lra).
  replace (Q2R (312#1)) with 312 in R by (q2r; lra).
  eexists. split; [apply R; lra|].
  (* the stress at 70 degF is at least the one at 100 degF, 18.8 ksi *)
  assert (D1 : denotes (PSeq [ENum 100; EStr "degF"]) d_temperature (fahrenheit 100)).
  { eapply denotes_pair; [reflexivity|reflexivity|]. unfold worth, fahrenheit; cbn; rnum; q2r; lra. }
  assert (Z : exists s, calculate_max_stress (PSeq [ENum 100; EStr "degF"]) "304" false reg = Ok s
                        /\ 0 < q_mag s).
  { destruct (max_stress_line "304" false (PSeq [ENum 100; EStr "degF"]) 100 reg
                (nth 0 (f_rows (MATERIAL_LIMITS false)) []) (nth 1 (f_rows (MATERIAL_LIMITS false)) [])
                (-20#1) (188#10) (100#1) (188#10)) as (s & Es1 & (_ & M & _)); try assumption.
    - exists [], (skipn 2 (f_rows (MATERIAL_LIMITS false))). vm_compute. reflexivity.
    - vm_compute. reflexivity.
    - vm_compute. reflexivity.
    - vm_compute. reflexivity.
    - vm_compute. reflexivity.
    - q2r; lra.
    - exists s. split; [exact Es1|]. rewrite M. unfold line; cbn [fst snd]. q2r. lra. }
  destruct Z as (s & Es1 & Ps1).
  pose proof (max_stress_falls "304" false _ _ 70 100 reg stress s I D D1 ltac:(lra) Es Es1) as [X _].
  assert (S0 : 0 < S).
  { destruct St as (_ & _ & K & <- & _). apply Rmult_lt_0_compat; lra. }
  lra.
Qed.
Print Assumptions C111_negative_limit_refuted.
(** Hypotheses met: 6 in, schedules 40 and XXH, 304, 350 degF. *)
Local Transparent PIPE_SCHEDULES.
Example C111_case :
  entry PIPE_SCHEDULES "6" "40" (28#100) /\ entry PIPE_SCHEDULES "6" "XXH" (864#1000)
  /\ Q2R (28#100) < Q2R (864#1000) /\ In "304"%string available_materials
  /\ denotes (PSeq [ENum 350; EStr "degF"]) d_temperature (fahrenheit 350).
Proof.
  split; [|split; [|split; [|split]]].
  - exists (nth 15 (f_rows PIPE_SCHEDULES) []). vm_compute. repeat split; auto 20.
  - exists (nth 15 (f_rows PIPE_SCHEDULES) []). vm_compute. repeat split; auto 20.
  - q2r; lra.
  - apply str_mem_In; vm_compute; reflexivity.
  - eapply denotes_pair; [reflexivity|reflexivity|]. unfold worth, fahrenheit; cbn; rnum; q2r; lra.
Qed.
Local Opaque PIPE_SCHEDULES.

(** C112: asking for the class that carries a class's own rating gives that class. *)
Theorem C112_class_round_trip :
  forall (strict : bool) (material : string) (f : frame) (cls : string) (temp : pyin R) (T : R)
         (q : quantity R) (reg : nat),
    In material available_materials -> rated_by TUBE_MATERIALS flange_file material f ->
    In cls (pressure_classes f) -> denotes temp d_temperature T ->
    get_max_pressure strict cls temp (NStr material) = Ok q ->
    get_class strict (PQuant q) temp (NStr material) reg = Ok cls.
Proof. exact class_round_trip. Qed.
Print Assumptions C112_class_round_trip.
(** Ratings strictly increase with the class at every temperature. *)
Theorem C112_ratings_strictly_rise :
  forall (strict : bool) (material : string) (f : frame) (cls1 cls2 : string) (n1 n2 : Q)
         (temp : pyin R) (T : R) (q1 q2 : quantity R),
    In material available_materials -> rated_by TUBE_MATERIALS flange_file material f ->
    In cls1 (pressure_classes f) -> In cls2 (pressure_classes f) ->
    parse_number cls1 = Some n1 -> parse_number cls2 = Some n2 -> (n1 < n2)%Q ->
    denotes temp d_temperature T ->
    get_max_pressure strict cls1 temp (NStr material) = Ok q1 ->
    get_max_pressure strict cls2 temp (NStr material) = Ok q2 ->
    q_mag q1 < q_mag q2.
Proof. exact rating_strict. Qed.
Print Assumptions C112_ratings_strictly_rise.

(** C113: the temperature up to which a class carries its own rating at [T] is at least
    [T].  False of the code from -29 to 38 degC, for every material and class: 0 K is
    returned, or ValueError with a newer scipy. *)
Theorem C113_temperature_round_trip_refuted :
  forall (strict s : bool) (material : string) (f : frame) (cls : string) (temp : pyin R) (t : R),
    In material available_materials -> rated_by TUBE_MATERIALS flange_file material f ->
    In cls (pressure_classes f) -> denotes temp d_temperature (celsius t) -> -29 <= t <= 38 ->
    exists q, get_max_pressure s cls temp (NStr material) = Ok q /\
      if strict then is_value_error (get_max_temperature strict cls (PQuant q) (NStr material))
      else exists q', get_max_temperature strict cls (PQuant q) (NStr material) = Ok q'
                      /\ is_in q' 0 "K" (out_reg temp).
Proof. exact room_round_trip. Qed.
Print Assumptions C113_temperature_round_trip_refuted.
(** Missing: ratings above the second highest tabulated one, ratings below every positive
    tabulated one, and newer scipy. *)
Theorem C113_temperature_round_trip_partial :
  forall (s s' : bool) (material : string) (f : frame) (cls : string) (temp : pyin R) (T : R)
         (q : quantity R) (row1 row2 row3 : list string) (P1 P2 P3 : Q),
    In material available_materials -> rated_by TUBE_MATERIALS flange_file material f ->
    In cls (pressure_classes f) -> denotes temp d_temperature T ->
    get_max_pressure s cls temp (NStr material) = Ok q ->
    In row1 (f_rows f) -> tabulated f row1 cls P1 -> 0 < Q2R P1 * 100000 <= q_mag q ->
    In row2 (f_rows f) -> tabulated f row2 cls P2 -> q_mag q < Q2R P2 * 100000 ->
    In row3 (f_rows f) -> tabulated f row3 cls P3 -> Q2R P2 < Q2R P3 ->
    exists q2 T2, get_max_temperature false cls (PQuant q) (NStr material) = Ok q2
      /\ is_in q2 T2 "K" (q_reg q) /\ T <= T2
      /\ forall temp2, denotes temp2 d_temperature T2 ->
         exists q', get_max_pressure s' cls temp2 (NStr material) = Ok q' /\ q_mag q' = q_mag q.
Proof.
  intros s s' m f cls temp T q row1 row2 row3 P1 P2 P3 I Rb Pc D E I1 A1 X1 I2 A2 X2 I3 A3 X3.
  exact (temperature_round_trip s s' m f cls temp T q row1 row2 row3 P1 P2 P3
           I Rb Pc D E I1 A1 X1 I2 A2 X2 I3 A3 X3).
Qed.
Print Assumptions C113_temperature_round_trip_partial.
(** 304, class 300, 330 degC: 30.08 bar. *)
Example C112_C113_case : forall strict, exists q,
  denotes (PSeq [ENum 330; EStr "degC"]) d_temperature (celsius 330)
  /\ get_max_pressure strict "300" (PSeq [ENum 330; EStr "degC"]) (NStr "304") = Ok q
  /\ exists row1 row2 row3,
     In row1 (f_rows f21) /\ tabulated f21 row1 "300" 29.6 /\ 0 < Q2R 29.6 * 100000 <= q_mag q
     /\ In row2 (f_rows f21) /\ tabulated f21 row2 "300" 30.2 /\ q_mag q < Q2R 30.2 * 100000
     /\ In row3 (f_rows f21) /\ tabulated f21 row3 "300" 49.6 /\ Q2R 30.2 < Q2R 49.6.
Proof.
  intros strict.
  assert (D : denotes (PSeq [ENum 330; EStr "degC"]) d_temperature (celsius 330)) by den.
  assert (N : forall n, (n < length (f_rows f21))%nat -> In (nth n (f_rows f21) []) (f_rows f21))
    by (intros; apply nth_In; assumption).
  assert (Ic : In "300"%string (pressure_classes f21)) by mem.
  assert (L : (9 < length (f_rows f21))%nat) by (vm_compute; lia).
  destruct (max_pressure_line strict "304" f21 "300" (PSeq [ENum 330; EStr "degC"]) 330 (nth 8 (f_rows f21) []) (nth 9 (f_rows f21) [])
              325 30.2 350 29.6 in_304 rated_304 Ic (consecutive_nth _ 8 [] L))
    as (q & E & (_ & M & _)); try tab; [exact D | q2r; lra |].
  exists q. split; [exact D|]. split; [exact E|].
  assert (Mq : q_mag q = 3008000) by (rewrite M; unfold line; cbn [fst snd]; q2r; lra).
  exists (nth 9 (f_rows f21) []), (nth 8 (f_rows f21) []), (nth 0 (f_rows f21) []).
  rewrite Mq.
  split; [apply N; vm_compute; lia|]. split; [tab|]. split; [q2r; lra|].
  split; [apply N; vm_compute; lia|]. split; [tab|]. split; [q2r; lra|].
  split; [apply N; vm_compute; lia|]. split; [tab|]. q2r; lra.
Qed.
