(** * Properties_Flange: C36-C42 (flange ratings).

    [strict] is the behaviour of the installed scipy on repeated abscissae (see
    Interp.v); every theorem says for which value(s) it holds. *)
From Coq Require Import String ZArith QArith Reals Qreals List Bool Lra Lia.
From Verif Require Import PyBase Pint UnitsM Spec QLemmas Csv TableSpec Tables StressP InterpP NumQ
  FlangeM FlangeP FlangeT.
Import ListNotations.
Local Open Scope R_scope.
Local Opaque TUBE_MATERIALS flange_file FLANGE_LIMITS.

(** Every listed material has a rating file, so the hypotheses [In ..] and
    [rated_by ..] below are met by each of them. *)
Theorem every_flange_material_is_rated :
  forall material, In material available_materials ->
  exists f, rated_by TUBE_MATERIALS flange_file material f
            /\ pressure_classes f = ["150";"300";"400";"600";"900";"1500";"2500"]%string.
Proof.
  intros m I. destruct (every_material_rated m I) as (f & Rb). exists f. split; [exact Rb|].
  destruct (rates_of m f I Rb) as (tab & H). exact (rates_classes _ _ _ H).
Qed.
Print Assumptions every_flange_material_is_rated.

(** C36: between neighbouring rows, the straight line in Pa (1 bar = 100000 Pa); at a
    tabulated temperature that is the tabulated rating. *)
Theorem C36_rating_is_straight_line :
  forall (strict : bool) (material : string) (f : frame) (cls : string) (temp : pyin R) (t : R)
         (row1 row2 : list string) (T1 P1 T2 P2 : Q),
    In material available_materials -> rated_by TUBE_MATERIALS flange_file material f ->
    In cls (pressure_classes f) ->
    consecutive (f_rows f) row1 row2 ->
    tabulated f row1 "Temperature" T1 -> tabulated f row1 cls P1 ->
    tabulated f row2 "Temperature" T2 -> tabulated f row2 cls P2 ->
    denotes temp d_temperature (celsius t) -> Q2R T1 <= t <= Q2R T2 ->
    exists q, get_max_pressure strict cls temp (NStr material) = Ok q
      /\ is_in q (line (Q2R T1, Q2R P1 * 100000) (Q2R T2, Q2R P2 * 100000) t) "Pa"
               (out_reg temp).
Proof. exact max_pressure_line. Qed.
Print Assumptions C36_rating_is_straight_line.
Theorem C36_range_is_covered :
  forall (material : string) (f : frame) (cls : string) (t : R)
         (row1 row2 : list string) (T1 T2 : Q),
    In material available_materials -> rated_by TUBE_MATERIALS flange_file material f ->
    In cls (pressure_classes f) ->
    In row1 (f_rows f) -> tabulated f row1 "Temperature" T1 ->
    In row2 (f_rows f) -> tabulated f row2 "Temperature" T2 -> Q2R T1 <= t <= Q2R T2 ->
    exists row1 row2 T1 P1 T2 P2, consecutive (f_rows f) row1 row2
      /\ tabulated f row1 "Temperature" T1 /\ tabulated f row1 cls P1
      /\ tabulated f row2 "Temperature" T2 /\ tabulated f row2 cls P2
      /\ Q2R T1 <= t <= Q2R T2.
Proof. exact max_pressure_covered. Qed.
Print Assumptions C36_range_is_covered.
Theorem C36_outside_range :
  forall (strict : bool) (material : string) (f : frame) (cls : string) (temp : pyin R) (t : R),
    In material available_materials -> rated_by TUBE_MATERIALS flange_file material f ->
    In cls (pressure_classes f) -> denotes temp d_temperature (celsius t) ->
    (forall row T, In row (f_rows f) -> tabulated f row "Temperature" T -> t < Q2R T)
    \/ (forall row T, In row (f_rows f) -> tabulated f row "Temperature" T -> Q2R T < t) ->
    is_value_error (get_max_pressure strict cls temp (NStr material)).
Proof. exact max_pressure_out. Qed.
Print Assumptions C36_outside_range.

Local Transparent TUBE_MATERIALS flange_file.
Lemma rated_case g : forall material row f,
  find (fun r => String.eqb (hd ""%string r) material) (f_rows TUBE_MATERIALS) = Some row ->
  cell (f_cols TUBE_MATERIALS) row "Group" = Some g -> flange_file g = Some f ->
  rated_by TUBE_MATERIALS flange_file material f.
Proof. intros m row f A B C. exists row, g. split; [exact A|]. split; [exact B|exact C]. Qed.
Definition f21 : frame := read_csv CsvData.csv_flange_2_1.
Definition f23 : frame := read_csv CsvData.csv_flange_2_3.
Lemma rated_304 : rated_by TUBE_MATERIALS flange_file "304" f21.
Proof.
  apply (rated_case "2.1" "304" (nth 0 (f_rows TUBE_MATERIALS) [])); vm_compute; reflexivity.
Qed.
Lemma rated_316L : rated_by TUBE_MATERIALS flange_file "316L" f23.
Proof.
  apply (rated_case "2.3" "316L" (match find (fun r => String.eqb (hd ""%string r) "316L")
    (f_rows TUBE_MATERIALS) with Some r => r | None => [] end)); vm_compute; reflexivity.
Qed.
Lemma in_304 : In "304"%string available_materials.
Proof. apply str_mem_In; vm_compute; reflexivity. Qed.
Lemma in_316L : In "316L"%string available_materials.
Proof. apply str_mem_In; vm_compute; reflexivity. Qed.
Lemma consecutive_nth {A} (l : list A) n d : (S n < length l)%nat ->
  consecutive l (nth n l d) (nth (S n) l d).
Proof.
  intros H. exists (firstn n l), (skipn (S (S n)) l).
  rewrite <- (firstn_skipn n l) at 1. f_equal.
  revert l H; induction n as [|n IH]; intros [|a l] H; cbn in H; try lia.
  - destruct l; cbn in H; [lia|]. reflexivity.
  - cbn [skipn nth]. apply IH. lia.
Qed.
(** 304, class 300, 75 degC: between the rows of 50 and 100 degC. *)
Example C36_case :
  In "304"%string available_materials /\ rated_by TUBE_MATERIALS flange_file "304" f21
  /\ In "300"%string (pressure_classes f21)
  /\ denotes (PSeq [ENum 75; EStr "degC"]) d_temperature (celsius 75)
  /\ exists row1 row2, consecutive (f_rows f21) row1 row2
     /\ tabulated f21 row1 "Temperature" 50 /\ tabulated f21 row1 "300" 47.8
     /\ tabulated f21 row2 "Temperature" 100 /\ tabulated f21 row2 "300" 40.9
     /\ Q2R 50 <= 75 <= Q2R 100.
Proof.
  split; [exact in_304|]. split; [exact rated_304|].
  split; [apply str_mem_In; vm_compute; reflexivity|]. split.
  - eapply denotes_pair; [reflexivity|reflexivity|].
    unfold worth, celsius; cbn; rnum; rewrite ?one_R; q2r; lra.
  - exists (nth 2 (f_rows f21) []), (nth 3 (f_rows f21) []).
    split; [apply consecutive_nth; vm_compute; lia|].
    repeat split; try (eexists; split; [vm_compute; reflexivity|vm_compute; reflexivity]); q2r; lra.
Qed.

(** C37 *)
Theorem C37_rating_never_rises_with_temperature :
  forall (strict : bool) (material : string) (f : frame) (cls : string)
         (temp1 temp2 : pyin R) (x1 x2 : R) (q1 q2 : quantity R),
    In material available_materials -> rated_by TUBE_MATERIALS flange_file material f ->
    In cls (pressure_classes f) ->
    denotes temp1 d_temperature x1 -> denotes temp2 d_temperature x2 -> x1 <= x2 ->
    get_max_pressure strict cls temp1 (NStr material) = Ok q1 ->
    get_max_pressure strict cls temp2 (NStr material) = Ok q2 ->
    0 <= q_mag q2 <= q_mag q1 /\ q_unit q1 = q_unit q2.
Proof. exact max_pressure_falls. Qed.
Print Assumptions C37_rating_never_rises_with_temperature.
Theorem C37_rating_rises_with_class :
  forall (strict : bool) (material : string) (f : frame) (cls1 cls2 : string) (n1 n2 : Q)
         (temp : pyin R) (x : R) (q1 q2 : quantity R),
    In material available_materials -> rated_by TUBE_MATERIALS flange_file material f ->
    In cls1 (pressure_classes f) -> In cls2 (pressure_classes f) ->
    parse_number cls1 = Some n1 -> parse_number cls2 = Some n2 -> (n1 <= n2)%Q ->
    denotes temp d_temperature x ->
    get_max_pressure strict cls1 temp (NStr material) = Ok q1 ->
    get_max_pressure strict cls2 temp (NStr material) = Ok q2 ->
    q_mag q1 <= q_mag q2 /\ q_unit q1 = q_unit q2.
Proof. exact max_pressure_class. Qed.
Print Assumptions C37_rating_rises_with_class.
(** Both calls return (C36) for instance at 75 degC: *)
Example C37_case : forall strict, exists q1 q2,
  get_max_pressure strict "300" (PSeq [ENum 75; EStr "degC"]) (NStr "304") = Ok q1
  /\ get_max_pressure strict "400" (PSeq [ENum 75; EStr "degC"]) (NStr "304") = Ok q2.
Proof.
  intros strict.
  destruct C36_case as (I & Rb & _ & D & r1 & r2 & C & T1 & _ & T2 & _ & B).
  assert (X : forall c, In c (pressure_classes f21) -> exists q,
    get_max_pressure strict c (PSeq [ENum 75; EStr "degC"]) (NStr "304") = Ok q).
  { intros c Ic.
    assert (I1 : In r1 (f_rows f21) /\ In r2 (f_rows f21)) by (exact (consecutive_in _ _ _ C)).
    destruct (max_pressure_covered _ _ c 75 r1 r2 _ _ I Rb Ic (proj1 I1) T1 (proj2 I1) T2 B)
      as (a & b & ? & ? & ? & ? & C' & A1 & A2 & A3 & A4 & A5).
    destruct (max_pressure_line strict _ _ c _ 75 _ _ _ _ _ _ I Rb Ic C' A1 A2 A3 A4 D A5)
      as (q & E & _). exists q; exact E. }
  destruct (X "300"%string) as (q1 & E1); [apply str_mem_In; vm_compute; reflexivity|].
  destruct (X "400"%string) as (q2 & E2); [apply str_mem_In; vm_compute; reflexivity|].
  exists q1, q2. split; [exact E1|exact E2].
Qed.

(** C38, in any arithmetic: [<=?] is the comparison of that arithmetic and
    [base_mag] the pressure in base units as that arithmetic computes it. *)
Theorem C38_smallest_sufficient_class :
  forall (A : Type) (NA : Num A) (strict : bool) (p temp : pyin A) (material : string)
         (reg : nat) (cls : string) (pq : quantity A),
    get_class strict p temp (NStr material) reg = Ok cls ->
    parse_quant_input p reg = Ok pq ->
    In material available_materials /\ In cls class_names
    /\ (exists q, get_max_pressure strict cls temp (NStr material) = Ok q
          /\ lookup_unit "Pa" = Some (q_unit q) /\ nleb (base_mag pq) (q_mag q) = true)
    /\ forall smaller n n', In smaller class_names ->
       parse_number cls = Some n -> parse_number smaller = Some n' -> (n' < n)%Q ->
       exists q', get_max_pressure strict smaller temp (NStr material) = Ok q'
          /\ lookup_unit "Pa" = Some (q_unit q') /\ nleb (base_mag pq) (q_mag q') = false.
Proof. exact @get_class_any. Qed.
Print Assumptions C38_smallest_sufficient_class.
(** In exact arithmetic, for a pressure of [x] pascal. *)
Theorem C38_smallest_sufficient_class_exact :
  forall (strict : bool) (p temp : pyin R) (x : R) (material : string) (reg : nat) (cls : string),
    denotes p d_pressure x ->
    get_class strict p temp (NStr material) reg = Ok cls ->
    (exists q, get_max_pressure strict cls temp (NStr material) = Ok q /\ x <= q_mag q)
    /\ forall smaller n n', In smaller class_names ->
       parse_number cls = Some n -> parse_number smaller = Some n' -> (n' < n)%Q ->
       exists q', get_max_pressure strict smaller temp (NStr material) = Ok q' /\ q_mag q' < x.
Proof.
  intros strict p temp x m reg c D G.
  destruct (parse_denotes _ _ _ reg D) as (pq & Ep & P).
  destruct (get_class_any strict p temp m reg c pq G Ep) as (_ & _ & (q & E & _ & L) & S).
  rewrite (parsed_base_mag _ _ _ _ P) in *. split.
  - exists q. split; [exact E|]. revert L; rnum. destruct (Rleb_spec x (q_mag q)); intros; try discriminate; lra.
  - intros c' n n' I' N N' Lt. destruct (S c' n n' I' N N' Lt) as (q' & E' & _ & L').
    exists q'. split; [exact E'|]. revert L'; rnum. destruct (Rleb_spec x (q_mag q')); intros; try discriminate; lra.
Qed.
Print Assumptions C38_smallest_sufficient_class_exact.

(** C39: false of the code: 300 bar at 350 degC on 316L is below the highest rating of
    the largest class, but above its rating at 350 degC: IndexError. *)
Theorem C39_outcomes :
  forall (strict : bool) (p temp : pyin R) (material : string) (f : frame) (reg : nat) (x T : R),
    In material available_materials -> rated_by TUBE_MATERIALS flange_file material f ->
    denotes p d_pressure x -> denotes temp d_temperature T -> 0 <= x -> 0 <= T ->
    (exists q, get_max_pressure strict "2500" temp (NStr material) = Ok q /\
       ((x <= q_mag q /\ exists c, get_class strict p temp (NStr material) reg = Ok c)
        \/ (q_mag q < x /\
            (exists row P, In row (f_rows f) /\ tabulated f row "2500" P
                           /\ x <= Q2R P * 100000)
            /\ get_class strict p temp (NStr material) reg = Err IndexError)
        \/ ((forall row P, In row (f_rows f) -> tabulated f row "2500" P ->
                           Q2R P * 100000 < x)
            /\ is_value_error (get_class strict p temp (NStr material) reg))))
    \/ (is_value_error (get_max_pressure strict "2500" temp (NStr material))
        /\ is_value_error (get_class strict p temp (NStr material) reg)).
Proof. exact get_class_outcome. Qed.
Print Assumptions C39_outcomes.
Theorem C39_negative_rejected :
  forall (strict : bool) (p temp : pyin R) (material : string) (f : frame) (reg : nat) (x T : R),
    In material available_materials -> rated_by TUBE_MATERIALS flange_file material f ->
    denotes p d_pressure x -> denotes temp d_temperature T -> x < 0 \/ T < 0 ->
    is_value_error (get_class strict p temp (NStr material) reg).
Proof. exact get_class_negative. Qed.
Print Assumptions C39_negative_rejected.
Lemma at_row strict material f cls temp n T1 P1 T2 P2 :
  In material available_materials -> rated_by TUBE_MATERIALS flange_file material f ->
  In cls (pressure_classes f) -> (S n < length (f_rows f))%nat ->
  tabulated f (nth n (f_rows f) []) "Temperature" T1 ->
  tabulated f (nth n (f_rows f) []) cls P1 ->
  tabulated f (nth (S n) (f_rows f) []) "Temperature" T2 ->
  tabulated f (nth (S n) (f_rows f) []) cls P2 ->
  denotes temp d_temperature (celsius (Q2R T1)) -> Q2R T1 <= Q2R T2 ->
  exists q, get_max_pressure strict cls temp (NStr material) = Ok q
            /\ q_mag q = Q2R P1 * 100000.
Proof.
  intros I Rb Ic L A1 A2 A3 A4 D B.
  destruct (max_pressure_line strict _ _ cls temp (Q2R T1) _ _ _ _ _ _ I Rb Ic
              (consecutive_nth _ n [] L) A1 A2 A3 A4 D ltac:(lra)) as (q & E & (_ & M & _)).
  exists q. split; [exact E|]. rewrite M. unfold line; cbn [fst snd]. unfold Rdiv. ring.
Qed.
Ltac tab := eexists; split; [vm_compute; reflexivity|vm_compute; reflexivity].
Ltac mem := apply str_mem_In; vm_compute; reflexivity.
Ltac den := eapply denotes_pair; [reflexivity|reflexivity|];
  unfold worth, celsius; cbn; rnum; rewrite ?one_R; q2r; lra.

Theorem C39_refuted :
  exists (p temp : pyin R), denotes p d_pressure 30000000
    /\ denotes temp d_temperature (celsius 350)
    /\ forall strict, get_class strict p temp (NStr "316L") 0 = Err IndexError.
Proof.
  exists (PSeq [ENum 300; EStr "bar"]), (PSeq [ENum 350; EStr "degC"]).
  assert (Dp : denotes (PSeq [ENum 300; EStr "bar"]) d_pressure 30000000) by den.
  assert (Dt : denotes (PSeq [ENum 350; EStr "degC"]) d_temperature (celsius 350)) by den.
  split; [exact Dp|]. split; [exact Dt|]. intros strict.
  destruct (at_row strict "316L" f23 "2500" (PSeq [ENum 350; EStr "degC"]) 9 350 208.9 375 206.3)
    as (q & Eq & Mq); try exact in_316L; try exact rated_316L; try tab; try mem.
  { vm_compute; lia. }
  { den. }
  { q2r; lra. }
  destruct (get_class_outcome strict _ _ "316L" f23 0 _ _ in_316L rated_316L Dp Dt
              ltac:(lra) ltac:(unfold celsius; lra)) as [(q' & Eq' & O)|[O _]].
  - rewrite Eq in Eq'; injection Eq' as <-.
    assert (M : q_mag q = 20890000) by (rewrite Mq; q2r; lra).
    destruct O as [[O _]|[(_ & _ & O)|[O _]]].
    + exfalso; lra.
    + exact O.
    + exfalso. specialize (O (nth 0 (f_rows f23) []) 344.7%Q).
      assert (Q2R 344.7 * 100000 < 30000000) as W.
      { apply O; [|tab]. vm_compute. now left. }
      revert W. q2r. lra.
  - destruct O as (msg & O). rewrite Eq in O. discriminate.
Qed.
Print Assumptions C39_refuted.
(** A case where a class is found: 30 bar at 350 degC on 316L. *)
Example C38_case : forall strict, exists c,
  get_class strict (PSeq [ENum 30; EStr "bar"]) (PSeq [ENum 350; EStr "degC"])
            (NStr "316L") 0 = Ok c.
Proof.
  intros strict.
  assert (Dp : denotes (PSeq [ENum 30; EStr "bar"]) d_pressure 3000000) by den.
  assert (Dt : denotes (PSeq [ENum 350; EStr "degC"]) d_temperature (celsius 350)) by den.
  destruct (at_row strict "316L" f23 "2500" (PSeq [ENum 350; EStr "degC"]) 9 350 208.9 375 206.3)
    as (q & Eq & Mq); try exact in_316L; try exact rated_316L; try tab; try mem.
  { vm_compute; lia. }
  { den. }
  { q2r; lra. }
  destruct (get_class_outcome strict _ _ "316L" f23 0 _ _ in_316L rated_316L Dp Dt
              ltac:(lra) ltac:(unfold celsius; lra)) as [(q' & Eq' & O)|[O _]].
  - rewrite Eq in Eq'; injection Eq' as <-.
    assert (M : q_mag q = 20890000) by (rewrite Mq; q2r; lra).
    destruct O as [[_ O]|[(O & _)|[O _]]]; [exact O|exfalso; lra|].
    exfalso. specialize (O (nth 0 (f_rows f23) []) 344.7%Q).
    assert (Q2R 344.7 * 100000 < 3000000) as W.
    { apply O; [|tab]. vm_compute. now left. }
    revert W. q2r. lra.
  - destruct O as (msg & O). rewrite Eq in O. discriminate.
Qed.

(** C40, partial: proved when some positive tabulated rating of the class is at most the
    pressure and the pressure is below the highest rating; missing (and false, see the
    refutations) are the pressures below every positive rating of a class that has
    blank cells, and the highest rating itself (C41). *)
Theorem C40_safe_partial :
  forall (strict : bool) (material : string) (f : frame) (cls : string) (p : pyin R) (x : R)
         (row1 row2 : list string) (P1 P2 : Q),
    In material available_materials -> rated_by TUBE_MATERIALS flange_file material f ->
    In cls (pressure_classes f) -> denotes p d_pressure x ->
    In row1 (f_rows f) -> tabulated f row1 cls P1 -> 0 < Q2R P1 * 100000 <= x ->
    In row2 (f_rows f) -> tabulated f row2 cls P2 -> x < Q2R P2 * 100000 ->
    exists q T, get_max_temperature false cls p (NStr material) = Ok q
      /\ is_in q T "K" (out_reg p)
      /\ forall temp, denotes temp d_temperature T ->
         exists q', get_max_pressure strict cls temp (NStr material) = Ok q' /\ x <= q_mag q'.
Proof.
  intros strict m f c p x row1 row2 P1 P2 I Rb Ic D I1 T1 X1 I2 T2 X2.
  exact (max_temp_safe strict m f c p x row1 P1 row2 P2 I Rb Ic D I1 T1 X1 I2 T2 X2).
Qed.
Print Assumptions C40_safe_partial.
(** Up to the second highest rating the temperature is the exact limit: the rating
    there equals the pressure, and any higher temperature has a lower rating. *)
Theorem C40_exact_partial :
  forall (strict : bool) (material : string) (f : frame) (cls : string) (p : pyin R) (x : R)
         (row1 row2 row3 : list string) (P1 P2 P3 : Q),
    In material available_materials -> rated_by TUBE_MATERIALS flange_file material f ->
    In cls (pressure_classes f) -> denotes p d_pressure x ->
    In row1 (f_rows f) -> tabulated f row1 cls P1 -> 0 < Q2R P1 * 100000 <= x ->
    In row2 (f_rows f) -> tabulated f row2 cls P2 -> x < Q2R P2 * 100000 ->
    In row3 (f_rows f) -> tabulated f row3 cls P3 -> Q2R P2 < Q2R P3 ->
    exists q T, get_max_temperature false cls p (NStr material) = Ok q
      /\ is_in q T "K" (out_reg p)
      /\ forall temp, denotes temp d_temperature T ->
         exists q', get_max_pressure strict cls temp (NStr material) = Ok q' /\ q_mag q' = x
         /\ forall temp2 T2 q2, denotes temp2 d_temperature T2 -> T < T2 ->
            get_max_pressure strict cls temp2 (NStr material) = Ok q2 -> q_mag q2 < x.
Proof.
  intros strict m f c p x row1 row2 row3 P1 P2 P3 I Rb Ic D I1 T1 X1 I2 T2 X2 I3 T3 X3.
  exact (max_temp_exact strict m f c p x row1 P1 row2 P2 row3 P3 I Rb Ic D I1 T1 X1 I2 T2 X2 I3 T3 X3).
Qed.
Print Assumptions C40_exact_partial.
(** 30 bar on 304, class 300. *)
Example C40_case :
  denotes (PSeq [ENum 30; EStr "bar"]) d_pressure 3000000
  /\ exists row1 row2 row3,
     In row1 (f_rows f21) /\ tabulated f21 row1 "300" 29.6 /\ 0 < Q2R 29.6 * 100000 <= 3000000
     /\ In row2 (f_rows f21) /\ tabulated f21 row2 "300" 30.2 /\ 3000000 < Q2R 30.2 * 100000
     /\ In row3 (f_rows f21) /\ tabulated f21 row3 "300" 49.6 /\ Q2R 30.2 < Q2R 49.6.
Proof.
  split; [den|].
  exists (nth 9 (f_rows f21) []), (nth 8 (f_rows f21) []), (nth 0 (f_rows f21) []).
  assert (N : forall n, (n < length (f_rows f21))%nat -> In (nth n (f_rows f21) []) (f_rows f21))
    by (intros; apply nth_In; assumption).
  split; [apply N; vm_compute; lia|]. split; [tab|]. split; [q2r; lra|].
  split; [apply N; vm_compute; lia|]. split; [tab|]. split; [q2r; lra|].
  split; [apply N; vm_compute; lia|]. split; [tab|]. q2r; lra.
Qed.
Theorem C40_out_of_range :
  forall (strict : bool) (material : string) (f : frame) (cls : string) (p : pyin R) (x : R),
    In material available_materials -> rated_by TUBE_MATERIALS flange_file material f ->
    In cls (pressure_classes f) -> denotes p d_pressure x ->
    (forall row P, In row (f_rows f) -> tabulated f row cls P -> x < Q2R P * 100000)
    \/ (forall row P, In row (f_rows f) -> tabulated f row cls P -> Q2R P * 100000 < x) ->
    is_value_error (get_max_temperature strict cls p (NStr material)).
Proof. exact max_temp_out. Qed.
Print Assumptions C40_out_of_range.
(** With a scipy that rejects repeated abscissae get_max_temperature never returns: the
    ratings at -29 and 38 degC are equal in every class of every file. *)
Theorem C40_never_returns_on_new_scipy :
  forall (material : string) (f : frame) (cls : string) (p : pyin R) (x : R),
    In material available_materials -> rated_by TUBE_MATERIALS flange_file material f ->
    In cls (pressure_classes f) -> denotes p d_pressure x ->
    is_value_error (get_max_temperature true cls p (NStr material)).
Proof. exact max_temp_strict. Qed.
Print Assumptions C40_never_returns_on_new_scipy.
(** C40 is false of the code: the blank cells of class 150 above 538 degC are read as
    rating 0, and for 0.7 bar the function returns 677 degC, where the rating is 0. *)
Definition tab21 : flange_table := mkFlange (f_cols f21) (map (map num_or_zero) (f_rows f21)).
Definition sorted21 : list (Q * Q) := Eval vm_compute in sortedQ tab21 "150".
Lemma sorted21_eq : sortedQ tab21 "150" = sorted21.
Proof. vm_compute. reflexivity. Qed.

Local Opaque TUBE_MATERIALS flange_file f21 tab21 sortedQ topQ read_csv
  available_materials grades group_of check_material.
Lemma rates21 : rates "304" f21 tab21.
Proof.
  destruct (rates_of "304" f21 in_304 rated_304) as (tab & H).
  enough (E : tab = tab21) by (rewrite E in H; exact H).
  Local Transparent tab21. unfold tab21. Local Opaque tab21.
  rewrite <- (ra_cols _ _ _ H), <- (ra_rows _ _ _ H). now destruct tab.
Qed.

Theorem C40_refuted :
  exists (p temp : pyin R) (T : R) (q : quantity R),
    denotes p d_pressure 70000
    /\ get_max_temperature false "150" p (NStr "304") = Ok q /\ is_in q T "K" 0
    /\ denotes temp d_temperature T
    /\ forall strict, exists q', get_max_pressure strict "150" temp (NStr "304") = Ok q'
                                 /\ q_mag q' = 0.
Proof.
  assert (Dp : denotes (PSeq [ENum 0.7; EStr "bar"]) d_pressure 70000).
  { den. }
  pose proof rates21 as H.
  assert (Ic : In "150"%string class_names) by now left.
  pose proof (rates_temp _ _ _ _ H Ic) as To.
  pose proof (max_temp_closed false "150" _ _ _ _ _ H Ic To Dp) as Cl.
  assert (L1 : lowP tab21 "150" = 0) by (unfold lowP; rewrite sorted21_eq; cbn; q2r; lra).
  assert (L2 : topP tab21 "150" = 1900000).
  { unfold topP. replace (topQ tab21 "150") with (19#1)%Q by (vm_compute; reflexivity). q2r; lra. }
  rewrite L1, L2 in Cl. rewrite !Rltb_false in Cl by lra. cbn [orb] in Cl.
  destruct (max_temp_interval tab21 "150" 70000 To ltac:(lra) ltac:(lra))
    as (w & rest & u & v & Es & C & B & Esp).
  rewrite Es, Esp in Cl.
  assert (Euv : line u v 70000 = celsius 677).
  { rewrite sorted21_eq in C. apply consecutive_map_inv in C as (u' & v' & C & -> & ->).
    apply pairs_consecutive in C. revert B.
    assert (K : forallb (fun uv => (Qltb 0.7 (fst (fst uv)) || Qle_bool (fst (snd uv)) 0.7
         || (Qeq_bool (fst (fst uv)) 0 && Qeq_bool (snd (fst uv)) 816
             && Qeq_bool (fst (snd uv)) 1.4 && Qeq_bool (snd (snd uv)) 538))%bool)
         (pairs sorted21) = true) by (vm_compute; reflexivity).
    rewrite forallb_forall in K. specialize (K _ C). cbn [fst snd] in K.
    apply orb_true_iff in K as [K|K]; [apply orb_true_iff in K as [K|K]|].
    - apply NumQ.Qltb_lt in K. cbn [ptK fst]. intros B; exfalso. revert K B. q2r. lra.
    - apply NumQ.Qle_bool_le in K. cbn [ptK fst]. intros B; exfalso. revert K B. q2r. lra.
    - apply andb_true_iff in K as [K K4]. apply andb_true_iff in K as [K K3].
      apply andb_true_iff in K as [K1 K2]. apply Qeq_R in K1, K2, K3, K4. intros _.
      unfold line, ptK, celsius; cbn [fst snd]. rewrite K1, K2, K3, K4. q2r. lra. }
  rewrite Euv in Cl.
  destruct (quant_is_in (out_reg (A:=R) (PSeq [ENum 0.7; EStr "bar"])) (celsius 677) "K" K_known)
    as (q & Eq & Iq).
  exists (PSeq [ENum 0.7; EStr "bar"]), (PSeq [ENum 677; EStr "degC"]), (celsius 677), q.
  split; [exact Dp|]. split; [rewrite Cl; exact Eq|]. split; [exact Iq|].
  assert (Dt : denotes (PSeq [ENum 677; EStr "degC"]) d_temperature (celsius 677)) by den.
  split; [exact Dt|]. intros strict.
  destruct (max_pressure_line strict "304" f21 "150" (PSeq [ENum 677; EStr "degC"]) 677 (nth 22 (f_rows f21) [])
              (nth 23 (f_rows f21) []) 675 0 700 0 in_304 rated_304) as (q' & Eq' & (_ & M & _)).
  - mem.
  - apply consecutive_nth; vm_compute; lia.
  - tab.
  - tab.
  - tab.
  - tab.
  - exact Dt.
  - q2r; lra.
  - exists q'. split; [exact Eq'|]. rewrite M. unfold line; cbn [fst snd]. q2r. lra.
Qed.
Print Assumptions C40_refuted.

(** C41 is false of the code for every material and class: at the highest rating an
    older scipy gives 0 K (where get_max_pressure raises), a newer one ValueError. *)
Theorem C41_refuted :
  forall (strict : bool) (material : string) (f : frame) (cls : string) (p : pyin R)
         (row : list string) (P : Q),
    In material available_materials -> rated_by TUBE_MATERIALS flange_file material f ->
    In cls (pressure_classes f) -> In row (f_rows f) -> tabulated f row cls P ->
    (forall row' P', In row' (f_rows f) -> tabulated f row' cls P' -> Q2R P' <= Q2R P) ->
    denotes p d_pressure (Q2R P * 100000) ->
    if strict then is_value_error (get_max_temperature strict cls p (NStr material))
    else exists q, get_max_temperature strict cls p (NStr material) = Ok q
                   /\ is_in q 0 "K" (out_reg p)
                   /\ forall temp, denotes temp d_temperature 0 ->
                      is_value_error (get_max_pressure strict cls temp (NStr material)).
Proof.
  intros strict m f c p row P I Rb Ic Ir Tp Mx D.
  pose proof (max_temp_top strict m f c p row P I Rb Ic Ir Tp Mx D) as X.
  destruct strict; [exact X|]. destruct X as (q & E & Iq). exists q. split; [exact E|].
  split; [exact Iq|]. intros temp Dt.
  replace 0 with (celsius (-27315/100)) in Dt by (unfold celsius; lra).
  apply (max_pressure_out false m f c temp _ I Rb Ic Dt). left.
  intros row' T' I' Tt'.
  destruct (rates_of m f I Rb) as (tab & H).
  assert (Ic' : In c class_names) by (now rewrite (rates_classes _ _ _ H) in Ic).
  pose proof (warm m f tab c row' T' H Ic' I' Tt'). lra.
Qed.
Print Assumptions C41_refuted.
Example C41_case :
  tabulated f21 (nth 0 (f_rows f21) []) "300" 49.6
  /\ (forall row P, In row (f_rows f21) -> tabulated f21 row "300" P -> Q2R P <= Q2R 49.6)
  /\ denotes (PSeq [ENum 49.6; EStr "bar"]) d_pressure (Q2R 49.6 * 100000).
Proof.
  split; [tab|]. split.
  - intros row P I (s & Es & ->).
    assert (K : forallb (fun row => match cell (f_cols f21) row "300" with
       | Some s => Qle_bool (match parse_number s with Some n => n | None => 0%Q end) 49.6
       | None => true end) (f_rows f21) = true) by (vm_compute; reflexivity).
    rewrite forallb_forall in K. specialize (K row I). rewrite Es in K.
    now apply NumQ.Qle_bool_le.
  - den.
Qed.

(** C42: false of the code for one string, "Temperature", which passes the class check;
    every other string that is not a class raises ValueError. *)
Theorem C42_refuted :
  forall (strict : bool) (material : string) (f : frame) (temp p : pyin R) (T x : R),
    In material available_materials -> rated_by TUBE_MATERIALS flange_file material f ->
    denotes temp d_temperature T -> denotes p d_pressure x ->
    ~ In "Temperature"%string (pressure_classes f)
    /\ (is_value_error (get_max_pressure strict "Temperature" temp (NStr material))
        \/ is_key_error (get_max_pressure strict "Temperature" temp (NStr material)))
    /\ get_max_temperature strict "Temperature" p (NStr material) = Err DimensionalityError.
Proof.
  intros strict m f temp p T x I Rb Dt Dp. split.
  - destruct (rates_of m f I Rb) as (tab & H). rewrite (rates_classes _ _ _ H).
    intros W; unfold class_names in W; repeat (destruct W as [W|W]; [discriminate|]); exact W.
  - exact (class_temperature strict m f temp T p x I Rb Dt Dp).
Qed.
Print Assumptions C42_refuted.
Theorem C42_unknown_class_rejected :
  forall (strict : bool) (material : string) (f : frame) (cls : string) (i : pyin R),
    In material available_materials -> rated_by TUBE_MATERIALS flange_file material f ->
    ~ In cls (pressure_classes f) -> cls <> "Temperature"%string ->
    is_value_error (get_max_pressure strict cls i (NStr material))
    /\ is_value_error (get_max_temperature strict cls i (NStr material)).
Proof.
  intros strict m f c i I Rb N1 N2. apply (class_rejected strict m f c i I Rb).
  intros W. destruct (rates_of m f I Rb) as (tab & H).
  rewrite <- (ra_cols _ _ _ H), (fo_cols _ (ra_ok _ _ _ H)) in W.
  destruct W as [W|W]; [now apply N2|]. apply N1. now rewrite (rates_classes _ _ _ H).
Qed.
Print Assumptions C42_unknown_class_rejected.
Example C42_case : ~ In "120"%string (pressure_classes f21) /\ "120"%string <> "Temperature"%string.
Proof.
  split; [|discriminate]. intros W; vm_compute in W.
  repeat (destruct W as [W|W]; [discriminate|]); exact W.
Qed.
