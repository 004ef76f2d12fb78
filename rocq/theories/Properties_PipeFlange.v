(** * Properties_PipeFlange: C139 (a flange for every rated pipe), C140 (the largest of
    several flange classes). *)
From Coq Require Import String Ascii ZArith QArith Reals Qreals List Bool Lra Lia.
From Verif Require Import PyBase Pint UnitsM Spec QLemmas Csv TableSpec Tables Interp
  TubeM TubeP StressP PipeP DesignP NumQ InterpP FlangeM FlangeP FlangeT PipeFlangeP
  TextOrderSpec Properties_Flange Properties_Design.
Import ListNotations.
Local Open Scope R_scope.
Local Opaque PIPE_SCHEDULES TUBE_MATERIALS flange_file FLANGE_LIMITS MATERIAL_LIMITS
  get_dimensions calculate_max_stress calculate_max_pressure get_max_pressure get_class pipe_limit.

(** C139.  [pipe_limit] (DesignP.v) is get_dimensions, calculate_max_stress and
    calculate_max_pressure in sequence.  Proved from a safety factor of 4 up to 550 degC and
    from 24 on in the whole flange table; missing: smaller factors, such as the default 1
    (refuted below). *)
Theorem C139_flange_for_rated_pipe_partial :
  forall (strict : bool) (size schedule material : string) (f : frame) (temp : pyin R) (t sf : R)
         (welded : bool) (reg : nat) (row1 row2 : list string) (T1 T2 : Q),
    (exists w, entry PIPE_SCHEDULES size schedule w
               /\ schedule <> "Size"%string /\ schedule <> "OD"%string) ->
    (size, schedule) <> ("28"%string, "10"%string) ->
    In material available_materials -> rated_by TUBE_MATERIALS flange_file material f ->
    In row1 (f_rows f) -> tabulated f row1 "Temperature" T1 ->
    In row2 (f_rows f) -> tabulated f row2 "Temperature" T2 -> Q2R T1 <= t <= Q2R T2 ->
    denotes temp d_temperature (celsius t) ->
    (4 <= sf /\ t <= 550) \/ 24 <= sf ->
    exists limit x cls q,
      pipe_limit size schedule temp material welded sf reg = Ok limit
      /\ stands_for limit d_pressure x reg /\ 0 <= x
      /\ get_class strict (PQuant limit) temp (NStr material) reg = Ok cls
      /\ get_max_pressure strict cls temp (NStr material) = Ok q /\ x <= q_mag q.
Proof.
  intros strict size schedule m f temp t sf w reg row1 row2 T1 T2 O N I Rb I1 A1 I2 A2 B D S.
  exact (pipe_flange strict size schedule m f temp t sf w reg row1 row2 T1 T2
           O N I Rb I1 A1 I2 A2 B D S).
Qed.
Print Assumptions C139_flange_for_rated_pipe_partial.

Local Transparent PIPE_SCHEDULES.
Lemma entry_half : entry PIPE_SCHEDULES "1/2" "XXH" (294#1000)
                   /\ entry PIPE_SCHEDULES "1/2" "OD" (84#100).
Proof.
  split; exists (match row_of PIPE_SCHEDULES "1/2" with Some r => r | None => [] end);
    vm_compute; repeat split; auto 20.
Qed.
Lemma top_21 row P : In row (f_rows f21) -> tabulated f21 row "2500" P -> Q2R P <= 414.
Proof.
  assert (H : forallb (fun row => match cell (f_cols f21) row "2500" with
      | Some s => Qle_bool (num_or_zero s) 414 | None => true end) (f_rows f21) = true)
    by (vm_compute; reflexivity).
  rewrite forallb_forall in H. intros I (s & E & ->). specialize (H row I). rewrite E in H.
  apply Qle_bool_le in H. replace (Q2R 414) with 414 in H by (q2r; lra). exact H.
Qed.
Local Opaque PIPE_SCHEDULES.

(** 1/2 in XXH pipe of 304 at 38 degC with the default safety factor: 1395 bar, where
    class 2500 ends at 413.7 bar. *)
Theorem C139_default_factor_refuted :
  forall (strict : bool) (reg : nat), exists limit,
    pipe_limit "1/2" "XXH" (PSeq [ENum 38; EStr "degC"]) "304" false 1 reg = Ok limit
    /\ is_value_error (get_class strict (PQuant limit) (PSeq [ENum 38; EStr "degC"])
                         (NStr "304") reg).
Proof.
  intros strict reg.
  assert (Dc : denotes (PSeq [ENum 38; EStr "degC"]) d_temperature (celsius 38)) by den.
  assert (D : denotes (PSeq [ENum 38; EStr "degC"]) d_temperature (fahrenheit 100.4)).
  { replace (fahrenheit 100.4) with (celsius 38) by (unfold fahrenheit, celsius; lra). exact Dc. }
  assert (O : offered_pipe "1/2" "XXH").
  { exists (294#1000)%Q. split; [exact (proj1 entry_half)|]. split; discriminate. }
  destruct (pipe_limit_closed "1/2" "XXH" _ 100.4 "304" false 1 reg O in_304 D ltac:(lra)) as
    (dims & od & wall & stress & S & _ & Eo & Ew & Pw & Po & _ & Es & Is & Ps & St & R).
  rewrite (entry_fun _ _ _ _ Eo (proj2 entry_half)), (entry_fun _ _ _ _ Ew (proj1 entry_half)) in R.
  replace (Q2R (84#100)) with 0.84 in R by (q2r; lra).
  replace (Q2R (294#1000)) with 0.294 in R by (q2r; lra).
  destruct R as (limit & El & Sl); [lra|].
  exists limit. split; [exact El|].
  destruct (max_stress_line "304" false (PSeq [ENum 38; EStr "degC"]) 100.4 reg
              (nth 1 (f_rows (MATERIAL_LIMITS false)) []) (nth 2 (f_rows (MATERIAL_LIMITS false)) [])
              (100#1) (188#10) (200#1) (157#10)) as (s & Es1 & (_ & M & _));
    [exact in_304 | | vm_compute; reflexivity | vm_compute; reflexivity | vm_compute; reflexivity
     | vm_compute; reflexivity | exact D | | ].
  { exists (firstn 1 (f_rows (MATERIAL_LIMITS false))), (skipn 3 (f_rows (MATERIAL_LIMITS false))).
    vm_compute. reflexivity. }
  { q2r; lra. }
  rewrite Es in Es1. injection Es1 as <-.
  assert (M1 : 18 <= q_mag stress) by (rewrite M; unfold line; cbn [fst snd]; q2r; lra).
  assert (S1 : 120000000 <= S).
  { destruct St as (_ & _ & _ & <- & _). destruct Is as (L & _ & _). cbn in L. injection L as L.
    rewrite <- L. cbn. apply Rle_trans with (18 * 6894000); [lra|].
    apply Rmult_le_compat; [lra|lra|exact M1|].
    rnum; unfold s_psi, s_inch; rnum; q2r. lra. }
  set (x := S * (2 * 0.294) / (1 * (0.84 - 0.294))) in *.
  assert (X : 120000000 <= x).
  { unfold x. apply Rmult_le_reg_r with (1 * (0.84 - 0.294)); [lra|].
    replace (S * (2 * 0.294) / (1 * (0.84 - 0.294)) * (1 * (0.84 - 0.294))) with (S * (2 * 0.294))
      by (field; lra). lra. }
  destruct (get_class_outcome strict (PQuant limit) _ "304" f21 reg x (celsius 38) in_304 rated_304
              (stands_denotes _ _ _ _ Sl) Dc ltac:(lra) ltac:(unfold celsius; lra))
    as [(q & Eq & [(Lq & _)|[(_ & (row & P & Ir & Tp & Lx) & _)|(_ & E)]])|(_ & E)]; try exact E.
  - exfalso.
    destruct (at_row strict "304" f21 "2500" (PSeq [ENum 38; EStr "degC"]) 1 38 413.7 50 398.5)
      as (q' & Eq' & Mq); try exact in_304; try exact rated_304; try tab; try mem.
    { vm_compute; lia. }
    { den. }
    { q2r; lra. }
    rewrite Eq in Eq'. injection Eq' as <-. revert Mq. q2r. intros Mq. lra.
  - exfalso. pose proof (top_21 row P Ir Tp). lra.
Qed.
Print Assumptions C139_default_factor_refuted.
(** The hypotheses are met by 6 in schedule 40 pipe of 316L at 200 degC, safety factor 4. *)
Local Transparent PIPE_SCHEDULES TUBE_MATERIALS flange_file.
Example C139_case :
  entry PIPE_SCHEDULES "6" "40" (28#100) /\ ("6"%string, "40"%string) <> ("28"%string, "10"%string)
  /\ In "316L"%string available_materials /\ rated_by TUBE_MATERIALS flange_file "316L" f23
  /\ (exists row1 row2, In row1 (f_rows f23) /\ tabulated f23 row1 "Temperature" (-29)
        /\ In row2 (f_rows f23) /\ tabulated f23 row2 "Temperature" 450)
  /\ Q2R (-29) <= 200 <= Q2R 450
  /\ denotes (PSeq [ENum 200; EStr "degC"]) d_temperature (celsius 200) /\ 4 <= 4 /\ 200 <= 550.
Proof.
  split; [exists (nth 15 (f_rows PIPE_SCHEDULES) []); vm_compute; repeat split; auto 20|].
  split; [discriminate|]. split; [exact in_316L|]. split; [exact rated_316L|]. split.
  { exists (nth 0 (f_rows f23) []), (nth 13 (f_rows f23) []).
    split; [vm_compute; auto 20|]. split; [tab|]. split; [vm_compute; auto 20|]. tab. }
  split; [q2r; lra|]. split; [den|]. lra.
Qed.
Local Opaque PIPE_SCHEDULES TUBE_MATERIALS flange_file.

(** C140: the example of the documentation takes [max] of a column of classes, that is of
    strings.  Proved unless a four-digit class occurs together with 300 ... 900; missing
    (and false, below): those mixtures. *)
Definition four_digits (c : string) : Prop := c = "1500"%string \/ c = "2500"%string.
Lemma before_dec s : forall t, text_before s t \/ ~ text_before s t.
Proof.
  induction s as [|c s IH]; intros [|d t].
  - right. intros H; inversion H.
  - left. constructor.
  - right. intros H; inversion H.
  - destruct (Nat.lt_trichotomy (nat_of_ascii c) (nat_of_ascii d)) as [L|[E|L]].
    + left. now apply before_char.
    + assert (c = d) as ->.
      { rewrite <- (ascii_nat_embedding c), <- (ascii_nat_embedding d), E. reflexivity. }
      destruct (IH t) as [H|H]; [left; now apply before_rest|].
      right. intros X; inversion X; subst; [lia|contradiction].
    + right. intros X; inversion X; subst; lia.
Qed.
Ltac beforetac := first
  [ apply before_end
  | apply before_rest; beforetac
  | apply before_char; vm_compute; lia ].

Lemma class_order c m : In c class_names -> In m class_names -> ~ text_before m c ->
  (four_digits c -> m <> "150"%string -> four_digits m) ->
  exists a b, parse_number c = Some a /\ parse_number m = Some b /\ (a <= b)%Q.
Proof.
  intros Ic Im N K. unfold class_names in Ic, Im.
  repeat (destruct Ic as [<-|Ic]); try destruct Ic;
  repeat (destruct Im as [<-|Im]); try destruct Im;
  first [ (do 2 eexists; split; [reflexivity|]; split; [reflexivity|]; vm_compute; discriminate)
        | (exfalso; apply N; beforetac)
        | (exfalso; destruct K as [X|X]; [left; reflexivity | discriminate | discriminate X | discriminate X])
        | (exfalso; destruct K as [X|X]; [right; reflexivity | discriminate | discriminate X | discriminate X]) ].
Qed.
Lemma other_class strict m f tab c c' temp T q : rates m f tab -> In c class_names ->
  In c' class_names -> denotes temp d_temperature T ->
  get_max_pressure strict c temp (NStr m) = Ok q ->
  exists q', get_max_pressure strict c' temp (NStr m) = Ok q'.
Proof.
  intros H Ic Ic' D Eq.
  destruct (max_pressure_rates strict _ _ _ c _ _ H Ic D) as (p0 & l & E & _ & Em).
  destruct (max_pressure_rates strict _ _ _ c' _ _ H Ic' D) as (p0' & l' & E' & _ & Em').
  rewrite Eq in Em. pose proof (ra_ok _ _ _ H) as F.
  assert (Inc : increasing (p0 :: l)) by (rewrite <- E; now apply F).
  assert (Inc' : increasing (p0' :: l')) by (rewrite <- E'; now apply F).
  assert (Tc : map fst (p0 :: l) = map fst (p0' :: l')).
  { rewrite <- E, <- E'. apply curve_temps, F. }
  assert (F0 : fst p0 = fst p0') by now injection Tc.
  assert (F1 : fst (last (p0 :: l) p0) = fst (last (p0' :: l') p0')).
  { pose proof (list_max_inc (p0 :: l) p0 Inc ltac:(discriminate)) as A1.
    pose proof (list_max_inc (p0' :: l') p0' Inc' ltac:(discriminate)) as A2.
    rewrite Tc in A1. congruence. }
  rewrite F0, F1 in Em. destruct (_ || _)%bool; [discriminate|].
  rewrite Em', E'. destruct (np_interp_defined T p0' l') as (v & ->). cbn [bind].
  destruct (quant_is_in (out_reg temp) v "Pa" Pa_known) as (q' & -> & _). eauto.
Qed.
Lemma class_answer strict m reg p temp x c : denotes p d_pressure x ->
  get_class strict p temp (NStr m) reg = Ok c ->
  In c class_names
  /\ (exists q, get_max_pressure strict c temp (NStr m) = Ok q /\ x <= q_mag q)
  /\ forall smaller n n', In smaller class_names ->
       parse_number c = Some n -> parse_number smaller = Some n' -> (n' < n)%Q ->
       exists q', get_max_pressure strict smaller temp (NStr m) = Ok q' /\ q_mag q' < x.
Proof.
  intros D E. destruct (parse_denotes _ _ _ reg D) as (pq & Ep & P).
  split.
  - destruct (get_class_any strict p temp m reg c pq E Ep) as (_ & I & _). exact I.
  - exact (C38_smallest_sufficient_class_exact strict p temp x m reg c D E).
Qed.

Lemma class_listed strict m reg p temp c : get_class strict p temp (NStr m) reg = Ok c ->
  In c class_names.
Proof.
  intros E. destruct (parse_quant_input p reg) as [pq|e] eqn:Ep.
  - destruct (get_class_any strict p temp m reg c pq E Ep) as (_ & I & _). exact I.
  - exfalso. Local Transparent get_class. unfold get_class in E. Local Opaque get_class.
    rewrite Ep in E. discriminate.
Qed.

Theorem C140_largest_class_partial :
  forall (strict : bool) (material : string) (f : frame) (reg : nat)
         (uses : list (pyin R * pyin R)) (classes : list string) (largest : string),
    In material available_materials -> rated_by TUBE_MATERIALS flange_file material f ->
    Forall2 (fun use c => get_class strict (fst use) (snd use) (NStr material) reg = Ok c)
            uses classes ->
    text_max classes largest ->
    (forall c, In c classes -> ~ four_digits c)
    \/ (forall c, In c classes -> four_digits c \/ c = "150"%string) ->
    forall use x T, In use uses -> denotes (fst use) d_pressure x ->
      denotes (snd use) d_temperature T ->
      exists q, get_max_pressure strict largest (snd use) (NStr material) = Ok q /\ x <= q_mag q.
Proof.
  intros strict m f reg uses classes largest I Rb F (Il & Mx) K use x T Iu Dp Dt.
  destruct (rates_of m f I Rb) as (tab & H).
  assert (All : forall c, In c classes -> In c class_names).
  { clear - F. induction F as [|u c us cs E F IH]; [easy|]. intros d [<-|J]; [|now apply IH].
    exact (class_listed strict m reg _ _ c E). }
  assert (Own : exists c, In c classes /\ get_class strict (fst use) (snd use) (NStr m) reg = Ok c).
  { clear - F Iu. induction F as [|u c us cs E F IH]; [easy|]. destruct Iu as [<-|Iu].
    - exists c. split; [now left|exact E].
    - destruct (IH Iu) as (d & J & E'). exists d. split; [now right|exact E']. }
  destruct Own as (c & Ic & Ec).
  destruct (class_answer strict m reg _ _ x c Dp Ec) as (Jc & (q & Eq & Lq) & _).
  destruct (class_order c largest Jc (All _ Il) (Mx c Ic)) as (a & b & A & B & L).
  { intros F4 N15. destruct K as [K|K]; [now destruct (K c Ic)|].
    destruct (K largest Il) as [|]; [assumption|contradiction]. }
  destruct (other_class strict m f tab c largest _ T q H Jc (All _ Il) Dt Eq) as (q' & Eq').
  exists q'. split; [exact Eq'|].
  destruct (max_pressure_class strict m f c largest a b (snd use) T q q' I Rb) as (X & _); try assumption.
  - now rewrite (rates_classes _ _ _ H).
  - rewrite (rates_classes _ _ _ H). now apply All.
  - lra.
Qed.
Print Assumptions C140_largest_class_partial.

(** Every mixture of 300 ... 900 with a four-digit class gives a flange that is too weak. *)
Theorem C140_too_weak_refuted :
  forall (strict : bool) (material : string) (reg : nat)
         (uses : list (pyin R * pyin R)) (classes : list string) (largest : string),
    Forall2 (fun use c => get_class strict (fst use) (snd use) (NStr material) reg = Ok c)
            uses classes ->
    text_max classes largest ->
    (exists c, In c classes /\ four_digits c) ->
    (exists c, In c classes /\ ~ four_digits c /\ c <> "150"%string) ->
    (forall use, In use uses -> exists x, denotes (fst use) d_pressure x) ->
    exists use x q, In use uses /\ denotes (fst use) d_pressure x
      /\ get_max_pressure strict largest (snd use) (NStr material) = Ok q /\ q_mag q < x.
Proof.
  intros strict m reg uses classes largest F (Il & Mx) (c4 & I4 & F4) (c3 & I3 & F3 & N3) Den.
  assert (All : forall c, In c classes -> In c class_names).
  { clear - F. induction F as [|u c us cs E F IH]; [easy|]. intros d [<-|J]; [|now apply IH].
    exact (class_listed strict m reg _ _ c E). }
  assert (Own : exists use, In use uses /\ get_class strict (fst use) (snd use) (NStr m) reg = Ok c4).
  { clear - F I4. induction F as [|u c us cs E F IH]; [easy|]. destruct I4 as [<-|I4].
    - exists u. split; [now left|exact E].
    - destruct (IH I4) as (d & J & E'). exists d. split; [now right|exact E']. }
  destruct Own as (use & Iu & Eu). destruct (Den use Iu) as (x & Dx).
  destruct (class_answer strict m reg _ _ x c4 Dx Eu) as (J4 & _ & Sm).
  assert (W : exists n n', parse_number c4 = Some n /\ parse_number largest = Some n' /\ (n' < n)%Q).
  { pose proof (Mx c3 I3) as M3. pose proof (All _ Il) as Jl. pose proof (All _ I3) as J3.
    clear - F4 F3 N3 M3 Jl J3. unfold class_names in Jl, J3.
    repeat (destruct Jl as [<-|Jl]); try destruct Jl;
    try solve [destruct F4 as [-> | ->]; (do 2 eexists; split; [reflexivity|]; split; [reflexivity|]);
         reflexivity];
    exfalso; repeat (destruct J3 as [<-|J3]); try destruct J3;
    first [ (contradiction N3; reflexivity) | apply F3; left; reflexivity | apply F3; right; reflexivity
          | (apply M3; beforetac) ]. }
  destruct W as (n & n' & A & B & L).
  destruct (Sm largest n n' (All _ Il) A B L) as (q & Eq & Lq).
  exists use, x, q. auto.
Qed.
Print Assumptions C140_too_weak_refuted.
(** 304 at 38 degC: 20 bar needs class 300, 200 bar class 1500; the larger text is "300",
    which carries 49.6 bar. *)
Theorem C140_refuted :
  forall strict reg,
    let temp := PSeq [ENum 38; EStr "degC"] in
    get_class strict (PSeq [ENum 20; EStr "bar"]) temp (NStr "304") reg = Ok "300"%string
    /\ get_class strict (PSeq [ENum 200; EStr "bar"]) temp (NStr "304") reg = Ok "1500"%string
    /\ text_max ["300"; "1500"]%string "300"
    /\ exists q, get_max_pressure strict "300" temp (NStr "304") = Ok q /\ q_mag q = 4960000.
Proof.
  intros strict reg temp.
  assert (Dt : denotes temp d_temperature (celsius 38)) by (unfold temp; den).
  destruct (rates_of "304" f21 in_304 rated_304) as (tab & H).
  assert (V : forall cls P1 P2, In cls class_names ->
     tabulated f21 (nth 1 (f_rows f21) []) cls P1 -> tabulated f21 (nth 2 (f_rows f21) []) cls P2 ->
     exists q, get_max_pressure strict cls temp (NStr "304") = Ok q /\ q_mag q = Q2R P1 * 100000).
  { intros cls P1 P2 Ic A1 A2.
    assert (Jc : In cls (pressure_classes f21)) by now rewrite (rates_classes _ _ _ H).
    refine (at_row strict "304" f21 cls temp 1 38 P1 50 P2 in_304 rated_304 Jc _ _ A1 _ A2 _ _).
    - vm_compute; lia.
    - tab.
    - tab.
    - unfold temp; den.
    - q2r; lra. }
  assert (Fit : forall (p : pyin R) x, denotes p d_pressure x -> 0 <= x -> x <= 41370000 ->
      exists c, get_class strict p temp (NStr "304") reg = Ok c).
  { intros p x D P0 P1.
    destruct (V "2500"%string 413.7%Q 398.5%Q) as (q & Eq & Mq); [cbn; tauto|tab|tab|].
    assert (Mq' : q_mag q = 41370000) by (rewrite Mq; q2r; lra).
    destruct (get_class_outcome strict p temp "304" f21 reg x (celsius 38) in_304 rated_304
              D Dt P0 ltac:(unfold celsius; lra))
      as [(q' & Eq' & [(Lq & C)|[(Lq & _)|(Lq & _)]])|((e & Bad) & _)].
    - exact C.
    - rewrite Eq in Eq'. injection Eq' as <-. lra.
    - exfalso. specialize (Lq (nth 1 (f_rows f21) []) 413.7%Q).
      assert (W : Q2R 413.7 * 100000 < x) by (apply Lq; [vm_compute; auto 20|tab]).
      revert W. q2r. lra.
    - rewrite Eq in Bad. discriminate. }
  assert (Pick : forall (p : pyin R) x c low P Pl P2 Pl2 n nl, denotes p d_pressure x -> 0 <= x ->
      x <= 41370000 -> In c class_names -> In low class_names ->
      tabulated f21 (nth 1 (f_rows f21) []) c P -> tabulated f21 (nth 2 (f_rows f21) []) c P2 ->
      tabulated f21 (nth 1 (f_rows f21) []) low Pl -> tabulated f21 (nth 2 (f_rows f21) []) low Pl2 ->
      parse_number c = Some n -> parse_number low = Some nl ->
      (forall d nd, In d class_names -> parse_number d = Some nd -> (nd < n)%Q -> (nd <= nl)%Q) ->
      Q2R Pl * 100000 < x <= Q2R P * 100000 ->
      get_class strict p temp (NStr "304") reg = Ok c).
  { intros p x c low P Pl P2 Pl2 n nl D P0 P1 Ic Il A A2 B B2 En Enl Nx X.
    destruct (Fit p x D P0 P1) as (d & Ed). rewrite Ed. f_equal.
    destruct (class_answer strict "304" reg p temp x d D Ed) as (Jd & (q & Eq & Lq) & Sm).
    destruct (V c P P2 Ic A A2) as (qc & Eqc & Mqc).
    destruct (V low Pl Pl2 Il B B2) as (ql & Eql & Mql).
    destruct (largest_class d Jd) as (nd & End & _).
    destruct (Qlt_le_dec nd n) as [L|L].
    - exfalso. specialize (Nx d nd Jd End L).
      assert (Kd : In d (pressure_classes f21)) by now rewrite (rates_classes _ _ _ H).
      assert (Kl : In low (pressure_classes f21)) by now rewrite (rates_classes _ _ _ H).
      destruct (max_pressure_class strict "304" f21 d low nd nl temp (celsius 38) q ql in_304 rated_304
                  Kd Kl End Enl Nx Dt Eq Eql) as (Y & _).
      lra.
    - destruct (Qlt_le_dec n nd) as [L'|L'].
      + exfalso. destruct (Sm c nd n Ic End En L') as (q' & Eq' & Lq').
        rewrite Eqc in Eq'. injection Eq' as <-. lra.
      + assert (E : (nd == n)%Q) by now apply Qle_antisym.
        clear - Jd Ic End En E. unfold class_names in Jd, Ic.
        repeat (destruct Jd as [<-|Jd]); try destruct Jd;
        repeat (destruct Ic as [<-|Ic]); try destruct Ic; try reflexivity;
        exfalso; vm_compute in End, En; injection End as <-; injection En as <-;
        vm_compute in E; discriminate E. }
  assert (Nx : forall n nl, In (n, nl) [(300, 150); (1500, 900)]%Q ->
     forall d nd, In d class_names -> parse_number d = Some nd -> (nd < n)%Q -> (nd <= nl)%Q).
  { intros n nl J d nd Jd End L. unfold class_names in Jd.
    destruct J as [J|[J|[]]]; injection J as <- <-;
    repeat (destruct Jd as [<-|Jd]); try destruct Jd;
    vm_compute in End; injection End as <-; vm_compute in L |- *; try discriminate; try discriminate L. }
  split; [|split; [|split]].
  - refine (Pick _ 2000000 "300"%string "150"%string 49.6%Q 19%Q 47.8%Q 18.3%Q 300%Q 150%Q
              _ _ _ _ _ _ _ _ _ _ _ (Nx 300%Q 150%Q _) _);
      [den | lra | lra | cbn; tauto | cbn; tauto | tab | tab | tab | tab
       | reflexivity | reflexivity | cbn; tauto | q2r; lra].
  - refine (Pick _ 20000000 "1500"%string "900"%string 248.2%Q 148.9%Q 239.1%Q 143.5%Q 1500%Q 900%Q
              _ _ _ _ _ _ _ _ _ _ _ (Nx 1500%Q 900%Q _) _);
      [den | lra | lra | cbn; tauto | cbn; tauto | tab | tab | tab | tab
       | reflexivity | reflexivity | cbn; tauto | q2r; lra].
  - split; [now left|]. intros c [<-|[<-|[]]] X.
    + inversion X as [| |? ? ? Y]; subst; [lia|]. inversion Y as [| |? ? ? Z]; subst; [lia|].
      inversion Z as [| |? ? ? Z']; subst; [lia|]. inversion Z'.
    + inversion X as [|? ? ? ? Y|]; subst. vm_compute in Y. lia.
  - destruct (V "300"%string 49.6%Q 47.8%Q) as (q & Eq & Mq); [cbn; tauto|tab|tab|].
    exists q. split; [exact Eq|]. rewrite Mq. q2r. lra.
Qed.
Print Assumptions C140_refuted.

(** The hypotheses of [C140_largest_class_partial] and of [C140_too_weak_refuted] are met. *)
Example C140_case : forall (strict : bool) (reg : nat),
  let temp := PSeq [ENum 38; EStr "degC"] in
  let p := PSeq [ENum 20; EStr "bar"] in
  let p' := PSeq [ENum 200; EStr "bar"] in
  (exists q, get_max_pressure strict "300" temp (NStr "304") = Ok q /\ 2000000 <= q_mag q)
  /\ exists use x q, In use [(p, temp); (p', temp)] /\ denotes (fst use) d_pressure x
       /\ get_max_pressure strict "300" (snd use) (NStr "304") = Ok q /\ q_mag q < x.
Proof.
  intros strict reg temp p p'.
  destruct (C140_refuted strict reg) as (E1 & E2 & M & _).
  assert (Dp : denotes p d_pressure 2000000) by (unfold p; den).
  assert (Dp' : denotes p' d_pressure 20000000) by (unfold p'; den).
  assert (Dt : denotes temp d_temperature (celsius 38)) by (unfold temp; den).
  split.
  - refine (C140_largest_class_partial strict "304" f21 reg [(p, temp)] ["300"%string] "300"%string
              in_304 rated_304 _ _ _ (p, temp) _ _ (or_introl eq_refl) Dp Dt).
    + constructor; [exact E1|constructor].
    + split; [now left|]. intros c [<-|[]] X. destruct M as (_ & M). apply (M "300"%string); [now left|exact X].
    + left. intros c [<-|[]] [K|K]; discriminate K.
  - refine (C140_too_weak_refuted strict "304" reg [(p, temp); (p', temp)] ["300"; "1500"]%string "300"%string
              _ M _ _ _).
    + constructor; [exact E1|constructor; [exact E2|constructor]].
    + exists "1500"%string. split; [right; now left|now left].
    + exists "300"%string. split; [now left|]. split; [|discriminate]. intros [K|K]; discriminate K.
    + intros u [<-|[<-|[]]]; [exists 2000000|exists 20000000]; assumption.
Qed.
