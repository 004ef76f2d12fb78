(** * IeeePipeP: catalogue pipes rated in IEEE-754 doubles. *)
From Coq Require Import String ZArith QArith Reals Qreals Qabs List Bool Lra Lia Psatz Floats.SpecFloat.
From Flocq Require Import Core BinarySingleNaN.
From Verif Require Import PyBase Pint UnitsM Spec QLemmas Csv TableSpec Tables Interp InterpP
  NumQ TubeM TubeP StressP PipeP DesignP RoundM RoundSpec RoundTempSpec RoundP RoundDdtP RoundStressP RoundPipeSpec RoundPipeP
  IeeeM IeeeSpec IeeeP IeeeWindowP IeeeInterpP Properties_Ieee.
Import ListNotations.
Local Open Scope R_scope.

(** ** Doubles as rational numbers *)
Definition sfQ (x : b64) : option Q :=
  match B2SF x with
  | S754_zero _ => Some 0%Q
  | S754_finite false m (Z.neg k) => Some (Z.pos m # (2 ^ k)%positive)%Q
  | _ => None
  end.
Lemma sfQ_real x q : sfQ x = Some q -> is_finite x = true /\ real x = Q2R q.
Proof.
  unfold sfQ. intros H. destruct (B2SF x) as [s| | |s m e] eqn:E; try discriminate.
  - injection H as <-. split; [rewrite <- is_finite_SF_B2SF, E; reflexivity|].
    unfold real. rewrite <- (SF2R_B2SF 53 1024), E. cbn. q2r. lra.
  - destruct s; [discriminate|]. destruct e as [|p|p]; try discriminate. injection H as <-.
    split; [rewrite <- is_finite_SF_B2SF, E; reflexivity|].
    unfold real. rewrite <- (SF2R_B2SF 53 1024), E.
    cbn [SF2R cond_Zopp]. unfold F2R, Q2R. cbn [Fnum Fexp Qnum Qden bpow].
    rewrite Pos2Z.inj_pow. reflexivity.
Qed.

(** ** The cells of the schedule table *)
Definition small_lit (q : Q) : bool := ((Z.abs (Qnum q) <=? 2^20)%Z && (Zpos (Qden q) <=? 2^20)%Z)%bool.
Definition pipe_double_cell (od w : Q) : bool :=
  (Qle_bool od (2 * w)
   || small_lit od && small_lit w
      && match sfQ (@nofQ b64 Num_b64 od),
            sfQ (@nsub b64 Num_b64 (@nofQ b64 Num_b64 od)
                   (@nmul b64 Num_b64 (@nofQ b64 Num_b64 2) (@nofQ b64 Num_b64 w))) with
      | Some a, Some b =>
        Qle_bool (1#100) a && Qle_bool a 1000 && Qle_bool (1#100) b && Qle_bool b 1000
      | _, _ => false
      end)%bool.
Definition pipe_double_facts : bool :=
  forallb (fun row => forallb (fun c =>
    match num_cell (f_cols PIPE_SCHEDULES) row "OD", num_cell (f_cols PIPE_SCHEDULES) row c with
    | Some od, Some w => pipe_double_cell od w
    | _, _ => true
    end) schedule_columns) (f_rows PIPE_SCHEDULES).
Lemma pipe_double_facts_hold : pipe_double_facts = true.
Proof. vm_compute. reflexivity. Qed.

Notation NB := Num_b64.
Notation ND := (Num_rounded double).
Ltac step H := eapply rsim_bind; [exact H|].

(** Maximum pressure: lengths of ordinary size, a stress of any size the tables give. *)
Lemma max_pressure_sim10 a a' b b' c c' sf :
  qsim 10 32 a a' -> qsim 10 32 b b' -> qsim 694 32 c c' -> moderate 1e10 sf ->
  rsim (qplain 1000 1000) (@calculate_max_pressure b64 NB a b c sf)
                       (@calculate_max_pressure R ND a' b' c' (real sf)).
Proof.
  intros A B C Ms. pose proof (moderate_sim10 sf Ms) as Ss. unfold calculate_max_pressure, q_add, q_sub.
  step (q_addsub_sim _ _ 10 32 32 _ _ _ _ sim_add ltac:(lia) ltac:(lia) ltac:(lia) B A). intros s s' Hs.
  step (q_divn_sim 126 32 1 _ _ _ _ ltac:(lia) two_sim (proj1 Hs)). intros md md' Hmd.
  step (q_addsub_sim _ _ 10 32 32 _ _ _ _ sim_sub ltac:(lia) ltac:(lia) ltac:(lia) B A). intros d d' Hd.
  step (q_divn_sim 126 32 1 _ _ _ _ ltac:(lia) two_sim (proj1 Hd)). intros wt wt' Hwt.
  step (q_scale_sim 127 32 1 _ _ _ _ ltac:(lia) two_sim (proj1 Hwt)). intros w2 w2' Hw2.
  step (q_mul_sim 694 32 128 32 _ _ _ _ ltac:(lia) ltac:(lia) C (proj1 Hw2)). intros nu nu' Hnu.
  step (q_scale_sim 127 32 34 _ _ _ _ ltac:(lia) Ss (proj1 Hmd)). intros de de' Hde.
  eapply rsim_mono; [|exact (q_div_sim 822 64 161 32 _ _ _ _ ltac:(lia) ltac:(lia) (proj1 Hnu) (proj1 Hde))].
  intros x0 y0. apply qplain_weaken; lia.
Qed.

Lemma sim_small k x y q : sim k x y -> sfQ x = Some q -> Qle_bool (1#100) q = true -> Qle_bool q 1000 = true ->
  sim 10 x y.
Proof.
  intros (F & E & _) H L U. apply sfQ_real in H as (_ & H). unfold real in H.
  apply Qle_bool_le in L, U. split; [exact F|]. split; [exact E|].
  split; [lia|]. right. rewrite <- E, H.
  assert (L1 : 1/100 <= Q2R q) by (revert L; q2r; lra). assert (U1 : Q2R q <= 1000) by (revert U; q2r; lra).
  rewrite Rabs_pos_eq by lra. split; [apply Rle_trans with (1/100); [cbn; lra|lra]|apply Rle_trans with 1000; [lra|cbn; lra]].
Qed.

Lemma dims_row size schedule reg dims :
  @get_dimensions R Num_R size schedule reg = Ok dims -> (size, schedule) <> ("28"%string, "10"%string) ->
  exists row od w, row_of PIPE_SCHEDULES size = Some row /\ In schedule schedule_columns
    /\ num_cell (f_cols PIPE_SCHEDULES) row "OD" = Some od
    /\ num_cell (f_cols PIPE_SCHEDULES) row schedule = Some w
    /\ 2 * Q2R w < Q2R od.
Proof.
  intros G N.
  assert (O : offered size schedule).
  { apply Classical_Prop.NNPP. intros X. destruct (get_dimensions_bad size schedule reg X) as (m & Em).
    rewrite Em in G. discriminate. }
  destruct O as (w & E & N1 & N2). pose proof E as Ew.
  apply entry_row in E as (row & R & Cw); [|exact pipe_labels].
  assert (I : In schedule schedule_columns).
  { apply schedule_columns_iff. apply num_cell_col in Cw; auto. }
  destruct (pipe_row_facts _ _ R) as [(od & Co & Po) Pw]. specialize (Pw _ _ I Cw).
  exists row, od, w. split; [exact R|]. split; [exact I|]. split; [exact Co|]. split; [exact Cw|].
  destruct (get_dimensions_ok size schedule row od w reg R I Co Cw) as (dims' & G' & Ii & Io & _).
  destruct (bores size schedule reg dims' G' N) as (ID & OD & Hi & Ho & B).
  destruct Hi as (_ & Hi & _), Ho as (_ & Ho & _), Ii as (_ & Ii & _), Io as (_ & Io & _). lra.
Qed.

Lemma lit_sim40 q : small_lit q = true -> sim 40 (@nofQ b64 NB q) (@nofQ R ND q).
Proof. unfold small_lit. intros H. apply andb_true_iff in H as (A & B). apply (sim_lit 20 20); try lia; assumption. Qed.

Lemma in_double : exists v', @lookup_unit R ND "in" = Some v'.
Proof.
  assert (Uin : exists v, @lookup_unit R Num_R "in" = Some v /\ Pint.u_off v = None)
    by (eexists; split; reflexivity).
  destruct Uin as (v & Lv & Ov).
  destruct (lookup_near _ _ double_rounding _ _ Lv Ov) as (v' & Lv' & _). now exists v'.
Qed.
Lemma pipe_sim size schedule i i' material welded sf reg :
  (size, schedule) <> ("28"%string, "10"%string) ->
  reads 1e18 i i' -> moderate 1e10 sf ->
  rsim (qplain 1000 1000) (@rated_pipe b64 NB size schedule i material welded sf reg)
                          (@rated_pipe R ND size schedule i' material welded (real sf) reg).
Proof.
  intros N28 Rd Ms. unfold rated_pipe.
  destruct (@get_dimensions R Num_R size schedule reg) as [dims|e] eqn:G.
  2:{ assert (X : exists e', @get_dimensions b64 NB size schedule reg = Err e' /\ @get_dimensions R ND size schedule reg = Err e').
      { clear - G. revert G. unfold get_dimensions.
        destruct (get_available_pipe_schedules (NStr size)) as [l|]; cbn [bind]; [|eauto].
        destruct (raise_if _ _); cbn [bind]; [|eauto].
        destruct (pipe_cell "OD" size); cbn [bind]; [|eauto].
        destruct (pipe_cell schedule size); cbn [bind]; [|eauto].
        intros G. discriminate G. }
      destruct X as (e' & -> & ->). cbn [bind rsim]. reflexivity. }
  destruct (dims_row _ _ _ _ G N28) as (row & od & w & Rw & Ic & Co & Cw & L).
  pose proof (lookup_sim "in") as U.
  destruct in_double as (v' & Lv'). rewrite Lv' in U.
  destruct (@lookup_unit b64 NB "in") as [v|] eqn:Lv; [|contradiction].
  rewrite (get_dimensions_any NB _ _ _ _ _ reg v Rw Ic Co Cw Lv).
  rewrite (get_dimensions_any ND _ _ _ _ _ reg v' Rw Ic Co Cw Lv').
  cbn [bind inner_diameter outer_diameter].
  step (max_stress_sim i i' material welded reg Rd). intros s s' (Hs & _).
  pose proof pipe_double_facts_hold as F. unfold pipe_double_facts in F.
  rewrite forallb_forall in F. specialize (F _ (proj1 (row_of_some _ _ _ Rw))).
  rewrite forallb_forall in F. specialize (F _ Ic). cbn beta in F. rewrite Co, Cw in F.
  unfold pipe_double_cell in F. apply orb_true_iff in F as [F|F].
  { exfalso. apply Qle_bool_le in F. rewrite Q2R_mult in F. assert (Q2R 2 = 2) by (q2r; lra). nra. }
  apply andb_true_iff in F as (F12 & F). apply andb_true_iff in F12 as (F1 & F2).
  destruct (sfQ (@nofQ b64 NB od)) as [qa|] eqn:Qa; [|discriminate].
  destruct (sfQ (@nsub b64 NB (@nofQ b64 NB od) (@nmul b64 NB (@nofQ b64 NB 2) (@nofQ b64 NB w)))) as [qb|] eqn:Qb; [|discriminate].
  apply andb_true_iff in F as (F & F6). apply andb_true_iff in F as (F & F5). apply andb_true_iff in F as (F3 & F4).
  assert (So : sim 40 (@nofQ b64 NB od) (@nofQ R ND od)) by now apply lit_sim40.
  assert (Si : sim (41 + 52) (@nsub b64 NB (@nofQ b64 NB od) (@nmul b64 NB (@nofQ b64 NB 2) (@nofQ b64 NB w)))
                 (@nsub R ND (@nofQ R ND od) (@nmul R ND (@nofQ R ND 2) (@nofQ R ND w)))).
  { apply sim_sub; [lia|apply (sim_weaken 40); [lia|exact So]|].
    apply (sim_mul 1 40); [lia|exact two_sim|now apply lit_sim40]. }
  apply max_pressure_sim10; try assumption.
  - split; [|split; [exact U|reflexivity]]. cbn [q_mag]. eapply sim_small; eassumption.
  - split; [|split; [exact U|reflexivity]]. cbn [q_mag]. eapply sim_small; eassumption.
Qed.
