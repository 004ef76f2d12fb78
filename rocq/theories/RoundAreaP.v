(** * RoundAreaP: stress areas and safety factors of bolts under rounding. *)
From Coq Require Import String Ascii ZArith QArith Reals Qreals List Bool Lra Lia Psatz.
From Verif Require Import PyBase Pint UnitsM Spec QLemmas Csv Tables NumQ StressP StrLemmas BoltSpec
  BoltM BoltP RoundM RoundSpec RoundP RoundWindowP RoundMonoP RoundDdtP RoundTubeP RoundBoltP.
Import ListNotations.
Local Open Scope R_scope.
Local Opaque THREAD_SPECS.

(** ** No shipped thread loses many digits *)
Definition calm_pair (rB rA : list string) : bool :=
  let cB := f_cols (THREAD_SPECS true) in
  let cA := f_cols (THREAD_SPECS false) in
  if String.eqb (nth 0 rB ""%string) (nth 0 rA ""%string) then
    match num_cell cB rB "minor diameter max", num_cell cB rB "pitch diameter max",
          num_cell cA rA "pitch diameter min", num_cell cA rA "major diameter min",
          num_cell cA rA "basic diameter", tpi_of (nth 0 rA ""%string) with
    | Some kn, Some en, Some es, Some ds, Some D, Some n =>
      (Qltb 0 es && Qltb 0 en && Qltb 0 D
       && Qle_bool (1 + 2 * n * (0.57735 * (es + kn))) (40 * (1 + 2 * n * (0.57735 * (es - kn))))
       && Qle_bool (1 + 2 * n * (0.57735 * (ds + en))) (40 * (1 + 2 * n * (0.57735 * (ds - en))))
       && Qle_bool (D * n + 0.9742785) (2 * (D * n - 0.9742785))
       && Qle_bool (es * n + 2 * 0.16238) (2 * (es * n - 2 * 0.16238)))%bool
    | _, _, _, _, _, _ => false
    end
  else true.
Lemma all_calm_pairs :
  forallb (fun rB => forallb (calm_pair rB) (f_rows (THREAD_SPECS false)))
          (f_rows (THREAD_SPECS true)) = true.
Proof. vm_compute. reflexivity. Qed.

Definition calm (t : thread) : Prop :=
  0 < t_pitch_ext t /\ 0 < t_pitch_int t /\ 0 < t_basic t
  /\ 1 / (2 * t_tpi t) + 57735/100000 * (t_pitch_ext t + t_minor_int t)
     <= 40 * (1 / (2 * t_tpi t) + 57735/100000 * (t_pitch_ext t - t_minor_int t))
  /\ 1 / (2 * t_tpi t) + 57735/100000 * (t_major_ext t + t_pitch_int t)
     <= 40 * (1 / (2 * t_tpi t) + 57735/100000 * (t_major_ext t - t_pitch_int t))
  /\ t_basic t + 9742785/10000000 / t_tpi t <= 2 * (t_basic t - 9742785/10000000 / t_tpi t)
  /\ t_pitch_ext t / 2 + 16238/100000 / t_tpi t <= 2 * (t_pitch_ext t / 2 - 16238/100000 / t_tpi t).

Lemma le_scaled n a b k : 0 < n -> 1 + 2 * n * a <= k * (1 + 2 * n * b) -> 1 / (2 * n) + a <= k * (1 / (2 * n) + b).
Proof.
  intros P H. apply Rmult_le_reg_l with (2 * n); [lra|].
  replace (2 * n * (1 / (2 * n) + a)) with (1 + 2 * n * a) by (field; lra).
  replace (2 * n * (k * (1 / (2 * n) + b))) with (k * (1 + 2 * n * b)) by (field; lra). exact H.
Qed.
Lemma le_scaled2 n D a k : 0 < n -> D * n + a <= k * (D * n - a) -> D + a / n <= k * (D - a / n).
Proof.
  intros P H. apply Rmult_le_reg_l with n; [lra|].
  replace (n * (D + a / n)) with (D * n + a) by (field; lra).
  replace (n * (k * (D - a / n))) with (k * (D * n - a)) by (field; lra). exact H.
Qed.

Lemma table_calm size grade t :
  thread_in_tables (THREAD_SPECS true) (THREAD_SPECS false) size grade t -> calm t.
Proof.
  intros T. pose proof (table_sound _ _ _ T) as (Pn & _). revert T Pn.
  intros (rB & rA & kn & en & es & ds & D & n & EB & EA & Hkn & Hen & Hes & Hds & HD & Hn & ->) Pn.
  assert (IB : In rB (rows_for (THREAD_SPECS true) size (grade ++ "B"))) by (rewrite EB; left; reflexivity).
  assert (IA : In rA (rows_for (THREAD_SPECS false) size (grade ++ "A"))) by (rewrite EA; left; reflexivity).
  apply rows_for_in in IB as (IB & SB & _). apply rows_for_in in IA as (IA & SA & _).
  pose proof all_calm_pairs as G. rewrite forallb_forall in G. specialize (G _ IB).
  rewrite forallb_forall in G. specialize (G _ IA). unfold calm_pair in G.
  rewrite SB, SA, String.eqb_refl, Hkn, Hen, Hes, Hds, HD, (dash_tpi _ _ Hn) in G.
  rewrite !andb_true_iff in G. destruct G as ((((((G1 & G2) & G3) & G4) & G5) & G6) & G7).
  apply Qltb_lt in G1, G2, G3. apply Qle_bool_iff, Qle_Rle in G4, G5, G6, G7.
  rewrite ?Q2R_plus, ?Q2R_minus, ?Q2R_mult, ?Q2R_plus, ?Q2R_minus, ?Q2R_mult in *.
  rewrite ?Q2R_plus, ?Q2R_minus, ?Q2R_mult, ?Q2R_plus, ?Q2R_minus, ?Q2R_mult in *.
  assert (E0 : Q2R 0 = 0) by (q2r; lra). assert (E1 : Q2R 1 = 1) by (q2r; lra).
  assert (E2 : Q2R 2 = 2) by (q2r; lra). assert (E40 : Q2R 40 = 40) by (q2r; lra).
  assert (E3 : Q2R 0.57735 = 57735/100000) by (q2r; lra).
  assert (E4 : Q2R 0.9742785 = 9742785/10000000) by (q2r; lra).
  assert (E5 : Q2R 0.16238 = 16238/100000) by (q2r; lra).
  rewrite ?E0, ?E1, ?E2, ?E40, ?E3, ?E4, ?E5 in *. cbn [t_tpi] in Pn.
  unfold calm; cbn [t_minor_int t_pitch_int t_pitch_ext t_major_ext t_basic t_tpi].
  split; [assumption|]. split; [assumption|]. split; [assumption|].
  split; [apply le_scaled; assumption|]. split; [apply le_scaled; assumption|].
  split; [apply le_scaled2; assumption|].
  assert (G8 : Q2R es + (2 * (16238/100000)) / Q2R n <= 2 * (Q2R es - (2 * (16238/100000)) / Q2R n))
    by (apply le_scaled2; assumption).
  unfold Rdiv in *. lra.
Qed.

Section RA.
  Variables (u : R) (rnd : R -> R).
  Hypothesis Hr : rounding u rnd.
  Hypothesis Hs : u <= 1/1000000.
  Notation N := (Num_rounded rnd).
  Let Hu : 0 <= u <= 1/1024. Proof. exact (proj1 Hr). Qed.
  Notation close := (close u). Notation about := (about u).

  Lemma about_eq b q d d' x x' reg : about b q d x reg -> d = d' -> x = x' -> about b q d' x' reg.
  Proof. intros H <- <-. exact H. Qed.
  Lemma pi_close : close 1 PI (@npi R N).
  Proof. apply near_close with 1%nat; [cbn; lra|]. apply rnd_near, (near_refl u Hu 0); exact Hr. Qed.
  Lemma two_close : close 0 2 (@nofQ R N 2).
  Proof. apply int_close; [exact Hr|q2r; lra|lia]. Qed.
  Lemma one_close : close 0 1 (@one R N).
  Proof. rewrite (one_rnd u rnd Hr). apply near_close with 0%nat; [cbn; lra|apply near_refl; exact Hu]. Qed.

  Lemma tensile_about t b D es n xb reg : sound t -> calm t ->
    about 20 b d_pressure xb reg -> about 2 D d_length (t_basic t * inch) reg ->
    about 2 es d_length (t_pitch_ext t * inch) reg -> about 3 n d_invlength (t_tpi t / inch) reg ->
    exists r xb', @tensile_area R N b D es n reg = Ok r /\ close 30 xb xb'
      /\ about 420 r d_area (area_in_tension t xb') reg.
  Proof.
    intros S0 (Ce & _ & Cd & _ & _ & C1 & C2) Hb HD He Hn.
    destruct S0 as (Pn & _ & _ & _ & _ & P1 & P2).
    pose proof inch_pos as Pi. pose proof psi_pos as Pp.
    assert (Pq : 0 < 16238/100000 / t_tpi t) by (apply Rdiv_lt_0_compat; lra).
    assert (Pq' : 0 < 9742785/10000000 / t_tpi t) by (apply Rdiv_lt_0_compat; lra).
    assert (Nn : t_tpi t / inch <> 0) by (apply nz_pos, Rdiv_lt_0_compat; assumption).
    unfold tensile_area.
    destruct (quant_psi_about u rnd Hr 100000 reg) as (lim & -> & Hlim). cbn [bind].
    destruct (lt_about u rnd Hr _ _ _ _ _ _ _ _ Hb Hlim) as (y & l & -> & Cy & Cl). cbn [bind].
    assert (PL : 0 < Q2R 100000 * psi) by (apply Rmult_lt_0_compat; [q2r; lra|exact Pp]).
    destruct (decided u rnd Hr _ _ _ _ _ _ Cy Cl PL) as (xb' & Cx & Iff).
    assert (EL : Q2R 100000 * psi = 100000 * psi) by (q2r; lra). rewrite EL in Iff.
    assert (Dec : exists r, (if Rltb y l then
      let* p := @n_divq R N (@pydiv R N) (@nofQ R N 0.9742785) n in
      let* d := @q_sub R N D p in let* d2 := @q_sq R N d in
      @q_scale R N (@ndiv R N (@npi R N) (@nofQ R N 4)) d2
      else let* h := @q_divn R (@pydiv R N) es (@nofQ R N 2) in
      let* p := @n_divq R N (@pydiv R N) (@nofQ R N 0.16238) n in
      let* d := @q_sub R N h p in let* d2 := @q_sq R N d in @q_scale R N (@npi R N) d2) = Ok r
      /\ about 420 r d_area (area_in_tension t xb') reg).
    2:{ destruct Dec as (r & E & A). exists r, xb'. split; [exact E|]. split; [|exact A].
        eapply close_weaken; [|exact Cx]. lra. }
    unfold area_in_tension. destruct (Rltb y l) eqn:EW.
    - destruct (Rlt_dec xb' (100000 * psi)) as [L|L]; [|exfalso; apply L, Iff; reflexivity].
      destruct (ndivq_about u rnd Hr _ _ _ _ _ _ _ _ (lit_close u rnd Hr 0.9742785) Hn Nn) as (p & -> & Hp).
      cbn [bind].
      assert (Ep : Q2R 0.9742785 / (t_tpi t / inch) = 9742785/10000000 / t_tpi t * inch).
      { q2r. field. split; lra. }
      eapply about_eq with (d' := d_length) (x' := 9742785/10000000 / t_tpi t * inch) in Hp;
        [|reflexivity|exact Ep].
      destruct (sub_about u rnd Hr Hs 2 D p d_length (t_basic t * inch) (9742785/10000000 / t_tpi t * inch) reg)
        as (d & -> & Hd); try lia; try lra.
      { eapply about_weaken; [|exact HD]; lra. } { eapply about_weaken; [|exact Hp]; lra. }
      { apply Rmult_le_pos; lra. } { apply Rmult_le_pos; lra. } { nra. } { nra. }
      cbn [bind]. destruct (sq_about u rnd Hr _ _ _ _ _ Hd) as (d2 & -> & Hd2). cbn [bind].
      assert (C4 : close 2 (PI / 4) (@ndiv R N (@npi R N) (@nofQ R N 4))).
      { apply near_close with 2%nat; [cbn; lra|]. apply (ndiv_near u rnd Hr 1 0).
        - apply rnd_near, (near_refl u Hu 0); exact Hr.
        - apply (lit_int_near u rnd Hr 4); [q2r; lra|lia]. }
      destruct (scale_about u rnd Hr _ _ _ _ _ _ _ _ C4 Hd2) as (r & -> & Ar).
      exists r. split; [reflexivity|].
      eapply about_eq; [eapply about_weaken; [|exact Ar]; lra|reflexivity|]. ring.
    - destruct (Rlt_dec xb' (100000 * psi)) as [L|L]; [apply Iff in L; discriminate|].
      destruct (divn_about u rnd Hr _ _ _ _ _ _ _ _ two_close (nz_pos 2 ltac:(lra)) He) as (h & -> & Hh).
      cbn [bind].
      destruct (ndivq_about u rnd Hr _ _ _ _ _ _ _ _ (lit_close u rnd Hr 0.16238) Hn Nn) as (p & -> & Hp).
      cbn [bind].
      assert (Ep : Q2R 0.16238 / (t_tpi t / inch) = 16238/100000 / t_tpi t * inch).
      { q2r. field. split; lra. }
      eapply about_eq with (d' := d_length) (x' := 16238/100000 / t_tpi t * inch) in Hp;
        [|reflexivity|exact Ep].
      eapply about_eq with (d' := d_length) (x' := t_pitch_ext t / 2 * inch) in Hh;
        [|reflexivity|field].
      destruct (sub_about u rnd Hr Hs 2 h p d_length (t_pitch_ext t / 2 * inch) (16238/100000 / t_tpi t * inch) reg)
        as (d & -> & Hd); try lia; try lra.
      { eapply about_weaken; [|exact Hh]; lra. } { eapply about_weaken; [|exact Hp]; lra. }
      { apply Rmult_le_pos; lra. } { apply Rmult_le_pos; lra. } { nra. } { nra. }
      cbn [bind]. destruct (sq_about u rnd Hr _ _ _ _ _ Hd) as (d2 & -> & Hd2). cbn [bind].
      destruct (scale_about u rnd Hr _ _ _ _ _ _ _ _ pi_close Hd2) as (r & -> & Ar).
      exists r. split; [reflexivity|].
      eapply about_eq; [eapply about_weaken; [|exact Ar]; lra|reflexivity|]. ring.
  Qed.

  Lemma about_err b q d x reg : 0 <= b -> b * u <= 1/2 -> 0 <= x -> about b q d x reg ->
    proper q d reg /\ Rabs (bv q - x) <= 2 * b * u * x.
  Proof.
    intros B0 B X (P & C). split; [exact P|]. apply (close_err u rnd Hr) in C; [|lra|lra].
    rewrite (Rabs_pos_eq x) in C by exact X. exact C.
  Qed.

  (** half a pitch + 0.57735 (x - y) *)
  Lemma flank_about n x y vn vx vy reg : 0 < vn -> 0 < vx -> 0 < vy ->
    0 < 1 / (2 * vn) + 57735/100000 * (vx - vy) ->
    1 / (2 * vn) + 57735/100000 * (vx + vy) <= 40 * (1 / (2 * vn) + 57735/100000 * (vx - vy)) ->
    about 3 n d_invlength (vn / inch) reg -> about 2 x d_length (vx * inch) reg ->
    about 2 y d_length (vy * inch) reg ->
    exists s, (let* t2 := @q_scale R N (@nofQ R N 2) n in
               let* half_pitch := @n_divq R N (@pydiv R N) (@one R N) t2 in
               let* diff := @q_sub R N x y in
               let* k := @q_scale R N (@nofQ R N 0.57735) diff in
               @q_add R N half_pitch k) = Ok s
      /\ about 4000 s d_length ((1 / (2 * vn) + 57735/100000 * (vx - vy)) * inch) reg.
  Proof.
    intros Pn Px Py Pf Pc Hn Hx Hy. pose proof inch_pos as Pi.
    assert (N2 : 0 < vn / inch) by (apply Rdiv_lt_0_compat; assumption).
    destruct (scale_about u rnd Hr _ _ _ _ _ _ _ _ two_close Hn) as (t2 & -> & Ht2). cbn [bind].
    destruct (ndivq_about u rnd Hr _ _ _ _ _ _ _ _ one_close Ht2 (nz_pos (2 * (vn / inch)) ltac:(lra))) as (hp & -> & Hhp).
    cbn [bind].
    eapply about_eq with (d' := d_length) (x' := 1 / (2 * vn) * inch) in Hhp;
      [|reflexivity|field; split; lra].
    assert (Php : 0 < 1 / (2 * vn)) by (apply Rdiv_lt_0_compat; lra).
    apply about_err in Hhp as (Qhp & Ehp); [|lra|lra|apply Rmult_le_pos; lra].
    apply about_err in Hx as (Qx & Ex); [|lra|lra|apply Rmult_le_pos; lra].
    apply about_err in Hy as (Qy & Ey); [|lra|lra|apply Rmult_le_pos; lra].
    destruct (addsub_err u rnd Hr true x y d_length reg Qx Qy) as (df & Ed & Qd & Erd).
    cbv beta iota in Ed, Erd. rewrite Ed. cbn [bind].
    destruct (scale_err u rnd Hr (@nofQ R N 0.57735) df d_length reg Qd) as (k & -> & Qk & Erk). cbn [bind].
    destruct (addsub_err u rnd Hr false hp k d_length reg Qhp Qk) as (s & Es & Qs & Ers).
    cbv beta iota in Es, Ers. exists s. split; [exact Es|]. split; [exact Qs|].
    assert (Ec : Rabs (@nofQ R N 0.57735 - 57735/100000) <= 10 * u * (57735/100000)).
    { pose proof (lit_close u rnd Hr 0.57735) as C. apply (close_err u rnd Hr) in C; [|lra|lra].
      replace (Q2R 0.57735) with (57735/100000) in C by (q2r; lra).
      rewrite (Rabs_pos_eq (57735/100000)) in C by lra. lra. }
    assert (K : Rabs (bv s - (1 / (2 * vn) * inch + 57735/100000 * (vx * inch - vy * inch)))
                <= 50 * u * (1 / (2 * vn) * inch + 57735/100000 * (vx * inch + vy * inch))).
    { apply (mixed_bound u rnd Hr Hs _ (bv hp) _ (bv x) _ (bv y) _ (@nofQ R N 0.57735) (bv df) (bv k));
        try assumption; try lra; try (apply Rmult_le_pos; lra); try (apply Rmult_lt_0_compat; lra).
      - assert (0 <= u * (1 / (2 * vn) * inch)) by (repeat apply Rmult_le_pos; lra). lra.
      - pose proof (Rabs_pos (@nofQ R N 0.57735 * bv df)).
        assert (0 <= u * Rabs (@nofQ R N 0.57735 * bv df)) by (apply Rmult_le_pos; lra). lra. }
    replace (1 / (2 * vn) * inch + 57735/100000 * (vx * inch - vy * inch))
      with ((1 / (2 * vn) + 57735/100000 * (vx - vy)) * inch) in K by ring.
    replace (1 / (2 * vn) * inch + 57735/100000 * (vx * inch + vy * inch))
      with ((1 / (2 * vn) + 57735/100000 * (vx + vy)) * inch) in K by ring.
    set (f := 1 / (2 * vn) + 57735/100000 * (vx - vy)) in *.
    set (g := 1 / (2 * vn) + 57735/100000 * (vx + vy)) in *.
    replace 4000 with (2 * IZR 2000) by lra.
    apply (err_close u rnd Hr); [lia|apply Rmult_lt_0_compat; lra|lra|].
    eapply Rle_trans; [exact K|].
    assert (u * (g * inch) <= u * (40 * f * inch)).
    { apply Rmult_le_compat_l; [lra|]. apply Rmult_le_compat_r; lra. }
    lra.
  Qed.

  Lemma shear_about n e d x y vn ve vd vx vy reg : 0 < vn -> 0 < vx -> 0 < vy ->
    0 < 1 / (2 * vn) + 57735/100000 * (vx - vy) ->
    1 / (2 * vn) + 57735/100000 * (vx + vy) <= 40 * (1 / (2 * vn) + 57735/100000 * (vx - vy)) ->
    about 3 n d_invlength (vn / inch) reg -> about 20 e d_length ve reg ->
    about 2 d d_length (vd * inch) reg -> about 2 x d_length (vx * inch) reg ->
    about 2 y d_length (vy * inch) reg ->
    exists r, @shear_area R N n e d x y = Ok r
      /\ about 4050 r d_area (PI * vn * vd * (1 / (2 * vn) + 57735/100000 * (vx - vy)) * inch * ve) reg.
  Proof.
    intros Pn Px Py Pf Pc Hn He Hd Hx Hy. pose proof inch_pos as Pi.
    destruct (flank_about n x y vn vx vy reg Pn Px Py Pf Pc Hn Hx Hy) as (s & Es & Hsx).
    unfold shear_area.
    destruct (scale_about u rnd Hr _ _ _ _ _ _ _ _ pi_close Hn) as (a1 & -> & H1). cbn [bind].
    destruct (mul_about u rnd Hr _ _ _ _ _ _ _ _ _ H1 He) as (a2 & -> & H2). cbn [bind].
    destruct (mul_about u rnd Hr _ _ _ _ _ _ _ _ _ H2 Hd) as (a3 & -> & H3). cbn [bind].
    destruct (mul_about u rnd Hr _ _ _ _ _ _ _ _ _ H3 Hsx) as (a4 & E4 & H4).
    exists a4. split.
    - destruct (@q_scale R N (@nofQ R N 2) n) as [t2|]; [|discriminate Es]. cbn [bind] in *.
      destruct (@n_divq R N (@pydiv R N) (@one R N) t2) as [hp|]; [|discriminate Es]. cbn [bind] in *.
      destruct (@q_sub R N x y) as [df|]; [|discriminate Es]. cbn [bind] in *.
      destruct (@q_scale R N (@nofQ R N 0.57735) df) as [k|]; [|discriminate Es]. cbn [bind] in *.
      rewrite Es. cbn [bind]. exact E4.
    - eapply about_eq; [eapply about_weaken; [|exact H4]; lra|reflexivity|]. field. lra.
  Qed.

  (** The smaller of two areas, chosen after rounding *)
  Lemma close_near b x y : close b x y -> exists n, INR n <= b /\ near u n x y. Proof. auto. Qed.
  Lemma chosen b x y x' y' c c' : close b x x' -> close b y y' -> close 1 x' c -> close 1 y' c' ->
    0 < x -> 0 < y -> c <= c' -> close (b + 2) (Rmin y x) x'.
  Proof.
    intros (n & Hn & A) (m & Hm & B) (k & Hk & C) (j & Hj & D) X Y L.
    assert (Nk : (k <= 1)%nat) by (apply INR_le; change (INR 1) with 1; exact Hk).
    assert (Nj : (j <= 1)%nat) by (apply INR_le; change (INR 1) with 1; exact Hj).
    destruct (Rle_dec x y) as [Lxy|Lxy].
    - rewrite Rmin_right by exact Lxy. exists n. split; [lra|exact A].
    - rewrite Rmin_left by lra.
      exists (Nat.max n m + 2)%nat. split.
      { rewrite plus_INR. change (INR 2) with 2. destruct (Nat.max_spec n m) as [(_ & ->)|(_ & ->)]; lra. }
      assert (A' : near u (Nat.max n m + 2) x x') by (eapply near_weaken; [exact Hu| |exact A]; lia).
      assert (X' : 0 < x') by (eapply near_pos; [exact Hu|exact A|exact X]).
      assert (Y' : 0 < y') by (eapply near_pos; [exact Hu|exact B|exact Y]).
      assert (Fc : near u (j + k) (y' / x') (c' / c)) by (apply near_div; [exact Hu|exact D|exact C]).
      assert (Fy : near u (m + (j + k)) (y / x') (c' / c)).
      { eapply near_trans; [exact Hu| |exact Fc].
        replace m with (m + 0)%nat by lia. apply near_div; [exact Hu|exact B|apply near_refl; exact Hu]. }
      assert (Fw : near u (Nat.max n m + 2) (y / x') (c' / c)) by (eapply near_weaken; [exact Hu| |exact Fy]; lia).
      assert (C0 : 0 < c) by (eapply near_pos; [exact Hu|exact C|exact X']).
      clear Fy Fc A B C D. destruct A' as (e & Ee & E1 & E2). destruct Fw as (f & Ef & F1 & F2).
      set (p := (1 - u) ^ (Nat.max n m + 2)) in *.
      assert (Pp : 0 < p) by (apply pow_pos_u; exact Hu).
      exists (x' / y). split; [field; lra|]. split.
      + apply Rle_trans with e; [exact E1|]. apply Rmult_le_reg_r with y; [exact Y|].
        replace (x' / y * y) with x' by (field; lra). rewrite Ee, (Rmult_comm x e).
        apply Rmult_le_compat_l; lra.
      + assert (G : 1 <= c' / c).
        { apply Rmult_le_reg_r with c; [exact C0|]. replace (c' / c * c) with c' by (field; lra). lra. }
        rewrite Ef in G. assert (0 < y / x') by (apply Rdiv_lt_0_compat; assumption).
        assert (K : 1 <= y / x' * / p).
        { eapply Rle_trans; [exact G|]. apply Rmult_le_compat_l; lra. }
        apply Rmult_le_reg_r with (y / x'); [assumption|].
        replace (x' / y * (y / x')) with 1 by (field; split; apply nz_pos; assumption). rewrite Rmult_comm. exact K.
  Qed.
  Lemma self_about q d reg : proper q d reg -> about 0 q d (bv q) reg.
  Proof. intros P. split; [exact P|]. exists 0%nat. split; [cbn; lra|apply near_refl; exact Hu]. Qed.
  (** 1/2 + 0.57735 tpi (x - y) *)
  Lemma ratio_about n x y vn vx vy reg : 0 < vn -> 0 < vx -> 0 < vy ->
    0 < 1 / (2 * vn) + 57735/100000 * (vx - vy) ->
    1 / (2 * vn) + 57735/100000 * (vx + vy) <= 40 * (1 / (2 * vn) + 57735/100000 * (vx - vy)) ->
    about 3 n d_invlength (vn / inch) reg -> about 2 x d_length (vx * inch) reg ->
    about 2 y d_length (vy * inch) reg ->
    exists s, (let* c := @q_scale R N (@nofQ R N 0.57735) n in
               let* diff := @q_sub R N x y in
               let* c := @q_mul R N c diff in
               @n_addq R N (@ndiv R N (@one R N) (@nofQ R N 2)) c) = Ok s
      /\ about 4000 s d_none (vn * (1 / (2 * vn) + 57735/100000 * (vx - vy))) reg.
  Proof.
    intros Pn Px Py Pf Pc Hn Hx Hy. pose proof inch_pos as Pi.
    assert (N2 : 0 < vn / inch) by (apply Rdiv_lt_0_compat; assumption).
    assert (EQ : Q2R 0.57735 = 57735/100000) by (q2r; lra).
    destruct (scale_about u rnd Hr _ _ _ _ _ _ _ _ (lit_close u rnd Hr 0.57735) Hn) as (c & -> & Hc). cbn [bind].
    rewrite EQ in Hc.
    apply about_err in Hx as (Qx & Ex); [|lra|lra|apply Rmult_le_pos; lra].
    apply about_err in Hy as (Qy & Ey); [|lra|lra|apply Rmult_le_pos; lra].
    destruct (addsub_err u rnd Hr true x y d_length reg Qx Qy) as (df & Ed & Qd & Erd).
    cbv beta iota in Ed, Erd. rewrite Ed. cbn [bind].
    assert (Qc : proper c d_invlength reg) by apply Hc.
    destruct (mul_about u rnd Hr _ _ _ _ _ _ _ _ _ (self_about _ _ _ Qc) (self_about _ _ _ Qd)) as (k & -> & Hk).
    cbn [bind]. pose proof (base_about u rnd Hr _ _ _ _ _ Hk) as Ck.
    destruct Hk as ((Dk & Ok_ & Sk & Rk) & _).
    change (dim_mul d_invlength d_length) with d_none in Dk.
    unfold n_addq. rewrite Dk. cbn [dim_eqb]. change (dim_eqb d_none d_none) with true. cbv beta iota.
    eexists. split; [reflexivity|]. split.
    { repeat split; cbn [q_unit u_dim u_off u_scale mult_unit q_reg]; try assumption.
      rewrite (one_rnd u rnd Hr). lra. }
    unfold bv at 1. cbn [q_mag q_unit u_scale mult_unit]. rewrite (one_rnd u rnd Hr), Rmult_1_r.
    set (k' := @base_mag R N k) in *.
    assert (Eh : Rabs (@ndiv R N 1 (@nofQ R N 2) - 1/2) <= 40 * u * (1/2)).
    { assert (Q : close 1 (1/2) (@ndiv R N 1 (@nofQ R N 2))).
      { apply near_close with 1%nat; [cbn; lra|]. apply (ndiv_near u rnd Hr 0 0); [apply near_refl; exact Hu|].
        apply (lit_int_near u rnd Hr 2); [q2r; lra|lia]. }
      apply (close_err u rnd Hr) in Q; [|lra|lra]. rewrite (Rabs_pos_eq (1/2)) in Q by lra. lra. }
    set (h' := @ndiv R N 1 (@nofQ R N 2)) in *.
    assert (Ec : Rabs (bv c - 57735/100000 * (vn / inch)) <= 10 * u * (57735/100000 * (vn / inch))).
    { apply about_err in Hc as (_ & Ec); [|lra|lra|lra].
      assert (0 <= u * (57735/100000 * (vn / inch))) by (apply Rmult_le_pos; lra). lra. }
    assert (Ek : Rabs (k' - bv c * bv df) <= 6 * u * Rabs (bv c * bv df)).
    { apply (close_err u rnd Hr) in Ck; [|lra|lra].
      pose proof (Rabs_pos (bv c * bv df)).
      assert (0 <= u * Rabs (bv c * bv df)) by (apply Rmult_le_pos; lra). lra. }
    pose proof (rnd_err u rnd Hr (h' + k')) as Es.
    change (@nadd R N h' k') with (rnd (h' + k')).
    assert (K : Rabs (rnd (h' + k') - (1/2 + 57735/100000 * (vn / inch) * (vx * inch - vy * inch)))
                <= 50 * u * (1/2 + 57735/100000 * (vn / inch) * (vx * inch + vy * inch))).
    { apply (mixed_bound u rnd Hr Hs _ h' _ (bv x) _ (bv y) _ (bv c) (bv df) k');
        try assumption; try lra; try (apply Rmult_le_pos; lra).
      pose proof (Rabs_triang h' k'). pose proof (Rabs_pos h'). pose proof (Rabs_pos k').
      assert (u * Rabs (h' + k') <= u * (Rabs h' + Rabs k')) by (apply Rmult_le_compat_l; lra).
      assert (0 <= u * (Rabs h' + Rabs k')) by (apply Rmult_le_pos; lra). lra. }
    replace (1/2 + 57735/100000 * (vn / inch) * (vx * inch - vy * inch))
      with (vn * (1 / (2 * vn) + 57735/100000 * (vx - vy))) in K by (field; split; lra).
    replace (1/2 + 57735/100000 * (vn / inch) * (vx * inch + vy * inch))
      with (vn * (1 / (2 * vn) + 57735/100000 * (vx + vy))) in K by (field; split; lra).
    set (f := 1 / (2 * vn) + 57735/100000 * (vx - vy)) in *.
    set (g := 1 / (2 * vn) + 57735/100000 * (vx + vy)) in *.
    replace 4000 with (2 * IZR 2000) by lra.
    apply (err_close u rnd Hr); [lia|apply Rmult_lt_0_compat; lra|lra|].
    eapply Rle_trans; [exact K|].
    assert (u * (vn * g) <= u * (vn * (40 * f))).
    { apply Rmult_le_compat_l; [lra|]. apply Rmult_le_compat_l; lra. }
    lra.
  Qed.

  Lemma areas_about size grade t bolt plate len xb xp xl rb rp rl reg :
    thread_in_tables (THREAD_SPECS true) (THREAD_SPECS false) size grade t ->
    about 20 bolt d_pressure xb rb -> about 20 plate d_pressure xp rp -> about 20 len d_length xl rl ->
    0 <= xb -> 0 < xp -> 0 < xl ->
    exists r xb' c c', @calculate_stress_areas R N size grade bolt plate len reg = Ok r
      /\ close 30 xb xb'
      /\ about 4055 (screw_area r) d_area (Rmin (area_in_tension t xb') (area_in_shear t xl)) reg
      /\ about 4050 (plate_area r) d_area (area_of_plate t xl) reg
      /\ about 13000 (minimum_engagement r) d_length
            (2 * area_in_tension t xb' * xb / (plate_shear_per_length t * xp)) reg
      /\ shear_warning r = Rltb c c' /\ close 4051 (area_in_shear t xl) c
      /\ close 421 (area_in_tension t xb') c'.
  Proof.
    intros T Hb Hp Hl Pb Pp Pl.
    pose proof (table_sound _ _ _ T) as S0. pose proof (table_calm _ _ _ T) as C0.
    destruct T as (rB & rA & kn & en & es & ds & D & n & EB & EA & Hkn & Hen & Hes & Hds & HD & Hn & ->).
    destruct listed_props as (L1 & L2 & L3 & L4 & L5).
    pose proof (thread_cell_ok true _ _ _ _ _ L1 EB Hkn) as C1.
    pose proof (thread_cell_ok true _ _ _ _ _ L2 EB Hen) as C2.
    pose proof (thread_cell_ok false _ _ _ _ _ L3 EA Hes) as C3.
    pose proof (thread_cell_ok false _ _ _ _ _ L4 EA Hds) as C4.
    pose proof (thread_cell_ok false _ _ _ _ _ L5 EA HD) as C5.
    set (t := mkThreadDims (Q2R kn) (Q2R en) (Q2R es) (Q2R ds) (Q2R D) (Q2R n)) in *.
    pose proof (screw_shear_pos t S0) as As0.
    pose proof (plate_shear_pos t S0) as Ap0. pose proof inch_pos as Pi.
    pose proof S0 as (Pn & Pk & Pd & Psh & Pps & _).
    pose proof C0 as (Pe & Pin & _ & Cs & Cp & _).
    unfold calculate_stress_areas.
    rewrite (check_about u rnd Hr 20 bolt d_pressure xb rb "pressure" eq_refl Hb) by lra.
    rewrite (check_about u rnd Hr 20 plate d_pressure xp rp "pressure" eq_refl Hp) by lra.
    rewrite (check_about u rnd Hr 20 len d_length xl rl "length" eq_refl Hl) by lra.
    cbn [bind].
    apply (rereg_about u _ _ _ _ _ reg) in Hb, Hp, Hl.
    rewrite C1; cbn [bind]. destruct (quant_in_about u rnd Hr kn reg) as (qkn & -> & Hqkn). cbn [bind].
    rewrite C3; cbn [bind]. destruct (quant_in_about u rnd Hr es reg) as (qes & -> & Hqes). cbn [bind].
    rewrite C2; cbn [bind]. destruct (quant_in_about u rnd Hr en reg) as (qen & -> & Hqen). cbn [bind].
    rewrite C4; cbn [bind]. destruct (quant_in_about u rnd Hr ds reg) as (qds & -> & Hqds). cbn [bind].
    pose proof (dash_tpi _ _ Hn) as En. unfold tpi_of in En. unfold threads_per_inch. rewrite En; cbn [bind].
    destruct (quant_per_in_about u rnd Hr n reg) as (qn & -> & Hqn). cbn [bind].
    rewrite C5; cbn [bind]. destruct (quant_in_about u rnd Hr D reg) as (qD & -> & HqD). cbn [bind].
    change (Q2R kn) with (t_minor_int t) in Hqkn. change (Q2R en) with (t_pitch_int t) in Hqen.
    change (Q2R es) with (t_pitch_ext t) in Hqes. change (Q2R ds) with (t_major_ext t) in Hqds.
    change (Q2R n) with (t_tpi t) in Hqn. change (Q2R D) with (t_basic t) in HqD.
    clearbody t. clear C1 C2 C3 C4 C5 En EA EB Hkn Hen Hes Hds HD Hn L1 L2 L3 L4 L5.
    destruct (tensile_about t _ _ _ _ _ _ S0 C0 Hb HqD Hqes Hqn) as (qt & xb' & -> & Cx & Hqt). cbn [bind].
    pose proof (tension_pos t xb' S0) as At0.
    destruct (shear_about _ _ _ _ _ _ _ _ _ _ _ Pn Pe Pk Psh Cs Hqn Hl Hqkn Hqes Hqkn) as (qs & -> & Hqs).
    cbn [bind]. fold (screw_shear_per_length t) in Hqs. fold (area_in_shear t xl) in Hqs.
    destruct (lt_about u rnd Hr _ _ _ _ _ _ _ _ Hqs Hqt) as (c & c' & Elt & Cc & Cc').
    assert (Ecmp : c = @base_mag R N qs /\ c' = @base_mag R N qt -> True) by auto. clear Ecmp.
    assert (Lt : @q_lt R N qs qt = Ok (Rltb (@base_mag R N qs) (@base_mag R N qt))).
    { destruct Hqs as ((D1 & _ & _ & E1) & _), Hqt as ((D2 & _ & _ & E2) & _).
      unfold q_lt, q_cmp, same_reg. rewrite E1, E2, Nat.eqb_refl, D1, D2, dim_eqb_refl. reflexivity. }
    clear c c' Elt Cc Cc'. rewrite Lt. cbn [bind]. clear Lt.
    destruct (shear_about _ _ _ _ _ _ _ _ _ _ _ Pn Pd Pin Pps Cp Hqn Hl Hqds Hqds Hqen) as (qp & -> & Hqp).
    cbn [bind]. fold (plate_shear_per_length t) in Hqp. fold (area_of_plate t xl) in Hqp.
    assert (Apl : 0 < area_of_plate t xl) by (apply Rmult_lt_0_compat; assumption).
    assert (Ash : 0 < area_in_shear t xl) by (apply Rmult_lt_0_compat; assumption).
    destruct (mul_about u rnd Hr _ _ _ _ _ _ _ _ _ Hqs Hb) as (jn & -> & Hjn). cbn [bind].
    destruct (mul_about u rnd Hr _ _ _ _ _ _ _ _ _ Hqp Hp) as (jd & -> & Hjd). cbn [bind].
    assert (Njd : 0 < area_of_plate t xl * xp) by (apply Rmult_lt_0_compat; assumption).
    destruct (div_about u rnd Hr _ _ _ _ _ _ _ _ _ Hjn Hjd (nz_pos _ Njd)) as (jf & -> & Hjf). cbn [bind].
    destruct (scale_about u rnd Hr _ _ _ _ _ _ _ _ two_close Hqt) as (nu & -> & Hnu). cbn [bind].
    destruct (scale_about u rnd Hr _ _ _ _ _ _ _ _ pi_close Hqkn) as (kp & -> & Hkp). cbn [bind].
    destruct (ratio_about _ _ _ _ _ _ _ Pn Pe Pk Psh Cs Hqn Hqes Hqkn) as (s & Es & Hsr).
    destruct (@q_scale R N (@nofQ R N 0.57735) qn) as [c1|]; [|discriminate Es]. cbn [bind] in *.
    destruct (@q_sub R N qes qkn) as [df|]; [|discriminate Es]. cbn [bind] in *.
    destruct (@q_mul R N c1 df) as [c2|]; [|discriminate Es]. cbn [bind] in *.
    rewrite Es. cbn [bind].
    destruct (mul_about u rnd Hr _ _ _ _ _ _ _ _ _ Hkp Hsr) as (de & -> & Hde). cbn [bind].
    pose proof PI_RGT_0 as Ppi.
    assert (Nde : 0 < PI * (t_minor_int t * inch)
                   * (t_tpi t * (1 / (2 * t_tpi t) + 57735/100000 * (t_pitch_ext t - t_minor_int t)))).
    { repeat first [assumption | apply Rmult_lt_0_compat]. }
    destruct (div_about u rnd Hr _ _ _ _ _ _ _ _ _ Hnu Hde (nz_pos _ Nde)) as (ba & -> & Hba). cbn [bind].
    destruct (mul_about u rnd Hr _ _ _ _ _ _ _ _ _ Hba Hjf) as (me & -> & Hme). cbn [bind].
    eexists _, xb', (@base_mag R N qs), (@base_mag R N qt). split; [reflexivity|].
    cbn [screw_area plate_area minimum_engagement shear_warning].
    pose proof (base_about u rnd Hr _ _ _ _ _ Hqs) as Bs. pose proof (base_about u rnd Hr _ _ _ _ _ Hqt) as Bt.
    split; [exact Cx|]. split; [|split; [exact Hqp|split; [|split; [reflexivity|split]]]].
    - assert (Cs1 : close 1 (bv qs) (@base_mag R N qs)).
      { pose proof (base_about u rnd Hr _ _ _ _ _ (self_about _ _ _ (proj1 Hqs))) as Q.
        eapply close_weaken; [|exact Q]. lra. }
      assert (Ct1 : close 1 (bv qt) (@base_mag R N qt)).
      { pose proof (base_about u rnd Hr _ _ _ _ _ (self_about _ _ _ (proj1 Hqt))) as Q.
        eapply close_weaken; [|exact Q]. lra. }
      assert (Hqt' : close 4050 (area_in_tension t xb') (bv qt)) by (eapply close_weaken; [|exact (proj2 Hqt)]; lra).
      change (@nltb R N) with Rltb in *.
      destruct (Rltb_spec (@base_mag R N qs) (@base_mag R N qt)) as [L|L].
      + split; [exact (proj1 Hqs)|]. apply (close_weaken u (4050 + 2)); [lra|].
        apply (chosen 4050 _ _ _ (bv qt) _ _ (proj2 Hqs) Hqt' Cs1 Ct1 Ash At0). lra.
      + split; [exact (proj1 Hqt)|]. apply (close_weaken u (4050 + 2)); [lra|]. rewrite Rmin_comm.
        apply (chosen 4050 _ _ _ (bv qs) _ _ Hqt' (proj2 Hqs) Ct1 Cs1 At0 Ash). lra.
    - eapply about_eq; [eapply about_weaken; [|exact Hme]; lra|reflexivity|].
      unfold area_in_shear, area_of_plate, screw_shear_per_length.
      set (f := 1 / (2 * t_tpi t) + 57735/100000 * (t_pitch_ext t - t_minor_int t)) in *.
      field. repeat split; try lra.
    - eapply close_weaken; [|exact Bs]. lra.
    - eapply close_weaken; [|exact Bt]. lra.
  Qed.

  Lemma factors_about size grade t mp wa nb bolt plate len xP xA xb xp xl reg :
    thread_in_tables (THREAD_SPECS true) (THREAD_SPECS false) size grade t ->
    denotes mp d_pressure xP -> denotes wa d_area xA -> denotes bolt d_pressure xb ->
    denotes plate d_pressure xp -> denotes len d_length xl ->
    101/100 * atmosphere <= xP -> 0 < xA -> 0 < nb -> 0 <= xb -> 0 < xp -> 0 < xl ->
    exists f xb' c c', @calculate_safety_factors R N mp wa nb size grade bolt plate len reg = Ok f
      /\ close 30 xb xb'
      /\ close 25000 (xb * Rmin (area_in_tension t xb') (area_in_shear t xl)
                       / ((xP - atmosphere) * xA / nb)) (sf_bolt f)
      /\ close 25000 (xp * area_of_plate t xl / ((xP - atmosphere) * xA / nb)) (sf_plate f)
      /\ sf_warning f = Rltb c c' /\ close 4051 (area_in_shear t xl) c
      /\ close 421 (area_in_tension t xb') c'.
  Proof.
    intros T HP HA Hb Hp Hl P1 P2 P3 P4 P5 P6.
    assert (At1 : 0 < atmosphere) by (unfold atmosphere; lra).
    assert (Go : forall i d x, d <> d_temperature -> denotes i d x ->
      exists q, @parse_quant_input R N i reg = Ok q /\ about 10 q d x reg).
    { intros i d x Nd H. destruct (parse_approx u rnd Hr i d x reg Nd H) as (q & E & A).
      exists q. split; [exact E|]. destruct A as (a1 & a2 & a3 & a4 & a5). split; [repeat split; assumption|]. exists 10%nat. split; [cbn; lra|exact a4]. }
    destruct (Go mp d_pressure xP ltac:(discriminate) HP) as (qP & EP & AP).
    destruct (Go wa d_area xA ltac:(discriminate) HA) as (qA & EA & AA).
    destruct (Go bolt d_pressure xb ltac:(discriminate) Hb) as (qb & Eb & Ab).
    destruct (Go plate d_pressure xp ltac:(discriminate) Hp) as (qp & Ep & Ap).
    destruct (Go len d_length xl ltac:(discriminate) Hl) as (ql & El & Al).
    clear Go HP HA Hb Hp Hl.
    unfold calculate_safety_factors. rewrite EP, EA, Eb, Ep, El. cbn [bind].
    rewrite (check_about u rnd Hr 10 qP d_pressure xP reg "pressure" eq_refl AP) by lra.
    rewrite (check_about u rnd Hr 10 qA d_area xA reg "area" eq_refl AA) by lra.
    rewrite (check_about u rnd Hr 10 qb d_pressure xb reg "pressure" eq_refl Ab) by lra.
    rewrite (check_about u rnd Hr 10 qp d_pressure xp reg "pressure" eq_refl Ap) by lra.
    rewrite (check_about u rnd Hr 10 ql d_length xl reg "length" eq_refl Al) by lra.
    cbn [bind].
    destruct (quant_atm_about u rnd Hr reg) as (at_ & -> & Hat). cbn [bind].
    destruct (sub_about u rnd Hr Hs 201 qP at_ d_pressure xP atmosphere reg) as (g & -> & Hg);
      try lia; try lra.
    { eapply about_weaken; [|exact AP]; lra. } { eapply about_weaken; [|exact Hat]; lra. }
    cbn [bind].
    destruct (mul_about u rnd Hr _ _ _ _ _ _ _ _ _ Hg AA) as (fo & -> & Hfo). cbn [bind].
    assert (Cn : close 0 nb nb) by (exists 0%nat; split; [cbn; lra|apply near_refl; exact Hu]).
    destruct (divn_about u rnd Hr _ _ _ _ _ _ _ _ Cn (nz_pos nb P3) Hfo) as (wf & -> & Hwf). cbn [bind].
    assert (Ab' : about 20 qb d_pressure xb reg) by (eapply about_weaken; [|exact Ab]; lra).
    assert (Ap' : about 20 qp d_pressure xp reg) by (eapply about_weaken; [|exact Ap]; lra).
    assert (Al' : about 20 ql d_length xl reg) by (eapply about_weaken; [|exact Al]; lra).
    destruct (areas_about size grade t qb qp ql xb xp xl reg reg reg reg T Ab' Ap' Al' P4 P5 P6)
      as (a & xb' & c & c' & -> & Cx & Hsc & Hpl & _ & Ew & Cc & Cc'). cbn [bind].
    pose proof (table_sound _ _ _ T) as S0.
    pose proof (tension_pos t xb' S0) as At0.
    assert (Ash : 0 < area_in_shear t xl) by (apply Rmult_lt_0_compat; [now apply screw_shear_pos|assumption]).
    assert (Apl : 0 < area_of_plate t xl) by (apply Rmult_lt_0_compat; [now apply plate_shear_pos|assumption]).
    assert (Amin : 0 < Rmin (area_in_tension t xb') (area_in_shear t xl)) by (apply Rmin_glb_lt; assumption).
    set (am := Rmin (area_in_tension t xb') (area_in_shear t xl)) in *.
    set (fw := (xP - atmosphere) * xA / nb) in *.
    assert (Pf : 0 < fw) by (apply Rdiv_lt_0_compat; [apply Rmult_lt_0_compat|]; lra).
    apply (rereg_about u _ _ _ _ _ reg) in Hsc, Hpl.
    assert (Q1 : 0 < fw / am) by (apply Rdiv_lt_0_compat; assumption).
    assert (Q2 : 0 < fw / area_of_plate t xl) by (apply Rdiv_lt_0_compat; assumption).
    destruct (div_about u rnd Hr _ _ _ _ _ _ _ _ _ Hwf Hsc (nz_pos _ Amin)) as (sb & -> & Hsb). cbn [bind].
    destruct (div_about u rnd Hr _ _ _ _ _ _ _ _ _ Ab Hsb (nz_pos _ Q1)) as (b1 & -> & Hb1). cbn [bind].
    eapply about_eq with (d' := d_none) in Hb1; [|reflexivity|reflexivity].
    destruct (plain_about u rnd Hr _ _ _ _ Hb1) as (b & -> & Cb). cbn [bind].
    destruct (div_about u rnd Hr _ _ _ _ _ _ _ _ _ Hwf Hpl (nz_pos _ Apl)) as (sp & -> & Hsp). cbn [bind].
    destruct (div_about u rnd Hr _ _ _ _ _ _ _ _ _ Ap Hsp (nz_pos _ Q2)) as (p1 & -> & Hp1). cbn [bind].
    eapply about_eq with (d' := d_none) in Hp1; [|reflexivity|reflexivity].
    destruct (plain_about u rnd Hr _ _ _ _ Hp1) as (p & -> & Cp). cbn [bind].
    eexists _, xb', c, c'. split; [reflexivity|]. cbn [sf_bolt sf_plate sf_warning].
    split; [exact Cx|]. split; [|split; [|split; [exact Ew|split; assumption]]].
    - fold am. replace (xb * am / fw) with (xb / (fw / am)) by (field; split; lra).
      eapply close_weaken; [|exact Cb]. lra.
    - replace (xp * area_of_plate t xl / fw) with (xp / (fw / area_of_plate t xl)) by (field; split; lra).
      eapply close_weaken; [|exact Cp]. lra.
  Qed.
End RA.
