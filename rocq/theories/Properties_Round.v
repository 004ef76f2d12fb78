(** * Properties_Round: what survives when every arithmetic step is rounded.

    [@f R (Num_rounded rnd)] is the model of [f] with every operation rounded by [rnd];
    [@f R Num_R] is the model over exact real numbers. *)
From Coq Require Import String ZArith QArith Reals Qreals List Bool Lra Lia.
From Verif Require Import PyBase Pint UnitsM Spec QLemmas WindowM DdtM WindowP DdtP TubeM TubeP
  RoundM RoundSpec RoundP RoundWindowP RoundMonoP RoundDdtP RoundTubeP.
Import ListNotations.
Local Open Scope string_scope.
Local Open Scope R_scope.

(** C96: rounding moves the safety factor, the minimum thickness and the round trip only
    by a fixed small multiple of the rounding unit, whatever the sizes and units. *)
Theorem C96_window_rounding :
  forall (u : R) (rnd : R -> R), rounding u rnd ->
  forall (length width thickness pressure modulus : pyin R) (L W t P M s : R) (reg reg' : nat),
    denotes length d_length L -> denotes width d_length W -> denotes thickness d_length t ->
    denotes pressure d_pressure P -> denotes modulus d_pressure M ->
    0 < L -> 0 < W -> 0 <= t -> 0 < P -> 0 < M -> 1 <= s ->
    (exists f f',
       @safety_factor R Num_R length width thickness pressure modulus reg = Ok f
       /\ @safety_factor R (Num_rounded rnd) length width thickness pressure modulus reg = Ok f'
       /\ within (280 * u) f f')
    /\ (exists q tmin tmin' q' f',
       @minimum_thickness R Num_R length width (SfNum s) pressure modulus reg = Ok q
       /\ stands_for q d_length tmin reg
       /\ @minimum_thickness R (Num_rounded rnd) length width (SfNum s) pressure modulus reg = Ok q'
       /\ stands_for q' d_length tmin' reg
       /\ within (220 * u) tmin tmin'
       /\ @safety_factor R (Num_rounded rnd) length width (PQuant q') pressure modulus reg' = Ok f'
       /\ within (680 * u) s f').
Proof.
  intros u rnd Hr il iw it ip im L W t P M s reg reg' Hl Hw Ht Hp Hm L0 W0 t0 P0 M0 s1.
  pose proof (proj1 Hr) as Hu.
  assert (Al : arg_approx u rnd 10 il d_length L) by (apply arg_denotes; [exact Hr|discriminate|exact Hl]).
  assert (Aw : arg_approx u rnd 10 iw d_length W) by (apply arg_denotes; [exact Hr|discriminate|exact Hw]).
  assert (At : arg_approx u rnd 10 it d_length t) by (apply arg_denotes; [exact Hr|discriminate|exact Ht]).
  assert (Ap : arg_approx u rnd 10 ip d_pressure P) by (apply arg_denotes; [exact Hr|discriminate|exact Hp]).
  assert (Am : arg_approx u rnd 10 im d_pressure M) by (apply arg_denotes; [exact Hr|discriminate|exact Hm]).
  assert (B : forall n e x y, (INR n <= 500) -> 2 * INR n * u <= e -> near u n x y -> within e x y).
  { intros n e x y Hn. apply near_within; [exact Hu|]. pose proof (pos_INR n). nra. }
  split.
  - exists (sf_formula L W t P M).
    destruct (sf_rounded u rnd Hr 10 10 10 10 10 il iw it ip im L W t P M reg Al Aw At Ap Am L0 W0 P0 (Rlt_le _ _ M0) t0)
      as (y & E & Ny).
    exists y. split; [apply sf_closed; try assumption; lra|]. split; [exact E|].
    eapply B; [| |exact Ny]; rewrite INR_IZR_INZ; cbn -[Rmult]; lra.
  - destruct (mt_closed il iw ip im L W P M reg Hl Hw Hp Hm L0 W0 P0 s M0 s1) as (q & Eq & Sq).
    destruct (mt_rounded u rnd Hr 10 10 10 10 il iw ip im L W P M s reg Al Aw Ap Am L0 W0 P0 M0 s1)
      as (q' & Eq' & Aq' & Sc).
    assert (Nq := Aq'). destruct Nq as (D' & O' & S' & N' & R').
    destruct (sf_rounded u rnd Hr 10 10 110 10 10 il iw (PQuant q') ip im L W
               (thickness_formula L W P M s) P M reg' Al Aw
               (arg_quantity u rnd 110 q' _ _ reg Aq') Ap Am L0 W0 P0 (Rlt_le _ _ M0)
               (thickness_nonneg L W P M s L0)) as (y & E & Ny).
    rewrite sf_formula_thickness in Ny by assumption.
    exists q, (thickness_formula L W P M s), (q_mag q' * u_scale (q_unit q')), q', y.
    split; [exact Eq|]. split; [exact Sq|]. split; [exact Eq'|].
    split; [repeat split; assumption|].
    split; [eapply B; [| |exact N']; rewrite INR_IZR_INZ; cbn -[Rmult]; lra|].
    split; [exact E|].
    eapply B; [| |exact Ny]; rewrite INR_IZR_INZ; cbn -[Rmult]; lra.
Qed.
Print Assumptions C96_window_rounding.

(** In double precision: fourteen digits or so. *)
Theorem C96_window_double :
  forall (length width thickness pressure modulus : pyin R) (L W t P M s : R) (reg reg' : nat),
    denotes length d_length L -> denotes width d_length W -> denotes thickness d_length t ->
    denotes pressure d_pressure P -> denotes modulus d_pressure M ->
    0 < L -> 0 < W -> 0 <= t -> 0 < P -> 0 < M -> 1 <= s ->
    (exists f f',
       @safety_factor R Num_R length width thickness pressure modulus reg = Ok f
       /\ @safety_factor R (Num_rounded double) length width thickness pressure modulus reg = Ok f'
       /\ within 1e-13 f f')
    /\ (exists q' f',
       @minimum_thickness R (Num_rounded double) length width (SfNum s) pressure modulus reg = Ok q'
       /\ @safety_factor R (Num_rounded double) length width (PQuant q') pressure modulus reg' = Ok f'
       /\ within 1e-13 s f').
Proof.
  intros il iw it ip im L W t P M s reg reg' Hl Hw Ht Hp Hm L0 W0 t0 P0 M0 s1.
  destruct (C96_window_rounding _ _ double_rounding il iw it ip im L W t P M s reg reg'
              Hl Hw Ht Hp Hm L0 W0 t0 P0 M0 s1)
    as ((f & f' & E & E' & Wi) & (q & tm & tm' & q' & g & _ & _ & E3 & _ & _ & E4 & Wi2)).
  assert (Wk : forall e e' x y, e <= e' -> within e x y -> within e' x y).
  { intros e e' x y He. unfold within. intros H. eapply Rle_trans; [exact H|].
    apply Rmult_le_compat_r; [apply Rabs_pos|exact He]. }
  assert (Du : 680 * double_unit <= 1e-13) by (unfold double_unit; cbn -[Rmult]; lra).
  assert (D0 : 0 <= double_unit) by (unfold double_unit; cbn -[Rmult]; lra).
  split.
  - exists f, f'. split; [exact E|]. split; [exact E'|]. eapply Wk; [|exact Wi]. lra.
  - exists q', g. split; [exact E3|]. split; [exact E4|]. eapply Wk; [|exact Wi2]. exact Du.
Qed.
Print Assumptions C96_window_double.

(** C97: a thicker window, a stronger glass or a lower pressure never gets a smaller
    safety factor, however the arithmetic rounds. *)
Theorem C97_window_order_rounded :
  forall (u : R) (rnd : R -> R), rounding u rnd ->
  forall (m1 m2 : R) (unit_name : string), 0 <= m1 <= m2 ->
  forall (length width other_p other_t other_m : pyin R) (L W P t M : R) (reg : nat),
    denotes length d_length L -> denotes width d_length W -> denotes other_t d_length t ->
    denotes other_p d_pressure P -> denotes other_m d_pressure M ->
    0 < L -> 0 < W -> 0 < P -> 0 <= t -> 0 <= M ->
    let given m := PSeq [ENum m; EStr unit_name] in
    (forall x1 x2, denotes (given m1) d_length x1 -> denotes (given m2) d_length x2 ->
       exists f1 f2,
         @safety_factor R (Num_rounded rnd) length width (given m1) other_p other_m reg = Ok f1
         /\ @safety_factor R (Num_rounded rnd) length width (given m2) other_p other_m reg = Ok f2
         /\ f1 <= f2)
    /\ (forall x1 x2, denotes (given m1) d_pressure x1 -> denotes (given m2) d_pressure x2 ->
       exists f1 f2,
         @safety_factor R (Num_rounded rnd) length width other_t other_p (given m1) reg = Ok f1
         /\ @safety_factor R (Num_rounded rnd) length width other_t other_p (given m2) reg = Ok f2
         /\ f1 <= f2)
    /\ (forall x1 x2, denotes (given m1) d_pressure x1 -> denotes (given m2) d_pressure x2 -> 0 < m1 ->
       exists f1 f2,
         @safety_factor R (Num_rounded rnd) length width other_t (given m1) other_m reg = Ok f1
         /\ @safety_factor R (Num_rounded rnd) length width other_t (given m2) other_m reg = Ok f2
         /\ f2 <= f1).
Proof.
  intros u rnd Hr m1 m2 s (M1 & M2) il iw ip it im L W P t M reg Hl Hw Ht Hp Hm L0 W0 P0 t0 M0 given.
  pose proof (proj1 Hr) as Hu.
  destruct (loads_approx u rnd Hr il d_length L ltac:(discriminate) Hl) as (L' & Ll & Nl).
  destruct (loads_approx u rnd Hr iw d_length W ltac:(discriminate) Hw) as (W' & Lw & Nw).
  destruct (loads_approx u rnd Hr it d_length t ltac:(discriminate) Ht) as (t' & Lt & Nt).
  destruct (loads_approx u rnd Hr ip d_pressure P ltac:(discriminate) Hp) as (P' & Lp & Np).
  destruct (loads_approx u rnd Hr im d_pressure M ltac:(discriminate) Hm) as (M' & Lm & Nm).
  assert (L0' : 0 < L') by (eapply near_pos; eauto).
  assert (W0' : 0 < W') by (eapply near_pos; eauto).
  assert (P0' : 0 < P') by (eapply near_pos; eauto).
  assert (t0' : 0 <= t') by (eapply near_nonneg; eauto).
  assert (M0' : 0 <= M') by (eapply near_nonneg; eauto).
  assert (G : forall d x1 x2, d <> d_temperature -> denotes (given m1) d x1 -> denotes (given m2) d x2 ->
    exists a b, loads rnd (given m1) d a /\ loads rnd (given m2) d b /\ 0 <= a <= b /\ (0 < m1 -> 0 < a)).
  { intros d x1 x2 Nd H1 H2.
    destruct (loads_approx u rnd Hr _ d _ Nd H1) as (a & La & Na).
    destruct (loads_approx u rnd Hr _ d _ Nd H2) as (b & Lb & Nb).
    exists a, b. split; [exact La|]. split; [exact Lb|].
    inversion H1 as [|? ? v ? ? Lk Dk Wk]; subst.
    assert (O : u_off v = None).
    { destruct (u_off v) eqn:E; [|reflexivity]. exfalso. apply Nd. apply (lookup_wf s v Lk). congruence. }
    destruct (lookup_near u rnd Hr s v Lk O) as (v' & Lv & (Dv & _ & Ov & _ & Nv)).
    assert (Sv : 0 < u_scale v') by (eapply near_pos; [exact Hu|exact Nv|apply (lookup_wf s v Lk)]).
    assert (F : forall m y, loads rnd (given m) (u_dim v) y -> y = rnd (m * u_scale v')).
    { intros m y Hy. specialize (Hy 0%nat). unfold given, parse_base in Hy.
      cbn [parse_quant_input quantity_of_items] in Hy. unfold quant in Hy. rewrite Lv in Hy. cbn [bind] in Hy.
      injection Hy as Hy. unfold base_mag in Hy. cbn [q_unit q_mag] in Hy. rewrite Ov in Hy.
      cbn [nmul Num_rounded] in Hy. congruence. }
    rewrite (F _ _ La), (F _ _ Lb). split.
    - split; [apply (rnn u rnd Hr); nra|apply (rnd_mono u rnd Hr); nra].
    - intros Mp. apply (rnd_pos u rnd Hr). nra. }
  split; [|split].
  - intros x1 x2 H1 H2. destruct (G d_length _ _ ltac:(discriminate) H1 H2) as (a & b & La & Lb & (A0 & AB) & _).
    do 2 eexists. split; [apply (sf_form u rnd Hr _ _ _ _ _ L' W' a P' M' reg); assumption|].
    split; [apply (sf_form u rnd Hr _ _ _ _ _ L' W' b P' M' reg); try assumption; lra|].
    apply (sfF_thickness u rnd Hr); try assumption. lra.
  - intros x1 x2 H1 H2. destruct (G d_pressure _ _ ltac:(discriminate) H1 H2) as (a & b & La & Lb & (A0 & AB) & _).
    do 2 eexists. split; [apply (sf_form u rnd Hr _ _ _ _ _ L' W' t' P' a reg); assumption|].
    split; [apply (sf_form u rnd Hr _ _ _ _ _ L' W' t' P' b reg); try assumption; lra|].
    apply (sfF_modulus u rnd Hr); try assumption. lra.
  - intros x1 x2 H1 H2 Mp. destruct (G d_pressure _ _ ltac:(discriminate) H1 H2) as (a & b & La & Lb & (A0 & AB) & Ap).
    specialize (Ap Mp).
    do 2 eexists. split; [apply (sf_form u rnd Hr _ _ _ _ _ L' W' t' a M' reg); assumption|].
    split; [apply (sf_form u rnd Hr _ _ _ _ _ L' W' t' b M' reg); try assumption; lra|].
    apply (sfF_pressure u rnd Hr); try assumption. lra.
Qed.
Print Assumptions C97_window_order_rounded.

(** C98: rounding lets no bad argument through. *)
Theorem C98_window_rejects_rounded :
  forall (u : R) (rnd : R -> R), rounding u rnd ->
  forall (length width thickness pressure modulus : pyin R) (dl dw dt dp dm : dim)
         (L W t P M s : R) (reg : nat),
    denotes length dl L -> denotes width dw W -> denotes thickness dt t ->
    denotes pressure dp P -> denotes modulus dm M ->
    (dl <> d_length \/ L < 0 \/ dw <> d_length \/ W < 0
     \/ dp <> d_pressure \/ P < 0 \/ dm <> d_pressure \/ M < 0 \/ s < 1 ->
     is_value_error (@minimum_thickness R (Num_rounded rnd) length width (SfNum s) pressure modulus reg))
    /\ (dl <> d_length \/ L < 0 \/ dw <> d_length \/ W < 0 \/ dt <> d_length \/ t < 0
     \/ dp <> d_pressure \/ P < 0 \/ dm <> d_pressure \/ M < 0 ->
     is_value_error (@safety_factor R (Num_rounded rnd) length width thickness pressure modulus reg)).
Proof.
  intros u rnd Hr il iw it ip im dl dw dt dp dm L W t P M s reg Hl Hw Ht Hp Hm. split; intros Bad.
  - eapply (mt_rejects_rounded u rnd Hr il iw ip im); eassumption.
  - eapply (sf_rejects_rounded u rnd Hr il iw it ip im); eassumption.
Qed.
Print Assumptions C98_window_rejects_rounded.

(** Double precision is a rounding, and a 5.75 in x 2.5 in window at 10 MPa and 197.9 MPa
    meets the hypotheses of C96 and C97. *)
Example round_window_case :
  rounding double_unit double
  /\ denotes (PSeq [ENum 5.75; EStr "in"]) d_length (5.75 * (254/10000))
  /\ denotes (PSeq [ENum 2.5; EStr "in"]) d_length (2.5 * (254/10000))
  /\ denotes (PSeq [ENum 1; EStr "in"]) d_length (1 * (254/10000))
  /\ denotes (PSeq [ENum 10; EStr "MPa"]) d_pressure (10 * 1000000)
  /\ denotes (PSeq [ENum 197.9; EStr "MPa"]) d_pressure (197.9 * 1000000)
  /\ 0 < 5.75 * (254/10000) /\ 0 < 2.5 * (254/10000) /\ 0 <= 1 * (254/10000)
  /\ 0 < 10 * 1000000 /\ 0 < 197.9 * 1000000 /\ 1 <= 4
  /\ double 0.1 <> 0.1.
Proof.
  split; [exact double_rounding|].
  repeat split; try apply denotes_inch; try apply denotes_MPa; try Lra.lra.
  exact double_tenth.
Qed.

(** C99: blockages.  The spiral diameter is off by at most 15 rounding units of the tube
    diameter, never negative, and never shrinks when the ratio grows; the ratio is off by
    at most 220 units; and a ratio survives the trip through the diameter up to 130. *)
Theorem C99_blockage_rounding :
  forall (u : R) (rnd : R -> R), rounding u rnd ->
  forall (tube blockage : pyin R) (D d b b2 : R) (reg reg' : nat),
    denotes tube d_length D -> denotes blockage d_length d ->
    0 < D -> 0 <= d -> 0 < b < 1 -> b <= b2 < 1 ->
    (exists q q' x x' q2 x2,
       @calculate_blockage_diameter R Num_R tube (BrNum b) reg = Ok q
       /\ stands_for q d_length x reg
       /\ @calculate_blockage_diameter R (Num_rounded rnd) tube (BrNum b) reg = Ok q'
       /\ stands_for q' d_length x' reg
       /\ Rabs (x' - x) <= 15 * u * D
       /\ @calculate_blockage_diameter R (Num_rounded rnd) tube (BrNum b2) reg = Ok q2
       /\ stands_for q2 d_length x2 reg
       /\ 0 <= x' <= x2)
    /\ (d < (1 - 30 * u) * D ->
       exists f f',
         @calculate_blockage_ratio R Num_R tube blockage reg = Ok f
         /\ @calculate_blockage_ratio R (Num_rounded rnd) tube blockage reg = Ok f'
         /\ 0 <= f' <= 1 /\ Rabs (f' - f) <= 220 * u)
    /\ ((1 + 30 * u) * D <= d ->
        is_value_error (@calculate_blockage_ratio R (Num_rounded rnd) tube blockage reg))
    /\ ((exists f', @calculate_blockage_ratio R (Num_rounded rnd) tube blockage reg = Ok f'
                    /\ 0 <= f' <= 1)
        \/ is_value_error (@calculate_blockage_ratio R (Num_rounded rnd) tube blockage reg))
    /\ (exists q' f',
         @calculate_blockage_diameter R (Num_rounded rnd) tube (BrNum b) reg = Ok q'
         /\ @calculate_blockage_ratio R (Num_rounded rnd) tube (PQuant q') reg' = Ok f'
         /\ Rabs (f' - b) <= 130 * u).
Proof.
  intros u rnd Hr it ib D d b b2 reg reg' Ht Hb D0 d0 B (B2 & B3).
  pose proof (proj1 Hr) as Hu.
  assert (At : arg_approx u rnd 10 it d_length D) by (apply arg_denotes; [exact Hr|discriminate|exact Ht]).
  assert (Ab : arg_approx u rnd 10 ib d_length d) by (apply arg_denotes; [exact Hr|discriminate|exact Hb]).
  pose proof (frac_range u rnd Hr b B) as Fr. pose proof (frac_err u rnd Hr b B) as Fe.
  destruct (bd_rounded u rnd Hr 10 it D b reg At (Rlt_le _ _ D0) B) as (q' & E' & A').
  split; [|split; [|split; [|split]]].
  - destruct (bd_closed it D b reg Ht (Rlt_le _ _ D0) B) as (q & E & Sq & _).
    assert (B2' : 0 < b2 < 1) by lra.
    destruct (bd_mono_rounded u rnd Hr it D b b2 reg Ht D0 B B2 B3) as (p' & p2 & x' & x2 & Ep & Sp & Ep2 & Sp2 & X).
    rewrite E' in Ep. injection Ep as <-.
    exists q, q', (D / 2 * (1 - sqrt (1 - b))), x', p2, x2.
    split; [exact E|]. split; [exact Sq|]. split; [exact E'|]. split; [exact Sp|].
    split; [|split; [exact Ep2|split; [exact Sp2|exact X]]].
    destruct A' as (_ & _ & _ & Nx & _). destruct Sp as (_ & _ & _ & Ex & _). rewrite Ex in Nx.
    apply (near_err u rnd Hr) in Nx; [|lia]. rewrite INR_IZR_INZ in Nx. cbn -[Rmult] in Nx.
    rewrite (Rabs_pos_eq (frac rnd b * (D / 2))) in Nx by (apply Rmult_le_pos; lra).
    replace (x' - D / 2 * (1 - sqrt (1 - b)))
      with ((x' - frac rnd b * (D / 2)) + (D / 2) * (frac rnd b - (1 - sqrt (1 - b)))) by ring.
    eapply Rle_trans; [apply Rabs_triang|]. rewrite (Rabs_mult (D / 2)), (Rabs_pos_eq (D / 2)) by lra.
    assert (frac rnd b * (D / 2) <= D / 2) by nra.
    assert (u * (frac rnd b * (D / 2)) <= u * (D / 2)) by (apply Rmult_le_compat_l; lra).
    assert (D / 2 * Rabs (frac rnd b - (1 - sqrt (1 - b))) <= D / 2 * (5 * u)) by (apply Rmult_le_compat_l; lra).
    nra.
  - intros H.
    destruct (proj2 (br_edge u rnd Hr 10 10 it ib D d reg ltac:(lia) ltac:(lia) At Ab D0 d0) H)
      as (r' & f' & Nr & Rr & Ef & E).
    assert (Dd : d < D) by nra.
    exists (br_formula D d), f'. split; [apply br_closed; assumption|]. split; [exact E|].
    assert (Rx : 0 <= 2 * d / D <= 2).
    { split; [apply div_nn; lra|]. apply Rmult_le_reg_r with D; [exact D0|].
      unfold Rdiv. rewrite Rmult_assoc, Rinv_l by lra. lra. }
    apply (near_err u rnd Hr) in Nr; [|lia]. rewrite INR_IZR_INZ in Nr. cbn -[Rmult] in Nr.
    rewrite (Rabs_pos_eq (2 * d / D)) in Nr by lra.
    assert (Nr' : Rabs (r' - 2 * d / D) <= 108 * u) by nra.
    destruct (tail_err u rnd Hr (2 * d / D) r' (108 * u) Rx Rr Nr') as (T1 & T2).
    rewrite Ef. split; [exact T1|]. unfold br_formula.
    replace ((1 - 2 * d / D) ^ 2) with ((1 - 2 * d / D) * (1 - 2 * d / D)) by ring.
    eapply Rle_trans; [exact T2|]. lra.
  - intros H. exact (proj1 (br_edge u rnd Hr 10 10 it ib D d reg ltac:(lia) ltac:(lia) At Ab D0 d0) H).
  - exact (br_range_rounded u rnd Hr 10 10 it ib D d reg At Ab D0 d0).
  - exists q'.
    assert (Aq : arg_approx u rnd 12 (PQuant q') d_length (frac rnd b * (D / 2))) by (exact (arg_quantity u rnd _ _ _ _ _ A')).
    assert (X0 : 0 <= frac rnd b * (D / 2)) by (apply Rmult_le_pos; lra).
    destruct (proj2 (br_edge u rnd Hr 10 12 it (PQuant q') D _ reg' ltac:(lia) ltac:(lia) At Aq D0 X0)) 
      as (r' & f' & Nr & Rr & Ef & E); [nra|].
    exists f'. split; [exact E'|]. split; [exact E|].
    replace (2 * (frac rnd b * (D / 2)) / D) with (frac rnd b) in Nr by (field; lra).
    apply (near_err u rnd Hr) in Nr; [|lia]. rewrite INR_IZR_INZ in Nr. cbn -[Rmult] in Nr.
    rewrite (Rabs_pos_eq (frac rnd b)) in Nr by lra.
    assert (Rx : 0 <= 1 - sqrt (1 - b) <= 2).
    { assert (0 <= sqrt (1 - b) <= 1); [|lra]. split; [apply sqrt_pos|].
      apply Rle_trans with (sqrt 1); [apply sqrt_le_1_alt; lra|rewrite sqrt_1; lra]. }
    assert (Nr' : Rabs (r' - (1 - sqrt (1 - b))) <= 59 * u).
    { replace (r' - (1 - sqrt (1 - b))) with ((r' - frac rnd b) + (frac rnd b - (1 - sqrt (1 - b)))) by ring.
      eapply Rle_trans; [apply Rabs_triang|]. nra. }
    destruct (tail_err u rnd Hr _ r' (59 * u) Rx Rr Nr') as (_ & T2).
    rewrite Ef. replace b with (1 - (1 - (1 - sqrt (1 - b))) * (1 - (1 - sqrt (1 - b)))) at 1.
    2:{ replace (1 - (1 - sqrt (1 - b))) with (sqrt (1 - b)) by ring. rewrite sqrt_sqrt by lra. ring. }
    eapply Rle_trans; [exact T2|]. lra.
Qed.
Print Assumptions C99_blockage_rounding.

(** but a ratio of 2^-55 or less gets no spiral at all in double precision, although the
    exact diameter is positive. *)
Theorem C99_tiny_ratio_loses_the_spiral :
  forall (tube : pyin R) (D b : R) (reg : nat),
    denotes tube d_length D -> 0 < D -> 0 < b <= / IZR (2 ^ 55) ->
    returns (@calculate_blockage_diameter R (Num_rounded double) tube (BrNum b) reg) d_length 0 reg
    /\ exists x, 0 < x
        /\ returns (@calculate_blockage_diameter R Num_R tube (BrNum b) reg) d_length x reg.
Proof.
  intros it D b reg Ht D0 (B0 & B1).
  assert (B : 0 < b < 1) by (cbn -[IZR] in B1; lra). split.
  - assert (At : arg_approx double_unit double 10 it d_length D)
      by (apply arg_denotes; [exact double_rounding|discriminate|exact Ht]).
    destruct (bd_rounded _ _ double_rounding 10 it D b reg At (Rlt_le _ _ D0) B) as (q & E & (a1 & a2 & a3 & a4 & a5)).
    exists q. split; [exact E|]. repeat split; try assumption.
    assert (F : frac double b = 0).
    { unfold frac. rewrite (double_just_below_one b) by (split; [exact B0|exact B1]). rewrite sqrt_1.
      rewrite (r1 _ _ double_rounding). replace (1 - 1) with 0 by ring. apply (r0 _ _ double_rounding). }
    rewrite F, Rmult_0_l in a4. destruct a4 as (e & -> & _). ring.
  - destruct (bd_closed it D b reg Ht (Rlt_le _ _ D0) B) as (q & E & Sq & _).
    exists (D / 2 * (1 - sqrt (1 - b))). split; [|exists q; auto].
    apply Rmult_lt_0_compat; [lra|]. assert (sqrt (1 - b) < 1); [|lra].
    apply Rlt_le_trans with (sqrt 1); [apply sqrt_lt_1_alt; lra|rewrite sqrt_1; lra].
Qed.
Print Assumptions C99_tiny_ratio_loses_the_spiral.
Example round_blockage_case :
  rounding double_unit double
  /\ denotes (PSeq [ENum 5.761; EStr "in"]) d_length (5.761 * (254/10000))
  /\ denotes (PSeq [ENum 0.5; EStr "in"]) d_length (0.5 * (254/10000))
  /\ 0 < 0.444 < 1 /\ 0.5 * (254/10000) < (1 - 30 * double_unit) * (5.761 * (254/10000))
  /\ 0 < / IZR (2 ^ 56) <= / IZR (2 ^ 55).
Proof.
  split; [exact double_rounding|]. unfold double_unit.
  repeat split; try apply denotes_inch; cbn -[IZR]; Lra.lra.
Qed.

(** C100: rounding moves the maximum pressure by at most 100 rounding units of
    stress / safety factor, however thin the wall. *)
Theorem C100_max_pressure_rounding :
  forall (u : R) (rnd : R -> R), rounding u rnd ->
  forall (tube_id tube_od max_stress : quantity R) (ID OD stress sf : R) (reg : nat),
    stands_for tube_id d_length ID reg -> stands_for tube_od d_length OD reg ->
    stands_for max_stress d_pressure stress reg ->
    0 <= ID -> 0 <= OD -> 0 < OD + ID -> 0 <= stress -> 0 < sf ->
    exists p p',
      returns (@calculate_max_pressure R Num_R tube_id tube_od max_stress sf) d_pressure p reg
      /\ returns (@calculate_max_pressure R (Num_rounded rnd) tube_id tube_od max_stress sf) d_pressure p' reg
      /\ Rabs (p' - p) <= 100 * u * (stress / sf).
Proof.
  intros u rnd Hr qi qo qs ID OD sg sf reg Hi Ho Hs I0 O0 G0 s0 sf0.
  pose proof (proj1 Hr) as Hu.
  destruct (mp_rounded u rnd Hr qi qo qs ID OD sg sf reg Hi Ho Hs I0 O0 G0 s0 sf0) as (q & h & E & Eh & Aq).
  exists (mp_formula ID OD sg sf), (q_mag q * u_scale (q_unit q)).
  split; [apply mp_closed; try assumption; lra|].
  split; [exists q; split; [exact E|]; destruct Aq as (a & b & c & _ & e); repeat split; assumption|].
  destruct Aq as (_ & _ & _ & Nq & _). apply (near_err u rnd Hr) in Nq; [|lia].
  rewrite INR_IZR_INZ in Nq. cbn -[Rmult] in Nq.
  set (y := q_mag q * u_scale (q_unit q)) in *.
  set (k := sg / sf). assert (K : 0 <= k) by (apply div_nn; assumption).
  assert (F : forall x, sg * (2 * (x / 2)) / (sf * ((OD + ID) / 2)) = 2 * k * (x / (OD + ID)))
    by (intros x; unfold k; field; lra).
  unfold mp_formula. rewrite F in *.
  assert (X1 : Rabs (h / (OD + ID) - (OD - ID) / (OD + ID)) <= 6 * u).
  { replace (h / (OD + ID) - (OD - ID) / (OD + ID)) with ((h - (OD - ID)) / (OD + ID)) by (field; lra).
    unfold Rdiv. rewrite Rabs_mult, Rabs_inv, (Rabs_pos_eq (OD + ID)) by lra.
    apply Rmult_le_reg_r with (OD + ID); [exact G0|]. rewrite Rmult_assoc, Rinv_l by lra. lra. }
  assert (X2 : Rabs ((OD - ID) / (OD + ID)) <= 1).
  { unfold Rdiv. rewrite Rabs_mult, Rabs_inv, (Rabs_pos_eq (OD + ID)) by lra.
    apply Rmult_le_reg_r with (OD + ID); [exact G0|]. rewrite Rmult_assoc, Rinv_l by lra.
    rewrite Rmult_1_r, Rmult_1_l. apply Rabs_le. lra. }
  set (a := h / (OD + ID)) in *. set (b := (OD - ID) / (OD + ID)) in *.
  assert (X3 : Rabs a <= 2).
  { replace a with (b + (a - b)) by ring. eapply Rle_trans; [apply Rabs_triang|]. lra. }
  assert (X4 : Rabs a <= 1 + 6 * u).
  { replace a with (b + (a - b)) by ring. eapply Rle_trans; [apply Rabs_triang|]. lra. }
  rewrite Rabs_mult, (Rabs_pos_eq (2 * k)) in Nq by lra.
  replace (y - 2 * k * b) with ((y - 2 * k * a) + 2 * k * (a - b)) by ring.
  eapply Rle_trans; [apply Rabs_triang|]. rewrite (Rabs_mult (2 * k)), (Rabs_pos_eq (2 * k)) by lra.
  assert (Y1 : 2 * k * Rabs (a - b) <= 2 * k * (6 * u)) by (apply Rmult_le_compat_l; lra).
  assert (Y2 : 2 * 20 * u * (2 * k * Rabs a) <= 2 * 20 * u * (2 * k * (1 + 6 * u))).
  { apply Rmult_le_compat_l; [lra|]. apply Rmult_le_compat_l; lra. }
  assert (Y3 : u * u * k <= 1/1024 * (u * k)) by (rewrite Rmult_assoc; apply Rmult_le_compat_r; nra).
  nra.
Qed.
Print Assumptions C100_max_pressure_rounding.

(** C101: away from the two edges of the resonance band by a relative margin of a few
    rounding units (times the slenderness T of the wall) the load factor is the same. *)
Theorem C101_load_factor_rounding :
  forall (u : R) (rnd : R -> R), rounding u rnd ->
  forall (tube_id tube_od cj_velocity elastic_modulus density : quantity R)
         (ID OD v E rho nu f V r h margin : R) (T reg : nat),
    stands_for tube_id d_length ID reg -> stands_for tube_od d_length OD reg ->
    stands_for cj_velocity d_velocity v reg ->
    stands_for elastic_modulus d_pressure E reg -> stands_for density d_density rho reg ->
    0 <= ID -> ID < OD -> 0 <= v -> 0 <= E -> 0 < rho -> 0 <= nu <= 1/2 -> 0 < f < 1 ->
    h = (OD - ID) / 2 -> r = (ID / 2 + OD / 2) / 2 ->
    0 <= V -> V^4 = E^2 * h^2 / (3 * rho^2 * r^2 * (1 - nu^2)) ->
    OD + ID <= INR T * (OD - ID) -> margin = (24 * INR T + 40) * u -> margin <= 1/2 ->
    let dlf := @dynamic_load_factor R (Num_rounded rnd)
                 tube_id tube_od cj_velocity elastic_modulus density nu f in
    (v < (1 - margin) * ((1 - f) * V) -> dlf = Ok 1%nat)
    /\ ((1 + 2 * margin) * ((1 + f) * V) < v -> dlf = Ok 2%nat)
    /\ ((1 + 2 * margin) * ((1 - f) * V) <= v <= (1 - margin) * ((1 + f) * V) -> dlf = Ok 4%nat)
    /\ (dlf = Ok 1%nat \/ dlf = Ok 2%nat \/ dlf = Ok 4%nat).
Proof.
  intros u rnd Hr qi qo qv qe qr ID OD v E rho nu f V r h mg T reg Hi Ho Hv He Hd I0 IO v0 E0 r0 n0 f0
    Eh Er V0 EV TT Em Mh dlf.
  pose proof (proj1 Hr) as Hu. pose proof (pos_INR T) as T0.
  assert (Tu : 6 * INR T * u <= 1/2) by nra.
  assert (EV' : sqrt (sqrt (vcrit4 ID OD E rho nu)) = V).
  { apply root4_unique; [exact V0|]. rewrite EV, Eh, Er. unfold vcrit4. field. repeat split; nra. }
  destruct (dlf_rounded u rnd Hr T qi qo qv qe qr ID OD v E rho nu f reg Hi Ho Hv He Hd I0 IO v0 E0 r0 n0 f0 TT Tu)
    as (lo & up & v' & Nl & Nup & Nv & Ed).
  rewrite EV' in Nl, Nup. unfold dlf. rewrite Ed.
  destruct Nl as (el & -> & Ll & Ul). destruct Nup as (eu & -> & Lu & Uu). destruct Nv as (ev & -> & Lv & Uv).
  pose proof (bernoulli u Hu (24 * T + 38 + 2)) as B.
  replace (INR (24 * T + 38 + 2)) with (24 * INR T + 40) in B
    by (rewrite !plus_INR, mult_INR, !(INR_IZR_INZ 24), !(INR_IZR_INZ 38), !(INR_IZR_INZ 2); cbn -[Rmult INR]; lra).
  rewrite <- Em, pow_add in B.
  pose proof (pow_pos_u u Hu (24 * T + 38)) as P1. pose proof (pow_pos_u u Hu 2) as P2.
  pose proof (pow_le1 u Hu (24 * T + 38)) as Q1. pose proof (pow_le1 u Hu 2) as Q2.
  set (a := (1 - u)^(24 * T + 38)) in *. set (c := (1 - u)^2) in *.
  assert (Ia : / a * a = 1) by (apply Rinv_l; lra). assert (Ic : / c * c = 1) by (apply Rinv_l; lra).
  assert (M0 : 0 <= mg) by (rewrite Em; apply Rmult_le_pos; lra).
  assert (K1 : forall x y e1 e2, 0 <= x -> 0 <= y -> (x < (1 - mg) * y) ->
            e1 <= / c -> a <= e2 -> x * e1 < y * e2).
  { intros x y e1 e2 X Y H H1 H2.
    apply Rle_lt_trans with (x * / c); [apply Rmult_le_compat_l; assumption|].
    apply Rlt_le_trans with (y * a); [|apply Rmult_le_compat_l; assumption].
    apply Rmult_lt_reg_r with c; [exact P2|]. rewrite Rmult_assoc, Ic, Rmult_1_r.
    eapply Rlt_le_trans; [exact H|]. replace (y * a * c) with (a * c * y) by ring. apply Rmult_le_compat_r; lra. }
  assert (K2 : forall x y e1 e2, 0 <= x -> 0 <= y -> (1 + 2 * mg) * y <= x ->
            c <= e1 -> e2 <= / a -> y * e2 <= x * e1).
  { intros x y e1 e2 X Y H H1 H2.
    apply Rle_trans with (y * / a); [apply Rmult_le_compat_l; assumption|].
    apply Rle_trans with (x * c); [|apply Rmult_le_compat_l; assumption].
    apply Rmult_le_reg_r with a; [exact P1|]. rewrite Rmult_assoc, Ia, Rmult_1_r.
    apply Rle_trans with ((1 + 2 * mg) * y * (1 - mg)).
    - assert (0 <= mg * (1 - 2 * mg)) by (apply Rmult_le_pos; lra). nra.
    - replace (x * c * a) with (x * (a * c)) by ring. apply Rmult_le_compat; try lra.
      apply Rmult_le_pos; lra. }
  assert (K3 : forall x y e1 e2, 0 <= x -> 0 <= y -> (1 + 2 * mg) * y < x ->
            c <= e1 -> e2 <= / a -> y * e2 < x * e1).
  { intros x y e1 e2 X Y H H1 H2.
    apply Rle_lt_trans with (y * / a); [apply Rmult_le_compat_l; assumption|].
    apply Rlt_le_trans with (x * c); [|apply Rmult_le_compat_l; assumption].
    apply Rmult_lt_reg_r with a; [exact P1|]. rewrite Rmult_assoc, Ia, Rmult_1_r.
    apply Rle_lt_trans with ((1 + 2 * mg) * y * (1 - mg)).
    - assert (0 <= mg * (1 - 2 * mg)) by (apply Rmult_le_pos; lra). nra.
    - apply Rlt_le_trans with (x * (1 - mg)); [apply Rmult_lt_compat_r; lra|].
      replace (x * c * a) with (x * (a * c)) by ring. apply Rmult_le_compat_l; lra. }
  assert (L0 : 0 <= (1 - f) * V) by (apply Rmult_le_pos; lra).
  assert (U0 : 0 <= (1 + f) * V) by (apply Rmult_le_pos; lra).
  split; [|split; [|split]].
  - intros H. rewrite Rltb_true; [reflexivity|]. apply K1; assumption.
  - intros H. rewrite Rltb_false.
    + rewrite Rltb_true; [reflexivity|]. apply K3; assumption.
    + apply K2; try assumption.
      apply Rle_trans with ((1 + 2 * mg) * ((1 + f) * V)); [|lra]. apply Rmult_le_compat_l; nra.
  - intros (H1 & H2). rewrite Rltb_false by (apply K2; assumption).
    rewrite Rltb_false; [reflexivity|].
    apply Rle_trans with (v * / c); [apply Rmult_le_compat_l; assumption|].
    apply Rle_trans with ((1 + f) * V * a); [|apply Rmult_le_compat_l; assumption].
    apply Rmult_le_reg_r with c; [exact P2|]. rewrite Rmult_assoc, Ic, Rmult_1_r.
    eapply Rle_trans; [exact H2|].
    replace ((1 + f) * V * a * c) with (a * c * ((1 + f) * V)) by ring. apply Rmult_le_compat_r; lra.
  - destruct (Rltb _ _); [auto|]. destruct (Rltb _ _); auto.
Qed.
Print Assumptions C101_load_factor_rounding.

(** A 6 in tube of 6.625 in x 0.28 in (T = 23), stainless steel, 1800 m/s, meets the
    hypotheses: margin 6.6e-14 in double precision. *)
Example round_tube_case :
  stands_for (@mkQ R 6.065 (mult_unit d_length 0.0254) 0) d_length (6.065 * 0.0254) 0
  /\ stands_for (@mkQ R 6.625 (mult_unit d_length 0.0254) 0) d_length (6.625 * 0.0254) 0
  /\ 6.625 * 0.0254 + 6.065 * 0.0254 <= INR 23 * (6.625 * 0.0254 - 6.065 * 0.0254)
  /\ (24 * INR 23 + 40) * double_unit <= 1/2 /\ 0 <= 0.29 <= 1/2 /\ 0 < 0.1 < 1.
Proof.
  unfold stands_for, double_unit, mult_unit. cbn [q_mag q_unit q_reg u_dim u_off u_scale].
  rewrite (INR_IZR_INZ 23). cbn -[IZR]. repeat split; Lra.lra.
Qed.
