(** * DdtP: lemmas about the blockage functions. *)
From Coq Require Import String ZArith QArith Reals Qreals List Bool Lra Psatz.
From Verif Require Import PyBase Pint UnitsM Spec QLemmas WindowP DdtM.
Import ListNotations.
Local Open Scope R_scope.

Lemma parse_unit i u reg q :
  expressed_in i u -> parse_quant_input i reg = Ok q -> q_unit q = u.
Proof.
  intros [q0 | m s u' L]; cbn.
  - now intros [= <-].
  - unfold quant; rewrite L. now intros [= <-].
Qed.

Definition br_formula (D d : R) : R := 1 - (1 - 2 * d / D) * (1 - 2 * d / D).

Lemma bd_closed i D b reg :
  denotes i d_length D -> 0 <= D -> 0 < b < 1 ->
  exists q, calculate_blockage_diameter i (BrNum b) reg = Ok q
            /\ stands_for q d_length (D / 2 * (1 - sqrt (1 - b))) reg
            /\ (forall u, expressed_in i u -> q_unit q = u).
Proof.
  intros HD D0 [b0 b1]; unfold calculate_blockage_diameter; cbn [br_float bind].
  rnum; rewrite zero_R, one_R, !Rltb_true by assumption; cbn [andb negb raise_if bind].
  destruct (parse_quant_den _ _ _ reg HD) as (p & Ep & Hp); [discriminate|].
  rewrite Ep; cbn [bind]. dstep.
  assert (N2 : Q2R 2 <> 0) by (q2r; nz).
  destruct (q_divn_den pydiv (Q2R 2) p _ _ _ pydiv_ok N2 Hp) as (h & Eh & Hh).
  rewrite Eh; cbn [bind].
  destruct (q_scale_den (1 - sqrt (1 - b)) h _ _ _ Hh) as (q & Eq & Hq).
  exists q; split; [assumption|]; split.
  - replace (D / 2 * (1 - sqrt (1 - b))) with ((1 - sqrt (1 - b)) * (D / Q2R 2));
      [assumption | q2r; field].
  - intros u Hu.
    rewrite (q_scale_unit _ _ _ Eq), (q_divn_unit _ _ _ _ Eh).
    eapply parse_unit; eauto.
Qed.

Lemma parse_base_mag i d x reg :
  denotes i d x ->
  exists q, parse_base i reg = Ok q /\ stands_for q d x reg /\ q_mag q = x.
Proof.
  intros H; destruct (parse_denotes _ _ _ reg H) as (q & E & P).
  exists (to_base_units q); unfold parse_base; rewrite E; cbn [bind].
  split; [reflexivity|]. split; [now apply parsed_base|].
  exact (parsed_base_mag _ _ _ _ P).
Qed.

Lemma br_closed iD id D d reg :
  denotes iD d_length D -> denotes id d_length d -> 0 <= d -> d < D ->
  calculate_blockage_ratio iD id reg = Ok (br_formula D d).
Proof.
  intros HD Hd d0 dD; unfold calculate_blockage_ratio.
  destruct (parse_base_mag _ _ _ reg HD) as (p & Ep & Hp & Mp).
  destruct (parse_base_mag _ _ _ reg Hd) as (p' & Ep' & Hp' & Mp').
  rewrite Ep, Ep'; cbn [bind]. do 2 dstep.
  rewrite Mp, Mp'; rnum. rewrite zero_R, Reqb_false by nz; cbn [raise_if bind].
  unfold q_ge; erewrite q_cmp_den by eauto; cbn [bind]; rnum.
  rewrite Rleb_false by lra; cbn [raise_if bind].
  rewrite pydiv_ok by nz; cbn [bind]; rnum; rewrite one_R; unfold sq, br_formula; rnum.
  replace (Q2R 2) with 2 by (q2r; lra). reflexivity.
Qed.

Lemma blockage_roundtrip i D b reg reg' :
  denotes i d_length D -> 0 < D -> 0 < b < 1 ->
  exists q, calculate_blockage_diameter i (BrNum b) reg = Ok q
            /\ calculate_blockage_ratio i (PQuant q) reg' = Ok b.
Proof.
  intros HD D0 Hb.
  destruct (bd_closed i D b reg HD (Rlt_le _ _ D0) Hb) as (q & E & Hq & _).
  exists q; split; auto.
  assert (S : sqrt (1 - b) * sqrt (1 - b) = 1 - b) by (apply sqrt_sqrt; lra).
  assert (S0 : 0 < sqrt (1 - b)) by (apply sqrt_lt_R0; lra).
  assert (S1 : sqrt (1 - b) < 1) by nra.
  rewrite (br_closed i (PQuant q) D (D / 2 * (1 - sqrt (1 - b)))); eauto using stands_denotes.
  - f_equal; unfold br_formula.
    replace (1 - 2 * (D / 2 * (1 - sqrt (1 - b))) / D) with (sqrt (1 - b))
      by (field; lra). rewrite S; ring.
  - nra.
  - nra.
Qed.

Lemma blockage_roundtrip_back iD id D d reg reg' :
  denotes iD d_length D -> denotes id d_length d -> 0 < d -> 2 * d < D ->
  exists b q, calculate_blockage_ratio iD id reg = Ok b /\ 0 < b < 1
    /\ calculate_blockage_diameter iD (BrNum b) reg' = Ok q
    /\ stands_for q d_length d reg'.
Proof.
  intros HD Hd d0 dD. exists (br_formula D d).
  assert (x1 : 0 < 1 - 2 * d / D).
  { apply Rmult_lt_reg_r with D; [lra|]. replace (0 * D) with 0 by ring.
    replace ((1 - 2 * d / D) * D) with (D - 2 * d) by (field; lra). lra. }
  assert (x2 : 1 - 2 * d / D < 1).
  { assert (0 < 2 * d / D) by (apply Rdiv_lt_0_compat; lra). lra. }
  assert (Hb : 0 < br_formula D d < 1) by (unfold br_formula; split; nra).
  destruct (bd_closed iD D (br_formula D d) reg' HD ltac:(lra) Hb) as (q & E & Hq & _).
  exists q; repeat split; try apply Hb; try apply Hq; auto.
  - apply br_closed; auto; lra.
  - destruct Hq as (_ & _ & _ & -> & _). unfold br_formula.
    replace (1 - (1 - (1 - 2 * d / D) * (1 - 2 * d / D)))
      with ((1 - 2 * d / D) * (1 - 2 * d / D)) by ring.
    rewrite sqrt_square by lra. field; lra.
Qed.

(** Past the half diameter the round trip returns D - d. *)
Lemma blockage_roundtrip_back_past_half iD id D d reg reg' :
  denotes iD d_length D -> denotes id d_length d -> d < D -> D < 2 * d ->
  exists b q, calculate_blockage_ratio iD id reg = Ok b /\ 0 < b < 1
    /\ calculate_blockage_diameter iD (BrNum b) reg' = Ok q
    /\ stands_for q d_length (D - d) reg'.
Proof.
  intros HD Hd d0 dD. exists (br_formula D d).
  assert (x1 : 1 - 2 * d / D < 0).
  { apply Rmult_lt_reg_r with D; [lra|]. replace (0 * D) with 0 by ring.
    replace ((1 - 2 * d / D) * D) with (D - 2 * d) by (field; lra). lra. }
  assert (x2 : -1 < 1 - 2 * d / D).
  { apply Rmult_lt_reg_r with D; [lra|].
    replace ((1 - 2 * d / D) * D) with (D - 2 * d) by (field; lra). lra. }
  assert (Hb : 0 < br_formula D d < 1) by (unfold br_formula; split; nra).
  destruct (bd_closed iD D (br_formula D d) reg' HD ltac:(lra) Hb) as (q & E & Hq & _).
  exists q; repeat split; try apply Hb; try apply Hq; auto.
  - apply br_closed; auto; lra.
  - destruct Hq as (_ & _ & _ & -> & _). unfold br_formula.
    replace (1 - (1 - (1 - 2 * d / D) * (1 - 2 * d / D)))
      with ((-(1 - 2 * d / D)) * (-(1 - 2 * d / D))) by ring.
    rewrite sqrt_square by lra. field; lra.
Qed.

Lemma br_is_fraction D d : 0 < D -> br_formula D d = blocked_fraction D d.
Proof.
  intros; unfold br_formula, blocked_fraction, circle_area.
  field; split; [lra | apply PI_neq0].
Qed.

Lemma br_range D d : 0 <= d -> d < D -> 0 <= br_formula D d <= 1.
Proof.
  intros; unfold br_formula.
  assert (0 <= 2 * d / D) by (unfold Rdiv; apply Rmult_le_pos; [lra|left; apply Rinv_0_lt_compat; lra]).
  assert (2 * d / D < 2).
  { apply Rmult_lt_reg_r with D; [lra|]. replace (2 * d / D * D) with (2 * d) by (field; lra). lra. }
  set (y := 2 * d / D) in *. clearbody y.
  pose proof (Rle_0_sqr (1 - y)) as S; unfold Rsqr in S.
  pose proof (Rmult_le_pos y (2 - y) ltac:(assumption) ltac:(lra)). split; lra.
Qed.

Lemma br_zero D d : 0 <= d -> d < D -> br_formula D d = 0 -> d = 0.
Proof.
  intros H1 H2 H; unfold br_formula in H.
  assert (d / D = 0 \/ d / D = 1) as [E|E].
  { replace (2 * d / D) with (2 * (d / D)) in H by (unfold Rdiv; ring).
    assert ((d / D) * (1 - d / D) = 0) by nra.
    apply Rmult_integral in H0 as [|]; [left|right]; lra. }
  - apply (Rmult_eq_reg_r (/ D)); [unfold Rdiv in E; lra | apply Rinv_neq_0_compat; lra].
  - exfalso. assert (d / D < 1); [|lra].
    apply Rmult_lt_reg_r with D; [lra|]. replace (d / D * D) with d by (field; lra). lra.
Qed.

Lemma br_mono D d1 d2 : 0 <= d1 -> d1 < d2 -> 2 * d2 <= D ->
  br_formula D d1 < br_formula D d2.
Proof.
  intros; unfold br_formula.
  assert (2 * d1 / D < 2 * d2 / D).
  { unfold Rdiv; apply Rmult_lt_compat_r; [apply Rinv_0_lt_compat; lra | lra]. }
  assert (0 <= 1 - 2 * d2 / D).
  { apply Rmult_le_reg_r with D; [lra|]. replace (0 * D) with 0 by ring.
    replace ((1 - 2 * d2 / D) * D) with (D - 2 * d2) by (field; lra). lra. }
  nra.
Qed.

(** C07 *)
Lemma blockage_ratio_area iD id D d reg :
  denotes iD d_length D -> denotes id d_length d -> 0 <= d -> d < D ->
  exists b, calculate_blockage_ratio iD id reg = Ok b
    /\ 0 <= b <= 1 /\ (b = 0 <-> d = 0)
    /\ (2 * d <= D -> b = blocked_fraction D d)
    /\ (forall id' d', denotes id' d_length d' -> d < d' -> 2 * d' <= D ->
          exists b', calculate_blockage_ratio iD id' reg = Ok b' /\ b < b').
Proof.
  intros HD Hd d0 dD; exists (br_formula D d).
  split; [now apply br_closed|]. split; [now apply br_range|].
  split; [split; [now apply br_zero|]|split].
  - intros ->; unfold br_formula; field; lra.
  - intros _; apply br_is_fraction; lra.
  - intros id' d' Hd' L1 L2. exists (br_formula D d'). split.
    + apply br_closed; auto; lra.
    + now apply br_mono.
Qed.

(** C08 *)
Lemma blockage_ratio_rejects iD id dD dd D d reg :
  denotes iD dD D -> denotes id dd d ->
  (dD <> d_length \/ dd <> d_length \/ D <= 0 \/ d < 0 \/ D <= d) ->
  is_value_error (calculate_blockage_ratio iD id reg).
Proof.
  intros HD Hd Bad; unfold calculate_blockage_ratio.
  destruct (parse_base_mag _ _ _ reg HD) as (p & Ep & Hp & Mp).
  destruct (parse_base_mag _ _ _ reg Hd) as (p' & Ep' & Hp' & Mp').
  rewrite Ep, Ep'; cbn [bind]. do 2 check_case tt. subst dD dd.
  rewrite Mp, Mp'; rnum; rewrite zero_R.
  destruct (Reqb_spec D 0); cbn [raise_if bind]; [apply value_error_intro|].
  unfold q_ge; erewrite q_cmp_den by eauto; cbn [bind]; rnum.
  rewrite Rleb_true; [apply value_error_intro|].
  intuition (congruence || lra).
Qed.

(** C09 *)
Lemma blockage_diameter_rejects i reg :
  (forall b, ~ (0 < b < 1) ->
     is_value_error (calculate_blockage_diameter i (BrNum b) reg)
     /\ is_value_error (calculate_blockage_diameter i (BrStr (Some b)) reg))
  /\ is_value_error (calculate_blockage_diameter i (BrStr None) reg).
Proof.
  split.
  - intros b Hb.
    assert ((Rltb 0 b && Rltb b 1)%bool = false) as E.
    { destruct (Rltb_spec 0 b), (Rltb_spec b 1); cbn; auto. exfalso; auto. }
    unfold calculate_blockage_diameter; cbn [br_float bind]; rnum.
    rewrite zero_R, one_R, E; cbn. split; apply value_error_intro.
  - unfold calculate_blockage_diameter; cbn. apply value_error_intro.
Qed.

Lemma blockage_diameter_range i D b reg u :
  denotes i d_length D -> expressed_in i u -> 0 < D -> 0 < b < 1 ->
  exists q x, calculate_blockage_diameter i (BrNum b) reg = Ok q
    /\ stands_for q d_length x reg /\ q_unit q = u /\ 0 < x < D / 2
    /\ (forall b', b < b' < 1 ->
          exists q' x', calculate_blockage_diameter i (BrNum b') reg = Ok q'
            /\ stands_for q' d_length x' reg /\ x < x').
Proof.
  intros HD Hu D0 Hb.
  destruct (bd_closed i D b reg HD (Rlt_le _ _ D0) Hb) as (q & E & Hq & U).
  exists q, (D / 2 * (1 - sqrt (1 - b))).
  assert (S0 : 0 < sqrt (1 - b)) by (apply sqrt_lt_R0; lra).
  assert (S1 : sqrt (1 - b) < 1)
    by (rewrite <- sqrt_1 at 2; apply sqrt_lt_1; lra).
  split; [assumption|]. split; [assumption|]. split; [now apply U|].
  split; [split; nra|].
  intros b' Hb'.
  destruct (bd_closed i D b' reg HD (Rlt_le _ _ D0) ltac:(lra)) as (q' & E' & Hq' & _).
  exists q', (D / 2 * (1 - sqrt (1 - b'))). repeat split; try apply Hq'; auto.
  assert (sqrt (1 - b') < sqrt (1 - b)) by (apply sqrt_lt_1; lra).
  nra.
Qed.

(** A 1 m tube with a 0.75 m blockage: accepted, ratio 3/4, and the inverse gives
    0.25 m. *)
Lemma past_half_witness :
  exists b q x,
    calculate_blockage_ratio (PSeq [ENum 1; EStr "m"]) (PSeq [ENum (3/4); EStr "m"]) 0 = Ok b
    /\ 0 < b < 1
    /\ calculate_blockage_diameter (PSeq [ENum 1; EStr "m"]) (BrNum b) 0 = Ok q
    /\ stands_for q d_length x 0 /\ x <> 3/4.
Proof.
  destruct (blockage_roundtrip_back_past_half _ _ 1 (3/4) 0%nat 0%nat
              (denotes_m 1) (denotes_m (3/4)) ltac:(lra) ltac:(lra))
    as (b & q & E1 & Hb & E2 & Hq).
  exists b, q, (1 - 3/4). repeat split; auto; try apply Hb; try apply Hq. nz.
Qed.

Lemma impossible_accepted :
  exists D d b, 0 < d /\ D < 2 * d /\
    calculate_blockage_ratio (PSeq [ENum D; EStr "m"]) (PSeq [ENum d; EStr "m"]) 0 = Ok b.
Proof.
  exists 1, (3/4), (br_formula 1 (3/4)).
  split; [lra|]. split; [lra|].
  apply br_closed; try apply denotes_m; lra.
Qed.
