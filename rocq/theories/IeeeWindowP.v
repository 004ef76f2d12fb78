(** * IeeeWindowP: Window, DDT and Tube functions in double precision. *)
From Coq Require Import String ZArith QArith Reals Qreals List Bool Lra Lia.
From Flocq Require Import Core BinarySingleNaN.
From Verif Require Import PyBase Pint UnitsM WindowM DdtM TubeM RoundM RoundSpec RoundP IeeeM IeeeSpec QLemmas IeeeP.
Import ListNotations.
Local Open Scope R_scope.

Ltac step lem := eapply rsim_bind; [exact lem|].

(** After parsing and checking for a dimension that is not temperature. *)
Lemma checked q q' (d : dim) : qbase 144 q q' /\ (u_dim (q_unit q) <> d_temperature -> qbase 92 q q') ->
  u_dim (q_unit q) = d -> d <> d_temperature -> qbase 92 q q'.
Proof. intros (_ & H) E N. apply H. now rewrite E. Qed.

Lemma two_sim : sim 1 (@nofQ b64 NB 2) (@nofQ R ND 2).
Proof. apply (sim_lit 1 0); (lia || reflexivity). Qed.
Lemma window_k_sim : sim 14 (@window_k b64 NB) (@window_k R ND).
Proof. unfold window_k. apply (sim_lit 7 7); (lia || reflexivity). Qed.

Lemma safety_factor_sim l l' w w' t t' p p' m m' reg :
  reads 1e18 l l' -> reads 1e18 w w' -> reads 1e18 t t' -> reads 1e18 p p' -> reads 1e18 m m' ->
  rsim (sim 1000) (@safety_factor b64 NB l w t p m reg) (@safety_factor R ND l' w' t' p' m' reg).
Proof.
  intros Rl Rw Rt Rp Rm. unfold safety_factor.
  step (parse_base_sim _ _ reg Rl). intros ql ql' Hl.
  step (parse_base_sim _ _ reg Rw). intros qw qw' Hw.
  step (parse_base_sim _ _ reg Rt). intros qt qt' Ht.
  step (parse_base_sim _ _ reg Rp). intros qp qp' Hp.
  step (parse_base_sim _ _ reg Rm). intros qm qm' Hm.
  step (check_sim 144 0 _ _ "length" true ltac:(lia) (proj1 (proj1 Hl))). intros ? ? Dl; cbn beta in Dl.
  step (check_sim 144 0 _ _ "length" true ltac:(lia) (proj1 (proj1 Hw))). intros ? ? Dw; cbn beta in Dw.
  step (check_sim 144 0 _ _ "length" true ltac:(lia) (proj1 (proj1 Ht))). intros ? ? Dt; cbn beta in Dt.
  step (check_sim 144 0 _ _ "pressure" true ltac:(lia) (proj1 (proj1 Hp))). intros ? ? Dp; cbn beta in Dp.
  step (check_sim 144 0 _ _ "pressure" true ltac:(lia) (proj1 (proj1 Hm))). intros ? ? Dm; cbn beta in Dm.
  pose proof (checked _ _ _ Hl (Dl _ eq_refl) ltac:(discriminate)) as (Ql & _).
  pose proof (checked _ _ _ Hw (Dw _ eq_refl) ltac:(discriminate)) as (Qw & _).
  pose proof (checked _ _ _ Ht (Dt _ eq_refl) ltac:(discriminate)) as (Qt & _).
  pose proof (checked _ _ _ Hp (Dp _ eq_refl) ltac:(discriminate)) as (Qp & _).
  pose proof (checked _ _ _ Hm (Dm _ eq_refl) ltac:(discriminate)) as (Qm & _).
  clear Hl Hw Ht Hp Hm.
  step (q_div_sim 92 0 92 0 _ _ _ _ ltac:(lia) ltac:(lia) Ql Qw). intros r r' Hr.
  step (q_div_sim 92 0 92 0 _ _ _ _ ltac:(lia) ltac:(lia) Qt Ql). intros o o' Ho.
  step (q_sq_sim 184 0 _ _ ltac:(lia) ltac:(lia) (proj1 Ho)). intros o2 o2' Ho2.
  step (q_scale_sim 92 0 1 _ _ _ _ ltac:(lia) two_sim Qm). intros m2 m2' Hm2.
  step (q_sq_sim 184 0 _ _ ltac:(lia) ltac:(lia) (proj1 Hr)). intros r2 r2' Hr2.
  step (n_addq_sim 368 0 0 _ _ _ _ ltac:(lia) ltac:(lia) sim_one Hr2). intros s s' Hs.
  step (q_mul_sim 93 0 420 0 _ _ _ _ ltac:(lia) ltac:(lia) (proj1 Hm2) (proj1 Hs)). intros mt mt' Hmt.
  step (q_mul_sim 368 0 513 0 _ _ _ _ ltac:(lia) ltac:(lia) (proj1 Ho2) (proj1 Hmt)). intros nu nu' Hnu.
  step (q_scale_sim 92 0 14 _ _ _ _ ltac:(lia) window_k_sim Qp). intros de de' Hde.
  step (q_div_sim 881 0 106 0 _ _ _ _ ltac:(lia) ltac:(lia) (proj1 Hnu) (proj1 Hde)). intros f f' Hf.
  eapply rsim_mono; [|exact (q_plain_sim 987 0 _ _ ltac:(lia) Hf)].
  intros x0 y0. now apply sim_weaken.
Qed.

Lemma minimum_thickness_sim l l' w w' s p p' m m' reg :
  reads 1e18 l l' -> reads 1e18 w w' -> moderate 1e18 s -> reads 1e18 p p' -> reads 1e18 m m' ->
  rsim (qplain 1000 1000) (@minimum_thickness b64 NB l w (SfNum s) p m reg)
       (@minimum_thickness R ND l' w' (SfNum (real s)) p' m' reg).
Proof.
  intros Rl Rw Ms Rp Rm. unfold minimum_thickness.
  step (parse_base_sim _ _ reg Rl). intros ql ql' Hl.
  step (parse_base_sim _ _ reg Rw). intros qw qw' Hw.
  step (parse_base_sim _ _ reg Rp). intros qp qp' Hp.
  step (parse_base_sim _ _ reg Rm). intros qm qm' Hm.
  step (check_sim 144 0 _ _ "length" true ltac:(lia) (proj1 (proj1 Hl))). intros ? ? Dl; cbn beta in Dl.
  step (check_sim 144 0 _ _ "length" true ltac:(lia) (proj1 (proj1 Hw))). intros ? ? Dw; cbn beta in Dw.
  step (check_sim 144 0 _ _ "pressure" true ltac:(lia) (proj1 (proj1 Hp))). intros ? ? Dp; cbn beta in Dp.
  step (check_sim 144 0 _ _ "pressure" true ltac:(lia) (proj1 (proj1 Hm))). intros ? ? Dm; cbn beta in Dm.
  pose proof (checked _ _ _ Hl (Dl _ eq_refl) ltac:(discriminate)) as (Ql & _).
  pose proof (checked _ _ _ Hw (Dw _ eq_refl) ltac:(discriminate)) as (Qw & Pw).
  pose proof (checked _ _ _ Hp (Dp _ eq_refl) ltac:(discriminate)) as (Qp & _).
  pose proof (checked _ _ _ Hm (Dm _ eq_refl) ltac:(discriminate)) as (Qm & _).
  clear Hl Hw Hp Hm.
  pose proof (moderate_sim s Ms) as Ss.
  apply (rsim_bind (sim 60)).
  { rewrite (sim_ltb 60 0 _ _ _ _ Ss sim_one). destruct (@nltb R ND _ _); cbn [rsim]; [reflexivity|exact Ss]. }
  intros f f' Hf.
  step (q_div_sim 92 0 92 0 _ _ _ _ ltac:(lia) ltac:(lia) Ql Qw). intros r r' Hr.
  assert (N2 : @nofQ R ND 2 <> 0) by (apply Rgt_not_eq, (lit_nz 1 0); (lia || reflexivity)).
  assert (X : sim 75 (@ndiv b64 NB (@nmul b64 NB f (@window_k b64 NB)) (@nofQ b64 NB 2))
                     (@ndiv R ND (@nmul R ND f' (@window_k R ND)) (@nofQ R ND 2))).
  { apply (sim_div 74 1); [lia|exact N2| |apply two_sim]. apply (sim_mul 60 14); [lia|exact Hf|apply window_k_sim]. }
  step (npsqrt_sim 75 _ _ ltac:(lia) X). intros rs rs' Hrs.
  step (q_scale_sim 92 0 75 _ _ _ _ ltac:(lia) Hrs Ql). intros ls ls' Hls.
  step (q_sq_sim 184 0 _ _ ltac:(lia) ltac:(lia) (proj1 Hr)). intros r2 r2' Hr2.
  step (n_addq_sim 368 0 0 _ _ _ _ ltac:(lia) ltac:(lia) sim_one Hr2). intros u u' Hu.
  step (q_mul_sim 92 0 420 0 _ _ _ _ ltac:(lia) ltac:(lia) Qm (proj1 Hu)). intros mt mt' Hmt.
  step (q_div_sim 92 0 512 0 _ _ _ _ ltac:(lia) ltac:(lia) Qp (proj1 Hmt)). intros pm pm' Hpm.
  step (q_sqrt_sim 604 0 _ _ ltac:(lia) ltac:(lia) (proj1 Hpm)). intros rp rp' Hrp.
  step (q_mul_sim 167 0 604 0 _ _ _ _ ltac:(lia) ltac:(lia) (proj1 Hls) (proj1 Hrp)). intros th th' Hth.
  eapply rsim_mono; [|exact (q_to_sim 771 0 0 _ _ _ _ ltac:(lia) Hth (proj1 (proj2 Qw)) Pw)].
  intros x0 y0 H. apply (qplain_weaken 771 0); [lia|lia|]. exact H.
Qed.

(** ** DDT *)
Lemma blockage_diameter_sim i i' b reg : reads 1e18 i i' -> moderate 1e18 b ->
  rsim (qplain 1000 32) (@calculate_blockage_diameter b64 NB i (BrNum b) reg)
       (@calculate_blockage_diameter R ND i' (BrNum (real b)) reg).
Proof.
  intros Ri Mb. unfold calculate_blockage_diameter. cbn [br_float bind].
  pose proof (moderate_sim b Mb) as Sb.
  rewrite (sim_ltb 0 60 _ _ _ _ sim_zero Sb), (sim_ltb 60 0 _ _ _ _ Sb sim_one).
  eapply (rsim_bind (fun _ _ => @nltb R ND (real b) (@one R ND) = true)).
  { destruct (@nltb R ND (@zero R ND) (real b)) eqn:E1; destruct (@nltb R ND (real b) (@one R ND)) eqn:E2;
      cbn [andb negb raise_if rsim]; reflexivity || exact E2. }
  intros _ _ Lt. rewrite (RoundP.one_rnd _ _ double_rounding) in Lt. cbn [nltb Num_rounded] in Lt.
  step (parse_sim _ _ reg Ri). intros q q' Hq.
  step (check_sim 60 32 _ _ "length" true ltac:(lia) Hq). intros ? ? Dq; cbn beta in Dq.
  step (q_divn_sim 60 32 1 _ _ _ _ ltac:(lia) two_sim Hq). intros h h' (Hh & _).
  assert (O : sim 112 (@nsub b64 NB (@one b64 NB) b) (@nsub R ND (@one R ND) (real b))).
  { apply (sim_sub 60); [lia|apply (sim_weaken 0); [lia|apply sim_one]|exact Sb]. }
  assert (P : 0 <= @nsub R ND (@one R ND) (real b)).
  { rewrite (RoundP.one_rnd _ _ double_rounding). cbn [nsub Num_rounded]. unfold double. apply round_ge_generic; try typeclasses eauto; [apply generic_format_0|].
    unfold Rltb in Lt. destruct (Rlt_dec (real b) 1); [lra|discriminate]. }
  pose proof (sim_sqrt 112 _ _ ltac:(lia) P O) as S.
  assert (F : sim 164 (@nsub b64 NB (@one b64 NB) (@nsqrt b64 NB (@nsub b64 NB (@one b64 NB) b)))
                      (@nsub R ND (@one R ND) (@nsqrt R ND (@nsub R ND (@one R ND) (real b))))).
  { apply (sim_sub 112); [lia|apply (sim_weaken 0); [lia|apply sim_one]|exact S]. }
  eapply rsim_mono; [|exact (q_scale_sim 61 32 164 _ _ _ _ ltac:(lia) F Hh)].
  intros x0 y0. apply qplain_weaken; lia.
Qed.
Lemma q_cmp_sim (c : b64 -> b64 -> bool) (c' : R -> R -> bool) k s k' s' p p' q q' :
  (forall i j x y x' y', sim i x y -> sim j x' y' -> c x x' = c' y y') ->
  (k + s <= 1000)%Z -> (k' + s' <= 1000)%Z ->
  qplain k s p p' -> qplain k' s' q q' ->
  rsim eq (@q_cmp b64 NB c p q) (@q_cmp R ND c' p' q').
Proof.
  intros C K K' A B. unfold q_cmp.
  eapply rsim_bind; [exact (reg_sim _ _ _ _ _ _ _ _ (proj1 A) (proj1 B))|intros ? ? _].
  pose proof (base_sim_plain p p' k s (proj1 A) K (proj2 A)) as X.
  pose proof (base_sim_plain q q' k' s' (proj1 B) K' (proj2 B)) as Y.
  destruct A as ((_ & (D & _) & _) & _), B as ((_ & (D' & _) & _) & _). rewrite D, D'.
  destruct (dim_eqb _ _); cbn [rsim]; [|reflexivity]. exact (C _ _ _ _ _ _ X Y).
Qed.
Lemma blockage_ratio_sim d d' b b' reg : reads 1e18 d d' -> reads 1e18 b b' ->
  rsim (sim 1000) (@calculate_blockage_ratio b64 NB d b reg) (@calculate_blockage_ratio R ND d' b' reg).
Proof.
  intros Rd Rb. unfold calculate_blockage_ratio.
  step (parse_base_sim _ _ reg Rd). intros qd qd' Hd.
  step (parse_base_sim _ _ reg Rb). intros qb qb' Hb.
  step (check_sim 144 0 _ _ "length" true ltac:(lia) (proj1 (proj1 Hd))). intros ? ? Dl; cbn beta in Dl.
  step (check_sim 144 0 _ _ "length" true ltac:(lia) (proj1 (proj1 Hb))). intros ? ? Dw; cbn beta in Dw.
  pose proof (checked _ _ _ Hd (Dl _ eq_refl) ltac:(discriminate)) as Ql.
  pose proof (checked _ _ _ Hb (Dw _ eq_refl) ltac:(discriminate)) as Qw.
  clear Hd Hb.
  pose proof (proj1 (proj1 Ql)) as Ml. pose proof (proj1 (proj1 Qw)) as Mw.
  rewrite (sim_eqb 92 0 _ _ _ _ Ml sim_zero).
  apply (rsim_bind (fun _ _ => True)).
  { destruct (@neqb R ND _ _); cbn [raise_if rsim]; auto. }
  intros _ _ _.
  apply (rsim_bind eq).
  { apply (q_cmp_sim _ _ 92 0 92 0); [|lia|lia|exact Qw|exact Ql].
    intros i j x y x' y' Hx Hy. exact (sim_leb _ _ _ _ _ _ Hy Hx). }
  intros ge _ <-.
  apply (rsim_bind (fun _ _ => True)).
  { destruct ge; cbn [raise_if rsim]; auto. }
  intros _ _ _.
  assert (X : sim 93 (@nmul b64 NB (@nofQ b64 NB 2) (q_mag qb)) (@nmul R ND (@nofQ R ND 2) (q_mag qb'))).
  { apply (sim_mul 1 92); [lia|apply two_sim|exact Mw]. }
  step (pydiv_sim 93 92 _ _ _ _ ltac:(lia) X Ml). intros ra ra' Hra. cbn [rsim]. unfold sq.
  assert (Y : sim 237 (@nsub b64 NB (@one b64 NB) ra) (@nsub R ND (@one R ND) ra')).
  { apply (sim_sub 185); [lia|apply (sim_weaken 0); [lia|apply sim_one]|exact Hra]. }
  apply (sim_weaken 526); [lia|].
  apply (sim_sub 474); [lia|apply (sim_weaken 0); [lia|apply sim_one]|].
  apply (sim_mul 237 237); [lia|exact Y|exact Y].
Qed.

(** ** Tube *)
Lemma q_addsub_sim (op : b64 -> b64 -> b64) (op' : R -> R -> R) k s s' p p' q q' :
  (forall k x y x' y', (k <= 940)%Z -> sim k x y -> sim k x' y' -> sim (k + 52) (op x x') (op' y y')) ->
  (k + s' + s <= 940)%Z -> (0 <= s)%Z -> (0 <= s')%Z ->
  qsim k s p p' -> qsim k s' q q' ->
  rsim (qplain (k + s' + s + 52) s) (@q_addsub b64 NB op p q) (@q_addsub R ND op' p' q').
Proof.
  intros C K S0 S0' A B. unfold q_addsub.
  eapply rsim_bind; [exact (reg_sim _ _ _ _ _ _ _ _ A B)|intros ? ? _].
  eapply rsim_bind; [exact (offset_sim _ _ _ _ A)|intros ? ? Pl].
  eapply rsim_bind; [exact (offset_sim _ _ _ _ B)|intros ? ? Pl'].
  destruct A as (M & U & Rg).
  eapply rsim_bind; [apply (q_to_sim k s' s _ _ _ _ ltac:(lia) (conj B Pl') U Pl)|].
  intros r r' ((Mr & _) & _). cbn [rsim]. split; [|exact Pl]. split; [|split; [exact U|exact Rg]].
  apply C; [lia|apply (sim_weaken k); [lia|exact M]|exact Mr].
Qed.
Lemma max_pressure_sim a a' b b' c c' sf :
  qsim 60 32 a a' -> qsim 60 32 b b' -> qsim 60 32 c c' -> moderate 1e18 sf ->
  rsim (qplain 1000 1000) (@calculate_max_pressure b64 NB a b c sf)
                       (@calculate_max_pressure R ND a' b' c' (real sf)).
Proof.
  intros A B C Ms. pose proof (moderate_sim sf Ms) as Ss. unfold calculate_max_pressure, q_add, q_sub.
  step (q_addsub_sim _ _ 60 32 32 _ _ _ _ sim_add ltac:(lia) ltac:(lia) ltac:(lia) B A). intros s s' Hs.
  step (q_divn_sim 176 32 1 _ _ _ _ ltac:(lia) two_sim (proj1 Hs)). intros md md' Hmd.
  step (q_addsub_sim _ _ 60 32 32 _ _ _ _ sim_sub ltac:(lia) ltac:(lia) ltac:(lia) B A). intros d d' Hd.
  step (q_divn_sim 176 32 1 _ _ _ _ ltac:(lia) two_sim (proj1 Hd)). intros wt wt' Hwt.
  step (q_scale_sim 177 32 1 _ _ _ _ ltac:(lia) two_sim (proj1 Hwt)). intros w2 w2' Hw2.
  step (q_mul_sim 60 32 178 32 _ _ _ _ ltac:(lia) ltac:(lia) C (proj1 Hw2)). intros nu nu' Hnu.
  step (q_scale_sim 177 32 60 _ _ _ _ ltac:(lia) Ss (proj1 Hmd)). intros de de' Hde.
  eapply rsim_mono; [|exact (q_div_sim 238 64 237 32 _ _ _ _ ltac:(lia) ltac:(lia) (proj1 Hnu) (proj1 Hde))].
  intros x0 y0. apply qplain_weaken; lia.
Qed.

Lemma q_root4_sim j t q q' : (0 <= j <= 250)%Z -> (0 <= t <= 250)%Z -> qsim (4 * j) (4 * t) q q' ->
  rsim (qplain j t) (@q_root4 b64 NB q) (@q_root4 R ND q').
Proof.
  intros K S A. unfold q_root4.
  eapply rsim_bind; [exact (offset_sim _ _ _ _ A)|intros ? ? _].
  destruct A as (M & (D & U & P & _) & Rg). rewrite D.
  destruct (dim_root 4 (u_dim (q_unit q'))) as [d|]; [|reflexivity].
  rewrite (sim_ltb _ 0 _ _ _ _ M sim_zero). rewrite (RoundP.zero_rnd _ _ double_rounding).
  cbn [nltb Num_rounded]. unfold Rltb. destruct (Rlt_dec (q_mag q') 0) as [L|L]; cbn [rsim]; [reflexivity|].
  assert (R4 : forall i x y, (0 <= i <= 250)%Z -> 0 <= y -> sim (4 * i) x y ->
    sim i (@nsqrt b64 NB (@nsqrt b64 NB x)) (@nsqrt R ND (@nsqrt R ND y))).
  { intros i x y I P0 H. apply sim_half; [lia| |].
    - cbn [nsqrt Num_rounded]. unfold double. apply round_ge_generic; try typeclasses eauto; [apply generic_format_0|apply sqrt_pos].
    - apply sim_half; [lia|exact P0|]. replace (2 * (2 * i))%Z with (4 * i)%Z by lia. exact H. }
  split; [|reflexivity]. split; [apply R4; try assumption; lra|]. cbn [q_unit q_reg]. split; [|exact Rg].
  apply usim_mult; [apply R4; try assumption; lra|].
  apply (sim_nz_sqrt (4 * t) (@nsqrt b64 NB (u_scale (q_unit q)))); [lia|apply sim_sqrt; try assumption; try lia; lra|].
  now apply (sim_nz_sqrt (4 * t) _ _ ltac:(lia) U).
Qed.
Lemma q_to_str_sim k s q q' name : (k + s + 32 <= 1000)%Z -> qplain k s q q' ->
  (forall v, @lookup_unit b64 NB name = Some v -> plain v) ->
  rsim (qplain (k + s + 32) 32) (@q_to_str b64 NB q name) (@q_to_str R ND q' name).
Proof.
  intros K A Pl. unfold q_to_str. pose proof (lookup_sim name) as U.
  destruct (@lookup_unit b64 NB name) as [v|], (@lookup_unit R ND name) as [v'|]; try contradiction; [|reflexivity].
  apply q_to_sim; try assumption. now apply Pl.
Qed.
Lemma four_sim : sim 2 (@nofQ b64 NB 4) (@nofQ R ND 4).
Proof. apply (sim_lit 2 0); (lia || reflexivity). Qed.
Lemma three_sim : sim 2 (@nofQ b64 NB 3) (@nofQ R ND 3).
Proof. apply (sim_lit 2 0); (lia || reflexivity). Qed.
Lemma critical_sim a a' b b' e e' r r' nu :
  qsim 34 32 a a' -> qsim 34 32 b b' -> qsim 34 32 e e' -> qsim 34 32 r r' -> moderate 1e10 nu ->
  rsim (qplain 216 64) (@critical_velocity b64 NB a b e r nu) (@critical_velocity R ND a' b' e' r' (real nu)).
Proof.
  intros A B E Rh Mn. pose proof (moderate_sim10 nu Mn) as Sn. unfold critical_velocity, q_add, q_sub.
  step (q_addsub_sim _ _ 34 32 32 _ _ _ _ sim_add ltac:(lia) ltac:(lia) ltac:(lia) B A). intros s s' Hs.
  step (q_divn_sim 150 32 2 _ _ _ _ ltac:(lia) four_sim (proj1 Hs)). intros ra ra' Hra.
  step (q_addsub_sim _ _ 34 32 32 _ _ _ _ sim_sub ltac:(lia) ltac:(lia) ltac:(lia) B A). intros d d' Hd.
  step (q_divn_sim 150 32 1 _ _ _ _ ltac:(lia) two_sim (proj1 Hd)). intros th th' Hth.
  step (q_sq_sim 34 32 _ _ ltac:(lia) ltac:(lia) E). intros e2 e2' He2.
  step (q_sq_sim 151 32 _ _ ltac:(lia) ltac:(lia) (proj1 Hth)). intros t2 t2' Ht2.
  step (q_mul_sim 68 64 302 64 _ _ _ _ ltac:(lia) ltac:(lia) (proj1 He2) (proj1 Ht2)). intros nm nm' Hnm.
  step (q_sq_sim 34 32 _ _ ltac:(lia) ltac:(lia) Rh). intros r2 r2' Hr2.
  step (q_scale_sim 68 64 2 _ _ _ _ ltac:(lia) three_sim (proj1 Hr2)). intros d1 d1' Hd1.
  step (q_sq_sim 152 32 _ _ ltac:(lia) ltac:(lia) (proj1 Hra)). intros ra2 ra2' Hra2.
  step (q_mul_sim 70 64 304 64 _ _ _ _ ltac:(lia) ltac:(lia) (proj1 Hd1) (proj1 Hra2)). intros d2 d2' Hd2.
  assert (F : sim 120 (@nsub b64 NB (@one b64 NB) (@sq b64 NB nu)) (@nsub R ND (@one R ND) (@sq R ND (real nu)))).
  { apply (sim_sub 68); [lia|apply (sim_weaken 0); [lia|apply sim_one]|]. unfold sq. apply (sim_mul 34 34); [lia|exact Sn|exact Sn]. }
  step (q_scale_sim 374 128 120 _ _ _ _ ltac:(lia) F (proj1 Hd2)). intros d3 d3' Hd3.
  step (q_div_sim 370 128 494 128 _ _ _ _ ltac:(lia) ltac:(lia) (proj1 Hnm) (proj1 Hd3)). intros q q' Hq.
  exact (q_root4_sim 216 64 q q' ltac:(lia) ltac:(lia) (proj1 Hq)).
Qed.
Lemma ms_plain v : @lookup_unit b64 NB "m/s" = Some v -> plain v.
Proof.
  intros L. destruct (Pint.u_off v) eqn:O; [|exact O]. exfalso.
  assert (N : Pint.u_off v <> None) by (rewrite O; discriminate).
  pose proof (lookup_off _ _ L N) as D. unfold lookup_unit, unit_table in L. cbn [assoc String.eqb Ascii.eqb Bool.eqb] in L.
  assert (Y : mult_unit d_velocity (@one b64 NB) = v) by congruence. subst v. discriminate D.
Qed.
Lemma load_factor_sim a a' b b' v v' e e' r r' nu f :
  qsim 34 32 a a' -> qsim 34 32 b b' -> qsim 34 32 v v' -> qsim 34 32 e e' -> qsim 34 32 r r' ->
  (Pint.u_off (q_unit v) <> None -> u_dim (q_unit v) = d_temperature) ->
  moderate 1e10 nu -> moderate 1e10 f ->
  rsim eq (@dynamic_load_factor b64 NB a b v e r nu f)
          (@dynamic_load_factor R ND a' b' v' e' r' (real nu) (real f)).
Proof.
  intros A B V E Rh W Mn Mf. pose proof (moderate_sim10 f Mf) as Sf. unfold dynamic_load_factor.
  step (check_sim 34 32 _ _ "length" true ltac:(lia) A). intros ? ? _.
  step (check_sim 34 32 _ _ "length" true ltac:(lia) B). intros ? ? _.
  step (check_sim 34 32 _ _ "velocity" false ltac:(lia) V). intros ? ? Dv; cbn beta in Dv.
  step (check_sim 34 32 _ _ "pressure" true ltac:(lia) E). intros ? ? _.
  step (check_sim 34 32 _ _ "density" true ltac:(lia) Rh). intros ? ? _.
  rewrite (sim_ltb 0 34 _ _ _ _ sim_zero Sf), (sim_ltb 34 0 _ _ _ _ Sf sim_one).
  apply (rsim_bind (fun _ _ => True)).
  { destruct (_ && _)%bool; cbn [negb raise_if rsim]; auto. }
  intros _ _ _.
  step (critical_sim _ _ _ _ _ _ _ _ nu A B E Rh Mn). intros c c' Hc.
  assert (O : sim 34 (@one b64 NB) (@one R ND)) by (apply (sim_weaken 0); [lia|apply sim_one]).
  step (q_scale_sim 216 64 86 _ _ _ _ ltac:(lia) (sim_add 34 _ _ _ _ ltac:(lia) O Sf) (proj1 Hc)). intros up up' Hup.
  step (q_to_str_sim 302 64 _ _ "m/s" ltac:(lia) Hup ms_plain). intros u u' Hu.
  step (q_scale_sim 216 64 86 _ _ _ _ ltac:(lia) (sim_sub 34 _ _ _ _ ltac:(lia) O Sf) (proj1 Hc)). intros lo lo' Hlo.
  step (q_to_str_sim 302 64 _ _ "m/s" ltac:(lia) Hlo ms_plain). intros l l' Hl.
  assert (Pv : plain (q_unit v)).
  { unfold plain. destruct (Pint.u_off (q_unit v)); [|reflexivity]. exfalso.
    specialize (Dv _ eq_refl). rewrite W in Dv by discriminate. discriminate Dv. }
  step (q_to_str_sim 34 32 _ _ "m/s" ltac:(lia) (conj V Pv) ms_plain). intros w w' Hw. cbn [rsim].
  rewrite (sim_ltb _ _ _ _ _ _ (proj1 (proj1 Hw)) (proj1 (proj1 Hl))).
  rewrite (sim_ltb _ _ _ _ _ _ (proj1 (proj1 Hu)) (proj1 (proj1 Hw))). reflexivity.
Qed.
