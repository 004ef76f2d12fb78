(** * IeeeP: double-precision runs of the model do what the runs of RoundM do,
    as long as no number is too large or too small. *)
From Coq Require Import String ZArith QArith Reals Qreals List Bool Lra Lia.
From Flocq Require Import Core BinarySingleNaN.
From Verif Require Import PyBase Pint UnitsM RoundM RoundSpec RoundP IeeeM IeeeSpec QLemmas.
Import ListNotations.
Local Open Scope R_scope.

Notation ND := (Num_rounded double).
Notation NB := Num_b64.

(** Between 2^-k and 2^k, or 0. *)
Definition size (k : Z) (y : R) : Prop :=
  (0 <= k)%Z /\ (y = 0 \/ bpow radix2 (- k) <= Rabs y <= bpow radix2 k).
Definition sim (k : Z) (x : b64) (y : R) : Prop := is_finite x = true /\ B2R x = y /\ size k y.

Lemma size_weaken k l y : (k <= l)%Z -> size k y -> size l y.
Proof.
  intros H (P & [E|(A & B)]); (split; [lia|]); [now left|]. right. split.
  - apply Rle_trans with (bpow radix2 (- k)); [apply bpow_le; lia|exact A].
  - apply Rle_trans with (bpow radix2 k); [exact B|apply bpow_le; lia].
Qed.
Lemma sim_weaken k l x y : (k <= l)%Z -> sim k x y -> sim l x y.
Proof. intros H (A & B & C). repeat split; try assumption; eapply size_weaken; eauto. Qed.

Lemma size_nz k y : size k y -> y <> 0 -> bpow radix2 (- k) <= Rabs y <= bpow radix2 k.
Proof. intros (_ & [E|H]) N; [contradiction|exact H]. Qed.
Lemma size_mul k l x y : size k x -> size l y -> size (k + l) (x * y).
Proof.
  intros (K & A) (L & B). split; [lia|].
  destruct A as [->|(A1 & A2)]; [left; ring|]. destruct B as [->|(B1 & B2)]; [left; ring|].
  right. rewrite Rabs_mult, Z.opp_add_distr, !bpow_plus.
  pose proof (bpow_ge_0 radix2 (- k)). pose proof (bpow_ge_0 radix2 (- l)).
  split; apply Rmult_le_compat; try assumption; apply Rabs_pos.
Qed.
Lemma size_inv k y : size k y -> size k (/ y).
Proof.
  intros (K & [->|(A & B)]); (split; [exact K|]); [left; apply Rinv_0|].
  right. rewrite Rabs_inv. pose proof (bpow_gt_0 radix2 (- k)). pose proof (bpow_gt_0 radix2 k).
  split.
  - rewrite bpow_opp. apply Rinv_le_contravar; lra.
  - rewrite <- (Rinv_inv (bpow radix2 k)). rewrite <- bpow_opp. apply Rinv_le_contravar; lra.
Qed.
Lemma size_div k l x y : size k x -> size l y -> size (k + l) (x / y).
Proof. intros A B. unfold Rdiv. apply size_mul; [exact A|now apply size_inv]. Qed.
Lemma size_sqrt k y : size k y -> 0 <= y -> size k (sqrt y).
Proof.
  intros (K & [->|(A & B)]) P; (split; [exact K|]); [left; apply sqrt_0|]. right.
  rewrite Rabs_pos_eq in A, B by exact P. rewrite Rabs_pos_eq by apply sqrt_pos.
  assert (M : bpow radix2 (- k) <= 1) by (change 1 with (bpow radix2 0); apply bpow_le; lia).
  assert (M' : 1 <= bpow radix2 k) by (change 1 with (bpow radix2 0); apply bpow_le; lia).
  pose proof (bpow_gt_0 radix2 (- k)).
  split.
  - rewrite <- (sqrt_square (bpow radix2 (- k))) by lra. apply sqrt_le_1; nra.
  - rewrite <- (sqrt_square (bpow radix2 k)) by lra. apply sqrt_le_1; nra.
Qed.
Lemma size_half j y : (0 <= j)%Z -> size (2 * j) y -> 0 <= y -> size j (sqrt y).
Proof.
  intros J (K & [->|(A & B)]) P; (split; [exact J|]); [left; apply sqrt_0|]. right.
  rewrite Rabs_pos_eq in A, B by exact P. rewrite Rabs_pos_eq by apply sqrt_pos.
  pose proof (bpow_ge_0 radix2 (- j)). pose proof (bpow_ge_0 radix2 j).
  replace (- (2 * j))%Z with (- j + - j)%Z in A by lia. replace (2 * j)%Z with (j + j)%Z in B by lia.
  rewrite bpow_plus in A, B. split.
  - rewrite <- (sqrt_square (bpow radix2 (- j))) by assumption. now apply sqrt_le_1_alt.
  - rewrite <- (sqrt_square (bpow radix2 j)) by assumption. now apply sqrt_le_1_alt.
Qed.
Lemma size_opp k y : size k y -> size k (- y).
Proof. intros (K & [->|A]); (split; [exact K|]); [left; ring|right; now rewrite Rabs_Ropp]. Qed.

Lemma fexp_FLT : SpecFloat.fexp 53 1024 = FLT_exp (-1074) 53.
Proof. reflexivity. Qed.

Lemma size_round k r : (k <= 1000)%Z -> size k r ->
  round radix2 (SpecFloat.fexp 53 1024) ZnearestE r = double r
  /\ Rabs (double r) < bpow radix2 1024 /\ size k (double r).
Proof.
  intros K (K0 & [->|(A & B)]).
  - unfold double. rewrite !round_0 by typeclasses eauto.
    split; [reflexivity|]. rewrite Rabs_R0. split; [apply bpow_gt_0|]. split; [exact K0|now left].
  - rewrite fexp_FLT.
    assert (E : round radix2 (FLT_exp (-1074) 53) ZnearestE r = double r).
    { unfold double. apply round_FLT_FLX. apply Rle_trans with (bpow radix2 (- k)); [|exact A].
      apply bpow_le. lia. }
    split; [exact E|].
    assert (X : bpow radix2 (- k) <= Rabs (double r) <= bpow radix2 k).
    { unfold double. split.
      - apply abs_round_ge_generic; try typeclasses eauto; [|exact A].
        apply generic_format_bpow. unfold FLX_exp. lia.
      - apply abs_round_le_generic; try typeclasses eauto; [|exact B].
        apply generic_format_bpow. unfold FLX_exp. lia. }
    split; [|split; [exact K0|now right]].
    apply Rle_lt_trans with (bpow radix2 k); [apply X|]. apply bpow_lt. lia.
Qed.

(** ** Operations *)
Lemma sim_mul k l x y x' y' : (k + l <= 1000)%Z -> sim k x y -> sim l x' y' ->
  sim (k + l) (@nmul b64 NB x x') (@nmul R ND y y').
Proof.
  intros K (F & <- & S) (F' & <- & S'). cbn [nmul NB Num_rounded].
  destruct (size_round (k + l) (B2R x * B2R x') K (size_mul _ _ _ _ S S')) as (E & M & Z).
  pose proof (Bmult_correct 53 1024 prec_pos prec_emax mode_NE x x') as H.
  cbn [round_mode] in H. rewrite E, Rlt_bool_true in H by exact M.
  destruct H as (H1 & H2 & _). split; [|split; [exact H1|exact Z]].
  rewrite F, F' in H2. exact H2.
Qed.
Lemma sim_div k l x y x' y' : (k + l <= 1000)%Z -> y' <> 0 -> sim k x y -> sim l x' y' ->
  sim (k + l) (@ndiv b64 NB x x') (@ndiv R ND y y').
Proof.
  intros K N (F & <- & S) (F' & <- & S'). cbn [ndiv NB Num_rounded].
  destruct (size_round (k + l) (B2R x / B2R x') K (size_div _ _ _ _ S S')) as (E & M & Z).
  pose proof (Bdiv_correct 53 1024 prec_pos prec_emax mode_NE x x' N) as H.
  cbn [round_mode] in H. rewrite E, Rlt_bool_true in H by exact M.
  destruct H as (H1 & H2 & _). split; [|split; [exact H1|exact Z]].
  rewrite F in H2. exact H2.
Qed.
Lemma sim_sqrt k x y : (k <= 1000)%Z -> 0 <= y -> sim k x y ->
  sim k (@nsqrt b64 NB x) (@nsqrt R ND y).
Proof.
  intros K P (F & <- & S). cbn [nsqrt NB Num_rounded].
  destruct (size_round k (sqrt (B2R x)) K (size_sqrt _ _ S P)) as (E & M & Z).
  destruct (Bsqrt_correct 53 1024 prec_pos prec_emax mode_NE x) as (H1 & H2 & _).
  cbn [round_mode] in H1. rewrite E in H1. split; [|split; [exact H1|exact Z]].
  rewrite H2. destruct x as [s|[|]| |[|] m e B]; try easy; try discriminate F.
  exfalso. cbn [B2R] in P. assert (F2R (Float radix2 (cond_Zopp true (Zpos m)) e) < 0); [|lra].
  apply F2R_lt_0. reflexivity.
Qed.

Lemma sim_half j x y : (0 <= j <= 500)%Z -> 0 <= y -> sim (2 * j) x y ->
  sim j (@nsqrt b64 NB x) (@nsqrt R ND y).
Proof.
  intros J P H. pose proof (sim_sqrt (2 * j) x y ltac:(lia) P H) as (A & B & _).
  repeat split; try assumption; [lia|]. destruct H as (_ & _ & S).
  apply (size_round j (sqrt y) ltac:(lia) (size_half j y (proj1 J) S P)).
Qed.

(** Sums and differences: a double of size [k] is a whole multiple of 2^(-k-52). *)
Lemma multiple k x y : sim k x y -> exists z : Z, y = IZR z * bpow radix2 (- k - 52).
Proof.
  intros (F & <- & S). destruct (Req_dec (B2R x) 0) as [E|N]; [exists 0%Z; rewrite E; ring|].
  destruct (size_nz _ _ S N) as (A & _).
  pose proof (generic_format_B2R 53 1024 x) as G.
  assert (Ge : generic_format radix2 (FIX_exp (- k - 52)) (B2R x)).
  { refine (generic_inclusion_ge radix2 (SpecFloat.fexp 53 1024) (FIX_exp (- k - 52)) (- k)%Z _ _ A G).
    intros e He. unfold SpecFloat.fexp, SpecFloat.emin, FIX_exp. lia. }
  apply FIX_format_generic in Ge. destruct Ge as [[m e] E1 E2]. cbn [Fexp] in E2. subst e.
  exists m. exact E1.
Qed.
Lemma size_add k x y x' y' : sim k x y -> sim k x' y' -> size (k + 52) (y + y').
Proof.
  intros H H'. destruct (multiple _ _ _ H) as (z & E). destruct (multiple _ _ _ H') as (z' & E').
  destruct H as (_ & _ & K & S). destruct H' as (_ & _ & _ & S').
  split; [lia|]. destruct (Req_dec (y + y') 0) as [Z0|N]; [now left|]. right. split.
  - assert (X : y + y' = IZR (z + z') * bpow radix2 (- k - 52)) by (rewrite plus_IZR; lra).
    rewrite X, Rabs_mult. rewrite (Rabs_pos_eq (bpow _ _)) by apply bpow_ge_0.
    replace (- (k + 52))%Z with (- k - 52)%Z by lia.
    assert (1 <= Rabs (IZR (z + z'))).
    { rewrite <- abs_IZR. apply IZR_le. assert ((z + z')%Z <> 0%Z); [|lia].
      intros W. apply N. rewrite X, W. ring. }
    pose proof (bpow_gt_0 radix2 (- k - 52)). nra.
  - assert (B : forall v, v = 0 \/ bpow radix2 (- k) <= Rabs v <= bpow radix2 k -> Rabs v <= bpow radix2 k).
    { intros v [->|(_ & W)]; [rewrite Rabs_R0; apply bpow_ge_0|exact W]. }
    apply Rle_trans with (Rabs y + Rabs y'); [apply Rabs_triang|].
    apply Rle_trans with (bpow radix2 (k + 1)).
    + rewrite bpow_plus. change (bpow radix2 1) with 2. pose proof (B _ S). pose proof (B _ S'). lra.
    + apply bpow_le. lia.
Qed.
Lemma sim_opp k x y : sim k x y -> sim k (Bopp x) (- y).
Proof.
  intros (F & <- & S). split; [now rewrite is_finite_Bopp|]. split; [apply B2R_Bopp|now apply size_opp].
Qed.
Lemma sim_add k x y x' y' : (k <= 940)%Z -> sim k x y -> sim k x' y' ->
  sim (k + 52) (@nadd b64 NB x x') (@nadd R ND y y').
Proof.
  intros K A B. pose proof (size_add _ _ _ _ _ A B) as S. cbn [nadd NB Num_rounded].
  destruct (size_round (k + 52) _ ltac:(lia) S) as (E & M & Z).
  destruct A as (F & <- & _), B as (F' & <- & _).
  pose proof (Bplus_correct 53 1024 prec_pos prec_emax mode_NE x x' F F') as H.
  cbn [round_mode] in H. rewrite E, Rlt_bool_true in H by exact M.
  destruct H as (H1 & H2 & _). split; [exact H2|]. split; [exact H1|exact Z].
Qed.
Lemma sim_sub k x y x' y' : (k <= 940)%Z -> sim k x y -> sim k x' y' ->
  sim (k + 52) (@nsub b64 NB x x') (@nsub R ND y y').
Proof.
  intros K A B. pose proof (size_add _ _ _ _ _ A (sim_opp _ _ _ B)) as S. cbn [nsub NB Num_rounded].
  destruct (size_round (k + 52) _ ltac:(lia) S) as (E & M & Z).
  destruct A as (F & <- & _), B as (F' & <- & _).
  pose proof (Bminus_correct 53 1024 prec_pos prec_emax mode_NE x x' F F') as H.
  unfold Rminus in *. cbn [round_mode] in H. rewrite E, Rlt_bool_true in H by exact M.
  destruct H as (H1 & H2 & _). split; [exact H2|]. split; [exact H1|exact Z].
Qed.

(** Comparisons *)
Lemma sim_ltb k l x y x' y' : sim k x y -> sim l x' y' -> @nltb b64 NB x x' = @nltb R ND y y'.
Proof.
  intros (F & <- & _) (F' & <- & _). cbn [nltb NB Num_rounded].
  rewrite (Bltb_correct 53 1024) by assumption. unfold Rltb.
  destruct (Rlt_dec (B2R x) (B2R x')); [now apply Rlt_bool_true|apply Rlt_bool_false; lra].
Qed.
Lemma sim_leb k l x y x' y' : sim k x y -> sim l x' y' -> @nleb b64 NB x x' = @nleb R ND y y'.
Proof.
  intros (F & <- & _) (F' & <- & _). cbn [nleb NB Num_rounded].
  rewrite (Bleb_correct 53 1024) by assumption. unfold Rleb.
  destruct (Rle_dec (B2R x) (B2R x')); [now apply Rle_bool_true|apply Rle_bool_false; lra].
Qed.
Lemma sim_eqb k l x y x' y' : sim k x y -> sim l x' y' -> @neqb b64 NB x x' = @neqb R ND y y'.
Proof.
  intros (F & <- & _) (F' & <- & _). cbn [neqb NB Num_rounded].
  rewrite (Beqb_correct 53 1024) by assumption. unfold Reqb.
  destruct (Req_EM_T (B2R x) (B2R x')); [now apply Req_bool_true|now apply Req_bool_false].
Qed.

(** Literals *)
Lemma sim_int k z : (0 <= k <= 53)%Z -> (Z.abs z <= 2 ^ k)%Z -> sim k (b64_of_Z z) (IZR z).
Proof.
  intros K H. unfold b64_of_Z.
  pose proof (binary_normalize_correct 53 1024 prec_pos prec_emax mode_NE z 0 false) as C.
  cbn zeta in C. assert (E : F2R (Float radix2 z 0) = IZR z) by (unfold F2R; cbn [Fnum Fexp]; rewrite Rmult_1_r; reflexivity).
  rewrite E in C. cbn [round_mode] in C.
  assert (S : size k (IZR z)).
  { split; [lia|]. destruct (Z.eq_dec z 0) as [->|N]; [now left|]. right. rewrite <- abs_IZR. split.
    - apply Rle_trans with 1; [change 1 with (bpow radix2 0); apply bpow_le; lia|].
      apply IZR_le. lia.
    - rewrite <- (IZR_Zpower radix2 k) by lia. apply IZR_le. exact H. }
  destruct (size_round k (IZR z) ltac:(lia) S) as (R1 & R2 & _). rewrite R1, Rlt_bool_true in C by exact R2.
  destruct C as (C1 & C2 & _). split; [exact C2|]. split; [|exact S]. rewrite C1. unfold double.
  apply round_generic; [apply valid_rnd_N|].
  assert (P : Prec_gt_0 53) by reflexivity.
  destruct (Z.eq_dec k 53) as [->|Nk].
  - destruct (Z.eq_dec (Z.abs z) (2 ^ 53)) as [W|W].
    + assert (G : generic_format radix2 (FLX_exp 53) (bpow radix2 53)) by (apply generic_format_bpow; unfold FLX_exp; lia).
      assert (B : bpow radix2 53 = IZR (2 ^ 53)) by reflexivity.
      destruct (Z.abs_spec z) as [(_ & Y)|(_ & Y)]; rewrite Y in W.
      * rewrite W, <- B. exact G.
      * replace z with (- (2 ^ 53))%Z by lia. rewrite opp_IZR, <- B. now apply generic_format_opp.
    + apply generic_format_FLX. exists (Float radix2 z 0); [now symmetry|]. cbn [Fnum].
      change (radix2 ^ 53)%Z with (2 ^ 53)%Z. lia.
  - apply generic_format_FLX. exists (Float radix2 z 0); [now symmetry|]. cbn [Fnum].
    apply Z.le_lt_trans with (2 ^ k)%Z; [exact H|]. change (radix2 ^ 53)%Z with (2 ^ 53)%Z. apply Z.pow_lt_mono_r; lia.
Qed.
Lemma sim_lit k l q : (0 <= k <= 53)%Z -> (0 <= l <= 53)%Z ->
  (Z.abs (Qnum q) <=? 2 ^ k)%Z = true -> (Zpos (Qden q) <=? 2 ^ l)%Z = true ->
  sim (k + l) (@nofQ b64 NB q) (@nofQ R ND q).
Proof.
  intros K L A B. apply Z.leb_le in A, B. cbn [nofQ NB Num_rounded].
  pose proof (sim_int k (Qnum q) K A) as S1. pose proof (sim_int l (Zpos (Qden q)) L B) as S2.
  assert (Nd : IZR (Zpos (Qden q)) <> 0) by (apply not_0_IZR; discriminate).
  pose proof (sim_div k l _ _ _ _ ltac:(lia) Nd S1 S2) as S3.
  exact S3.
Qed.
Lemma sim_one : sim 0 (@one b64 NB) (@one R ND).
Proof. apply (sim_lit 0 0 1); (lia || reflexivity). Qed.
Lemma sim_zero : sim 0 (@zero b64 NB) (@zero R ND).
Proof. apply (sim_lit 0 0 0); (lia || reflexivity). Qed.

(** ** Results, units, quantities *)
Definition rsim {A B} (same : A -> B -> Prop) (r : result A) (r' : result B) : Prop :=
  match r, r' with
  | Ok a, Ok b => same a b
  | Err e, Err e' => e = e'
  | _, _ => False
  end.
Lemma rsim_bind {A B A' B'} (S : A -> B -> Prop) (S' : A' -> B' -> Prop) r r' f f' :
  rsim S r r' -> (forall a b, S a b -> rsim S' (f a) (f' b)) ->
  rsim S' (bind r f) (bind r' f').
Proof. destruct r, r'; cbn; try easy. intros H K. now apply K. Qed.
Lemma rsim_mono {A B} (S S' : A -> B -> Prop) r r' :
  (forall a b, S a b -> S' a b) -> rsim S r r' -> rsim S' r r'.
Proof. destruct r, r'; cbn; auto. Qed.
Lemma rsim_outcome {A B} (S S' : A -> B -> Prop) r r' :
  (forall a b, S a b -> S' a b) -> rsim S r r' -> same_outcome S' r r'.
Proof.
  intros M. destruct r as [a|e], r' as [b|e']; cbn; try easy; intros H.
  - right. exists a, b. auto.
  - left. exists e. subst. auto.
Qed.

(** A unit without offset, of scale between 2^-s and 2^s. *)
Definition usim (s : Z) (v : unit_ b64) (v' : unit_ R) : Prop :=
  u_dim v = u_dim v' /\ sim s (u_scale v) (u_scale v') /\ 0 < u_scale v'
  /\ match Pint.u_off v, Pint.u_off v' with
     | None, None => True
     | Some o, Some o' => sim 62 o o'
     | _, _ => False
     end.
Definition plain (v : unit_ b64) : Prop := Pint.u_off v = None.
Definition qsim (k s : Z) (q : quantity b64) (q' : quantity R) : Prop :=
  sim k (q_mag q) (q_mag q') /\ usim s (q_unit q) (q_unit q') /\ q_reg q = q_reg q'.

Lemma qsim_weaken k s k' s' q q' : (k <= k')%Z -> (s <= s')%Z -> qsim k s q q' -> qsim k' s' q q'.
Proof.
  intros K S (A & (B & C & D & E) & F). split; [now apply (sim_weaken k)|]. split; [|exact F].
  repeat split; try assumption; eapply (sim_weaken s); eauto.
Qed.

Lemma double_nz k y : (k <= 1000)%Z -> size k y -> y <> 0 -> double y <> 0.
Proof.
  intros K S N. destruct (size_nz _ _ S N) as (A & _).
  intros E. assert (X : bpow radix2 (- k) <= Rabs (double y)).
  { unfold double. apply abs_round_ge_generic; try typeclasses eauto; [|exact A].
    apply generic_format_bpow. unfold FLX_exp. destruct S. lia. }
  rewrite E, Rabs_R0 in X. pose proof (bpow_gt_0 radix2 (- k)). lra.
Qed.

Lemma double_pos k y : (k <= 1000)%Z -> size k y -> 0 < y -> 0 < double y.
Proof.
  intros K S N. pose proof (double_nz k y K S ltac:(lra)) as Z.
  assert (0 <= double y); [|lra]. unfold double. apply round_ge_generic; try typeclasses eauto; [|lra].
  apply generic_format_0.
Qed.
Lemma usim_mult k d x y : sim k x y -> 0 < y -> usim k (mult_unit d x) (mult_unit d y).
Proof. intros H N. unfold usim, mult_unit. cbn. auto. Qed.
Lemma one_nz : 0 < @one R ND.
Proof. rewrite (RoundP.one_rnd _ _ double_rounding). lra. Qed.
Lemma usim_one d : usim 0 (mult_unit d (@one b64 NB)) (mult_unit d (@one R ND)).
Proof. apply usim_mult; [apply sim_one|apply one_nz]. Qed.

Lemma lit_nz k l q : (0 <= k <= 53)%Z -> (0 <= l <= 53)%Z ->
  (Z.abs (Qnum q) <=? 2 ^ k)%Z = true -> (Zpos (Qden q) <=? 2 ^ l)%Z = true ->
  (0 <? Qnum q)%Z = true -> 0 < @nofQ R ND q.
Proof.
  intros K L A B N. cbn [nofQ Num_rounded].
  pose proof (sim_int k (Qnum q) K (proj1 (Z.leb_le _ _) A)) as (_ & _ & S1).
  pose proof (sim_int l (Zpos (Qden q)) L (proj1 (Z.leb_le _ _) B)) as (_ & _ & S2).
  apply (double_pos (k + l)); [lia|exact (size_div _ _ _ _ S1 S2)|].
  unfold Q2R. apply Z.ltb_lt in N. apply Rmult_lt_0_compat.
  - now apply IZR_lt.
  - apply Rinv_0_lt_compat, IZR_lt. reflexivity.
Qed.
Lemma usim_lit k l d q : (0 <= k <= 53)%Z -> (0 <= l <= 53)%Z ->
  (Z.abs (Qnum q) <=? 2 ^ k)%Z = true -> (Zpos (Qden q) <=? 2 ^ l)%Z = true ->
  (0 <? Qnum q)%Z = true ->
  usim (k + l) (mult_unit d (@nofQ b64 NB q)) (mult_unit d (@nofQ R ND q)).
Proof. intros. apply usim_mult; [now apply sim_lit|now apply (lit_nz k l)]. Qed.

Lemma sim_resize k l x y : sim k x y -> size l y -> sim l x y.
Proof. intros (A & B & _) S. repeat split; try assumption; apply S. Qed.
Lemma near_size n k X y : (n <= 20)%nat -> (0 <= k)%Z -> RoundP.near double_unit n X y ->
  bpow radix2 (- k) <= X <= bpow radix2 k -> size (k + 1) y.
Proof.
  intros N K H (A & B). split; [lia|]. right.
  assert (Hu : 0 <= double_unit <= 1/1024) by apply double_rounding.
  destruct (RoundP.near_weaken _ Hu n 20 _ _ N H) as (e & -> & L & U).
  pose proof (RoundP.bernoulli _ Hu 20) as Be. rewrite INR_IZR_INZ in Be. cbn -[Rmult double_unit pow] in Be.
  assert (L2 : 1/2 <= (1 - double_unit)^20) by lra.
  assert (U2 : e <= 2).
  { apply Rle_trans with (1 := U). rewrite <- (Rinv_inv 2). apply Rinv_le_contravar; lra. }
  pose proof (bpow_gt_0 radix2 (- k)).
  rewrite Rabs_mult, !Rabs_pos_eq by lra.
  replace (- (k + 1))%Z with (- k + - 1)%Z by lia. rewrite !bpow_plus.
  change (bpow radix2 1) with 2. change (bpow radix2 (- 1)) with (/ 2).
  split; apply Rmult_le_compat; lra.
Qed.

Ltac litsim := first [apply sim_lit; (lia || reflexivity)].
Lemma s_inch_sim : sim 22 (@s_inch b64 NB) (@s_inch R ND).
Proof. unfold s_inch. apply (sim_lit 8 14); (lia || reflexivity). Qed.
Lemma s_inch_nz : 0 < @s_inch R ND.
Proof. unfold s_inch. apply (lit_nz 8 14); (lia || reflexivity). Qed.
Lemma sqinch_sim : sim 44 (@nmul b64 NB s_inch s_inch) (@nmul R ND (@s_inch R ND) (@s_inch R ND)).
Proof. apply (sim_mul 22 22); [lia|apply s_inch_sim|apply s_inch_sim]. Qed.
Lemma sqinch_size : size 32 (@nmul R ND (@s_inch R ND) (@s_inch R ND)).
Proof.
  apply (size_weaken (12 + 1)); [lia|].
  refine (near_size _ _ _ _ _ _ (RoundP.nmul_near _ _ double_rounding 1 1 _ _ _ _
    (RoundP.s_inch_near _ _ double_rounding) (RoundP.s_inch_near _ _ double_rounding)) _); [lia|lia|].
  unfold s_inch; rnum; q2r. cbn -[Rmult IZR]. lra.
Qed.
Lemma size_nonzero_of_near n X y : RoundP.near double_unit n X y -> 0 < X -> 0 < y.
Proof. intros H. apply (RoundP.near_pos double_unit (proj1 double_rounding) n X y H). Qed.
Lemma s_psi_sim : sim 15 (@s_psi b64 NB) (@s_psi R ND).
Proof.
  eapply sim_resize.
  - unfold s_psi. apply (sim_div 91 44); [lia| | |apply sqinch_sim].
    + pose proof (RoundP.nmul_near _ _ double_rounding 1 1 _ _ _ _
        (RoundP.s_inch_near _ _ double_rounding) (RoundP.s_inch_near _ _ double_rounding)) as H.
      apply Rgt_not_eq, (size_nonzero_of_near _ _ _ H). unfold s_inch; rnum; q2r. lra.
    + apply (sim_mul 53 38); [lia| |].
      * apply (sim_lit 26 27); (lia || reflexivity).
      * apply (sim_weaken (20 + 17)); [lia|]. apply (sim_lit 20 17); (lia || reflexivity).
  - apply (near_size 7 14 _ _ ltac:(lia) ltac:(lia) (RoundP.s_psi_near _ _ double_rounding)).
    unfold s_psi, s_inch; rnum; q2r. cbn -[Rmult IZR Rdiv]. lra.
Qed.
Lemma s_psi_nz : 0 < @s_psi R ND.
Proof.
  apply (size_nonzero_of_near _ _ _ (RoundP.s_psi_near _ _ double_rounding)).
  apply RoundP.s_psi_pos.
Qed.

Definition esim (a : string * unit_ b64) (b : string * unit_ R) : Prop :=
  fst a = fst b /\ usim 32 (snd a) (snd b).
Lemma usim_weaken s s' v v' : (s <= s')%Z -> usim s v v' -> usim s' v v'.
Proof. intros S (B & C & D & E). repeat split; try assumption; eapply (sim_weaken s); eauto. Qed.
Lemma sim_nz_mul k l x y x' y' : (k + l <= 1000)%Z -> sim k x y -> sim l x' y' -> 0 < y -> 0 < y' ->
  0 < @nmul R ND y y'.
Proof.
  intros K (_ & _ & S) (_ & _ & S') N N'. cbn [nmul Num_rounded].
  apply (double_pos (k + l)); [exact K|now apply size_mul|now apply Rmult_lt_0_compat].
Qed.
Lemma sim_nz_div k l x y x' y' : (k + l <= 1000)%Z -> sim k x y -> sim l x' y' -> 0 < y -> 0 < y' ->
  0 < @ndiv R ND y y'.
Proof.
  intros K (_ & _ & S) (_ & _ & S') N N'. cbn [ndiv Num_rounded].
  apply (double_pos (k + l)); [exact K|now apply size_div|now apply Rdiv_lt_0_compat].
Qed.
Lemma sim_nz_sqrt k x y : (k <= 1000)%Z -> sim k x y -> 0 < y -> 0 < @nsqrt R ND y.
Proof.
  intros K (_ & _ & S) N. cbn [nsqrt Num_rounded].
  apply (double_pos k); [exact K|apply size_sqrt; [exact S|lra]|now apply sqrt_lt_R0].
Qed.

Lemma usim_offset k l q (O : Q) d : (0 <= k <= 53)%Z -> (0 <= l <= 53)%Z -> (k + l <= 32)%Z ->
  (Z.abs (Qnum q) <=? 2 ^ k)%Z = true -> (Zpos (Qden q) <=? 2 ^ l)%Z = true ->
  (0 <? Qnum q)%Z = true ->
  (Z.abs (Qnum O) <=? 2 ^ 31)%Z = true -> (Zpos (Qden O) <=? 2 ^ 31)%Z = true ->
  usim 32 (mkUnit d (@nofQ b64 NB q) (Some (@nofQ b64 NB O)))
          (mkUnit d (@nofQ R ND q) (Some (@nofQ R ND O))).
Proof.
  intros K L KL A B N C D. split; [reflexivity|]. cbn [u_scale Pint.u_off].
  split; [apply (sim_weaken (k + l)); [exact KL|]; now apply sim_lit|].
  split; [now apply (lit_nz k l)|]. apply (sim_lit 31 31); (assumption || lia).
Qed.
Lemma ksi_sim : usim 32 (mult_unit d_pressure (@nmul b64 NB (@nofQ b64 NB 1000) (@s_psi b64 NB)))
                        (mult_unit d_pressure (@nmul R ND (@nofQ R ND 1000) (@s_psi R ND))).
Proof.
  apply (usim_weaken (10 + 15)); [lia|].
  assert (H : sim 10 (@nofQ b64 NB 1000) (@nofQ R ND 1000)) by (apply (sim_lit 10 0); (lia || reflexivity)).
  assert (H' : 0 < @nofQ R ND 1000) by (apply (lit_nz 10 0); (lia || reflexivity)).
  apply usim_mult.
  - apply (sim_mul 10 15); [lia|exact H|apply s_psi_sim].
  - apply (sim_nz_mul 10 15 _ _ _ _ ltac:(lia) H s_psi_sim H' s_psi_nz).
Qed.
Lemma unit_table_sim : Forall2 esim (@unit_table b64 NB) (@unit_table R ND).
Proof.
  unfold unit_table.
  repeat (apply Forall2_cons || apply Forall2_nil).
  all: split; [reflexivity|]; cbn [snd].
  all: match goal with
  | |- usim _ (mult_unit _ one) _ => apply (usim_weaken 0); [lia|]; apply usim_one
  | |- usim _ (mult_unit _ s_inch) _ =>
      apply (usim_weaken 22); [lia|]; apply usim_mult; [apply s_inch_sim|apply s_inch_nz]
  | |- usim _ (mult_unit _ s_psi) _ =>
      apply (usim_weaken 15); [lia|]; apply usim_mult; [apply s_psi_sim|apply s_psi_nz]
  | |- usim _ (mult_unit _ (nofQ _)) _ =>
      first [ apply (usim_weaken (30 + 0)); [lia|]; apply usim_lit; (lia || reflexivity)
            | apply (usim_weaken (22 + 10)); [lia|]; apply usim_lit; (lia || reflexivity)
            | apply (usim_weaken (12 + 14)); [lia|]; apply usim_lit; (lia || reflexivity)]
  | |- usim _ (mult_unit _ (nmul s_inch s_inch)) _ =>
      apply usim_mult; [eapply sim_resize; [apply sqinch_sim|apply sqinch_size]|];
      apply (sim_nz_mul 22 22 _ _ _ _ ltac:(lia) s_inch_sim s_inch_sim s_inch_nz s_inch_nz)
  | |- usim _ (mult_unit _ (ndiv one s_inch)) _ =>
      apply (usim_weaken (0 + 22)); [lia|]; apply usim_mult;
      [ apply (sim_div 0 22); [lia|apply Rgt_not_eq, s_inch_nz|apply sim_one|apply s_inch_sim]
      | apply (sim_nz_div 0 22 _ _ _ _ ltac:(lia) sim_one s_inch_sim one_nz s_inch_nz)]
  | |- usim _ (mult_unit _ (nmul (nofQ _) s_psi)) _ => apply ksi_sim
  | |- usim _ (mkUnit _ one _) _ => unfold one; apply (usim_offset 0 0); (lia || reflexivity)
  | |- usim _ (mkUnit _ _ _) _ => apply (usim_offset 3 4); (lia || reflexivity)
  end.
Qed.
Lemma lookup_sim name :
  match @lookup_unit b64 NB name, @lookup_unit R ND name with
  | Some v, Some v' => usim 32 v v'
  | None, None => True
  | _, _ => False
  end.
Proof.
  unfold lookup_unit. pose proof unit_table_sim as H. revert H.
  generalize (@unit_table b64 NB) (@unit_table R ND). intros l l' H.
  induction H as [|(a & v) (b & v') l l' (E & U) F IH]; cbn [assoc]; [exact I|].
  cbn [fst snd] in *. subst b. destruct (String.eqb a name); [exact U|exact IH].
Qed.

(** ** Pint *)
Section Q.
  Variables (q : quantity b64) (q' : quantity R) (k s : Z).
  Hypothesis H : qsim k s q q'.
  Lemma base_sim : (k + s <= 900)%Z -> (62 <= k + s)%Z -> sim (k + s + 52) (base_mag q) (@base_mag R ND q').
  Proof.
    intros B B'. destruct H as (M & (_ & S & _ & O) & _). unfold base_mag.
    pose proof (sim_mul k s _ _ _ _ ltac:(lia) M S) as P.
    destruct (Pint.u_off (q_unit q)) as [o|], (Pint.u_off (q_unit q')) as [o'|]; try contradiction.
    - apply sim_add; [lia|exact P|apply (sim_weaken 62); [lia|exact O]].
    - apply (sim_weaken (k + s)); [lia|exact P].
  Qed.
  Lemma base_sim_plain : (k + s <= 1000)%Z -> plain (q_unit q) -> sim (k + s) (base_mag q) (@base_mag R ND q').
  Proof.
    intros B Pl. destruct H as (M & (_ & S & _ & O) & _). unfold base_mag, plain in *.
    rewrite Pl in *. destruct (Pint.u_off (q_unit q')) as [o'|]; try contradiction.
    apply (sim_mul k s _ _ _ _ B M S).
  Qed.
End Q.
Lemma moderate_sim m : moderate 1e18 m -> sim 60 m (real m).
Proof.
  intros (F & B). split; [exact F|]. split; [reflexivity|]. split; [lia|].
  destruct B as [B|(B1 & B2)]; [now left|right].
  change (bpow radix2 (- 60)) with (/ IZR (2 ^ 60)). change (bpow radix2 60) with (IZR (2 ^ 60)).
  cbn -[IZR Rabs]. lra.
Qed.
Lemma moderate_sim10 m : moderate 1e10 m -> sim 34 m (real m).
Proof.
  intros (F & B). split; [exact F|]. split; [reflexivity|]. split; [lia|].
  destruct B as [B|(B1 & B2)]; [now left|right].
  change (bpow radix2 (- 34)) with (/ IZR (2 ^ 34)). change (bpow radix2 34) with (IZR (2 ^ 34)).
  cbn -[IZR Rabs]. lra.
Qed.
Lemma parse_sim i i' reg : reads 1e18 i i' ->
  rsim (qsim 60 32) (@parse_quant_input b64 NB i reg) (@parse_quant_input R ND i' reg).
Proof.
  pose proof moderate_sim as M.
  intros [m name Mo|m name v v' r Mo L L'].
  - cbn [parse_quant_input quantity_of_items]. unfold quant.
    pose proof (lookup_sim name) as U.
    destruct (@lookup_unit b64 NB name) as [v|], (@lookup_unit R ND name) as [v'|]; try contradiction; cbn [rsim]; [|reflexivity].
    split; [now apply M|]. split; [exact U|reflexivity].
  - cbn [parse_quant_input rsim]. pose proof (lookup_sim name) as U. rewrite L, L' in U.
    split; [now apply M|]. split; [exact U|reflexivity].
Qed.
Lemma lookup_off name v : @lookup_unit b64 NB name = Some v -> Pint.u_off v <> None ->
  u_dim v = d_temperature.
Proof.
  unfold lookup_unit.
  assert (F : Forall (fun e : string * unit_ b64 =>
                Pint.u_off (snd e) = None \/ u_dim (snd e) = d_temperature) (@unit_table b64 NB)).
  { unfold unit_table.
    repeat first [ apply Forall_nil
                 | apply Forall_cons; [first [left; reflexivity | right; reflexivity]|] ]. }
  revert F. generalize (@unit_table b64 NB). intros l F. induction F as [|(a & w) l E F IH]; cbn [assoc]; [discriminate|].
  destruct (String.eqb a name); [|exact IH]. intros X N. cbn [snd] in E.
  assert (Y : w = v) by congruence. subst. destruct E; [contradiction|assumption].
Qed.
Definition qbase (k : Z) (q : quantity b64) (q' : quantity R) : Prop :=
  qsim k 0 q q' /\ plain (q_unit q).
Lemma parse_base_sim i i' reg : reads 1e18 i i' ->
  rsim (fun q q' => qbase 144 q q' /\ (u_dim (q_unit q) <> d_temperature -> qbase 92 q q'))
    (@parse_base b64 NB i reg) (@parse_base R ND i' reg).
Proof.
  intros Rd. unfold parse_base. apply (rsim_bind (fun q q' => qsim 60 32 q q' /\ (Pint.u_off (q_unit q) <> None -> u_dim (q_unit q) = d_temperature))).
  2:{ intros q q' (H & W). cbn [rsim].
  pose proof (base_sim q q' _ _ H ltac:(lia) ltac:(lia)) as B.
  destruct H as (M & (D & U) & G). unfold to_base_units. split.
  - split; [|reflexivity]. split; [exact B|]. cbn [q_unit q_reg]. rewrite D. split; [apply usim_one|exact G].
  - intros N. assert (Pl : plain (q_unit q)).
    { unfold plain. destruct (Pint.u_off (q_unit q)); [|reflexivity]. exfalso. apply N. cbn. apply W. discriminate. }
    split; [|reflexivity]. split; [|cbn [q_unit q_reg]; rewrite D; split; [apply usim_one|exact G]].
    apply (base_sim_plain q q' 60 32); [split; [exact M|split; [split; [exact D|exact U]|exact G]]|lia|exact Pl]. }
  pose proof (parse_sim i i' reg Rd) as P.
  pose proof lookup_off as W.
  destruct Rd as [m name Mo|m name v v' r Mo L L']; cbn [parse_quant_input quantity_of_items] in *.
  - unfold quant in *.
    destruct (@lookup_unit b64 NB name) as [v|] eqn:L, (@lookup_unit R ND name) as [v'|];
      cbn [rsim] in *; try contradiction; [|exact P].
    split; [exact P|]. exact (W name v L).
  - cbn [rsim] in *. split; [exact P|]. exact (W name v L).
Qed.

(** ** Pint operations *)
Definition qplain (k s : Z) (q : quantity b64) (q' : quantity R) : Prop :=
  qsim k s q q' /\ plain (q_unit q).
Lemma qplain_weaken k s k' s' q q' : (k <= k')%Z -> (s <= s')%Z -> qplain k s q q' -> qplain k' s' q q'.
Proof. intros K S (A & B). split; [now apply (qsim_weaken k s)|exact B]. Qed.
Lemma qplain_base k q q' : qbase k q q' -> qplain k 0 q q'.
Proof. exact (fun H => H). Qed.
Definition tsim {A B} (_ : A) (_ : B) : Prop := True.

Lemma offset_sim k s q q' : qsim k s q q' ->
  rsim (fun _ _ => plain (q_unit q)) (offset_free q) (@offset_free R q').
Proof.
  intros (_ & (_ & _ & _ & O) & _). unfold offset_free, plain.
  destruct (Pint.u_off (q_unit q)), (Pint.u_off (q_unit q')); cbn; auto.
Qed.
Lemma reg_sim k s k' s' p p' q q' : qsim k s p p' -> qsim k' s' q q' ->
  rsim (fun _ _ => True) (same_reg p q) (@same_reg R p' q').
Proof.
  intros (_ & _ & E) (_ & _ & E'). unfold same_reg. rewrite E, E'.
  destruct (Nat.eqb _ _); cbn [rsim]; auto.
Qed.

Lemma pydiv_sim k l x y x' y' : (k + l <= 1000)%Z -> sim k x y -> sim l x' y' ->
  rsim (sim (k + l)) (@pydiv b64 NB x x') (@pydiv R ND y y').
Proof.
  intros K A B. unfold pydiv. rewrite (sim_eqb l 0 _ _ _ _ B sim_zero).
  cbn [neqb Num_rounded]. unfold Reqb. destruct (Req_EM_T y' (@zero R ND)) as [E|N]; cbn [rsim]; [reflexivity|].
  apply sim_div; try assumption. intros Z. apply N. rewrite Z. symmetry. apply (RoundP.zero_rnd _ _ double_rounding).
Qed.
Lemma npsqrt_sim k x y : (k <= 1000)%Z -> sim k x y ->
  rsim (sim k) (@npsqrt b64 NB x) (@npsqrt R ND y).
Proof.
  intros K A. unfold npsqrt. rewrite (sim_ltb k 0 _ _ _ _ A sim_zero).
  cbn [nltb Num_rounded]. unfold Rltb. destruct (Rlt_dec y (@zero R ND)) as [E|N]; cbn [rsim]; [reflexivity|].
  apply sim_sqrt; try assumption. rewrite (RoundP.zero_rnd _ _ double_rounding) in N. lra.
Qed.

Lemma q_mul_sim k s k' s' p p' q q' : (k + k' <= 1000)%Z -> (s + s' <= 1000)%Z ->
  qsim k s p p' -> qsim k' s' q q' ->
  rsim (qplain (k + k') (s + s')) (@q_mul b64 NB p q) (@q_mul R ND p' q').
Proof.
  intros K S A B. unfold q_mul.
  eapply rsim_bind; [exact (reg_sim _ _ _ _ _ _ _ _ A B)|intros ? ? _].
  eapply rsim_bind; [exact (offset_sim _ _ _ _ A)|intros ? ? _].
  eapply rsim_bind; [exact (offset_sim _ _ _ _ B)|intros ? ? _]. cbn [rsim].
  destruct A as (M & (D & U & P & _) & R), B as (M' & (D' & U' & P' & _) & R').
  split; [|reflexivity]. split; [now apply sim_mul|]. cbn [q_unit q_reg]. split; [|exact R].
  rewrite D, D'. apply usim_mult; [now apply sim_mul|now apply (sim_nz_mul s s' _ _ _ _ S U U')].
Qed.
Lemma q_div_sim k s k' s' p p' q q' : (k + k' <= 1000)%Z -> (s + s' <= 1000)%Z ->
  qsim k s p p' -> qsim k' s' q q' ->
  rsim (qplain (k + k') (s + s')) (@q_div b64 NB (@pydiv b64 NB) p q) (@q_div R ND (@pydiv R ND) p' q').
Proof.
  intros K S A B. unfold q_div.
  eapply rsim_bind; [exact (reg_sim _ _ _ _ _ _ _ _ A B)|intros ? ? _].
  eapply rsim_bind; [exact (offset_sim _ _ _ _ A)|intros ? ? _].
  eapply rsim_bind; [exact (offset_sim _ _ _ _ B)|intros ? ? _].
  destruct A as (M & (D & U & P & _) & R), B as (M' & (D' & U' & P' & _) & R').
  eapply rsim_bind; [exact (pydiv_sim _ _ _ _ _ _ K M M')|intros m m' Em]. cbn [rsim].
  split; [|reflexivity]. split; [exact Em|]. cbn [q_unit q_reg]. split; [|exact R].
  rewrite D, D'. apply usim_mult; [apply sim_div; try assumption; lra|now apply (sim_nz_div s s' _ _ _ _ S U U')].
Qed.
Lemma q_scale_sim k s l c c' q q' : (k + l <= 1000)%Z -> sim l c c' -> qsim k s q q' ->
  rsim (qplain (k + l) s) (@q_scale b64 NB c q) (@q_scale R ND c' q').
Proof.
  intros K C A. unfold q_scale.
  eapply rsim_bind; [exact (offset_sim _ _ _ _ A)|intros ? ? O]. cbn [rsim].
  destruct A as (M & U & R). split; [|exact O]. split; [|split; [exact U|exact R]].
  rewrite Z.add_comm. apply sim_mul; [lia|exact C|exact M].
Qed.
Lemma q_divn_sim k s l c c' q q' : (k + l <= 1000)%Z -> sim l c c' -> qsim k s q q' ->
  rsim (qplain (k + l) s) (@q_divn b64 (@pydiv b64 NB) q c) (@q_divn R (@pydiv R ND) q' c').
Proof.
  intros K C A. unfold q_divn.
  eapply rsim_bind; [exact (offset_sim _ _ _ _ A)|intros ? ? O].
  destruct A as (M & U & R).
  eapply rsim_bind; [exact (pydiv_sim _ _ _ _ _ _ K M C)|intros m m' Em]. cbn [rsim].
  split; [|exact O]. split; [exact Em|split; [exact U|exact R]].
Qed.
Lemma q_sq_sim k s q q' : (k + k <= 1000)%Z -> (s + s <= 1000)%Z -> qsim k s q q' ->
  rsim (qplain (k + k) (s + s)) (@q_sq b64 NB q) (@q_sq R ND q').
Proof.
  intros K S A. unfold q_sq, sq.
  eapply rsim_bind; [exact (offset_sim _ _ _ _ A)|intros ? ? _]. cbn [rsim].
  destruct A as (M & (D & U & P & _) & R).
  split; [|reflexivity]. split; [now apply sim_mul|]. cbn [q_unit q_reg]. split; [|exact R].
  rewrite D. apply usim_mult; [now apply sim_mul|now apply (sim_nz_mul s s _ _ _ _ S U U)].
Qed.
Lemma q_sqrt_sim k s q q' : (k <= 1000)%Z -> (s <= 1000)%Z -> qsim k s q q' ->
  rsim (qplain k s) (@q_sqrt b64 NB q) (@q_sqrt R ND q').
Proof.
  intros K S A. unfold q_sqrt.
  eapply rsim_bind; [exact (offset_sim _ _ _ _ A)|intros ? ? _].
  destruct A as (M & (D & U & P & _) & R). rewrite D.
  destruct (dim_root 2 (u_dim (q_unit q'))) as [d|]; [|reflexivity].
  eapply rsim_bind; [exact (npsqrt_sim _ _ _ K M)|intros m m' Em]. cbn [rsim].
  split; [|reflexivity]. split; [exact Em|]. cbn [q_unit q_reg]. split; [|exact R].
  apply usim_mult; [apply sim_sqrt; try assumption; lra|now apply (sim_nz_sqrt s _ _ S U)].
Qed.
Lemma n_addq_sim k s l c c' q q' : (k + s <= 940)%Z -> (l <= k + s)%Z -> sim l c c' -> qplain k s q q' ->
  rsim (qplain (k + s + 52) 0) (@n_addq b64 NB c q) (@n_addq R ND c' q').
Proof.
  intros K L C (A & O). unfold n_addq.
  pose proof (base_sim_plain q q' k s A ltac:(lia) O) as B.
  destruct A as (M & (D & U & P & _) & R). rewrite D.
  destruct (dim_eqb _ _); [|reflexivity]. cbn [rsim].
  split; [|reflexivity]. split; [|split; [apply usim_one|exact R]].
  apply sim_add; [lia|now apply (sim_weaken l)|exact B].
Qed.
Lemma q_to_sim k s r q q' v v' : (k + s + r <= 1000)%Z -> qplain k s q q' -> usim r v v' -> plain v ->
  rsim (qplain (k + s + r) r) (@q_to b64 NB q v) (@q_to R ND q' v').
Proof.
  intros K (A & O) (Dv & Uv & Pv & Ov) Plv. unfold q_to.
  pose proof (base_sim_plain q q' k s A ltac:(destruct Uv as (_ & _ & X & _); lia) O) as B.
  destruct A as (M & (D & U & P & _) & R). rewrite D, Dv.
  destruct (dim_eqb _ _); [|reflexivity]. cbn [rsim]. unfold plain in Plv. rewrite Plv in *.
  destruct (Pint.u_off v') eqn:E; [contradiction|].
  split; [|exact Plv]. split.
  - cbn [q_mag]. apply sim_div; try assumption; lra.
  - cbn [q_unit q_reg]. split; [|exact R]. repeat split; try assumption; try apply Uv.
    rewrite Plv, E. exact I.
Qed.
Lemma q_plain_sim k s q q' : (k + s <= 1000)%Z -> qplain k s q q' ->
  rsim (sim (k + s)) (@q_plain b64 NB q) (@q_plain R ND q').
Proof.
  intros K A. unfold q_plain.
  eapply rsim_bind.
  - apply (q_to_sim k s 0); [lia|exact A|apply usim_one|reflexivity].
  - intros a b ((M & _) & _). cbn [rsim]. now rewrite Z.add_0_r in M.
Qed.
Lemma check_sim k s q q' name pos : (k + s <= 800)%Z -> qsim k s q q' ->
  rsim (fun _ _ => forall d, supported_dimension name = Some d -> u_dim (q_unit q) = d)
    (@check_q b64 NB q name pos) (@check_q R ND q' name pos).
Proof.
  intros K A. unfold check_q, check_pint_quantity. cbn [bind].
  destruct (supported_dimension name) as [d|] eqn:E; [|reflexivity].
  assert (B : exists l, sim l (@base_mag b64 NB {| q_mag := q_mag q; q_unit := q_unit q; q_reg := 0 |})
                (@base_mag R ND {| q_mag := q_mag q'; q_unit := q_unit q'; q_reg := 0 |})).
  { exists (Z.max k 62 + s + 52)%Z. apply base_sim; [| |].
    - destruct A as (M & U & R). split; [apply (sim_weaken k); [lia|exact M]|]. split; [exact U|reflexivity].
    - destruct A as ((_ & _ & Y & _) & (_ & (_ & _ & X & _) & _) & _). lia.
    - destruct A as ((_ & _ & Y & _) & (_ & (_ & _ & X & _) & _) & _). lia. }
  destruct B as (l & B). rewrite (sim_ltb l 0 _ _ _ _ B sim_zero).
  destruct A as (_ & (D & _) & _). rewrite D.
  destruct (pos && _)%bool; cbn [raise_if bind rsim]; [reflexivity|].
  destruct (dim_eqb (u_dim (q_unit q')) d) eqn:X; cbn [negb raise_if bind rsim]; [|reflexivity].
  intros d' [= <-]. now apply dim_eqb_eq.
Qed.
