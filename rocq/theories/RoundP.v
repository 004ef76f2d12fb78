(** * RoundP: error analysis of the model under rounding. *)
From Coq Require Import String ZArith QArith Reals Qreals List Bool Lra Lia Psatz.
From Verif Require Import PyBase Pint UnitsM Spec QLemmas RoundM RoundSpec.
Import ListNotations.
Local Open Scope R_scope.

(** [y] is [x] after at most [n] roundings: a factor between (1-u)^n and its inverse. *)
Definition near (u : R) (n : nat) (x y : R) : Prop :=
  exists e, y = x * e /\ (1 - u)^n <= e <= / (1 - u)^n.

Section Near.
  Variable u : R.
  Hypothesis Hu : 0 <= u <= 1/1024.

  Lemma base_pos : 0 < 1 - u. Proof. lra. Qed.
  Lemma pow_pos_u n : 0 < (1 - u)^n. Proof. apply pow_lt; lra. Qed.
  Lemma pow_le1 n : (1 - u)^n <= 1.
  Proof. pose proof (pow_incr (1 - u) 1 n) as H. rewrite pow1 in H. apply H. lra. Qed.
  Lemma inv_ge1 n : 1 <= / (1 - u)^n.
  Proof. rewrite <- Rinv_1 at 1. apply Rinv_le_contravar; [apply pow_pos_u|apply pow_le1]. Qed.
  Lemma pow_mono n m : (n <= m)%nat -> (1 - u)^m <= (1 - u)^n.
  Proof.
    intros H. replace m with (n + (m - n))%nat by lia. rewrite pow_add.
    pose proof (pow_pos_u n). pose proof (pow_le1 (m - n)). nra.
  Qed.

  Lemma near_factor_pos n x y : near u n x y -> exists e, 0 < e /\ y = x * e.
  Proof. intros (e & -> & L & _). exists e. split; [|reflexivity]. pose proof (pow_pos_u n). lra. Qed.
  Lemma near_refl n x : near u n x x.
  Proof. exists 1. split; [ring|]. split; [apply pow_le1|apply inv_ge1]. Qed.
  Lemma near_weaken n m x y : (n <= m)%nat -> near u n x y -> near u m x y.
  Proof.
    intros H (e & -> & L & U). exists e. split; [reflexivity|].
    pose proof (pow_mono n m H). split; [lra|].
    eapply Rle_trans; [exact U|]. apply Rinv_le_contravar; [apply pow_pos_u|assumption].
  Qed.
  Lemma near_pos n x y : near u n x y -> 0 < x -> 0 < y.
  Proof. intros H X. destruct (near_factor_pos _ _ _ H) as (e & E & ->). nra. Qed.
  Lemma near_nonneg n x y : near u n x y -> 0 <= x -> 0 <= y.
  Proof. intros H X. destruct (near_factor_pos _ _ _ H) as (e & E & ->). nra. Qed.
  Lemma near_neg n x y : near u n x y -> x < 0 -> y < 0.
  Proof. intros H X. destruct (near_factor_pos _ _ _ H) as (e & E & ->). nra. Qed.
  Lemma near_zero n x y : near u n x y -> y = 0 -> x = 0.
  Proof.
    intros H Y. destruct (near_factor_pos _ _ _ H) as (e & E & ->).
    apply Rmult_integral in Y. destruct Y; [assumption|lra].
  Qed.
  Lemma near_nz n x y : near u n x y -> x <> 0 -> y <> 0.
  Proof. intros H X Y. apply X. eapply near_zero; eassumption. Qed.

  Lemma near_trans n m x y z : near u n x y -> near u m y z -> near u (n + m) x z.
  Proof.
    intros (e & -> & L & U) (f & -> & L' & U'). exists (e * f). split; [ring|].
    rewrite pow_add. pose proof (pow_pos_u n). pose proof (pow_pos_u m).
    rewrite Rinv_mult. split.
    - apply Rmult_le_compat; lra.
    - apply Rmult_le_compat; lra.
  Qed.
  Lemma near_mul n m x y x' y' :
    near u n x x' -> near u m y y' -> near u (n + m) (x * y) (x' * y').
  Proof.
    intros (e & -> & L & U) (f & -> & L' & U'). exists (e * f). split; [ring|].
    rewrite pow_add. pose proof (pow_pos_u n). pose proof (pow_pos_u m).
    rewrite Rinv_mult. split; apply Rmult_le_compat; lra.
  Qed.
  Lemma near_inv n y y' : near u n y y' -> near u n (/ y) (/ y').
  Proof.
    intros (e & -> & L & U). pose proof (pow_pos_u n) as Pn.
    exists (/ e). split; [now rewrite Rinv_mult|]. split.
    - rewrite <- (Rinv_inv ((1 - u)^n)). apply Rinv_le_contravar; lra.
    - apply Rinv_le_contravar; lra.
  Qed.
  Lemma near_div n m x y x' y' :
    near u n x x' -> near u m y y' -> near u (n + m) (x / y) (x' / y').
  Proof. intros A B. unfold Rdiv. apply near_mul; [assumption|now apply near_inv]. Qed.
  Lemma near_add n x y x' y' :
    0 <= x -> 0 <= y -> near u n x x' -> near u n y y' -> near u n (x + y) (x' + y').
  Proof.
    intros X Y (e & -> & L & U) (f & -> & L' & U').
    destruct (Req_dec (x + y) 0) as [Z|Z].
    - exists 1. split; [assert (x = 0) by lra; assert (y = 0) by lra; subst; ring|].
      split; [apply pow_le1|apply inv_ge1].
    - exists ((x * e + y * f) / (x + y)). split; [field; exact Z|].
      assert (0 < x + y) by lra. split.
      + apply Rmult_le_reg_r with (x + y); [assumption|]. unfold Rdiv. rewrite Rmult_assoc, Rinv_l by exact Z. nra.
      + apply Rmult_le_reg_r with (x + y); [assumption|]. unfold Rdiv. rewrite Rmult_assoc, Rinv_l by exact Z. nra.
  Qed.
  Lemma near_sqrt n x x' : 0 <= x -> near u n x x' -> near u n (sqrt x) (sqrt x').
  Proof.
    intros X (e & -> & L & U). pose proof (pow_pos_u n) as P. pose proof (pow_le1 n). pose proof (inv_ge1 n).
    exists (sqrt e). split; [apply sqrt_mult; lra|]. split.
    - rewrite <- (sqrt_square ((1 - u)^n)) by lra. apply sqrt_le_1; nra.
    - rewrite <- (sqrt_square (/ (1 - u)^n)) by lra. apply sqrt_le_1; nra.
  Qed.

  (** From the factor to a relative error. *)
  Lemma bernoulli n : 1 - INR n * u <= (1 - u)^n.
  Proof.
    induction n as [|n IH]; [cbn; lra|]. rewrite S_INR. cbn [pow].
    pose proof (pow_le1 n). pose proof (pos_INR n). nra.
  Qed.
  Lemma near_within n e x y : INR n * u <= 1/2 -> 2 * INR n * u <= e -> near u n x y -> within e x y.
  Proof.
    intros S E (f & -> & L & U). unfold within.
    replace (x * f - x) with (x * (f - 1)) by ring. rewrite Rabs_mult, Rmult_comm.
    apply Rmult_le_compat_r; [apply Rabs_pos|].
    pose proof (bernoulli n) as B. pose proof (pow_pos_u n) as P. pose proof (pos_INR n).
    assert (H1 : / (1 - u)^n <= 1 + 2 * INR n * u).
    { apply Rmult_le_reg_l with ((1 - u)^n); [exact P|]. rewrite Rinv_r by lra.
      replace (2 * INR n * u) with (2 * (INR n * u)) by ring.
      assert (T0 : 0 <= INR n * u) by (apply Rmult_le_pos; lra).
      set (t := INR n * u) in *. set (p := (1 - u)^n) in *.
      assert (X1 : 0 <= (p - (1 - t)) * (1 + 2 * t)) by (apply Rmult_le_pos; lra).
      assert (X2 : 0 <= t * (1/2 - t)) by (apply Rmult_le_pos; lra). nra. }
    apply Rabs_le. lra.
  Qed.
End Near.

Section Rounded.
  Variables (u : R) (rnd : R -> R).
  Hypothesis Hr : rounding u rnd.
  Notation N := (Num_rounded rnd).
  Let Hu : 0 <= u <= 1/1024. Proof. exact (proj1 Hr). Qed.

  Lemma rnd_near n x y : near u n x y -> near u (S n) x (rnd y).
  Proof.
    intros H. pose proof (proj1 (proj2 Hr)) as He. replace (S n) with (n + 1)%nat by lia.
    apply near_trans with y; [exact Hu|exact H|]. clear x H.
    specialize (He y). destruct (Req_dec y 0) as [->|Ny].
    - exists 1. rewrite Rabs_R0, Rmult_0_r in He. split.
      + pose proof (Rabs_pos (rnd 0 - 0)). assert (Z : Rabs (rnd 0 - 0) = 0) by lra.
        destruct (Req_dec (rnd 0) 0) as [->|X]; [ring|]. exfalso. apply Rabs_no_R0 in Z; [exact Z|lra].
      + split; [apply pow_le1; exact Hu|apply inv_ge1; exact Hu].
    - exists (rnd y / y). split; [field; exact Ny|].
      assert (B : Rabs (rnd y / y - 1) <= u).
      { replace (rnd y / y - 1) with ((rnd y - y) / y) by (field; exact Ny).
        unfold Rdiv. rewrite Rabs_mult, Rabs_inv.
        apply Rmult_le_reg_r with (Rabs y); [apply Rabs_pos_lt; exact Ny|].
        rewrite Rmult_assoc, Rinv_l by (apply Rabs_no_R0; exact Ny). lra. }
      assert (B2 : - u <= rnd y / y - 1 <= u)
        by (unfold Rabs in B; destruct (Rcase_abs (rnd y / y - 1)); lra).
      rewrite pow_1. split; [lra|].
      apply Rmult_le_reg_l with (1 - u); [lra|]. rewrite Rinv_r by lra. nra.
  Qed.
  Lemma rnd_mono x y : x <= y -> rnd x <= rnd y.
  Proof. apply Hr. Qed.
  Lemma rnd_int z : (-1024 <= z <= 1024)%Z -> rnd (IZR z) = IZR z.
  Proof. apply Hr. Qed.
  Lemma rnd_double x : rnd (2 * rnd x) = 2 * rnd x.
  Proof. apply Hr. Qed.
  Lemma one_rnd : @one R N = 1.
  Proof. unfold one. cbn [nofQ Num_rounded]. replace (Q2R 1) with 1 by (q2r; lra). apply (rnd_int 1); lia. Qed.
  Lemma zero_rnd : @zero R N = 0.
  Proof. unfold zero. cbn [nofQ Num_rounded]. replace (Q2R 0) with 0 by (q2r; lra). apply (rnd_int 0); lia. Qed.
  Lemma lit_near q : near u 1 (Q2R q) (@nofQ R N q).
  Proof. cbn [nofQ Num_rounded]. apply rnd_near, near_refl. exact Hu. Qed.

  Lemma nmul_near n m x y x' y' : near u n x x' -> near u m y y' ->
    near u (S (n + m)) (x * y) (@nmul R N x' y').
  Proof. intros. cbn [nmul Num_rounded]. apply rnd_near, near_mul; assumption || exact Hu. Qed.
  Lemma ndiv_near n m x y x' y' : near u n x x' -> near u m y y' ->
    near u (S (n + m)) (x / y) (@ndiv R N x' y').
  Proof. intros. cbn [ndiv Num_rounded]. apply rnd_near, near_div; assumption || exact Hu. Qed.
  Lemma nadd_near n m x y x' y' : 0 <= x -> 0 <= y -> near u n x x' -> near u m y y' ->
    near u (S (Nat.max n m)) (x + y) (@nadd R N x' y').
  Proof.
    intros X Y A B. cbn [nadd Num_rounded]. apply rnd_near, near_add; try assumption; try exact Hu.
    - eapply near_weaken; [exact Hu| |exact A]. lia.
    - eapply near_weaken; [exact Hu| |exact B]. lia.
  Qed.
  Lemma nsqrt_near n x x' : 0 <= x -> near u n x x' -> near u (S n) (sqrt x) (@nsqrt R N x').
  Proof. intros. cbn [nsqrt Num_rounded]. apply rnd_near, near_sqrt; assumption || exact Hu. Qed.

  (** ** Units *)
  Definition unit_near (k : nat) (v v' : unit_ R) : Prop :=
    u_dim v' = u_dim v /\ u_off v = None /\ u_off v' = None
    /\ 0 < u_scale v /\ near u k (u_scale v) (u_scale v').

  Definition entry_near (a b : string * unit_ R) : Prop :=
    fst a = fst b /\ (u_off (snd a) = None -> unit_near 10 (snd a) (snd b)).

  Lemma s_inch_near : near u 1 (@s_inch R Num_R) (@s_inch R N).
  Proof. unfold s_inch. apply lit_near. Qed.
  Lemma s_psi_near : near u 7 (@s_psi R Num_R) (@s_psi R N).
  Proof.
    unfold s_psi. change 7%nat with (S (S (1 + 1) + S (1 + 1))).
    cbn [nmul ndiv Num_R].
    apply ndiv_near; apply nmul_near; first [apply lit_near | apply s_inch_near].
  Qed.
  Lemma s_inch_pos : 0 < @s_inch R Num_R.
  Proof. unfold s_inch; rnum; q2r; lra. Qed.
  Lemma s_psi_pos : 0 < @s_psi R Num_R.
  Proof.
    unfold s_psi. rnum. pose proof s_inch_pos. apply Rdiv_lt_0_compat; [q2r; lra|nra].
  Qed.
  Lemma one_near k : near u k (@one R Num_R) (@one R N).
  Proof. rewrite one_rnd, one_R. apply near_refl. exact Hu. Qed.

  Lemma unit_table_near : Forall2 entry_near (@unit_table R Num_R) (@unit_table R N).
  Proof.
    unfold unit_table.
    assert (W : forall n x y, (n <= 10)%nat -> near u n x y -> near u 10 x y)
      by (intros; eapply near_weaken; eauto).
    repeat (apply Forall2_cons || apply Forall2_nil).
    all: split; [reflexivity|]; cbn [snd u_off mult_unit]; intros O; try discriminate O.
    all: unfold unit_near, mult_unit; cbn [u_dim u_off u_scale];
      split; [reflexivity|split; [reflexivity|split; [reflexivity|]]].
    all: try (split; [rewrite one_R; lra|apply one_near]).
    all: try (split; [rnum; q2r; lra|apply (W 1%nat); [lia|apply lit_near]]).
    all: try (split; [apply s_inch_pos|apply (W 1%nat); [lia|apply s_inch_near]]).
    all: try (split; [apply s_psi_pos|apply (W 7%nat); [lia|apply s_psi_near]]).
    - split; [rnum; pose proof s_inch_pos; nra|].
      apply (W (S (1 + 1))); [lia|]. apply (nmul_near 1 1); apply s_inch_near.
    - split; [rnum; rewrite one_R; apply Rdiv_lt_0_compat; [lra|apply s_inch_pos]|].
      apply (W (S (0 + 1))); [lia|]. apply (ndiv_near 0 1); [apply one_near|apply s_inch_near].
    - split; [rnum; pose proof s_psi_pos; apply Rmult_lt_0_compat; [q2r; lra|assumption]|].
      apply (W (S (1 + 7))); [lia|]. apply (nmul_near 1 7); [apply lit_near|apply s_psi_near].
  Qed.

  Lemma lookup_near s v : @lookup_unit R Num_R s = Some v -> u_off v = None ->
    exists v', @lookup_unit R N s = Some v' /\ unit_near 10 v v'.
  Proof.
    unfold lookup_unit. pose proof unit_table_near as H. intros L O. revert L.
    induction H as [|(k & a) (k' & b) l l' (E1 & E2) F IH]; cbn [assoc]; [discriminate|].
    cbn [fst snd] in *. subst k'. destruct (String.eqb k s).
    - intros [= ->]. exists b. auto.
    - exact IH.
  Qed.

  (** ** Quantities: [q] carries the value [x] up to [k] roundings. *)
  Definition approx (k : nat) (q : quantity R) (d : dim) (x : R) (reg : nat) : Prop :=
    u_dim (q_unit q) = d /\ u_off (q_unit q) = None /\ 0 < u_scale (q_unit q)
    /\ near u k x (q_mag q * u_scale (q_unit q)) /\ q_reg q = reg.

  Lemma approx_weaken k k' q d x reg : (k <= k')%nat -> approx k q d x reg -> approx k' q d x reg.
  Proof. intros H (a & b & c & e & f). repeat split; try assumption. eapply near_weaken; eauto. Qed.

  Lemma rnd_pos x : 0 < x -> 0 < rnd x.
  Proof. intros H. eapply near_pos; [exact Hu|apply rnd_near, (near_refl u Hu 0)|exact H]. Qed.

  Lemma base_near k q d x reg : approx k q d x reg -> near u (S k) x (@base_mag R N q).
  Proof.
    intros (_ & O & _ & H & _). unfold base_mag. rewrite O. cbn [nmul Num_rounded].
    apply rnd_near. exact H.
  Qed.

  (** parse, then to_base_units *)
  Lemma parse_approx i d x reg : d <> d_temperature -> denotes i d x ->
    exists q, @parse_quant_input R N i reg = Ok q /\ approx 10 q d x reg.
  Proof.
    intros Nd H. destruct H as [q d x (S0 & O) D W|m s v d x L D W].
    - cbn [parse_quant_input]. eexists. split; [reflexivity|].
      assert (O' : u_off (q_unit q) = None).
      { destruct (u_off (q_unit q)) eqn:E; [|reflexivity]. exfalso. apply Nd. rewrite <- D. apply O. discriminate. }
      unfold approx; cbn [q_mag q_unit q_reg]. repeat split; try assumption.
      unfold worth in W. rewrite O' in W. rewrite W, Rplus_0_r. apply near_refl. exact Hu.
    - cbn [parse_quant_input quantity_of_items]. unfold quant.
      assert (O' : u_off v = None).
      { destruct (u_off v) eqn:E; [|reflexivity]. exfalso. apply Nd. rewrite <- D.
        apply (lookup_wf s v L). congruence. }
      destruct (lookup_near _ _ L O') as (v' & -> & E1 & E2 & E3 & E4 & E5).
      eexists. split; [reflexivity|]. unfold approx; cbn [q_mag q_unit q_reg].
      repeat split; try assumption; [congruence|eapply near_pos; eauto|].
      unfold worth in W. rewrite O' in W. rewrite W, Rplus_0_r.
      apply (near_mul u Hu 0 10); [apply near_refl; exact Hu|exact E5].
  Qed.
  Lemma to_base_approx k q d x reg : approx k q d x reg -> approx (S k) (@to_base_units R N q) d x reg.
  Proof.
    intros H. pose proof (base_near _ _ _ _ _ H) as B. destruct H as (D & O & S0 & H & E).
    unfold to_base_units, mult_unit, approx. cbn [q_mag q_unit q_reg u_dim u_off u_scale].
    rewrite one_rnd. repeat split; try assumption; [lra|]. rewrite Rmult_1_r. exact B.
  Qed.
  Lemma parse_base_approx i d x reg : d <> d_temperature -> denotes i d x ->
    exists q, @parse_base R N i reg = Ok q /\ approx 11 q d x reg /\ u_scale (q_unit q) = 1.
  Proof.
    intros Nd H. destruct (parse_approx i d x reg Nd H) as (q & E & A).
    unfold parse_base. rewrite E. cbn [bind]. eexists. split; [reflexivity|].
    split; [now apply to_base_approx|]. cbn [q_unit u_scale to_base_units mult_unit]. apply one_rnd.
  Qed.

  (** check_pint_quantity *)
  Lemma check_approx k q d x reg name pos :
    supported_dimension name = Some d -> approx k q d x reg -> 0 <= x ->
    @check_q R N q name pos = Ok true.
  Proof.
    intros Sd A X. pose proof (base_near _ _ _ _ _ A) as B. destruct A as (D & O & S0 & H & E).
    unfold check_q, check_pint_quantity. cbn [bind]. rewrite Sd.
    change (@base_mag R N {| q_mag := q_mag q; q_unit := q_unit q; q_reg := 0 |}) with (@base_mag R N q).
    cbn [nltb Num_rounded]. rewrite zero_rnd.
    rewrite Rltb_false by (eapply near_nonneg; eauto). rewrite andb_false_r. cbn [raise_if bind].
    rewrite D, dim_eqb_refl. reflexivity.
  Qed.
  Lemma check_approx_bad k q d x reg name d' :
    supported_dimension name = Some d' -> approx k q d x reg -> d <> d' \/ x < 0 ->
    is_value_error (@check_q R N q name true).
  Proof.
    intros Sd A X. pose proof (base_near _ _ _ _ _ A) as B. destruct A as (D & O & S0 & H & E).
    unfold check_q, check_pint_quantity. cbn [bind]. rewrite Sd.
    change (@base_mag R N {| q_mag := q_mag q; q_unit := q_unit q; q_reg := 0 |}) with (@base_mag R N q).
    cbn [nltb Num_rounded andb]. rewrite zero_rnd.
    destruct (Rltb_spec (@base_mag R N q) 0) as [L|L]; cbn [raise_if bind]; [eexists; reflexivity|].
    destruct X as [X|X].
    - rewrite D. destruct (dim_eqb d d') eqn:Y; [apply dim_eqb_eq in Y; contradiction|].
      cbn [negb raise_if bind]. eexists; reflexivity.
    - exfalso. apply L. eapply near_neg; eauto.
  Qed.

  (** Arithmetic *)
  Lemma mul_approx k k' q q' d d' x x' reg :
    approx k q d x reg -> approx k' q' d' x' reg ->
    exists r, @q_mul R N q q' = Ok r /\ approx (2 + k + k') r (dim_mul d d') (x * x') reg.
  Proof.
    intros (D & O & S0 & H & E) (D' & O' & S0' & H' & E').
    unfold q_mul, same_reg, offset_free. rewrite E, E', Nat.eqb_refl, O, O'. cbn [bind].
    eexists. split; [reflexivity|]. unfold approx, mult_unit. cbn [q_mag q_unit q_reg u_dim u_off u_scale].
    rewrite D, D'. repeat split; try assumption.
    - cbn [nmul Num_rounded]. apply rnd_pos. nra.
    - cbn [nmul Num_rounded].
      replace (2 + k + k')%nat with (k + k' + (1 + 1))%nat by lia.
      eapply (near_trans u Hu (k + k') (1 + 1)); [apply (near_mul u Hu); [exact H|exact H']|].
      replace (q_mag q * u_scale (q_unit q) * (q_mag q' * u_scale (q_unit q')))
        with ((q_mag q * q_mag q') * (u_scale (q_unit q) * u_scale (q_unit q'))) by ring.
      apply near_mul; [exact Hu| |]; apply rnd_near, (near_refl u Hu 0).
  Qed.
  Lemma div_approx k k' q q' d d' x x' reg :
    approx k q d x reg -> approx k' q' d' x' reg -> x' <> 0 ->
    exists r, @q_div R N (@pydiv R N) q q' = Ok r /\ approx (2 + k + k') r (dim_div d d') (x / x') reg.
  Proof.
    intros (D & O & S0 & H & E) (D' & O' & S0' & H' & E') Nz.
    assert (M : q_mag q' <> 0).
    { intros Z. apply Nz. eapply near_zero; [exact Hu|exact H'|]. rewrite Z. ring. }
    unfold q_div, same_reg, offset_free. rewrite E, E', Nat.eqb_refl, O, O'. cbn [bind].
    unfold pydiv. cbn [neqb Num_rounded]. rewrite zero_rnd, Reqb_false by exact M. cbn [bind].
    eexists. split; [reflexivity|]. unfold approx, mult_unit. cbn [q_mag q_unit q_reg u_dim u_off u_scale].
    rewrite D, D'. repeat split; try assumption.
    - cbn [ndiv Num_rounded]. apply rnd_pos. now apply Rdiv_lt_0_compat.
    - cbn [ndiv Num_rounded].
      replace (2 + k + k')%nat with (k + k' + (1 + 1))%nat by lia.
      eapply (near_trans u Hu (k + k') (1 + 1)); [apply (near_div u Hu); [exact H|exact H']|].
      replace (q_mag q * u_scale (q_unit q) / (q_mag q' * u_scale (q_unit q')))
        with ((q_mag q / q_mag q') * (u_scale (q_unit q) / u_scale (q_unit q'))) by (field; split; lra).
      apply near_mul; [exact Hu| |]; apply rnd_near, (near_refl u Hu 0).
  Qed.
  Lemma scale_approx k k' c c' q d x reg :
    near u k c c' -> approx k' q d x reg ->
    exists r, @q_scale R N c' q = Ok r /\ approx (1 + k + k') r d (c * x) reg.
  Proof.
    intros C (D & O & S0 & H & E). unfold q_scale, offset_free. rewrite O. cbn [bind].
    eexists. split; [reflexivity|]. unfold approx. cbn [q_mag q_unit q_reg]. repeat split; try assumption.
    cbn [nmul Num_rounded].
    replace (1 + k + k')%nat with (k + k' + 1)%nat by lia.
    eapply (near_trans u Hu (k + k') 1); [apply (near_mul u Hu); [exact C|exact H]|].
    replace (c' * (q_mag q * u_scale (q_unit q))) with ((c' * q_mag q) * u_scale (q_unit q)) by ring.
    replace 1%nat with (1 + 0)%nat by lia.
    apply near_mul; [exact Hu|apply rnd_near, (near_refl u Hu 0)|apply near_refl; exact Hu].
  Qed.
  Lemma divn_approx k k' c c' q d x reg :
    near u k c c' -> c <> 0 -> approx k' q d x reg ->
    exists r, @q_divn R (@pydiv R N) q c' = Ok r /\ approx (1 + k + k') r d (x / c) reg.
  Proof.
    intros C Nz (D & O & S0 & H & E). unfold q_divn, offset_free. rewrite O. cbn [bind].
    assert (M : c' <> 0) by (eapply near_nz; eauto).
    unfold pydiv. cbn [neqb Num_rounded]. rewrite zero_rnd, Reqb_false by exact M. cbn [bind].
    eexists. split; [reflexivity|]. unfold approx. cbn [q_mag q_unit q_reg]. repeat split; try assumption.
    cbn [ndiv Num_rounded].
    replace (1 + k + k')%nat with (k' + k + 1)%nat by lia.
    eapply (near_trans u Hu (k' + k) 1); [apply (near_div u Hu); [exact H|exact C]|].
    replace (q_mag q * u_scale (q_unit q) / c') with ((q_mag q / c') * u_scale (q_unit q)) by (field; exact M).
    replace 1%nat with (1 + 0)%nat by lia.
    apply near_mul; [exact Hu|apply rnd_near, (near_refl u Hu 0)|apply near_refl; exact Hu].
  Qed.
  Lemma sq_approx k q d x reg : approx k q d x reg ->
    exists r, @q_sq R N q = Ok r /\ approx (2 + k + k) r (dim_mul d d) (x * x) reg.
  Proof.
    intros (D & O & S0 & H & E). unfold q_sq, offset_free. rewrite O. cbn [bind].
    eexists. split; [reflexivity|]. unfold approx, mult_unit. cbn [q_mag q_unit q_reg u_dim u_off u_scale].
    rewrite D. unfold sq. cbn [nmul Num_rounded]. repeat split; try assumption.
    - apply rnd_pos. nra.
    - replace (2 + k + k)%nat with (k + k + (1 + 1))%nat by lia.
      eapply (near_trans u Hu (k + k) (1 + 1)); [apply (near_mul u Hu); [exact H|exact H]|].
      replace (q_mag q * u_scale (q_unit q) * (q_mag q * u_scale (q_unit q)))
        with ((q_mag q * q_mag q) * (u_scale (q_unit q) * u_scale (q_unit q))) by ring.
      apply near_mul; [exact Hu| |]; apply rnd_near, (near_refl u Hu 0).
  Qed.
  (** number + dimensionless quantity, both non-negative *)
  Lemma addn_approx k k' c c' q x reg : 0 <= c -> 0 <= x ->
    near u k c c' -> approx k' q d_none x reg ->
    exists r, @n_addq R N c' q = Ok r /\ approx (2 + Nat.max k k') r d_none (c + x) reg.
  Proof.
    intros C0 X0 C A. pose proof (base_near _ _ _ _ _ A) as B. destruct A as (D & O & S0 & H & E).
    unfold n_addq. rewrite D, dim_eqb_refl. eexists. split; [reflexivity|].
    unfold approx, mult_unit. cbn [q_mag q_unit q_reg u_dim u_off u_scale].
    rewrite one_rnd, Rmult_1_r. repeat split; try assumption; [lra|].
    eapply near_weaken; [exact Hu| |apply nadd_near; [exact C0|exact X0|exact C|exact B]]. lia.
  Qed.
  (** quantity + quantity *)
  Lemma add_approx k k' q q' d x x' reg : 0 <= x -> 0 <= x' ->
    approx k q d x reg -> approx k' q' d x' reg ->
    exists r, @q_add R N q q' = Ok r /\ approx (3 + Nat.max k k') r d (x + x') reg.
  Proof.
    intros X X' A (D' & O' & S0' & H' & E'). destruct A as (D & O & S0 & H & E).
    unfold q_add, q_addsub, same_reg, offset_free. rewrite E, E', Nat.eqb_refl, O, O'. cbn [bind].
    unfold q_to. rewrite D, D', dim_eqb_refl, O. unfold base_mag. rewrite O'. cbn [bind].
    eexists. split; [reflexivity|]. unfold approx. cbn [q_mag q_unit q_reg]. repeat split; try assumption.
    cbn [nadd ndiv nmul Num_rounded].
    set (s := u_scale (q_unit q)) in *. set (v := rnd (rnd (q_mag q' * u_scale (q_unit q')) / s)).
    assert (V : near u (2 + k') (x' / s) v).
    { unfold v. apply rnd_near. replace (S k') with (S k' + 0)%nat by lia.
      apply near_div; [exact Hu|apply rnd_near; exact H'|apply near_refl; exact Hu]. }
    assert (M : near u k (x / s) (q_mag q)).
    { replace (q_mag q) with (q_mag q * s / s) by (field; lra).
      replace k with (k + 0)%nat by lia. apply near_div; [exact Hu|exact H|apply near_refl; exact Hu]. }
    replace (x + x') with ((x / s + x' / s) * s) by (field; lra).
    replace (3 + Nat.max k k')%nat with (3 + Nat.max k k' + 0)%nat by lia.
    apply near_mul; [exact Hu| |apply near_refl; exact Hu].
    apply near_weaken with (S (Nat.max k (2 + k'))); [exact Hu|lia|].
    apply (nadd_near k (2 + k')); try assumption.
    - apply Rmult_le_pos; [exact X|]. apply Rlt_le, Rinv_0_lt_compat. exact S0.
    - apply Rmult_le_pos; [exact X'|]. apply Rlt_le, Rinv_0_lt_compat. exact S0.
  Qed.
  (** np.sqrt *)
  Lemma sqrt_approx k q d d' x reg : dim_root 2 d = Some d' -> 0 <= x -> approx k q d x reg ->
    exists r, @q_sqrt R N q = Ok r /\ approx (2 + k) r d' (sqrt x) reg.
  Proof.
    intros Dr X (D & O & S0 & H & E). unfold q_sqrt, offset_free. rewrite O, D, Dr. cbn [bind].
    assert (M : 0 <= q_mag q).
    { pose proof (near_nonneg u Hu _ _ _ H X) as Y. destruct (Rle_or_lt 0 (q_mag q)); [assumption|nra]. }
    unfold npsqrt. cbn [nltb nsqrt Num_rounded]. rewrite zero_rnd, Rltb_false by exact M. cbn [bind].
    eexists. split; [reflexivity|]. unfold approx, mult_unit. cbn [q_mag q_unit q_reg u_dim u_off u_scale].
    repeat split; try assumption.
    - apply rnd_pos. now apply sqrt_lt_R0.
    - replace (2 + k)%nat with (k + (1 + 1))%nat by lia.
      eapply (near_trans u Hu k (1 + 1)); [apply near_sqrt; [exact Hu|exact X|exact H]|].
      rewrite sqrt_mult by lra.
      apply near_mul; [exact Hu| |]; apply rnd_near, (near_refl u Hu 0).
  Qed.
  (** to(unit) and to("").magnitude *)
  Lemma to_approx k q d x reg v : approx k q d x reg ->
    u_dim v = d -> u_off v = None -> 0 < u_scale v ->
    exists r, @q_to R N q v = Ok r /\ approx (2 + k) r d x reg /\ q_unit r = v.
  Proof.
    intros A Dv Ov Sv. pose proof (base_near _ _ _ _ _ A) as B. destruct A as (D & O & S0 & H & E).
    unfold q_to. rewrite D, Dv, dim_eqb_refl, Ov. eexists. split; [reflexivity|].
    unfold approx. cbn [q_mag q_unit q_reg]. repeat split; try assumption.
    cbn [ndiv Num_rounded]. set (b := @base_mag R N q) in *.
    replace (2 + k)%nat with (S k + (1 + 0))%nat by lia.
    eapply (near_trans u Hu (S k) (1 + 0)); [exact B|].
    replace b with ((b / u_scale v) * u_scale v) at 1 by (field; lra).
    apply near_mul; [exact Hu|apply rnd_near, (near_refl u Hu 0)|apply near_refl; exact Hu].
  Qed.
  Lemma plain_approx k q x reg : approx k q d_none x reg ->
    exists y, @q_plain R N q = Ok y /\ near u (2 + k) x y.
  Proof.
    intros A. unfold q_plain.
    destruct (to_approx k q d_none x reg (mult_unit d_none (@one R N)) A eq_refl eq_refl) as (r & -> & Ar & Ur).
    { cbn [u_scale mult_unit]. rewrite one_rnd. lra. }
    cbn [bind]. eexists. split; [reflexivity|]. destruct Ar as (_ & _ & _ & H & _).
    rewrite Ur in H. cbn [u_scale mult_unit] in H. rewrite one_rnd, Rmult_1_r in H. exact H.
  Qed.
End Rounded.
