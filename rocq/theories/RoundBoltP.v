(** * RoundBoltP: the bolt model under rounding. *)
From Coq Require Import String Ascii ZArith QArith Reals Qreals List Bool Lra Lia Psatz.
From Verif Require Import PyBase Pint UnitsM Spec QLemmas Csv Tables NumQ StressP StrLemmas BoltSpec
  BoltM BoltP RoundM RoundSpec RoundP RoundWindowP RoundMonoP RoundDdtP RoundTubeP.
Import ListNotations.
Local Open Scope R_scope.
Local Opaque THREAD_SPECS.

Section RB.
  Variables (u : R) (rnd : R -> R).
  Hypothesis Hr : rounding u rnd.
  Hypothesis Hs : u <= 1/1000000.
  Notation N := (Num_rounded rnd).
  Let Hu : 0 <= u <= 1/1024. Proof. exact (proj1 Hr). Qed.

  (** [y] is [x] after at most [b] roundings; a real bound, so that counts can be big. *)
  Definition close (b x y : R) : Prop := exists n, INR n <= b /\ near u n x y.
  (** a quantity in a proper unit *)
  Definition proper (q : quantity R) (d : dim) (reg : nat) : Prop :=
    u_dim (q_unit q) = d /\ u_off (q_unit q) = None /\ 0 < u_scale (q_unit q) /\ q_reg q = reg.
  Definition bv (q : quantity R) : R := q_mag q * u_scale (q_unit q).
  Definition about (b : R) (q : quantity R) (d : dim) (x : R) (reg : nat) : Prop :=
    proper q d reg /\ close b x (bv q).

  Lemma about_approx b q d x reg : about b q d x reg <-> exists n, INR n <= b /\ approx u n q d x reg.
  Proof.
    unfold about, proper, approx, close, bv. split.
    - intros ((a & b' & c & e) & n & Hn & H). exists n. tauto.
    - intros (n & Hn & a & b' & c & H & e). split; [tauto|]. exists n. auto.
  Qed.
  Lemma close_weaken b b' x y : b <= b' -> close b x y -> close b' x y.
  Proof. intros H (n & Hn & A). exists n. split; [lra|exact A]. Qed.
  Lemma about_weaken b b' q d x reg : b <= b' -> about b q d x reg -> about b' q d x reg.
  Proof. intros H (P & C). split; [exact P|]. eapply close_weaken; eauto. Qed.
  Lemma close_pos b x y : close b x y -> 0 < x -> 0 < y.
  Proof. intros (n & _ & A). apply (near_pos u Hu n). exact A. Qed.
  Lemma close_err b x y : 0 <= b -> b * u <= 1/2 -> close b x y -> Rabs (y - x) <= 2 * b * u * Rabs x.
  Proof.
    intros B0 B (n & Hn & A). pose proof (pos_INR n).
    assert (INR n * u <= b * u) by (apply Rmult_le_compat_r; lra).
    apply (near_within u Hu n) with (e := 2 * b * u) in A; [exact A|lra|lra].
  Qed.
  Lemma err_close c x y : (0 <= c)%Z -> 0 < x -> IZR c * u <= 1/2 -> Rabs (y - x) <= IZR c * u * x ->
    close (2 * IZR c) x y.
  Proof.
    intros Hc X U E. exists (2 * Z.to_nat c)%nat.
    assert (EI : INR (Z.to_nat c) = IZR c) by (rewrite INR_IZR_INZ, Z2Nat.id by exact Hc; reflexivity).
    split; [rewrite mult_INR, EI; change (INR 2) with 2; lra|].
    apply (err_near u rnd Hr); [exact X|rewrite EI; exact U|rewrite EI; exact E].
  Qed.

  (** The steps of RoundP with these bounds *)
  Ltac up H := let n := fresh "n" in let Hn := fresh "Hn" in let A := fresh "A" in
    apply about_approx in H; destruct H as (n & Hn & A).
  Ltac bound := rewrite ?S_INR, ?plus_INR, ?mult_INR; cbn [INR]; lra.
  Lemma mul_about a b q q' d d' x x' reg : about a q d x reg -> about b q' d' x' reg ->
    exists r, @q_mul R N q q' = Ok r /\ about (2 + a + b) r (dim_mul d d') (x * x') reg.
  Proof.
    intros H H'. up H. up H'. destruct (mul_approx u rnd Hr _ _ _ _ _ _ _ _ _ A A0) as (r & E & Ar).
    exists r. split; [exact E|]. apply about_approx. eexists. split; [|exact Ar]. bound.
  Qed.
  Lemma div_about a b q q' d d' x x' reg : about a q d x reg -> about b q' d' x' reg -> x' <> 0 ->
    exists r, @q_div R N (@npdiv R N) q q' = Ok r /\ about (2 + a + b) r (dim_div d d') (x / x') reg.
  Proof.
    intros H H' Nz. up H. up H'. destruct (div_approx u rnd Hr _ _ _ _ _ _ _ _ _ A A0 Nz) as (r & E & Ar).
    exists r. split; [|apply about_approx; eexists; split; [|exact Ar]; bound].
    destruct A0 as (_ & _ & _ & C & _).
    assert (M : q_mag q' <> 0).
    { intros Z. apply Nz. eapply near_zero; [exact Hu|exact C|]. rewrite Z. ring. }
    unfold q_div in *. unfold pydiv in E. unfold npdiv. cbn [neqb Num_rounded] in *.
    rewrite (zero_rnd u rnd Hr), Reqb_false in * by exact M. exact E.
  Qed.
  Lemma scale_about a b c c' q d x reg : close a c c' -> about b q d x reg ->
    exists r, @q_scale R N c' q = Ok r /\ about (1 + a + b) r d (c * x) reg.
  Proof.
    intros (n0 & Hn0 & C) H. up H. destruct (scale_approx u rnd Hr _ _ _ _ _ _ _ _ C A) as (r & E & Ar).
    exists r. split; [exact E|]. apply about_approx. eexists. split; [|exact Ar]. bound.
  Qed.
  Lemma divn_about a b c c' q d x reg : close a c c' -> c <> 0 -> about b q d x reg ->
    exists r, @q_divn R (@pydiv R N) q c' = Ok r /\ about (1 + a + b) r d (x / c) reg.
  Proof.
    intros (n0 & Hn0 & C) Nz H. up H.
    destruct (divn_approx u rnd Hr _ _ _ _ _ _ _ _ C Nz A) as (r & E & Ar).
    exists r. split; [exact E|]. apply about_approx. eexists. split; [|exact Ar]. bound.
  Qed.
  Lemma sq_about a q d x reg : about a q d x reg ->
    exists r, @q_sq R N q = Ok r /\ about (2 + a + a) r (dim_mul d d) (x * x) reg.
  Proof.
    intros H. up H. destruct (sq_approx u rnd Hr _ _ _ _ _ A) as (r & E & Ar).
    exists r. split; [exact E|]. apply about_approx. eexists. split; [|exact Ar]. bound.
  Qed.
  Lemma plain_about a q x reg : about a q d_none x reg ->
    exists y, @q_plain R N q = Ok y /\ close (2 + a) x y.
  Proof.
    intros H. up H. destruct (plain_approx u rnd Hr _ _ _ _ A) as (y & E & C).
    exists y. split; [exact E|]. eexists. split; [|exact C]. bound.
  Qed.
  Lemma check_about a q d x reg name : supported_dimension name = Some d -> about a q d x reg ->
    0 <= x -> @check_q R N q name true = Ok true.
  Proof.
    intros Sd H X. up H. eapply (check_approx u rnd Hr); eauto.
  Qed.
  Lemma base_about a q d x reg : about a q d x reg -> close (1 + a) x (@base_mag R N q).
  Proof.
    intros H. up H. eexists. split; [|eapply (base_near u rnd Hr); exact A]. bound.
  Qed.
  Lemma rereg_about a q d x reg reg' : about a q d x reg -> about a (rereg q reg') d x reg'.
  Proof. intros ((a1 & a2 & a3 & a4) & C). split; [repeat split; assumption|exact C]. Qed.

  (** number / quantity *)
  Lemma ndivq_about a b c c' q d x reg : close a c c' -> about b q d x reg -> x <> 0 ->
    exists r, @n_divq R N (@pydiv R N) c' q = Ok r /\ about (2 + a + b) r (dim_div d_none d) (c / x) reg.
  Proof.
    intros (n0 & Hn0 & C) ((D & O & S0 & E) & m & Hm & H) Nz.
    assert (M : q_mag q <> 0).
    { intros Z. apply Nz. eapply near_zero; [exact Hu|exact H|]. unfold bv. rewrite Z. ring. }
    unfold n_divq, offset_free. rewrite O. cbn [bind].
    unfold pydiv. cbn [neqb Num_rounded]. rewrite (zero_rnd u rnd Hr), Reqb_false by exact M. cbn [bind].
    eexists. split; [reflexivity|]. unfold about, proper, bv, mult_unit.
    cbn [q_mag q_unit q_reg u_dim u_off u_scale]. rewrite D, (one_rnd u rnd Hr).
    split; [repeat split; try assumption|].
    - cbn [ndiv Num_rounded]. apply (rnd_pos u rnd Hr). apply Rdiv_lt_0_compat; lra.
    - cbn [ndiv Num_rounded]. exists (n0 + m + (1 + 1))%nat. split; [bound|].
      eapply (near_trans u Hu (n0 + m) (1 + 1)); [apply (near_div u Hu); [exact C|exact H]|].
      unfold bv.
      replace (c' / (q_mag q * u_scale (q_unit q)))
        with ((c' / q_mag q) * (1 / u_scale (q_unit q))) by (field; split; lra).
      apply near_mul; [exact Hu| |]; apply (rnd_near u rnd Hr), (near_refl u Hu 0).
  Qed.

  (** quantity +- quantity, any signs *)
  Lemma addsub_err (minus : bool) q q' d reg : proper q d reg -> proper q' d reg ->
    exists r, (if minus then @q_sub R N q q' else @q_add R N q q') = Ok r /\ proper r d reg
      /\ Rabs (bv r - (if minus then bv q - bv q' else bv q + bv q')) <= 6 * u * (Rabs (bv q) + Rabs (bv q')).
  Proof.
    intros (D & O & S0 & E) (D' & O' & S0' & E').
    assert (Ea : exists r, (if minus then @q_sub R N q q' else @q_add R N q q') = Ok r /\ proper r d reg
      /\ u_scale (q_unit r) = u_scale (q_unit q)
      /\ q_mag r = rnd (if minus then q_mag q - rnd (rnd (bv q') / u_scale (q_unit q))
                        else q_mag q + rnd (rnd (bv q') / u_scale (q_unit q)))).
    { destruct minus; unfold q_sub, q_add, q_addsub, same_reg, offset_free;
        rewrite E, E', Nat.eqb_refl, O, O'; cbn [bind];
        unfold q_to; rewrite D, D', dim_eqb_refl, O; unfold base_mag; rewrite O'; cbn [bind];
        (eexists; split; [reflexivity|]; cbn [q_mag q_unit q_reg];
         split; [repeat split; assumption|]; split; reflexivity). }
    destruct Ea as (r & -> & P & Es & Em). exists r. split; [reflexivity|]. split; [exact P|].
    unfold bv at 1. rewrite Es, Em. set (s := u_scale (q_unit q)) in *.
    set (x := bv q). set (x' := bv q'). set (v := rnd (rnd x' / s)).
    assert (V : near u 2 (x' / s) v).
    { unfold v. apply rnd_near; [exact Hr|]. replace 1%nat with (1 + 0)%nat by lia.
      apply near_div; [exact Hu|apply rnd_near, (near_refl u Hu 0); exact Hr|apply near_refl; exact Hu]. }
    apply (near_err u rnd Hr) in V; [|lia]. change (INR 2) with 2 in V.
    assert (Mx : q_mag q = x / s) by (unfold x, bv; fold s; field; lra). rewrite Mx.
    assert (As : forall z, Rabs (z / s) = Rabs z / s).
    { intros z. unfold Rdiv. rewrite Rabs_mult, Rabs_inv, (Rabs_pos_eq s) by lra. reflexivity. }
    rewrite As in V.
    set (w := if minus then x / s - v else x / s + v).
    replace (if minus then x / s - v else x / s + v) with w by reflexivity.
    pose proof (rnd_err u rnd Hr w) as G.
    assert (P1 : 0 <= Rabs x / s) by (unfold Rdiv; apply Rmult_le_pos; [apply Rabs_pos|apply Rlt_le, Rinv_0_lt_compat; exact S0]).
    assert (P2 : 0 <= Rabs x' / s) by (unfold Rdiv; apply Rmult_le_pos; [apply Rabs_pos|apply Rlt_le, Rinv_0_lt_compat; exact S0]).
    assert (Vb : Rabs v <= 2 * (Rabs x' / s)).
    { replace v with ((v - x' / s) + x' / s) by ring. eapply Rle_trans; [apply Rabs_triang|].
      rewrite As. nra. }
    assert (Wb : Rabs w <= Rabs x / s + 2 * (Rabs x' / s)).
    { unfold w. rewrite <- (As x). destruct minus.
      - unfold Rminus. eapply Rle_trans; [apply Rabs_triang|]. rewrite Rabs_Ropp. lra.
      - eapply Rle_trans; [apply Rabs_triang|]. lra. }
    assert (Ed : Rabs (rnd w - (if minus then x / s - x' / s else x / s + x' / s))
                 <= 6 * u * (Rabs x / s + Rabs x' / s)).
    { replace (rnd w - (if minus then x / s - x' / s else x / s + x' / s))
        with ((rnd w - w) + (if minus then - (v - x' / s) else v - x' / s))
        by (unfold w; destruct minus; ring).
      eapply Rle_trans; [apply Rabs_triang|].
      assert (Rabs (if minus then - (v - x' / s) else v - x' / s) = Rabs (v - x' / s))
        by (destruct minus; [apply Rabs_Ropp|reflexivity]). nra. }
    replace (rnd w * s - (if minus then x - x' else x + x'))
      with (s * (rnd w - (if minus then x / s - x' / s else x / s + x' / s)))
      by (destruct minus; field; lra).
    rewrite Rabs_mult, (Rabs_pos_eq s) by lra.
    replace (6 * u * (Rabs x + Rabs x')) with (s * (6 * u * (Rabs x / s + Rabs x' / s))) by (field; lra).
    apply Rmult_le_compat_l; lra.
  Qed.
  Lemma scale_err c' q d reg : proper q d reg ->
    exists r, @q_scale R N c' q = Ok r /\ proper r d reg /\ Rabs (bv r - c' * bv q) <= u * Rabs (c' * bv q).
  Proof.
    intros (D & O & S0 & E). unfold q_scale, offset_free. rewrite O. cbn [bind].
    eexists. split; [reflexivity|]. split; [repeat split; assumption|].
    unfold bv. cbn [q_mag q_unit nmul Num_rounded]. set (s := u_scale (q_unit q)) in *.
    pose proof (rnd_err u rnd Hr (c' * q_mag q)) as G.
    replace (rnd (c' * q_mag q) * s - c' * (q_mag q * s)) with (s * (rnd (c' * q_mag q) - c' * q_mag q)) by ring.
    replace (c' * (q_mag q * s)) with (s * (c' * q_mag q)) by ring.
    rewrite !Rabs_mult, (Rabs_pos_eq s) by lra. rewrite Rabs_mult in G. nra.
  Qed.

  (** The difference of two lengths that are not too close *)
  Lemma sub_about (T : Z) q q' d x x' reg : about 20 q d x reg -> about 20 q' d x' reg ->
    0 <= x -> 0 <= x' -> (0 <= T <= 10000)%Z -> x + x' <= IZR T * (x - x') -> 0 < x - x' ->
    50 * IZR T * u <= 1/2 ->
    exists r, @q_sub R N q q' = Ok r /\ about (100 * IZR T) r d (x - x') reg.
  Proof.
    intros (Pq & C) (Pq' & C') X X' HT Hx Hd HTu.
    destruct (addsub_err true q q' d reg Pq Pq') as (r & E & Pr & Er).
    exists r. split; [exact E|]. split; [exact Pr|].
    apply close_err in C; [|lra|lra]. apply close_err in C'; [|lra|lra].
    rewrite (Rabs_pos_eq x) in C by exact X. rewrite (Rabs_pos_eq x') in C' by exact X'.
    assert (B1 : Rabs (bv q) <= 101/100 * x).
    { replace (bv q) with ((bv q - x) + x) by ring. eapply Rle_trans; [apply Rabs_triang|].
      rewrite (Rabs_pos_eq x) by exact X. nra. }
    assert (B2 : Rabs (bv q') <= 101/100 * x').
    { replace (bv q') with ((bv q' - x') + x') by ring. eapply Rle_trans; [apply Rabs_triang|].
      rewrite (Rabs_pos_eq x') by exact X'. nra. }
    assert (F : Rabs (bv r - (x - x')) <= 50 * u * (x + x')).
    { replace (bv r - (x - x')) with ((bv r - (bv q - bv q')) + ((bv q - x) + - (bv q' - x'))) by ring.
      eapply Rle_trans; [apply Rabs_triang|].
      pose proof (Rabs_triang (bv q - x) (- (bv q' - x'))) as Tr. rewrite Rabs_Ropp in Tr.
      assert (6 * u * (Rabs (bv q) + Rabs (bv q')) <= 6 * u * (101/100 * (x + x')))
        by (apply Rmult_le_compat_l; lra).
      nra. }
    replace (100 * IZR T) with (2 * IZR (50 * T)) by (rewrite mult_IZR; lra).
    apply err_close; [lia|exact Hd|rewrite mult_IZR; lra|]. rewrite mult_IZR.
    eapply Rle_trans; [exact F|].
    assert (u * (x + x') <= u * (IZR T * (x - x'))) by (apply Rmult_le_compat_l; lra). lra.
  Qed.

  (** ... half a pitch plus 0.57735 times a difference of either sign *)
  Lemma mixed_bound hp hp' a a' b b' c c' d' k' s' :
    0 < hp -> 0 <= a -> 0 <= b -> 0 < c ->
    Rabs (hp' - hp) <= 40 * u * hp -> Rabs (a' - a) <= 4 * u * a -> Rabs (b' - b) <= 4 * u * b ->
    Rabs (c' - c) <= 10 * u * c ->
    Rabs (d' - (a' - b')) <= 6 * u * (Rabs a' + Rabs b') ->
    Rabs (k' - c' * d') <= 6 * u * Rabs (c' * d') ->
    Rabs (s' - (hp' + k')) <= 6 * u * (Rabs hp' + Rabs k') ->
    Rabs (s' - (hp + c * (a - b))) <= 50 * u * (hp + c * (a + b)).
  Proof.
    intros Hp A B C E1 E2 E3 E4 E5 E6 E7.
    assert (Ua : Rabs a' <= 101/100 * a).
    { replace a' with ((a' - a) + a) by ring. eapply Rle_trans; [apply Rabs_triang|].
      rewrite (Rabs_pos_eq a) by exact A. nra. }
    assert (Ub : Rabs b' <= 101/100 * b).
    { replace b' with ((b' - b) + b) by ring. eapply Rle_trans; [apply Rabs_triang|].
      rewrite (Rabs_pos_eq b) by exact B. nra. }
    assert (Ed : Rabs (d' - (a - b)) <= 11 * u * (a + b)).
    { replace (d' - (a - b)) with ((d' - (a' - b')) + ((a' - a) + - (b' - b))) by ring.
      eapply Rle_trans; [apply Rabs_triang|].
      pose proof (Rabs_triang (a' - a) (- (b' - b))) as Tr. rewrite Rabs_Ropp in Tr.
      assert (6 * u * (Rabs a' + Rabs b') <= 6 * u * (101/100 * (a + b)))
        by (apply Rmult_le_compat_l; lra). nra. }
    assert (Dd : Rabs (a - b) <= a + b) by (apply Rabs_le; lra).
    assert (Ud : Rabs d' <= 101/100 * (a + b)).
    { replace d' with ((d' - (a - b)) + (a - b)) by ring. eapply Rle_trans; [apply Rabs_triang|]. nra. }
    assert (Uc : Rabs c' <= 101/100 * c).
    { replace c' with ((c' - c) + c) by ring. eapply Rle_trans; [apply Rabs_triang|].
      rewrite (Rabs_pos_eq c) by lra. nra. }
    set (m := c * (a + b)). assert (M : 0 <= m) by (unfold m; apply Rmult_le_pos; lra).
    assert (P1 : Rabs (c' * d') <= 103/100 * m).
    { rewrite Rabs_mult. unfold m. apply Rle_trans with ((101/100 * c) * (101/100 * (a + b))).
      - apply Rmult_le_compat; try apply Rabs_pos; assumption.
      - assert (0 <= c * (a + b)) by (apply Rmult_le_pos; lra). lra. }
    assert (P2 : Rabs (c' * d' - c * (a - b)) <= 22 * u * m).
    { replace (c' * d' - c * (a - b)) with ((c' - c) * d' + c * (d' - (a - b))) by ring.
      eapply Rle_trans; [apply Rabs_triang|]. rewrite !Rabs_mult, (Rabs_pos_eq c) by lra.
      assert (Rabs (c' - c) * Rabs d' <= (10 * u * c) * (101/100 * (a + b)))
        by (apply Rmult_le_compat; try apply Rabs_pos; assumption).
      assert (c * Rabs (d' - (a - b)) <= c * (11 * u * (a + b))) by (apply Rmult_le_compat_l; lra).
      unfold m in *. set (z := c * (a + b)) in *.
      replace (10 * u * c * (101 / 100 * (a + b))) with (1010/100 * (u * z)) in * by (unfold z; field).
      replace (c * (11 * u * (a + b))) with (11 * (u * z)) in * by (unfold z; ring).
      assert (0 <= u * z) by (apply Rmult_le_pos; lra). lra. }
    assert (P3 : Rabs (k' - c * (a - b)) <= 29 * u * m).
    { replace (k' - c * (a - b)) with ((k' - c' * d') + (c' * d' - c * (a - b))) by ring.
      eapply Rle_trans; [apply Rabs_triang|].
      assert (6 * u * Rabs (c' * d') <= 6 * u * (103/100 * m)) by (apply Rmult_le_compat_l; lra).
      assert (0 <= u * m) by (apply Rmult_le_pos; lra). lra. }
    assert (P4 : Rabs k' <= 101/100 * m).
    { replace k' with ((k' - c * (a - b)) + c * (a - b)) by ring. eapply Rle_trans; [apply Rabs_triang|].
      rewrite Rabs_mult, (Rabs_pos_eq c) by lra.
      assert (c * Rabs (a - b) <= m) by (apply Rmult_le_compat_l; lra).
      assert (u * m <= 1/1000000 * m) by (apply Rmult_le_compat_r; lra). lra. }
    assert (P5 : Rabs hp' <= 101/100 * hp).
    { replace hp' with ((hp' - hp) + hp) by ring. eapply Rle_trans; [apply Rabs_triang|].
      rewrite (Rabs_pos_eq hp) by lra. nra. }
    replace (s' - (hp + c * (a - b)))
      with ((s' - (hp' + k')) + ((hp' - hp) + (k' - c * (a - b)))) by ring.
    eapply Rle_trans; [apply Rabs_triang|].
    pose proof (Rabs_triang (hp' - hp) (k' - c * (a - b))) as Tr.
    assert (6 * u * (Rabs hp' + Rabs k') <= 6 * u * (101/100 * hp + 101/100 * m))
      by (apply Rmult_le_compat_l; lra).
    fold m. assert (0 <= u * m) by (apply Rmult_le_pos; lra).
    assert (0 <= u * hp) by (apply Rmult_le_pos; lra). lra.
  Qed.
  Lemma nz_pos x : 0 < x -> x <> 0. Proof. lra. Qed.

  (** The units *)
  Lemma near_close n b x y : INR n <= b -> near u n x y -> close b x y.
  Proof. intros. exists n. auto. Qed.
  Lemma inch_near : near u 1 inch (@s_inch R N).
  Proof. rewrite <- inch_scale. apply (s_inch_near u rnd Hr). Qed.
  Lemma lit_close q : close 1 (Q2R q) (@nofQ R N q).
  Proof. apply near_close with 1%nat; [cbn; lra|apply (lit_near u rnd Hr)]. Qed.
  Lemma int_close z q : Q2R q = IZR z -> (-1024 <= z <= 1024)%Z -> close 0 (IZR z) (@nofQ R N q).
  Proof. intros E B. apply near_close with 0%nat; [cbn; lra|apply (lit_int_near u rnd Hr); assumption]. Qed.
  Lemma quant_in_about q reg : exists r, @quant R N reg (@nofQ R N q) "in" = Ok r
    /\ about 2 r d_length (Q2R q * inch) reg.
  Proof.
    eexists. split; [reflexivity|]. split.
    - repeat split. cbn [q_unit u_scale mult_unit]. eapply near_pos; [exact Hu|exact inch_near|exact inch_pos].
    - exists 2%nat. split; [cbn; lra|]. unfold bv. cbn [q_mag q_unit u_scale mult_unit].
      apply (near_mul u Hu 1 1); [apply (lit_near u rnd Hr)|exact inch_near].
  Qed.
  Lemma quant_per_in_about m reg : exists r, @quant R N reg (@nofQ R N m) "1/in" = Ok r
    /\ about 3 r d_invlength (Q2R m / inch) reg.
  Proof.
    assert (Nr : near u 2 (/ inch) (@ndiv R N (@one R N) (@s_inch R N))).
    { cbn [ndiv Num_rounded]. rewrite (one_rnd u rnd Hr). replace (/ inch) with (1 / inch) by (unfold Rdiv; ring).
      apply rnd_near; [exact Hr|]. apply (near_div u Hu 0 1); [apply near_refl; exact Hu|exact inch_near]. }
    eexists. split; [reflexivity|]. split.
    - repeat split. cbn [q_unit u_scale mult_unit]. eapply near_pos; [exact Hu|exact Nr|].
      apply Rinv_0_lt_compat, inch_pos.
    - exists 3%nat. split; [cbn; lra|]. unfold bv. cbn [q_mag q_unit u_scale mult_unit].
      apply (near_mul u Hu 1 2); [apply (lit_near u rnd Hr)|exact Nr].
  Qed.
  Lemma quant_psi_about m reg : exists r, @quant R N reg (@nofQ R N m) "psi" = Ok r
    /\ about 8 r d_pressure (Q2R m * psi) reg.
  Proof.
    assert (Nr : near u 7 psi (@s_psi R N)) by (rewrite <- psi_scale; apply (s_psi_near u rnd Hr)).
    eexists. split; [reflexivity|]. split.
    - repeat split. cbn [q_unit u_scale mult_unit]. eapply near_pos; [exact Hu|exact Nr|exact psi_pos].
    - exists 8%nat. split; [cbn; lra|]. unfold bv. cbn [q_mag q_unit u_scale mult_unit].
      apply (near_mul u Hu 1 7); [apply (lit_near u rnd Hr)|exact Nr].
  Qed.
  Lemma quant_atm_about reg : exists r, @quant R N reg (@one R N) "atm" = Ok r
    /\ about 1 r d_pressure atmosphere reg.
  Proof.
    assert (Nr : near u 1 atmosphere (@nofQ R N 101325)).
    { replace atmosphere with (Q2R 101325) by (unfold atmosphere; q2r; lra). apply (lit_near u rnd Hr). }
    eexists. split; [reflexivity|]. split.
    - repeat split. cbn [q_unit u_scale mult_unit]. eapply near_pos; [exact Hu|exact Nr|].
      unfold atmosphere; lra.
    - exists 1%nat. split; [cbn; lra|]. unfold bv. cbn [q_mag q_unit u_scale mult_unit].
      rewrite (one_rnd u rnd Hr). rewrite Rmult_1_l. exact Nr.
  Qed.
  Lemma lt_about a b q q' d x x' reg : about a q d x reg -> about b q' d x' reg ->
    exists y y', @q_lt R N q q' = Ok (Rltb y y') /\ close (1 + a) x y /\ close (1 + b) x' y'.
  Proof.
    intros H H'. exists (@base_mag R N q), (@base_mag R N q').
    split; [|split; eapply base_about; eassumption].
    destruct H as ((D & _ & _ & E) & _), H' as ((D' & _ & _ & E') & _).
    unfold q_lt, q_cmp, same_reg. rewrite E, E', Nat.eqb_refl, D, D', dim_eqb_refl. reflexivity.
  Qed.

  (** [x < L] decided on rounded numbers is [x'' < L] for an [x''] near [x]. *)
  Lemma decided a b x L y l : close a x y -> close b L l -> 0 < L ->
    exists x', close (a + b) x x' /\ (Rltb y l = true <-> x' < L).
  Proof.
    intros (n & Hn & A) (m & Hm & B) PL.
    pose proof (near_factor_pos u Hu m L l B) as (e & Pe & ->).
    assert (Ne : near u m 1 e).
    { replace 1 with (L / L) by (field; lra). replace e with (L * e / L) by (field; lra).
      replace m with (m + 0)%nat by lia. apply near_div; [exact Hu|exact B|apply near_refl; exact Hu]. }
    exists (y / e). split.
    - exists (n + m)%nat. split; [rewrite plus_INR; lra|].
      replace x with (x / 1) by field. apply near_div; assumption.
    - destruct (Rltb_spec y (L * e)) as [K|K].
      + split; [intros _|reflexivity]. apply Rmult_lt_reg_r with e; [exact Pe|].
        replace (y / e * e) with y by (field; lra). exact K.
      + split; [discriminate|]. intros H. exfalso. apply Rmult_lt_compat_r with (r := e) in H; [|exact Pe].
        replace (y / e * e) with y in H by (field; lra). lra.
  Qed.
End RB.
