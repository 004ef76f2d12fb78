(** * Properties_Ieee: the calculations in IEEE-754 double precision.

    [@f b64 Num_b64] is the model of [f] computed with doubles: Flocq's binary64, with
    infinities, subnormal numbers, signed zeros and nan.  C96-C101 are about
    [@f R (Num_rounded double)], which rounds to 53 digits but has no smallest and no
    largest number. *)
From Coq Require Import String ZArith QArith Reals Qreals List Bool Lra Lia.
From Coq Require Import SpecFloat.
From Flocq Require Import Core BinarySingleNaN.
From Verif Require Import PyBase Pint UnitsM Spec QLemmas WindowM DdtM TubeM RoundM RoundSpec
  RoundP IeeeM IeeeSpec IeeeP IeeeWindowP Properties_Round.
Import ListNotations.
Local Open Scope string_scope.
Local Open Scope R_scope.

Lemma qplain_same k s q q' : qplain k s q q' -> same_quantity q q'.
Proof.
  intros (((A1 & A2 & _) & (D & (B1 & B2 & _) & _ & O) & Rg) & Pl). unfold plain in Pl.
  rewrite Pl in O. destruct (Pint.u_off (q_unit q')) eqn:E; [contradiction|].
  repeat split; try assumption.
Qed.
Lemma sim_same k x y : sim k x y -> same_number x y.
Proof. intros (A & B & _). now split. Qed.
Lemma reads_qsim10 q q' : reads 1e10 (PQuant q) (PQuant q') ->
  qsim 34 32 q q' /\ (Pint.u_off (q_unit q) <> None -> u_dim (q_unit q) = d_temperature).
Proof.
  intros H. inversion H as [|m name u u' reg Mo L L' E1 E2]; subst.
  pose proof (lookup_sim name) as U. rewrite L, L' in U. split.
  - split; [now apply moderate_sim10|]. split; [exact U|reflexivity].
  - exact (lookup_off _ _ L).
Qed.
Lemma reads_qsim q q' : reads 1e18 (PQuant q) (PQuant q') -> qsim 60 32 q q'.
Proof.
  intros H. inversion H as [|m name u u' reg Mo L L' E1 E2]; subst.
  pose proof (lookup_sim name) as U. rewrite L, L' in U.
  split; [now apply moderate_sim|]. split; [exact U|reflexivity].
Qed.

(** C141: as long as the numbers given are 0 or between 1e-18 and 1e18, double precision
    neither overflows nor loses digits to underflow: every call ends as it does in
    [double] rounding, with the same error or with the same number. *)
Theorem C141_window :
  forall (length width thickness pressure modulus : pyin b64)
         (length' width' thickness' pressure' modulus' : pyin R) (s : b64) (reg : nat),
    reads 1e18 length length' -> reads 1e18 width width' -> reads 1e18 thickness thickness' ->
    reads 1e18 pressure pressure' -> reads 1e18 modulus modulus' -> moderate 1e18 s ->
    same_outcome same_number
      (@safety_factor b64 Num_b64 length width thickness pressure modulus reg)
      (@safety_factor R (Num_rounded double) length' width' thickness' pressure' modulus' reg)
    /\ same_outcome same_quantity
      (@minimum_thickness b64 Num_b64 length width (SfNum s) pressure modulus reg)
      (@minimum_thickness R (Num_rounded double) length' width' (SfNum (real s)) pressure' modulus' reg).
Proof.
  intros l w t p m l' w' t' p' m' s reg Rl Rw Rt Rp Rm Ms. split.
  - eapply rsim_outcome; [|exact (safety_factor_sim _ _ _ _ _ _ _ _ _ _ reg Rl Rw Rt Rp Rm)].
    intros a b. apply sim_same.
  - eapply rsim_outcome; [|exact (minimum_thickness_sim _ _ _ _ _ _ _ _ _ reg Rl Rw Ms Rp Rm)].
    intros a b. apply qplain_same.
Qed.
Print Assumptions C141_window.

Theorem C141_blockage :
  forall (tube blockage : pyin b64) (tube' blockage' : pyin R) (ratio : b64) (reg : nat),
    reads 1e18 tube tube' -> reads 1e18 blockage blockage' -> moderate 1e18 ratio ->
    same_outcome same_quantity
      (@calculate_blockage_diameter b64 Num_b64 tube (BrNum ratio) reg)
      (@calculate_blockage_diameter R (Num_rounded double) tube' (BrNum (real ratio)) reg)
    /\ same_outcome same_number
      (@calculate_blockage_ratio b64 Num_b64 tube blockage reg)
      (@calculate_blockage_ratio R (Num_rounded double) tube' blockage' reg).
Proof.
  intros t b t' b' r reg Rt Rb Mr. split.
  - eapply rsim_outcome; [|exact (blockage_diameter_sim _ _ _ reg Rt Mr)].
    intros a c. apply qplain_same.
  - eapply rsim_outcome; [|exact (blockage_ratio_sim _ _ _ _ reg Rt Rb)].
    intros a c. apply sim_same.
Qed.
Print Assumptions C141_blockage.

Theorem C141_max_pressure :
  forall (tube_id tube_od stress : quantity b64) (tube_id' tube_od' stress' : quantity R) (factor : b64),
    reads 1e18 (PQuant tube_id) (PQuant tube_id') -> reads 1e18 (PQuant tube_od) (PQuant tube_od') ->
    reads 1e18 (PQuant stress) (PQuant stress') -> moderate 1e18 factor ->
    same_outcome same_quantity
      (@calculate_max_pressure b64 Num_b64 tube_id tube_od stress factor)
      (@calculate_max_pressure R (Num_rounded double) tube_id' tube_od' stress' (real factor)).
Proof.
  intros a b c a' b' c' f A B C Mf.
  eapply rsim_outcome; [|exact (max_pressure_sim _ _ _ _ _ _ f (reads_qsim _ _ A) (reads_qsim _ _ B) (reads_qsim _ _ C) Mf)].
  intros x y. apply qplain_same.
Qed.
Print Assumptions C141_max_pressure.

Theorem C141_load_factor :
  forall (tube_id tube_od velocity modulus density : quantity b64)
         (tube_id' tube_od' velocity' modulus' density' : quantity R) (poisson plus_or_minus : b64),
    reads 1e10 (PQuant tube_id) (PQuant tube_id') -> reads 1e10 (PQuant tube_od) (PQuant tube_od') ->
    reads 1e10 (PQuant velocity) (PQuant velocity') -> reads 1e10 (PQuant modulus) (PQuant modulus') ->
    reads 1e10 (PQuant density) (PQuant density') ->
    moderate 1e10 poisson -> moderate 1e10 plus_or_minus ->
    same_outcome eq
      (@dynamic_load_factor b64 Num_b64 tube_id tube_od velocity modulus density poisson plus_or_minus)
      (@dynamic_load_factor R (Num_rounded double) tube_id' tube_od' velocity' modulus' density'
         (real poisson) (real plus_or_minus)).
Proof.
  intros a b v e r a' b' v' e' r' nu f A B V E Rh Mn Mf.
  destruct (reads_qsim10 _ _ V) as (SV & W).
  eapply rsim_outcome; [|exact (load_factor_sim a a' b b' v v' e e' r r' nu f
     (proj1 (reads_qsim10 _ _ A)) (proj1 (reads_qsim10 _ _ B)) SV (proj1 (reads_qsim10 _ _ E))
     (proj1 (reads_qsim10 _ _ Rh)) W Mn Mf)].
  auto.
Qed.
Print Assumptions C141_load_factor.

(** So the results are as accurate as C96 says, in real doubles. *)
Theorem C141_window_accuracy :
  forall (length width thickness pressure modulus : pyin b64)
         (length' width' thickness' pressure' modulus' : pyin R) (s : b64) (reg : nat) (L W t P M : R),
    reads 1e18 length length' -> reads 1e18 width width' -> reads 1e18 thickness thickness' ->
    reads 1e18 pressure pressure' -> reads 1e18 modulus modulus' -> moderate 1e18 s ->
    denotes length' d_length L -> denotes width' d_length W -> denotes thickness' d_length t ->
    denotes pressure' d_pressure P -> denotes modulus' d_pressure M ->
    0 < L -> 0 < W -> 0 <= t -> 0 < P -> 0 < M -> 1 <= real s ->
    (exists f f',
       @safety_factor R Num_R length' width' thickness' pressure' modulus' reg = Ok f
       /\ @safety_factor b64 Num_b64 length width thickness pressure modulus reg = Ok f'
       /\ is_finite f' = true /\ within 1e-13 f (real f'))
    /\ (exists tmin q' tmin',
       returns (@minimum_thickness R Num_R length' width' (SfNum (real s)) pressure' modulus' reg) d_length tmin reg
       /\ @minimum_thickness b64 Num_b64 length width (SfNum s) pressure modulus reg = Ok q'
       /\ worth_double q' tmin' /\ within 1e-13 tmin tmin').
Proof.
  intros l w t p m l' w' t' p' m' s reg L W T P M Rl Rw Rt Rp Rm Ms Dl Dw Dt Dp Dm L0 W0 T0 P0 M0 S1.
  destruct (C141_window l w t p m l' w' t' p' m' s reg Rl Rw Rt Rp Rm Ms) as (O1 & O2).
  destruct (C96_window_rounding _ _ double_rounding l' w' t' p' m' L W T P M (real s) reg reg
              Dl Dw Dt Dp Dm L0 W0 T0 P0 M0 S1) as
    ((f & f' & E & E' & Wi) & (q & tm & tm' & q' & g & Eq & Sq & Eq' & Sq' & Wq & _)).
  assert (Wk : forall e e' x y, e <= e' -> within e x y -> within e' x y).
  { intros e e' x y He. unfold within. intros H. eapply Rle_trans; [exact H|].
    apply Rmult_le_compat_r; [apply Rabs_pos|exact He]. }
  assert (Du : 680 * double_unit <= 1e-13) by (unfold double_unit; cbn -[Rmult]; lra).
  assert (D0 : 0 <= double_unit) by (unfold double_unit; cbn -[Rmult]; lra).
  split.
  - destruct O1 as [(e & _ & X)|(a & b & Ea & Eb & Sn)]; [congruence|].
    assert (b = f') by congruence. destruct Sn as (Fa & Ra).
    exists f, a. split; [exact E|]. split; [exact Ea|]. split; [exact Fa|]. rewrite Ra, H. eapply Wk; [|exact Wi]. lra.
  - destruct O2 as [(e & _ & X)|(a & b & Ea & Eb & Sn)]; [congruence|].
    assert (Hb : b = q') by congruence. destruct Sn as ((Fa & Ra) & (Fs & Rs) & Po & _).
    rewrite Hb in Ra, Rs.
    exists tm, a, tm'. split; [now exists q|]. split; [exact Ea|]. split.
    + repeat split; try assumption. rewrite Ra, Rs. apply Sq'.
    + eapply Wk; [|exact Wq]. lra.
Qed.
Print Assumptions C141_window_accuracy.

(** C141: the same for the tube's pressure and the load factor: C100 and C101 hold of the
    doubles computed. *)
Theorem C141_max_pressure_accuracy :
  forall (tube_id tube_od stress : quantity b64) (tube_id' tube_od' stress' : quantity R)
         (factor : b64) (ID OD limit : R) (reg : nat),
    reads 1e18 (PQuant tube_id) (PQuant tube_id') -> reads 1e18 (PQuant tube_od) (PQuant tube_od') ->
    reads 1e18 (PQuant stress) (PQuant stress') -> moderate 1e18 factor ->
    stands_for tube_id' d_length ID reg -> stands_for tube_od' d_length OD reg ->
    stands_for stress' d_pressure limit reg ->
    0 <= ID -> 0 <= OD -> 0 < OD + ID -> 0 <= limit -> 0 < real factor ->
    exists p q' p',
      returns (@calculate_max_pressure R Num_R tube_id' tube_od' stress' (real factor)) d_pressure p reg
      /\ @calculate_max_pressure b64 Num_b64 tube_id tube_od stress factor = Ok q'
      /\ worth_double q' p' /\ Rabs (p' - p) <= 100 * double_unit * (limit / real factor).
Proof.
  intros a b c a' b' c' f ID OD s reg A B C Mf Da Db Dc I0 O0 S0 L0 F0.
  destruct (C100_max_pressure_rounding _ _ double_rounding _ _ _ ID OD s (real f) reg Da Db Dc I0 O0 S0 L0 F0)
    as (p & p' & Rp & (q & Eq & Sq) & Er).
  destruct (C141_max_pressure _ _ _ _ _ _ f A B C Mf) as [(e & _ & X)|(x & y & Ex & Ey & Sn)]; [congruence|].
  assert (H : y = q) by congruence. destruct Sn as ((Fx & Rx) & (Fs & Rs) & Po & _).
  rewrite H in Rx, Rs.
  exists p, x, p'. repeat split; try assumption. rewrite Rx, Rs. apply Sq.
Qed.
Print Assumptions C141_max_pressure_accuracy.

Theorem C141_load_factor_accuracy :
  forall (tube_id tube_od velocity modulus density : quantity b64)
         (tube_id' tube_od' velocity' modulus' density' : quantity R) (poisson plus_or_minus : b64)
         (ID OD v E rho V r h margin : R) (T reg : nat),
    reads 1e10 (PQuant tube_id) (PQuant tube_id') -> reads 1e10 (PQuant tube_od) (PQuant tube_od') ->
    reads 1e10 (PQuant velocity) (PQuant velocity') -> reads 1e10 (PQuant modulus) (PQuant modulus') ->
    reads 1e10 (PQuant density) (PQuant density') ->
    moderate 1e10 poisson -> moderate 1e10 plus_or_minus ->
    stands_for tube_id' d_length ID reg -> stands_for tube_od' d_length OD reg ->
    stands_for velocity' d_velocity v reg ->
    stands_for modulus' d_pressure E reg -> stands_for density' d_density rho reg ->
    0 <= ID -> ID < OD -> 0 <= v -> 0 <= E -> 0 < rho -> 0 <= real poisson <= 1/2 ->
    0 < real plus_or_minus < 1 ->
    h = (OD - ID) / 2 -> r = (ID / 2 + OD / 2) / 2 ->
    0 <= V -> V^4 = E^2 * h^2 / (3 * rho^2 * r^2 * (1 - real poisson^2)) ->
    OD + ID <= INR T * (OD - ID) -> margin = (24 * INR T + 40) * double_unit -> margin <= 1/2 ->
    let dlf := @dynamic_load_factor b64 Num_b64 tube_id tube_od velocity modulus density poisson plus_or_minus in
    let f := real plus_or_minus in
    (v < (1 - margin) * ((1 - f) * V) -> dlf = Ok 1%nat)
    /\ ((1 + 2 * margin) * ((1 + f) * V) < v -> dlf = Ok 2%nat)
    /\ ((1 + 2 * margin) * ((1 - f) * V) <= v <= (1 - margin) * ((1 + f) * V) -> dlf = Ok 4%nat)
    /\ (dlf = Ok 1%nat \/ dlf = Ok 2%nat \/ dlf = Ok 4%nat).
Proof.
  intros a b w e d a' b' w' e' d' nu pm ID OD v E rho V r h mg T reg A B W Em D Mn Mf
    Da Db Dw De Dd I0 IO v0 E0 r0 n0 f0 Eh Er V0 EV TT Emg Mh dlf f.
  destruct (C101_load_factor_rounding _ _ double_rounding a' b' w' e' d' ID OD v E rho (real nu) (real pm)
     V r h mg T reg Da Db Dw De Dd I0 IO v0 E0 r0 n0 f0 Eh Er V0 EV TT Emg Mh) as (H1 & H2 & H4 & H).
  assert (K : forall n, @dynamic_load_factor R (Num_rounded double) a' b' w' e' d' (real nu) (real pm) = Ok n ->
              dlf = Ok n).
  { intros n En. unfold dlf.
    destruct (C141_load_factor a b w e d a' b' w' e' d' nu pm A B W Em D Mn Mf) as [(x & _ & X)|(x & y & Ex & Ey & Sn)].
    - congruence.
    - rewrite Ex, Sn. congruence. }
  repeat split.
  - intros X. apply K, H1, X.
  - intros X. apply K, H2, X.
  - intros X. apply K, H4, X.
  - destruct H as [H|[H|H]]; apply K in H; auto.
Qed.
Print Assumptions C141_load_factor_accuracy.

(** Beside the theorems: a 5.75 in x 2.25 in x 1 in window at 10 MPa with modulus
    197.9 MPa, in doubles, gives the float Python prints, 12.020561... *)
Definition d (q : Q) : b64 := @nofQ b64 Num_b64 q.
Definition num (m : b64) (u : string) : pyin b64 := PSeq [ENum m; EStr u].

Lemma moderate_pos (x : b64) m k :
  B2SF x = S754_finite false m (Z.neg k) ->
  ((2 ^ Z.pos k <=? Z.pos m * 10^18) && (Z.pos m <=? 10^18 * 2 ^ Z.pos k))%Z = true ->
  moderate 1e18 x.
Proof.
  intros E H. apply andb_prop in H. destruct H as [A B]. apply Z.leb_le in A, B.
  assert (Er : real x = IZR (Z.pos m) / IZR (2 ^ Z.pos k)).
  { unfold real. rewrite <- (SF2R_B2SF 53 1024), E. reflexivity. }
  apply IZR_le in A, B. rewrite mult_IZR in A, B.
  assert (P : 0 < IZR (2 ^ Z.pos k)) by (apply IZR_lt, Z.pow_pos_nonneg; lia).
  assert (E18 : IZR (10 ^ 18) = 1e18) by (change (10^18)%Z with 1000000000000000000%Z; lra).
  rewrite E18 in A, B. set (t := IZR (2 ^ Z.pos k)) in *. clearbody t.
  split.
  - rewrite <- is_finite_SF_B2SF, E. reflexivity.
  - right. rewrite Er, Rabs_pos_eq by (apply Rmult_le_pos; [now apply IZR_le|apply Rlt_le, Rinv_0_lt_compat, P]).
    split.
    + apply Rmult_le_reg_r with (1e18 * t); [lra|].
      replace (IZR (Z.pos m) / t * (1e18 * t)) with (IZR (Z.pos m) * 1e18) by (field; lra).
      replace (/ 1e18 * (1e18 * t)) with t by (field; lra). exact A.
    + apply Rmult_le_reg_r with t; [exact P|].
      replace (IZR (Z.pos m) / t * t) with (IZR (Z.pos m)) by (field; lra). exact B.
Qed.
Ltac mod_tac := eapply moderate_pos; [vm_compute; reflexivity|vm_compute; reflexivity].

Example C141_case :
  (exists f, @safety_factor b64 Num_b64 (num (d (575#100)) "inch") (num (d (225#100)) "inch")
               (num (d 1) "inch") (num (d 10) "MPa") (num (d (1979#10)) "MPa") 7 = Ok f
             /\ B2SF f = S754_finite false 6766957373306747 (-49))
  /\ Forall (moderate 1e18) [d (575#100); d (225#100); d 1; d 10; d (1979#10)].
Proof.
  split.
  - destruct (@safety_factor b64 Num_b64 (num (d (575#100)) "inch") (num (d (225#100)) "inch")
               (num (d 1) "inch") (num (d 10) "MPa") (num (d (1979#10)) "MPa") 7) as [f|e] eqn:E.
    + exists f. split; [reflexivity|].
      assert (H : match @safety_factor b64 Num_b64 (num (d (575#100)) "inch") (num (d (225#100)) "inch")
               (num (d 1) "inch") (num (d 10) "MPa") (num (d (1979#10)) "MPa") 7 with
              | Ok f => B2SF f | Err _ => S754_nan end = S754_finite false 6766957373306747 (-49))
        by (vm_compute; reflexivity).
      rewrite E in H. exact H.
    + exfalso. assert (H : match @safety_factor b64 Num_b64 (num (d (575#100)) "inch") (num (d (225#100)) "inch")
               (num (d 1) "inch") (num (d 10) "MPa") (num (d (1979#10)) "MPa") 7 with
              | Ok f => true | Err _ => false end = true) by (vm_compute; reflexivity).
      rewrite E in H. discriminate.
  - apply Forall_cons; [mod_tac|]. apply Forall_cons; [mod_tac|]. apply Forall_cons; [mod_tac|].
    apply Forall_cons; [mod_tac|]. apply Forall_cons; [mod_tac|]. apply Forall_nil.
Qed.

(** The range matters: a window 1e-170 m thick has safety factor 0 in doubles, although
    it is positive, and a rupture modulus of 1e308 kPa gives infinity. *)
Example C141_range :
  (exists f, @safety_factor b64 Num_b64 (num (d 1) "m") (num (d 1) "m")
               (num (d (1 # (10^170)%positive)) "m") (num (d 1) "MPa") (num (d 100) "MPa") 7 = Ok f
             /\ B2SF f = S754_zero false)
  /\ (exists f, @safety_factor b64 Num_b64 (num (d 1) "m") (num (d 1) "m")
               (num (d 1) "m") (num (d 1) "MPa") (num (d (inject_Z (10^308))) "kPa") 7 = Ok f
             /\ B2SF f = S754_infinity false).
Proof.
  split.
  - match goal with |- exists f, ?t = Ok f /\ _ = ?r =>
      assert (H : match t with Ok f => B2SF f | Err _ => S754_nan end = r) by (vm_compute; reflexivity);
      destruct t as [f|e]; [exists f; now split|discriminate] end.
  - match goal with |- exists f, ?t = Ok f /\ _ = ?r =>
      assert (H : match t with Ok f => B2SF f | Err _ => S754_nan end = r) by (vm_compute; reflexivity);
      destruct t as [f|e]; [exists f; now split|discriminate] end.
Qed.
