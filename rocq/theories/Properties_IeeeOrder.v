(** * Properties_IeeeOrder: what holds for every double, with no limits on size:
    signs, order and bounds, through overflow and underflow.

    [@f b64 Num_b64] is [f] computed with doubles (IeeeM).  [Bleb x y] is Python's
    [x <= y] on floats. *)
From Coq Require Import SpecFloat String ZArith QArith Reals Qreals List Bool Lra Lia.
From Flocq Require Import Core BinarySingleNaN.
From Verif Require Import PyBase Pint UnitsM WindowM DdtM TubeM RoundM QLemmas IeeeM IeeeSpec IeeeP
  IeeeSignP IeeeOrderP IeeeBlockP Properties_Ieee.
Import ListNotations.
Local Open Scope string_scope.
Local Open Scope R_scope.

(** C142: whatever floats are given, infinities, nan and subnormal numbers included, a
    safety factor and a minimum thickness are never below zero. *)
Theorem C142_never_negative :
  forall (length width thickness pressure modulus : pyin b64) (s : b64) (reg : nat),
    (forall f, @safety_factor b64 Num_b64 length width thickness pressure modulus reg = Ok f ->
       not_negative f)
    /\ (forall q, @minimum_thickness b64 Num_b64 length width (SfNum s) pressure modulus reg = Ok q ->
       not_negative (q_mag q) /\ real (u_scale (q_unit q)) = 1 /\ u_dim (q_unit q) = d_length).
Proof.
  intros l w t p m s reg. split.
  - intros f H. apply nn_not_negative.
    destruct (safety_factor_chain _ _ _ _ _ _ _ H) as (L & W & T & P & M & (? & _ & _ & NL & _) & (? & _ & _ & NW & _)
      & (? & _ & _ & NT & _) & (? & _ & _ & NP & _) & (? & _ & _ & NM & _) & ZL & ZW & ZP & ->).
    now apply chain_nn.
  - intros q H.
    destruct (minimum_thickness_chain _ _ _ _ _ _ _ H) as (L & W & P & M & (? & _ & _ & NL & _) & (? & _ & _ & NW & _)
      & (? & _ & _ & NP & _) & (? & _ & _ & NM & _) & S & ZW & ZM & E & U).
    rewrite U. split; [|split; [apply B1_real|reflexivity]].
    rewrite E. apply nn_not_negative. apply chain_min_nn; try assumption. now apply sf_nn.
Qed.
Print Assumptions C142_never_negative.

(** C143: for all doubles: a thicker window or a stronger material never has a smaller
    safety factor, a larger pressure never a larger one; a larger required factor or a
    larger pressure never has a thinner window, a stronger material never a thicker one.
    (Unless one of the two results is nan.) *)
Theorem C143_window_order :
  forall (m1 m2 : b64) (unit_name : string) (length width thickness pressure modulus : pyin b64) (reg : nat) (f1 f2 : b64),
    Bleb m1 m2 = true -> is_nan f1 = false -> is_nan f2 = false ->
    let given m := PSeq [ENum m; EStr unit_name] in
    let sf t p m := @safety_factor b64 Num_b64 length width t p m reg in
    (sf (given m1) pressure modulus = Ok f1 -> sf (given m2) pressure modulus = Ok f2 -> Bleb f1 f2 = true)
    /\ (sf thickness pressure (given m1) = Ok f1 -> sf thickness pressure (given m2) = Ok f2 -> Bleb f1 f2 = true)
    /\ (sf thickness (given m1) modulus = Ok f1 -> sf thickness (given m2) modulus = Ok f2 -> Bleb f2 f1 = true).
Proof.
  intros m1 m2 u l w t p m reg f1 f2 Le N1 N2 given sf. unfold sf.
  assert (NdL : d_length <> d_temperature) by discriminate.
  assert (NdP : d_pressure <> d_temperature) by discriminate.
  assert (U : forall d i a b, base_arg d i reg a -> base_arg d i reg b -> a = b).
  { intros d i a b (q & P & -> & _) (q' & P' & -> & _). congruence. }
  repeat split; intros H1 H2;
    destruct (safety_factor_chain _ _ _ _ _ _ _ H1) as (L & W & T & P & M & AL & AW & AT & AP & AM & ZL & ZW & ZP & E1);
    destruct (safety_factor_chain _ _ _ _ _ _ _ H2) as (L' & W' & T' & P' & M' & AL' & AW' & AT' & AP' & AM' & ZL' & ZW' & ZP' & E2);
    pose proof (U _ _ _ _ AL AL'); pose proof (U _ _ _ _ AW AW'); subst L' W';
    assert (Xl := AL); assert (Xw := AW); assert (Xt := AT); assert (Xt' := AT'); assert (Xp := AP); assert (Xp' := AP');
    assert (Xm := AM); assert (Xm' := AM');
    destruct Xl as (? & _ & _ & NL & _); destruct Xw as (? & _ & _ & NW & _);
    destruct Xt as (? & _ & _ & NT & _); destruct Xt' as (? & _ & _ & NT' & _);
    destruct Xp as (? & _ & _ & NP & _); destruct Xp' as (? & _ & _ & NP' & _);
    destruct Xm as (? & _ & _ & NM & _); destruct Xm' as (? & _ & _ & NM' & _).
  - pose proof (U _ _ _ _ AP AP'). pose proof (U _ _ _ _ AM AM'). subst P' M'.
    pose proof (given_le _ _ _ _ _ _ _ Le NdL AT AT') as LT. subst f1 f2.
    apply le_xr; try assumption; try (now apply chain_nn). apply chain_le; try assumption; apply xr_refl.
  - pose proof (U _ _ _ _ AP AP'). pose proof (U _ _ _ _ AT AT'). subst P' T'.
    pose proof (given_le _ _ _ _ _ _ _ Le NdP AM AM') as LT. subst f1 f2.
    apply le_xr; try assumption; try (now apply chain_nn). apply chain_le; try assumption; apply xr_refl.
  - pose proof (U _ _ _ _ AM AM'). pose proof (U _ _ _ _ AT AT'). subst M' T'.
    pose proof (given_le _ _ _ _ _ _ _ Le NdP AP AP') as LT. subst f1 f2.
    apply le_xr; try assumption; try (now apply chain_nn). apply chain_le; try assumption; apply xr_refl.
Qed.
Print Assumptions C143_window_order.

Theorem C143_thickness_order :
  forall (m1 m2 : b64) (unit_name : string) (length width pressure modulus : pyin b64) (s : b64) (reg : nat)
         (q1 q2 : quantity b64),
    Bleb m1 m2 = true -> is_nan (q_mag q1) = false -> is_nan (q_mag q2) = false ->
    let given m := PSeq [ENum m; EStr unit_name] in
    let tmin s p m := @minimum_thickness b64 Num_b64 length width (SfNum s) p m reg in
    (tmin m1 pressure modulus = Ok q1 -> tmin m2 pressure modulus = Ok q2 -> Bleb (q_mag q1) (q_mag q2) = true)
    /\ (tmin s (given m1) modulus = Ok q1 -> tmin s (given m2) modulus = Ok q2 -> Bleb (q_mag q1) (q_mag q2) = true)
    /\ (tmin s pressure (given m1) = Ok q1 -> tmin s pressure (given m2) = Ok q2 -> Bleb (q_mag q2) (q_mag q1) = true).
Proof.
  intros m1 m2 u l w p m s reg q1 q2 Le N1 N2 given tmin. unfold tmin.
  assert (NdP : d_pressure <> d_temperature) by discriminate.
  assert (U : forall d i a b, base_arg d i reg a -> base_arg d i reg b -> a = b).
  { intros d i a b (q & P & -> & _) (q' & P' & -> & _). congruence. }
  repeat split; intros H1 H2;
    destruct (minimum_thickness_chain _ _ _ _ _ _ _ H1) as (L & W & P & M & AL & AW & AP & AM & S1 & ZW & ZM & E1 & _);
    destruct (minimum_thickness_chain _ _ _ _ _ _ _ H2) as (L' & W' & P' & M' & AL' & AW' & AP' & AM' & S2 & ZW' & ZM' & E2 & _);
    pose proof (U _ _ _ _ AL AL'); pose proof (U _ _ _ _ AW AW'); subst L' W';
    assert (Xl := AL); assert (Xw := AW); assert (Xp := AP); assert (Xp' := AP');
    assert (Xm := AM); assert (Xm' := AM');
    destruct Xl as (? & _ & _ & NL & _); destruct Xw as (? & _ & _ & NW & _);
    destruct Xp as (? & _ & _ & NP & _); destruct Xp' as (? & _ & _ & NP' & _);
    destruct Xm as (? & _ & _ & NM & _); destruct Xm' as (? & _ & _ & NM' & _);
    apply sf_nn in S1; apply sf_nn in S2; rewrite E1 in *; rewrite E2 in *.
  - pose proof (U _ _ _ _ AP AP'). pose proof (U _ _ _ _ AM AM'). subst P' M'.
    apply le_xr; try assumption; try (now apply chain_min_nn).
    apply chain_min_le; try assumption; try apply xr_refl; [now intros X [->| ->]|].
    apply le_xr; try assumption.
    + destruct m1 as [sg1|[|]| |[|] kk1 ee1 BB1]; try reflexivity; discriminate.
    + destruct m2; try reflexivity; destruct m1 as [sg1|[|]| |[|] kk1 ee1 BB1]; discriminate.
  - pose proof (U _ _ _ _ AM AM'). subst M'.
    pose proof (given_le _ _ _ _ _ _ _ Le NdP AP AP') as LT.
    apply le_xr; try assumption; try (now apply chain_min_nn).
    apply chain_min_le; try assumption; try apply xr_refl. now intros X [->| ->].
  - pose proof (U _ _ _ _ AP AP'). subst P'.
    pose proof (given_le _ _ _ _ _ _ _ Le NdP AM AM') as LT.
    apply le_xr; try assumption; try (now apply chain_min_nn).
    apply chain_min_le; try assumption; try apply xr_refl. now intros X [->| ->].
Qed.
Print Assumptions C143_thickness_order.

(** C144: the blockage ratio computed is a number between 0 and 1, for all doubles up to
    1e290 however small; and a blockage diameter is a number between 0 and half of the
    pipe's, for all finite doubles but negative ones above -1e-290 (the others that are
    negative are refused; a negative subnormal can have the base value -0).
    Missing: numbers beyond 1e290, see the refutation. *)
Theorem C144_blockage_bounds_partial :
  forall (tube blockage : b64) (tube_unit blockage_unit : string) (ratio : b64) (reg : nat),
    is_finite tube = true -> is_finite blockage = true ->
    (forall f, real tube <= 1e290 -> real blockage <= 1e290 ->
       @calculate_blockage_ratio b64 Num_b64 (PSeq [ENum tube; EStr tube_unit])
         (PSeq [ENum blockage; EStr blockage_unit]) reg = Ok f ->
       is_finite f = true /\ 0 <= real f <= 1)
    /\ (forall q, (real tube < 0 -> real tube <= - / 1e290) ->
       @calculate_blockage_diameter b64 Num_b64 (PSeq [ENum tube; EStr tube_unit]) (BrNum ratio) reg = Ok q ->
       is_finite (q_mag q) = true /\ 0 <= real (q_mag q) <= real (Bdiv mode_NE tube (b64_of_Z 2))
       /\ @lookup_unit b64 Num_b64 tube_unit = Some (q_unit q)).
Proof.
  intros t b ut ub r reg Ft Fb. split.
  - intros f St Sb H. destruct (blockage_ratio_inv _ _ _ _ H) as (T & B & AT & AB & ZT & Ge & ->).
    destruct (given_base ut t reg d_length T ltac:(discriminate) Ft St AT) as (FT & _).
    destruct (given_base ub b reg d_length B ltac:(discriminate) Fb Sb AB) as (FB & SB).
    destruct AT as (? & _ & _ & NT & _). destruct AB as (? & _ & _ & NBb & _).
    apply ratio_bounds; try assumption. destruct T; try reflexivity; discriminate.
  - intros q P H. replace (b64_of_Z 2) with two by (apply B2SF_inj; vm_compute; reflexivity).
    apply (blockage_diameter_bounds _ _ _ _ _ Ft P H).
Qed.
Print Assumptions C144_blockage_bounds_partial.

(** A 1.5e308 m blockage in a 1.7e308 m tube has the ratio -inf. *)
Theorem C144_refuted :
  ~ (forall (tube blockage : b64) (tube_unit blockage_unit : string) (reg : nat) (f : b64),
       is_finite tube = true -> is_finite blockage = true ->
       @calculate_blockage_ratio b64 Num_b64 (PSeq [ENum tube; EStr tube_unit])
         (PSeq [ENum blockage; EStr blockage_unit]) reg = Ok f ->
       is_finite f = true /\ 0 <= real f <= 1).
Proof.
  intros H.
  specialize (H (d (inject_Z (17 * 10^307))) (d (inject_Z (15 * 10^307))) "m" "m" 7%nat).
  assert (X : match @calculate_blockage_ratio b64 Num_b64 (num (d (inject_Z (17 * 10^307))) "m")
                      (num (d (inject_Z (15 * 10^307))) "m") 7 with
              | Ok f => is_finite f | Err _ => true end = false) by (vm_compute; reflexivity).
  unfold num in X.
  destruct (@calculate_blockage_ratio b64 Num_b64 _ _ _) as [f|e]; [|discriminate].
  specialize (H f eq_refl eq_refl eq_refl). destruct H as (H & _). rewrite X in H. discriminate.
Qed.
Print Assumptions C144_refuted.

(** C145: given numbers between 1e-18 and 1e18 (or 0), the results are numbers: no nan and
    no infinity.
    Missing: all finite numbers, see the refutation. *)
Theorem C145_numbers_partial :
  forall (length width thickness pressure modulus : pyin b64)
         (length' width' thickness' pressure' modulus' : pyin R) (s : b64) (reg : nat),
    reads 1e18 length length' -> reads 1e18 width width' -> reads 1e18 thickness thickness' ->
    reads 1e18 pressure pressure' -> reads 1e18 modulus modulus' -> moderate 1e18 s ->
    (forall f, @safety_factor b64 Num_b64 length width thickness pressure modulus reg = Ok f -> is_finite f = true)
    /\ (forall q, @minimum_thickness b64 Num_b64 length width (SfNum s) pressure modulus reg = Ok q ->
          is_finite (q_mag q) = true)
    /\ (forall q, @calculate_blockage_diameter b64 Num_b64 length (BrNum s) reg = Ok q -> is_finite (q_mag q) = true)
    /\ (forall f, @calculate_blockage_ratio b64 Num_b64 length width reg = Ok f -> is_finite f = true).
Proof.
  intros l w t p m l' w' t' p' m' s reg Rl Rw Rt Rp Rm Ms.
  destruct (C141_window l w t p m l' w' t' p' m' s reg Rl Rw Rt Rp Rm Ms) as (O1 & O2).
  destruct (C141_blockage l w l' w' s reg Rl Rw Ms) as (O3 & O4).
  repeat split; intros x E.
  - destruct O1 as [(e & X & _)|(a & b & Ea & Eb & (F & _))]; [congruence|]. assert (x = a) by congruence. now subst.
  - destruct O2 as [(e & X & _)|(a & b & Ea & Eb & ((F & _) & _))]; [congruence|]. assert (x = a) by congruence. now subst.
  - destruct O3 as [(e & X & _)|(a & b & Ea & Eb & ((F & _) & _))]; [congruence|]. assert (x = a) by congruence. now subst.
  - destruct O4 as [(e & X & _)|(a & b & Ea & Eb & (F & _))]; [congruence|]. assert (x = a) by congruence. now subst.
Qed.
Print Assumptions C145_numbers_partial.

(** A window 1e-200 m thick of a material with a modulus of 1e308 Pa has the safety factor
    nan: the square of the thickness underflows to 0, twice the modulus overflows. *)
Theorem C145_refuted :
  ~ (forall (l w t p m : b64) (reg : nat) (f : b64),
       is_finite l = true -> is_finite w = true -> is_finite t = true -> is_finite p = true -> is_finite m = true ->
       @safety_factor b64 Num_b64 (num l "m") (num w "m") (num t "m") (num p "Pa") (num m "Pa") reg = Ok f ->
       is_nan f = false).
Proof.
  intros H.
  specialize (H (d 1) (d 1) (d (1 # (10^200)%positive)) (d 1) (d (inject_Z (10^308))) 7%nat).
  assert (X : match @safety_factor b64 Num_b64 (num (d 1) "m") (num (d 1) "m") (num (d (1 # (10^200)%positive)) "m")
                      (num (d 1) "Pa") (num (d (inject_Z (10^308))) "Pa") 7 with
              | Ok f => is_nan f | Err _ => false end = true) by (vm_compute; reflexivity).
  destruct (@safety_factor b64 Num_b64 _ _ _ _ _ _) as [f|e]; [|discriminate].
  specialize (H f eq_refl eq_refl eq_refl eq_refl eq_refl eq_refl). rewrite X in H. discriminate.
Qed.
Print Assumptions C145_refuted.

(** Beside the theorems: subnormal and infinite arguments are accepted; a positive blockage
    ratio of 1e-17 has the blockage diameter 0. *)
Example C142_case :
  (exists f, @safety_factor b64 Num_b64 (num (d 1) "m") (num (d 1) "m") (num (d (5 # (10^324)%positive)) "m")
               (num (B754_infinity false) "Pa") (num (d 1) "Pa") 7 = Ok f /\ B2SF f = S754_zero false)
  /\ (exists f, @safety_factor b64 Num_b64 (num (d 1) "m") (num (d 1) "m") (num (B754_infinity false) "m")
               (num (d 1) "Pa") (num (d 1) "Pa") 7 = Ok f /\ B2SF f = S754_infinity false)
  /\ (exists q, @calculate_blockage_diameter b64 Num_b64 (num (d 1) "m") (BrNum (d (1 # (10^17)%positive))) 7 = Ok q
                /\ B2SF (q_mag q) = S754_zero false)
  /\ (exists f, @calculate_blockage_ratio b64 Num_b64 (num (d 6) "inch") (num (d 1) "inch") 7 = Ok f
                /\ Bltb (b64_of_Z 0) f = true /\ Bltb f (b64_of_Z 1) = true).
Proof.
  repeat split.
  - match goal with |- exists f, ?t = Ok f /\ _ = ?r =>
      assert (H : match t with Ok f => B2SF f | Err _ => S754_nan end = r) by (vm_compute; reflexivity);
      destruct t as [f|e]; [exists f; now split|discriminate] end.
  - match goal with |- exists f, ?t = Ok f /\ _ = ?r =>
      assert (H : match t with Ok f => B2SF f | Err _ => S754_nan end = r) by (vm_compute; reflexivity);
      destruct t as [f|e]; [exists f; now split|discriminate] end.
  - match goal with |- exists f, ?t = Ok f /\ _ = ?r =>
      assert (H : match t with Ok f => B2SF (q_mag f) | Err _ => S754_nan end = r) by (vm_compute; reflexivity);
      destruct t as [f|e]; [exists f; now split|discriminate] end.
  - match goal with |- exists f, ?t = Ok f /\ _ =>
      assert (H : match t with Ok f => (Bltb (b64_of_Z 0) f && Bltb f (b64_of_Z 1))%bool | Err _ => false end = true)
        by (vm_compute; reflexivity);
      destruct t as [f|e]; [exists f; split; [reflexivity|]; now apply andb_prop in H|discriminate] end.
Qed.
