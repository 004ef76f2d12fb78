(** * Properties_VectorRunUp: calculate_run_up with arrays (C136). *)
From Coq Require Import String QArith Reals Qreals List Bool Arith Lia Lra.
From Verif Require Import PyBase Pint UnitsM Spec QLemmas TubeM DdtM WindowM BoltM VectorM VectorSpec
  VectorP Properties_Vector VectorTubeM VectorTubeSpec VectorTubeP Gas GasP FitM SdM ThermoM
  ThermoSpec RunUpM RunUpSpec RunUpP ExampleGas Properties_RunUp VectorRunUpM VectorRunUpP.
Import ListNotations.
Local Open Scope R_scope.

Lemma range_bool b : b <= 1/10 \/ 3/10 <= b <= 3/4 ->
  orb (andb (nleb (lit 0.3)%num b) (nleb b (lit 0.75)%num)) (nleb b (lit 0.1)%num) = true.
Proof.
  intros H. rnum. q2r. destruct H as [H|(H1 & H2)].
  - rewrite (Rleb_true b (1 * / 10)) by lra. apply orb_true_r.
  - rewrite !Rleb_true by lra. reflexivity.
Qed.
Lemma mid_bool b : 1/10 < b < 3/10 ->
  nleb b (lit 0.1)%num = false /\ nleb (lit 0.3)%num b = false.
Proof. intros H. rnum. q2r. split; apply Rleb_false; lra. Qed.

(** C136.  An array of diameters, blockage ratio up to 0.1 or from 0.3: element by element the
    distance of the single calls (a negative diameter after the first one is not rejected, as
    in C90), and the chemistry is done once, as in one single call. *)
Theorem C136_elementwise :
  forall {G X} (L : cantera R G X) (n : nat) (br : vmag R) b t ts iT iP x mech reg phase,
    (0 < n)%nat -> only br b -> b <= 1/10 \/ 3/10 <= b <= 3/4 -> elements n t ts ->
    let array := v_run_up L br t iT iP x mech reg phase in
    let single i := calculate_run_up L b (ts i) iT iP x mech reg phase in
    elementwise n quantity_at (value array) (fun i => value (single i))
    /\ forall v, value array = Ok v -> trace array = trace (single 0%nat).
Proof.
  intros * Hn Hb Hr Ht array single.
  destruct (run_up_rel n Hn L br b t ts iT iP x mech reg phase Hb (range_bool b Hr) Ht) as (H1 & H2).
  split; [|exact H2].
  apply (rrel_elementwise (vrel n)); [exact Hn|exact (vrel_at n)|exact H1].
Qed.
Print Assumptions C136_elementwise.

(** Between 0.1 and 0.3 an array, even of one element, is refused, also where the single calls
    for all its elements return. *)
Theorem C136_between :
  forall {G X} (L : cantera R G X) (n : nat) (br : vmag R) b t ts iT iP x mech reg phase,
    (0 < n)%nat -> only br b -> 1/10 < b < 3/10 -> elements n t ts ->
    (exists l, br = Arr l \/ arg_mag t = Arr l) ->
    let array := v_run_up L br t iT iP x mech reg phase in
    let single i := calculate_run_up L b (ts i) iT iP x mech reg phase in
    raises (value array)
    /\ ((forall i, (i < n)%nat -> exists q, value (single i) = Ok q) -> is_value_error (value array)).
Proof.
  intros * Hn Hb Hr Ht Ha array single. destruct (mid_bool b Hr) as (M1 & M3).
  split; [|exact (run_up_refused n Hn L br b t ts iT iP x mech reg phase Hb M1 M3 Ht Ha)].
  destruct (value array) as [v|e] eqn:E; [exfalso|exists e; reflexivity].
  destruct (run_up_shape L _ _ _ _ _ _ _ _ _ E) as (b' & Hb' & H).
  assert (b' = b) by (destruct Hb as [-> | ->], Hb' as [C|C]; congruence). subst b'.
  rewrite M1, M3 in H. destruct H as [H|(-> & d & Ed)]; [discriminate H|].
  destruct Ha as (l & [Ha|Ha]); congruence.
Qed.
Print Assumptions C136_between.

(** Several blockage ratios in one call are refused. *)
Theorem C136_one_ratio :
  forall {G X} (L : cantera R G X) (br : vmag R) t iT iP x mech reg phase v,
    value (v_run_up L br t iT iP x mech reg phase) = Ok v -> exists b, only br b.
Proof.
  intros * H. destruct (run_up_shape L _ _ _ _ _ _ _ _ _ H) as (b & Hb & _). eauto.
Qed.
Print Assumptions C136_one_ratio.

(** With numbers the array function is the function on numbers, for every blockage ratio. *)
Theorem C136_numbers :
  forall {G X} (L : cantera R G X) b t t1 d iT iP x mech reg phase,
    element_of 0 t t1 -> arg_mag t = Sca d ->
    let array := v_run_up L (Sca b) t iT iP x mech reg phase in
    let single := calculate_run_up L b t1 iT iP x mech reg phase in
    trace array = trace single
    /\ value array = match value single with Ok q => Ok (scalar q) | Err e => Err e end.
Proof.
  intros * He Hd array single.
  assert (Hs : same_arg t t1).
  { destruct He as [q a Ha|m s a Ha|].
    - cbn in Hd. rewrite Hd in Ha. injection Ha as <-. destruct q as [m u r]. cbn in *. subst m.
      apply (same_q (mkQ d u r)).
    - cbn in Hd. subst m. injection Ha as <-. constructor.
    - discriminate. }
  unfold array. rewrite (run_up_numbers L b t t1 _ _ _ _ _ _ Hs). split; reflexivity.
Qed.
Print Assumptions C136_numbers.

(** A case: tubes of 6 and 8 inches in one call; 0.43 blocked gives both distances, 0.2
    blocked gives a ValueError although each of the two calls alone returns. *)
Definition two_tubes : vpyin R := VPair (Arr [6; 8]) "in".
Definition two_tubes_at (i : nat) : pyin R := PSeq [ENum (if Nat.eqb i 0 then 6 else 8); EStr "in"].
Lemma two_tubes_elements : elements 2 two_tubes two_tubes_at.
Proof.
  split; [left; reflexivity|]. intros i Hi. destruct i as [|[|i]]; [| |lia]; constructor; reflexivity.
Qed.
Lemma two_returns BR i : 0 < BR <= 3/4 -> (i < 2)%nat ->
  returns (value (calculate_run_up example_gas BR (two_tubes_at i)
                    (PSeq [ENum 300; EStr "K"]) (PSeq [ENum 101325; EStr "Pa"])
                    fresh "gri30.cti" 0 "gri30_mix")) d_length
          (run_up_distance BR (2/5) 8 300 (1/100000) ((if Nat.eqb i 0 then 6 else 8) * (254/10000))) 0.
Proof.
  intros H Hi. eapply C10_returns; eauto using denotes_inch, denotes_K, denotes_Pa; try lra.
  - destruct (Nat.eqb i 0); lra.
  - apply example_burns; lra.
  - intros _. split; [|lra]. replace (1/100000) with (1/100000 / (101325 / 101325)) by field.
    apply example_viscosity. lra.
Qed.
Example C136_case :
  (exists v q6 q8, value (v_run_up example_gas (Sca (43/100)) two_tubes (PSeq [ENum 300; EStr "K"])
       (PSeq [ENum 101325; EStr "Pa"]) fresh "gri30.cti" 0 "gri30_mix") = Ok v
     /\ quantity_at 0 v = Some q6 /\ quantity_at 1 v = Some q8
     /\ stands_for q6 d_length (run_up_distance (43/100) (2/5) 8 300 (1/100000) (6 * (254/10000))) 0
     /\ stands_for q8 d_length (run_up_distance (43/100) (2/5) 8 300 (1/100000) (8 * (254/10000))) 0)
  /\ is_value_error (value (v_run_up example_gas (Sca (2/10)) two_tubes (PSeq [ENum 300; EStr "K"])
       (PSeq [ENum 101325; EStr "Pa"]) fresh "gri30.cti" 0 "gri30_mix")).
Proof.
  split.
  - destruct (two_returns (43/100) 0 ltac:(lra) ltac:(lia)) as (q6 & E6 & H6).
    destruct (two_returns (43/100) 1 ltac:(lra) ltac:(lia)) as (q8 & E8 & H8).
    destruct (C136_elementwise example_gas 2 (Sca (43/100)) (43/100) two_tubes two_tubes_at
      (PSeq [ENum 300; EStr "K"]) (PSeq [ENum 101325; EStr "Pa"]) fresh "gri30.cti" 0 "gri30_mix"
      ltac:(lia) (or_introl eq_refl) ltac:(lra) two_tubes_elements) as ((H & _) & _).
    destruct (H (fun i => if Nat.eqb i 0 then q6 else q8)) as (v & Ev & Hv).
    { intros i Hi. destruct i as [|[|i]]; [exact E6|exact E8|lia]. }
    exists v, q6, q8. split; [exact Ev|]. split; [exact (Hv 0%nat ltac:(lia))|].
    split; [exact (Hv 1%nat ltac:(lia))|]. split; [exact H6|exact H8].
  - apply (C136_between example_gas 2 (Sca (2/10)) (2/10) two_tubes two_tubes_at
      (PSeq [ENum 300; EStr "K"]) (PSeq [ENum 101325; EStr "Pa"]) fresh "gri30.cti" 0 "gri30_mix"
      ltac:(lia) (or_introl eq_refl) ltac:(lra) two_tubes_elements).
    + exists [6; 8]. right. reflexivity.
    + intros i Hi. destruct (two_returns (2/10) i ltac:(lra) Hi) as (q & E & _). eauto.
Qed.
