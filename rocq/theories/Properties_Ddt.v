(** * Properties_Ddt: C05-C09 (blockage functions of class DDT). *)
From Coq Require Import String Reals List.
From Verif Require Import PyBase Pint UnitsM Spec QLemmas DdtM DdtP.
Import ListNotations.
Local Open Scope R_scope.

(** C05: ratio -> diameter -> ratio. *)
Theorem C05_ratio_diameter_ratio :
  forall (pipe_id : pyin R) (D b : R) (reg reg' : nat),
    denotes pipe_id d_length D -> 0 < D -> 0 < b < 1 ->
    exists q, calculate_blockage_diameter pipe_id (BrNum b) reg = Ok q
              /\ calculate_blockage_ratio pipe_id (PQuant q) reg' = Ok b.
Proof. exact blockage_roundtrip. Qed.
Print Assumptions C05_ratio_diameter_ratio.
Example C05_case :
  denotes (PSeq [ENum 5.761; EStr "in"]) d_length (5.761 * (254/10000))
  /\ 0 < 5.761 * (254/10000) /\ 0 < 0.444 < 1.
Proof. repeat split; try apply denotes_inch; Lra.lra. Qed.

(** C06: diameter -> ratio -> diameter.  Full statement, false of the code: the
    blockage past half the tube diameter comes back as another diameter. *)
Theorem C06_refuted :
  ~ (forall (tube blockage : pyin R) (D d b : R) (reg : nat),
       denotes tube d_length D -> denotes blockage d_length d -> 0 < D ->
       calculate_blockage_ratio tube blockage reg = Ok b -> 0 < b < 1 ->
       exists q, calculate_blockage_diameter tube (BrNum b) reg = Ok q
                 /\ stands_for q d_length d reg).
Proof.
  intros H. destruct past_half_witness as (b & q & x & E & Hb & Eq & Hq & Hx).
  destruct (H _ _ 1 (3/4) b 0%nat (denotes_m 1) (denotes_m (3/4)) ltac:(Lra.lra) E Hb)
    as (q' & Eq' & Hq').
  rewrite Eq in Eq'; injection Eq' as <-.
  destruct Hq as (_ & _ & _ & Hx1 & _), Hq' as (_ & _ & _ & Hx2 & _).
  congruence.
Qed.
Print Assumptions C06_refuted.

(** What does hold: up to (not including) half the tube diameter; missing: the
    accepted blockages of half the diameter and more. *)
Theorem C06_diameter_ratio_diameter_partial :
  forall (tube blockage : pyin R) (D d : R) (reg reg' : nat),
    denotes tube d_length D -> denotes blockage d_length d -> 0 < d -> 2 * d < D ->
    exists b q, calculate_blockage_ratio tube blockage reg = Ok b /\ 0 < b < 1
      /\ calculate_blockage_diameter tube (BrNum b) reg' = Ok q
      /\ stands_for q d_length d reg'.
Proof. exact blockage_roundtrip_back. Qed.
Print Assumptions C06_diameter_ratio_diameter_partial.

(** and past the half the answer is the complement D - d. *)
Theorem C06_past_half :
  forall (tube blockage : pyin R) (D d : R) (reg reg' : nat),
    denotes tube d_length D -> denotes blockage d_length d -> d < D -> D < 2 * d ->
    exists b q, calculate_blockage_ratio tube blockage reg = Ok b /\ 0 < b < 1
      /\ calculate_blockage_diameter tube (BrNum b) reg' = Ok q
      /\ stands_for q d_length (D - d) reg'.
Proof. exact blockage_roundtrip_back_past_half. Qed.
Print Assumptions C06_past_half.
Example C06_case :
  denotes (PSeq [ENum 1; EStr "m"]) d_length 1
  /\ denotes (PSeq [ENum (1/4); EStr "m"]) d_length (1/4) /\ 0 < 1/4 /\ 2 * (1/4) < 1
  /\ denotes (PSeq [ENum (3/4); EStr "m"]) d_length (3/4) /\ 3/4 < 1 /\ 1 < 2 * (3/4).
Proof. repeat split; try apply denotes_m; Lra.lra. Qed.

(** C07: the ratio is the blocked fraction of the cross-section. *)
Theorem C07_blockage_ratio_is_area_fraction :
  forall (tube blockage : pyin R) (D d : R) (reg : nat),
    denotes tube d_length D -> denotes blockage d_length d -> 0 <= d -> d < D ->
    exists b, calculate_blockage_ratio tube blockage reg = Ok b
      /\ 0 <= b <= 1 /\ (b = 0 <-> d = 0)
      /\ (2 * d <= D -> b = blocked_fraction D d)
      /\ (forall blockage' d', denotes blockage' d_length d' -> d < d' -> 2 * d' <= D ->
            exists b', calculate_blockage_ratio tube blockage' reg = Ok b' /\ b < b').
Proof. exact blockage_ratio_area. Qed.
Print Assumptions C07_blockage_ratio_is_area_fraction.
Example C07_case :
  denotes (PSeq [ENum 3.438; EStr "in"]) d_length (3.438 * (254/10000))
  /\ denotes (PSeq [ENum 0.4375; EStr "in"]) d_length (0.4375 * (254/10000))
  /\ 0 <= 0.4375 * (254/10000) /\ 0.4375 * (254/10000) < 3.438 * (254/10000).
Proof. repeat split; try apply denotes_inch; Lra.lra. Qed.

(** C08: impossible blockages.  Full statement, false of the code. *)
Theorem C08_refuted :
  ~ (forall (tube blockage : pyin R) (D d : R) (reg : nat),
       denotes tube d_length D -> denotes blockage d_length d -> D < 2 * d ->
       is_value_error (calculate_blockage_ratio tube blockage reg)).
Proof.
  intros H. destruct impossible_accepted as (D & d & b & _ & Hd & E).
  destruct (H _ _ D d 0%nat (denotes_m D) (denotes_m d) Hd) as (m & Em).
  congruence.
Qed.
Print Assumptions C08_refuted.

(** What does hold; missing: D/2 < d < D. *)
Theorem C08_impossible_blockage_rejected_partial :
  forall (tube blockage : pyin R) (dD dd : dim) (D d : R) (reg : nat),
    denotes tube dD D -> denotes blockage dd d ->
    (dD <> d_length \/ dd <> d_length \/ D <= 0 \/ d < 0 \/ D <= d) ->
    is_value_error (calculate_blockage_ratio tube blockage reg).
Proof. exact blockage_ratio_rejects. Qed.
Print Assumptions C08_impossible_blockage_rejected_partial.
Example C08_case :
  denotes (PSeq [ENum 1; EStr "m"]) d_length 1
  /\ denotes (PSeq [ENum 2; EStr "m"]) d_length 2 /\ 1 <= 2.
Proof. repeat split; try apply denotes_m; Lra.lra. Qed.

(** C09: validation, unit, range and monotonicity of the spiral diameter. *)
Theorem C09_blockage_diameter_rejects :
  forall (pipe_id : pyin R) (reg : nat),
    (forall b, ~ (0 < b < 1) ->
       is_value_error (calculate_blockage_diameter pipe_id (BrNum b) reg)
       /\ is_value_error (calculate_blockage_diameter pipe_id (BrStr (Some b)) reg))
    /\ is_value_error (calculate_blockage_diameter pipe_id (BrStr None) reg).
Proof. exact blockage_diameter_rejects. Qed.
Print Assumptions C09_blockage_diameter_rejects.

Theorem C09_blockage_diameter_range :
  forall (pipe_id : pyin R) (D b : R) (reg : nat) (u : unit_ R),
    denotes pipe_id d_length D -> expressed_in pipe_id u -> 0 < D -> 0 < b < 1 ->
    exists q x, calculate_blockage_diameter pipe_id (BrNum b) reg = Ok q
      /\ stands_for q d_length x reg /\ q_unit q = u /\ 0 < x < D / 2
      /\ (forall b', b < b' < 1 ->
            exists q' x', calculate_blockage_diameter pipe_id (BrNum b') reg = Ok q'
              /\ stands_for q' d_length x' reg /\ x < x').
Proof. exact blockage_diameter_range. Qed.
Print Assumptions C09_blockage_diameter_range.
(** A pipe of no diameter has a spiral of none; a ratio given as text counts as its number. *)
Theorem C09_zero_diameter :
  forall (pipe_id : pyin R) (b : R) (reg : nat) (u : unit_ R),
    denotes pipe_id d_length 0 -> expressed_in pipe_id u -> 0 < b < 1 ->
    exists q, calculate_blockage_diameter pipe_id (BrNum b) reg = Ok q
      /\ stands_for q d_length 0 reg /\ q_unit q = u.
Proof.
  intros i b reg u HD Hu Hb.
  destruct (bd_closed i 0 b reg HD (Rle_refl _) Hb) as (q & E & Hq & U).
  exists q. split; [exact E|]. split; [|now apply U].
  replace 0 with (0 / 2 * (1 - sqrt (1 - b))) by field. exact Hq.
Qed.
Print Assumptions C09_zero_diameter.
Theorem C09_ratio_as_text :
  forall (pipe_id : pyin R) (b : R) (reg : nat),
    calculate_blockage_diameter pipe_id (BrStr (Some b)) reg
    = calculate_blockage_diameter pipe_id (BrNum b) reg.
Proof. reflexivity. Qed.
Print Assumptions C09_ratio_as_text.
Example C09_zero_case :
  denotes (PSeq [ENum 0; EStr "in"]) d_length 0
  /\ expressed_in (PSeq [ENum 0; EStr "in"]) (mult_unit d_length s_inch).
Proof.
  split; [|constructor; reflexivity].
  replace 0 with (0 * (254/10000)) at 2 by Lra.lra. apply denotes_inch.
Qed.
Example C09_case :
  ~ (0 < 1 < 1) /\ ~ (0 < 0 < 1)
  /\ denotes (PSeq [ENum 2; EStr "in"]) d_length (2 * (254/10000))
  /\ expressed_in (PSeq [ENum 2; EStr "in"]) (mult_unit d_length s_inch)
  /\ 0 < 2 * (254/10000) /\ 0 < 1/2 < 1.
Proof.
  repeat split; try apply denotes_inch; try (constructor; reflexivity); Lra.lra.
Qed.
