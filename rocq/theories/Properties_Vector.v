(** * Properties_Vector: C89-C91 (array arguments). *)
From Coq Require Import String Reals List Bool Arith Lia Lra.
From Verif Require Import PyBase Pint UnitsM Spec QLemmas WindowM BoltM WindowP VectorM VectorSpec VectorP.
Import ListNotations.
Local Open Scope string_scope.
Local Open Scope nat_scope.

Lemma rrel_elementwise {V S} (R : V -> (nat -> S) -> Prop) n at_ array single :
  0 < n ->
  (forall v f, R v f -> forall i, i < n -> at_ i v = Some (f i)) ->
  rrel n R array single -> elementwise n at_ array single.
Proof.
  intros Hn HR H. split.
  - intros f Hf. destruct array as [v|e].
    + destruct H as (g & Rg & H). exists v. split; [reflexivity|]. intros i Hi.
      rewrite (HR v g Rg i Hi). f_equal.
      destruct (H i Hi) as [E|[_ E]]; rewrite (Hf i Hi) in E; [congruence|discriminate].
    + destruct H as (i & Hi & e' & H). rewrite (Hf i Hi) in H. discriminate.
  - intros v -> i Hi. destruct H as (g & Rg & H). exists (g i).
    split; [exact (HR v g Rg i Hi)|exact (H i Hi)].
Qed.

(** C89: array calls are the single calls, element by element. *)
Theorem C89_window_safety_factor_elementwise :
  forall (A : Type) (NA : Num A) (n : nat) (l w t p m : vpyin A)
         (ls ws ts ps ms : nat -> pyin A) (reg : nat),
    0 < n ->
    elements n l ls -> elements n w ws -> elements n t ts -> elements n p ps ->
    elements n m ms ->
    elementwise n pick (v_safety_factor l w t p m reg)
      (fun i => safety_factor (ls i) (ws i) (ts i) (ps i) (ms i) reg).
Proof.
  intros A NA n l w t p m ls ws ts ps ms reg Hn Hl Hw Ht Hp Hm.
  apply (rrel_elementwise (mrel n)); [exact Hn|intros v f [_ H]; exact H|].
  apply window_sf_rel; assumption.
Qed.
Print Assumptions C89_window_safety_factor_elementwise.

Lemma vrel_at {A} {NA : Num A} n (v : vquantity A) f :
  vrel n v f -> forall i, i < n -> quantity_at i v = Some (f i).
Proof.
  intros [[_ H] U] i Hi. unfold quantity_at. rewrite (H i Hi).
  destruct (U i Hi) as [E1 E2]. rewrite <- E1, <- E2. now destruct (f i).
Qed.
Theorem C89_minimum_thickness_elementwise :
  forall (A : Type) (NA : Num A) (n : nat) (l w p m : vpyin A) (s : A) (sm : vmag A)
         (ls ws ps ms : nat -> pyin A) (reg : nat),
    0 < n -> sm = Sca s \/ sm = Arr [s] ->
    elements n l ls -> elements n w ws -> elements n p ps -> elements n m ms ->
    elementwise n quantity_at (v_minimum_thickness l w (VSfNum sm) p m reg)
      (fun i => minimum_thickness (ls i) (ws i) (SfNum s) (ps i) (ms i) reg).
Proof.
  intros A NA n l w p m s sm ls ws ps ms reg Hn Hs Hl Hw Hp Hm.
  apply (rrel_elementwise (vrel n)); [exact Hn|exact (vrel_at n)|].
  apply window_mt_rel; assumption.
Qed.
Print Assumptions C89_minimum_thickness_elementwise.

Theorem C89_bolt_safety_factors_elementwise :
  forall (A : Type) (NA : Num A) (n : nat) (p w b pl e : vpyin A) (nb : vmag A)
         (size cls : string) (ps ws bs pls es : nat -> pyin A) (nbs : nat -> A) (reg : nat),
    0 < n ->
    elements n p ps -> elements n w ws -> number_elements n nb nbs -> elements n b bs ->
    elements n pl pls -> elements n e es ->
    of_length 1 (arg_mag b) -> of_length 1 (arg_mag e) ->
    elementwise n factors_at (v_bolt_safety_factors p w nb size cls b pl e reg)
      (fun i => calculate_safety_factors (ps i) (ws i) (nbs i) size cls (bs i) (pls i)
                  (es i) reg).
Proof.
  intros A NA n p w b pl e nb size cls ps ws bs pls es nbs reg Hn Hp Hw Hnb Hb Hpl He Lb Le.
  apply (rrel_elementwise (frel n)); [exact Hn| |].
  - intros v f ([_ H1] & [_ H2] & H3) i Hi. unfold factors_at.
    rewrite (H1 i Hi), (H2 i Hi), <- (H3 i Hi). now destruct (f i).
  - apply v_bolt_rel; assumption.
Qed.
Print Assumptions C89_bolt_safety_factors_elementwise.

(** C91: what can be combined.  Arrays of different lengths (neither of them one) are
    refused, so are empty arrays; minimum_thickness takes at most one safety factor,
    calculate_safety_factors at most one bolt strength and one engagement length. *)
Theorem C91_window_safety_factor_lengths :
  forall (A : Type) (NA : Num A) (l w t p m : vpyin A) (reg : nat) (v : vmag A),
    v_safety_factor l w t p m reg = Ok v ->
    exists n, 0 < n /\ of_length n (arg_mag l) /\ of_length n (arg_mag w)
      /\ of_length n (arg_mag t) /\ of_length n (arg_mag p) /\ of_length n (arg_mag m).
Proof. intros A NA l w t p m reg v H. exact (window_sf_lengths l w t p m reg v H). Qed.
Print Assumptions C91_window_safety_factor_lengths.

Theorem C91_minimum_thickness_lengths :
  forall (A : Type) (NA : Num A) (l w p m : vpyin A) (s : vsf_arg A) (reg : nat)
         (v : vquantity A),
    v_minimum_thickness l w s p m reg = Ok v ->
    exists n sm, 0 < n /\ s = VSfNum sm /\ (sm = Arr [] \/ of_length 1 sm)
      /\ of_length n (arg_mag l) /\ of_length n (arg_mag w)
      /\ of_length n (arg_mag p) /\ of_length n (arg_mag m).
Proof. intros A NA l w p m s reg v H. exact (window_mt_lengths l w s p m reg v H). Qed.
Print Assumptions C91_minimum_thickness_lengths.

Theorem C91_bolt_lengths :
  forall (A : Type) (NA : Num A) (p w b pl e : vpyin A) (nb : vmag A)
         (size cls : string) (reg : nat) (v : v_factors A),
    v_bolt_safety_factors p w nb size cls b pl e reg = Ok v -> nb <> Arr [] ->
    of_length 1 (arg_mag b) /\ of_length 1 (arg_mag e)
    /\ exists n, 0 < n /\ of_length n (arg_mag p) /\ of_length n (arg_mag w)
        /\ of_length n nb /\ of_length n (arg_mag pl).
Proof.
  intros A NA p w b pl e nb size cls reg v H N.
  exact (bolt_lengths p w nb size cls b pl e reg v H N).
Qed.
Print Assumptions C91_bolt_lengths.

(** C90: a negative element after the first one is not rejected, and the safety factor
    returned for it is negative. *)
Local Open Scope R_scope.
Lemma d1 x : x / 1 = x. Proof. field. Qed.
Ltac vstep :=
  unfold v_div, v_mul, v_scale, v_sq, v_naddq, v_plain, v_to, vdiv, pydiv, npdiv, v_same_reg,
    v_offset_free, v_to_base, v_base_mag, base_mag, sq;
  repeat (cbn -[Rltb Reqb Rleb Q2R Rmult Rdiv Rplus window_k zero one Nat.eqb];
          rewrite ?zero_R, ?one_R, ?Nat.eqb_refl, ?Rmult_1_r, ?Rmult_1_l, ?d1;
          try (rewrite Reqb_false by lra); try (rewrite Rltb_false by lra)).
Lemma window_negative (P N : R) (reg : nat) : 0 < P -> 0 < N ->
  v_safety_factor (VPair (Sca 1) "m") (VPair (Sca 1) "m") (VPair (Sca 1) "m")
    (VPair (Arr [P; - N]) "Pa") (VPair (Sca 1) "Pa") reg
  = Ok (Arr [16 / (3 * P); - (16 / (3 * N))]).
Proof.
  intros HP HN.
  unfold v_safety_factor, v_parse_base, v_parse, lookup_unit.
  vstep. rewrite !wk. vstep.
  do 3 f_equal; [q2r; field; lra|]. f_equal. q2r. field. lra.
Qed.
Theorem C90_negative_elements_are_rejected_refuted :
  forall (P N : R) (reg : nat), 0 < P -> 0 < N ->
  let area := VPair (Sca 1) "m" in
  v_safety_factor area area area (VPair (Arr [P; - N]) "Pa") (VPair (Sca 1) "Pa") reg
  = Ok (Arr [16 / (3 * P); - (16 / (3 * N))])
  /\ - (16 / (3 * N)) < 0
  /\ element_of 1 (VPair (Arr [P; - N]) "Pa") (PSeq [ENum (- N); EStr "Pa"])
  /\ (let side := PSeq [ENum 1; EStr "m"] in
      negative_rejected (safety_factor side side side
        (PSeq [ENum (- N); EStr "Pa"]) (PSeq [ENum 1; EStr "Pa"]) reg)).
Proof.
  intros P N reg HP HN. cbv zeta.
  split; [now apply window_negative|]. split.
  { assert (0 < 16 / (3 * N)) by (apply Rdiv_lt_0_compat; lra). lra. }
  split; [constructor; reflexivity|].
  unfold negative_rejected, safety_factor, parse_base, parse_quant_input, quantity_of_items,
    quant, lookup_unit.
  repeat (cbn -[Rltb zero one]; unfold base_mag; cbn -[Rltb zero one];
    rewrite ?zero_R, ?one_R, ?Rmult_1_r;
    try (rewrite Rltb_false by lra); try (rewrite Rltb_true by lra)).
  reflexivity.
Qed.
Print Assumptions C90_negative_elements_are_rejected_refuted.

(** A concrete case for C89 and C91: two thicknesses, one pressure in an array of one,
    and numbers for the rest; all the calls return. *)
Example array_case :
  let side := VPair (Sca 1) "m" in
  elements 2 side (fun _ => PSeq [ENum 1; EStr "m"])
  /\ elements 2 (VPair (Arr [1; 2]) "m")
       (fun i => PSeq [ENum (match i with O => 1 | _ => 2 end); EStr "m"])
  /\ elements 2 (VPair (Arr [1]) "Pa") (fun _ => PSeq [ENum 1; EStr "Pa"])
  /\ v_safety_factor side side (VPair (Arr [1; 2]) "m") (VPair (Arr [1]) "Pa")
       (VPair (Sca 1) "Pa") 0 = Ok (Arr [16/3; 64/3]).
Proof.
  cbv zeta. split; [|split; [|split]].
  - split; [exact I|]. intros i Hi. constructor. reflexivity.
  - split; [left; reflexivity|]. intros [|[|i]] Hi; [constructor; reflexivity..|lia].
  - split; [right; reflexivity|]. intros i Hi. constructor. reflexivity.
  - unfold v_safety_factor, v_parse_base, v_parse, lookup_unit.
    vstep. rewrite !wk. vstep. change (Nat.eqb 2 1) with false. vstep.
    do 3 f_equal; [q2r; field|]. f_equal. q2r. field.
Qed.
(** Lengths two and three cannot be combined; nor can two safety factors be asked for. *)
Example length_mismatch :
  exists e, v_safety_factor (VPair (Arr [1; 2]) "m") (VPair (Arr [1; 2; 3]) "m")
    (VPair (Sca 1) "m") (VPair (Sca 1) "Pa") (VPair (Sca 1) "Pa") 0 = Err e.
Proof.
  destruct (v_safety_factor _ _ _ _ _ 0) as [v|e] eqn:E; [exfalso|eauto].
  destruct (C91_window_safety_factor_lengths _ _ _ _ _ _ _ _ _ E) as (n & _ & L & W & _).
  cbn in L, W. lia.
Qed.
