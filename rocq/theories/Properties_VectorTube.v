(** * Properties_VectorTube: C120, C121 and more of C90 (array arguments of class Tube and
    class DDT). *)
From Coq Require Import String Reals List Bool Arith Lia Lra.
From Verif Require Import PyBase Pint UnitsM Spec QLemmas TubeM DdtM WindowM BoltM VectorM VectorSpec
  VectorP Properties_Vector VectorTubeM VectorTubeSpec VectorTubeP.
Import ListNotations.
Local Open Scope string_scope.
Local Open Scope nat_scope.

Lemma rrel_same {V S} (R : V -> (nat -> S) -> Prop) n at_ array single :
  (forall v f, R v f -> forall i, i < n -> at_ i v = Some (f i)) ->
  (forall i, i < n -> unsigned (single i)) ->
  rrel n R array single -> same_elementwise n at_ array single.
Proof.
  intros HR HU H. split.
  - intros f Hf. destruct array as [v|e].
    + destruct H as (g & Rg & H). exists v. split; [reflexivity|]. intros i Hi.
      rewrite (HR v g Rg i Hi). f_equal.
      destruct (H i Hi) as [E|[_ E]]; rewrite (Hf i Hi) in E; [congruence|discriminate].
    + destruct H as (i & Hi & e' & H). rewrite (Hf i Hi) in H. discriminate.
  - intros v -> i Hi. destruct H as (g & Rg & H). exists (g i).
    split; [exact (HR v g Rg i Hi)|].
    destruct (H i Hi) as [E|[_ E]]; [exact E|]. exfalso. exact (HU i Hi E).
Qed.
Lemma vrel_of {A} {NA : Num A} n (v : vquantity A) f : quantity_elements n v f -> vrel n v f.
Proof.
  intros [L H]. assert (X : forall i, i < n -> exists a, pick i (v_mag v) = Some a
     /\ f i = mkQ a (v_unit v) (v_reg v)).
  { intros i Hi. specialize (H i Hi). unfold quantity_at in H.
    destruct (pick i (v_mag v)) as [a|]; [|discriminate]. exists a. split; [reflexivity|congruence]. }
  split.
  - split; [exact L|]. intros i Hi. destruct (X i Hi) as (a & E & ->). exact E.
  - intros i Hi. destruct (X i Hi) as (a & E & ->). auto.
Qed.

(** C120: array calls are the single calls, element by element. *)
Theorem C120_max_pressure_elementwise :
  forall (A : Type) (NA : Num A) (n : nat) (ti od s : vquantity A) (sf : vmag A)
         (tis ods ss : nat -> quantity A) (sfs : nat -> A),
    0 < n ->
    quantity_elements n ti tis -> quantity_elements n od ods -> quantity_elements n s ss ->
    number_elements n sf sfs ->
    same_elementwise n quantity_at (v_max_pressure ti od s sf)
      (fun i => calculate_max_pressure (tis i) (ods i) (ss i) (sfs i)).
Proof.
  intros A NA n ti od s sf tis ods ss sfs Hn Hti Hod Hs Hsf.
  apply (rrel_same (vrel n)); [exact (vrel_at n)|intros i Hi; apply max_pressure_unsigned|].
  apply (max_pressure_rel n Hn); [now apply vrel_of..|exact Hsf].
Qed.
Print Assumptions C120_max_pressure_elementwise.

Theorem C120_max_stress_elementwise :
  forall (A : Type) (NA : Num A) (n : nat) (t : vpyin A) (ts : nat -> pyin A)
         (material : string) (welded : bool) (reg : nat),
    0 < n -> elements n t ts ->
    same_elementwise n quantity_at (v_max_stress t material welded reg)
      (fun i => calculate_max_stress (ts i) material welded reg).
Proof.
  intros A NA n t ts m w reg Hn Ht.
  apply (rrel_same (vrel n)); [exact (vrel_at n)|intros i Hi; apply max_stress_unsigned|].
  apply (max_stress_rel n Hn), Ht.
Qed.
Print Assumptions C120_max_stress_elementwise.

Theorem C120_blockage_diameter_elementwise :
  forall (A : Type) (NA : Num A) (n : nat) (p : vpyin A) (ps : nat -> pyin A)
         (br : br_arg A) (reg : nat),
    0 < n -> elements n p ps ->
    elementwise n quantity_at (v_blockage_diameter p br reg)
      (fun i => calculate_blockage_diameter (ps i) br reg).
Proof.
  intros A NA n p ps br reg Hn Hp.
  apply (rrel_elementwise (vrel n)); [exact Hn|exact (vrel_at n)|].
  apply (blockage_diameter_rel n Hn), Hp.
Qed.
Print Assumptions C120_blockage_diameter_elementwise.

(** Arrays of different lengths, neither of them one, are refused. *)
Theorem C120_max_pressure_lengths :
  forall (A : Type) (NA : Num A) (ti od s v : vquantity A) (sf : vmag A),
    v_max_pressure ti od s sf = Ok v ->
    v_mag ti <> Arr [] -> v_mag od <> Arr [] -> v_mag s <> Arr [] -> sf <> Arr [] ->
    exists n, 0 < n /\ of_length n (v_mag ti) /\ of_length n (v_mag od)
      /\ of_length n (v_mag s) /\ of_length n sf.
Proof. intros A NA ti od s v sf. apply max_pressure_lengths. Qed.
Print Assumptions C120_max_pressure_lengths.

(** C121: calculate_blockage_ratio and dynamic_load_factor never answer a call with an array
    of more than one element (or an empty one); with single values in arrays they do what
    they do with numbers. *)
Theorem C121_blockage_ratio_refuses_arrays :
  forall (A : Type) (NA : Num A) (t b : vpyin A) (reg : nat) (v : vmag A),
    v_blockage_ratio t b reg = Ok v -> of_length 1 (arg_mag t) /\ of_length 1 (arg_mag b).
Proof. intros A NA t b reg v. apply blockage_ratio_lengths. Qed.
Print Assumptions C121_blockage_ratio_refuses_arrays.

Theorem C121_blockage_ratio_single :
  forall (A : Type) (NA : Num A) (t b : vpyin A) (ts bs : pyin A) (reg : nat),
    elements 1 t (fun _ => ts) -> elements 1 b (fun _ => bs) ->
    forall a, calculate_blockage_ratio ts bs reg = Ok a
      <-> exists v, v_blockage_ratio t b reg = Ok v /\ only v a.
Proof.
  intros A NA t b ts bs reg Ht Hb a.
  pose proof (blockage_ratio_rel t b _ _ reg Ht Hb) as H.
  split.
  - intros E. destruct (v_blockage_ratio t b reg) as [v|e].
    + destruct H as (f & M & H). exists v. split; [reflexivity|].
      pose proof (only_mrel v f M) as O. destruct (H 0 Nat.lt_0_1) as [F|[F _]]; [|lia].
      rewrite E in F. injection F as ->. exact O.
    + destruct H as (i & _ & e' & F). rewrite E in F. discriminate.
  - intros (v & E & O). rewrite E in H. destruct H as (f & M & H).
    pose proof (only_mrel v f M) as O'. destruct (H 0 Nat.lt_0_1) as [F|[F _]]; [|lia].
    rewrite F. f_equal. destruct O as [-> | ->], O' as [O'|O']; congruence.
Qed.
Print Assumptions C121_blockage_ratio_single.

Theorem C121_load_factor_refuses_arrays :
  forall (A : Type) (NA : Num A) (ti od cj e d : vquantity A) (nu pm : vmag A) (k : nat),
    v_load_factor ti od cj e d nu pm = Ok k -> nu <> Arr [] ->
    of_length 1 (v_mag ti) /\ of_length 1 (v_mag od) /\ of_length 1 (v_mag cj)
    /\ of_length 1 (v_mag e) /\ of_length 1 (v_mag d) /\ of_length 1 nu /\ of_length 1 pm.
Proof. intros A NA ti od cj e d nu pm k. apply load_factor_lengths. Qed.
Print Assumptions C121_load_factor_refuses_arrays.

Theorem C121_load_factor_single :
  forall (A : Type) (NA : Num A) (ti od cj e d : vquantity A) (nu pm : vmag A)
         (ti1 od1 cj1 e1 d1 : quantity A) (nu1 pm1 : A),
    quantity_elements 1 ti (fun _ => ti1) -> quantity_elements 1 od (fun _ => od1) ->
    quantity_elements 1 cj (fun _ => cj1) -> quantity_elements 1 e (fun _ => e1) ->
    quantity_elements 1 d (fun _ => d1) -> only nu nu1 -> only pm pm1 ->
    forall k, v_load_factor ti od cj e d nu pm = Ok k
      <-> dynamic_load_factor ti1 od1 cj1 e1 d1 nu1 pm1 = Ok k.
Proof.
  intros A NA ti od cj e d nu pm ti1 od1 cj1 e1 d1 nu1 pm1 H1 H2 H3 H4 H5 H6 H7 k.
  pose proof (load_factor_rel ti od cj e d nu pm _ _ _ _ _ _ _ (vrel_of 1 _ _ H1)
    (vrel_of 1 _ _ H2) (vrel_of 1 _ _ H3) (vrel_of 1 _ _ H4) (vrel_of 1 _ _ H5)
    (mrel_only _ _ H6) (mrel_only _ _ H7)) as H. cbv beta in H.
  destruct (v_load_factor ti od cj e d nu pm) as [j|x].
  - destruct H as (f & C & H). specialize (C 0 Nat.lt_0_1). cbv beta in C.
    destruct (H 0 Nat.lt_0_1) as [F|[F _]]; [|lia]. rewrite F, C. reflexivity.
  - destruct H as (i & _ & e' & F). rewrite F. split; discriminate.
Qed.
Print Assumptions C121_load_factor_single.

(** One gap in the refusal: an empty array of Poisson ratios is not refused, whatever the
    tube; the comparisons with nothing are all false and the factor is 4.  The tube here has
    a wall and a CJ speed of zero, far below the critical speed. *)
Local Open Scope R_scope.
Definition metre := @mult_unit R d_length 1.
Definition C121_id : vquantity R := mkV (Sca 1) metre 0.
Definition C121_od : vquantity R := mkV (Sca 2) metre 0.
Definition C121_cj : vquantity R := mkV (Sca 0) (mult_unit d_velocity 1) 0.
Definition C121_modulus : vquantity R := mkV (Sca 1) (mult_unit d_pressure 1) 0.
Definition C121_density : vquantity R := mkV (Sca 1) (mult_unit d_density 1) 0.

(** C90: negative diameters after the first one are not rejected. *)
Theorem C90_blockage_diameter_negative_elements_refuted :
  forall (D N br : R) (reg : nat), 0 < D -> 0 < N -> 0 < br < 1 ->
  exists d1 d2,
    v_blockage_diameter (VPair (Arr [D; - N]) "m") (BrNum br) reg
      = Ok (mkV (Arr [d1; d2]) metre reg)
    /\ 0 < d1 /\ d2 < 0
    /\ negative_rejected
         (calculate_blockage_diameter (PSeq [ENum (- N); EStr "m"]) (BrNum br) reg).
Proof.
  intros D N br reg HD HN Hbr.
  set (k := 1 - sqrt (1 - br)).
  assert (Hk : 0 < k).
  { unfold k. assert (sqrt (1 - br) < sqrt 1) by (apply sqrt_lt_1; lra).
    rewrite sqrt_1 in H. lra. }
  exists (k * (D / 2)), (k * (- N / 2)). split; [|split; [|split]].
  - unfold v_blockage_diameter, v_parse, lookup_unit, metre.
    cbn -[Rltb Reqb Rleb Rmult Rdiv zero one].
    rewrite ?zero_R, ?one_R.
    rewrite !Rltb_true by lra. cbn -[Rltb Reqb Rleb Rmult Rdiv zero one Q2R].
    unfold v_check, check_pint_quantity, base_mag.
    cbn -[Rltb Reqb Rleb Rmult Rdiv zero one Q2R].
    rewrite ?zero_R, ?one_R, ?Rmult_1_r. rewrite Rltb_false by lra.
    cbn -[Rltb Reqb Rleb Rmult Rdiv zero one Q2R].
    unfold v_divn, vdiv, v_offset_free, npdiv.
    cbn -[Rltb Reqb Rleb Rmult Rdiv zero one Q2R].
    rewrite ?zero_R, ?one_R. rewrite !Reqb_false by (q2r; lra).
    cbn -[Rltb Reqb Rleb Rmult Rdiv zero one Q2R].
    unfold k. do 3 f_equal. q2r. replace (2 * / 1) with 2 by field. reflexivity.
  - apply Rmult_lt_0_compat; lra.
  - assert (0 < k * (N / 2)) by (apply Rmult_lt_0_compat; lra). lra.
  - unfold negative_rejected, calculate_blockage_diameter, parse_quant_input, quantity_of_items,
      quant, lookup_unit.
    cbn -[Rltb zero one]. rewrite ?zero_R, ?one_R. rewrite !Rltb_true by lra.
    cbn -[Rltb zero one]. unfold check_q, check_pint_quantity, base_mag.
    cbn -[Rltb zero one]. rewrite ?zero_R, ?one_R, ?Rmult_1_r.
    reflexivity.
Qed.
Print Assumptions C90_blockage_diameter_negative_elements_refuted.

(** A case for C120 and C121: two tubes of 1 m and 2 m inner diameter, 3 m outside, in one
    call; the same two inner diameters are refused by calculate_blockage_ratio, one of them
    in an array of one is not. *)
Ltac vsimp := cbn -[Rltb Reqb Rleb Rmult Rdiv Rplus Rminus zero one Q2R];
  rewrite ?zero_R, ?one_R, ?Rmult_1_r, ?Rmult_1_l, ?d1.
Ltac decide_all := repeat (first [rewrite Rltb_false by (q2r; lra) | rewrite Rltb_true by (q2r; lra)
  | rewrite Reqb_false by (q2r; lra) | rewrite Rleb_false by (q2r; lra)]; vsimp).
Example C120_case :
  quantity_elements 2 (mkV (Arr [1; 2]) metre 0)
    (fun i => mkQ (match i with O => 1 | _ => 2 end) metre 0)
  /\ quantity_elements 2 (mkV (Sca 3) metre 0) (fun _ => mkQ 3 metre 0)
  /\ v_max_pressure (mkV (Arr [1; 2]) metre 0) (mkV (Sca 3) metre 0)
       (mkV (Sca 10) (mult_unit d_pressure 1) 0) (Sca 4)
     = Ok (mkV (Arr [5/2; 1]) (mult_unit d_pressure 1) 0).
Proof.
  split; [|split].
  - split; [left; reflexivity|]. intros [|[|i]] Hi; [reflexivity..|lia].
  - split; [exact I|]. intros i Hi. reflexivity.
  - unfold v_max_pressure, v_add, v_sub, v_divn, v_scale, v_mul, v_div, v_same_reg,
      v_offset_free, v_to, vdiv, npdiv, pydiv, metre, base_mag. vsimp.
    repeat first [rewrite Reqb_false by (q2r; lra); vsimp].
    match goal with |- Ok (mkV (Arr [?a; ?b]) _ 0) = _ =>
      replace a with (5/2) by (q2r; field); replace b with 1 by (q2r; field) end.
    reflexivity.
Qed.
Example C121_case :
  (forall v, v_blockage_ratio (VPair (Arr [1; 2]) "m") (VPair (Sca (1/2)) "m") 0 <> Ok v)
  /\ v_blockage_ratio (VPair (Arr [2]) "m") (VPair (Sca (1/2)) "m") 0 = Ok (Arr [3/4]).
Proof.
  split.
  - intros v H. destruct (C121_blockage_ratio_refuses_arrays _ _ _ _ _ _ H) as [L _].
    cbn in L. lia.
  - unfold v_blockage_ratio, v_parse_base, v_parse, lookup_unit, v_check, check_pint_quantity,
      v_ge, v_same_reg, v_to_base, v_base_mag, vdiv, npdiv, base_mag, sq. vsimp.
    decide_all. do 3 f_equal. q2r. field.
Qed.
(** The condition on the Poisson ratios in C121_load_factor_refuses_arrays is needed: an empty
    array of them is not refused. *)
Example C121_empty_poisson :
  v_load_factor C121_id C121_od C121_cj C121_modulus C121_density (Arr []) (Sca (1/2)) = Ok 4%nat.
Proof.
  unfold v_load_factor, v_critical_velocity, v_check, check_pint_quantity, m_lt, v_to_str,
    lookup_unit, v_add, v_sub, v_divn, v_scale, v_mul, v_div, v_sq, v_root4, v_same_reg,
      v_offset_free, v_to, vdiv, npdiv, pydiv, metre, base_mag. vsimp.
  decide_all. reflexivity.
Qed.
