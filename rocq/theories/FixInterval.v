(** * FixInterval: interval arithmetic on fixed-point numbers with 112 binary places, to
    run a computation on real numbers inside Coq's kernel. *)
From Coq Require Import ZArith QArith Qreals Reals Lra Lia Psatz Bool.
Local Open Scope R_scope.

Definition scl : Z := (2 ^ 112)%Z.
Definition itv : Type := (Z * Z)%type.
(** [r], scaled by 2^112, lies between the two integers *)
Definition inside (i : itv) (r : R) : Prop := IZR (fst i) <= r * IZR scl <= IZR (snd i).

Lemma scl_pos : (0 < scl)%Z. Proof. reflexivity. Qed.
Lemma sclR_pos : 0 < IZR scl. Proof. apply (IZR_lt 0). reflexivity. Qed.
Lemma scl_value : IZR scl = 5192296858534827628530496329220096. Proof. reflexivity. Qed.
Global Opaque scl.

Lemma div_floor a b : (0 < b)%Z -> IZR (a / b) <= IZR a / IZR b < IZR (a / b + 1).
Proof.
  intros Hb. pose proof (Z.div_mod a b ltac:(lia)) as E. pose proof (Z.mod_pos_bound a b Hb) as M.
  assert (PB : 0 < IZR b) by (apply (IZR_lt 0); exact Hb).
  split.
  - apply Rmult_le_reg_r with (IZR b); [exact PB|].
    replace (IZR a / IZR b * IZR b) with (IZR a) by (field; lra).
    rewrite <- mult_IZR. apply IZR_le. nia.
  - apply Rmult_lt_reg_r with (IZR b); [exact PB|].
    replace (IZR a / IZR b * IZR b) with (IZR a) by (field; lra).
    rewrite <- mult_IZR. apply IZR_lt. nia.
Qed.

Definition i_of (q : Q) : itv := let m := (Qnum q * scl / Zpos (Qden q))%Z in (m, m + 1)%Z.
Lemma in_of q : inside (i_of q) (Q2R q).
Proof.
  unfold inside, i_of. cbn [fst snd]. pose proof (div_floor (Qnum q * scl) (Zpos (Qden q)) eq_refl) as H.
  rewrite mult_IZR in H. unfold Q2R.
  assert (0 < IZR (Zpos (Qden q))) by (apply (IZR_lt 0); reflexivity).
  replace (IZR (Qnum q) * / IZR (Z.pos (Qden q)) * IZR scl)
    with (IZR (Qnum q) * IZR scl / IZR (Z.pos (Qden q))) by (field; lra). lra.
Qed.

Definition i_add (i j : itv) : itv := (fst i + fst j, snd i + snd j)%Z.
Lemma in_add i j r s : inside i r -> inside j s -> inside (i_add i j) (r + s).
Proof. unfold inside, i_add. cbn [fst snd]. rewrite !plus_IZR. lra. Qed.
Definition i_opp (i : itv) : itv := (- snd i, - fst i)%Z.
Lemma in_opp i r : inside i r -> inside (i_opp i) (- r).
Proof. unfold inside, i_opp. cbn [fst snd]. rewrite !opp_IZR. lra. Qed.
Definition i_sub (i j : itv) : itv := i_add i (i_opp j).
Lemma in_sub i j r s : inside i r -> inside j s -> inside (i_sub i j) (r - s).
Proof. intros. apply in_add; [assumption|]. now apply in_opp. Qed.

Definition i_mul (i j : itv) : itv :=
  let '(a, b) := i in let '(c, d) := j in
  let p := (a * c)%Z in let q := (a * d)%Z in let r := (b * c)%Z in let s := (b * d)%Z in
  (Z.min (Z.min p q) (Z.min r s) / scl, Z.max (Z.max p q) (Z.max r s) / scl + 1)%Z.
Lemma corner a b c d x y : a <= x <= b -> c <= y <= d ->
  (forall m, m <= a * c -> m <= a * d -> m <= b * c -> m <= b * d -> m <= x * y)
  /\ (forall m, a * c <= m -> a * d <= m -> b * c <= m -> b * d <= m -> x * y <= m).
Proof.
  intros Hx Hy. split; intros m H1 H2 H3 H4.
  - destruct (Rle_dec 0 y) as [Py|Py].
    + apply Rle_trans with (a * y); [|nra]. destruct (Rle_dec 0 a); nra.
    + apply Rle_trans with (b * y); [|nra]. destruct (Rle_dec 0 b); nra.
  - destruct (Rle_dec 0 y) as [Py|Py].
    + apply Rle_trans with (b * y); [nra|]. destruct (Rle_dec 0 b); nra.
    + apply Rle_trans with (a * y); [nra|]. destruct (Rle_dec 0 a); nra.
Qed.
Lemma in_mul i j r s : inside i r -> inside j s -> inside (i_mul i j) (r * s).
Proof.
  destruct i as [a b], j as [c d]. unfold inside, i_mul. cbn [fst snd]. intros H1 H2.
  pose proof sclR_pos as P.
  destruct (corner _ _ _ _ _ _ H1 H2) as (C1 & C2).
  set (mn := Z.min (Z.min (a * c) (a * d)) (Z.min (b * c) (b * d))).
  set (mx := Z.max (Z.max (a * c) (a * d)) (Z.max (b * c) (b * d))).
  assert (Lo : IZR mn <= r * IZR scl * (s * IZR scl)).
  { apply C1; rewrite <- mult_IZR; apply IZR_le; unfold mn; lia. }
  assert (Hi : r * IZR scl * (s * IZR scl) <= IZR mx).
  { apply C2; rewrite <- mult_IZR; apply IZR_le; unfold mx; lia. }
  pose proof (div_floor mn scl scl_pos) as D1. pose proof (div_floor mx scl scl_pos) as D2.
  replace (r * s * IZR scl) with (r * IZR scl * (s * IZR scl) / IZR scl) by (field; lra).
  assert (I : 0 < / IZR scl) by (apply Rinv_0_lt_compat; exact P).
  split.
  - apply Rle_trans with (IZR mn / IZR scl); [lra|]. apply Rmult_le_compat_r; lra.
  - apply Rle_trans with (IZR mx / IZR scl); [|lra]. apply Rmult_le_compat_r; lra.
Qed.

(** reciprocal of a number known to be positive *)
Definition i_inv (i : itv) : itv := (scl * scl / snd i, scl * scl / fst i + 1)%Z.
Lemma in_inv i r : (0 < fst i)%Z -> inside i r -> inside (i_inv i) (/ r).
Proof.
  destruct i as [a b]. unfold inside, i_inv. cbn [fst snd]. intros Ha (H1 & H2).
  pose proof sclR_pos as P. assert (PA : 0 < IZR a) by (apply (IZR_lt 0); exact Ha).
  assert (Hb : (0 < b)%Z).
  { apply lt_IZR. lra. }
  pose proof (div_floor (scl * scl) b Hb) as D1. pose proof (div_floor (scl * scl) a Ha) as D2.
  rewrite mult_IZR in D1, D2.
  assert (Pr : 0 < r) by (apply Rmult_lt_reg_r with (IZR scl); lra).
  assert (PBr : 0 < IZR b) by (apply (IZR_lt 0); exact Hb).
  assert (SS : 0 < IZR scl * IZR scl) by nra.
  replace (/ r * IZR scl) with (IZR scl * IZR scl * / (r * IZR scl)) by (field; lra).
  split.
  - apply Rle_trans with (IZR scl * IZR scl * / IZR b); [unfold Rdiv in D1; lra|].
    apply Rmult_le_compat_l; [lra|]. apply Rinv_le_contravar; lra.
  - apply Rle_trans with (IZR scl * IZR scl * / IZR a); [|unfold Rdiv in D2; lra].
    apply Rmult_le_compat_l; [lra|]. apply Rinv_le_contravar; lra.
Qed.

(** signs known for sure *)
Definition i_pos (i : itv) : bool := Z.ltb 0 (fst i).
Definition i_neg (i : itv) : bool := Z.ltb (snd i) 0.
Lemma in_pos i r : i_pos i = true -> inside i r -> 0 < r.
Proof.
  unfold i_pos, inside. intros H%Z.ltb_lt (H1 & _). apply (IZR_lt 0) in H. pose proof sclR_pos.
  apply Rmult_lt_reg_r with (IZR scl); lra.
Qed.
Lemma in_neg i r : i_neg i = true -> inside i r -> r < 0.
Proof.
  unfold i_neg, inside. intros H%Z.ltb_lt (_ & H1). apply IZR_lt in H. pose proof sclR_pos.
  apply Rmult_lt_reg_r with (IZR scl); lra.
Qed.
Definition i_div (i j : itv) : itv := if i_pos j then i_mul i (i_inv j) else i_opp (i_mul i (i_inv (i_opp j))).
Definition i_nonzero (i : itv) : bool := i_pos i || i_neg i.
Lemma in_nonzero i r : i_nonzero i = true -> inside i r -> r <> 0.
Proof.
  unfold i_nonzero. intros H Hi. apply orb_true_iff in H. destruct H as [H|H].
  - apply Rgt_not_eq. exact (in_pos _ _ H Hi).
  - apply Rlt_not_eq. exact (in_neg _ _ H Hi).
Qed.
Lemma in_div i j r s : i_nonzero j = true -> inside i r -> inside j s -> inside (i_div i j) (r / s).
Proof.
  intros H Hi Hj. unfold i_div. unfold i_nonzero in H. destruct (i_pos j) eqn:E.
  - apply in_mul; [exact Hi|]. apply in_inv; [|exact Hj]. now apply Z.ltb_lt.
  - cbn [orb] in H. assert (s < 0) by exact (in_neg _ _ H Hj).
    replace (r / s) with (- (r * / (- s))) by (field; lra).
    apply in_opp, in_mul; [exact Hi|]. apply in_inv; [|now apply in_opp].
    unfold i_neg in H. apply Z.ltb_lt in H. unfold i_opp. cbn [fst]. lia.
Qed.
