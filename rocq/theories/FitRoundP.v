(** * FitRoundP: cj_curve_fit with any order of summation, and with rounding. *)
From Coq Require Import ZArith QArith Qreals Reals Lra Lia List Bool Permutation.
From Verif Require Import PyBase QLemmas NumQ RoundM RoundSpec DoubleQ FitM FitSpec FitP.
Import ListNotations.
Local Open Scope R_scope.

(** ** Exact arithmetic: the order does not matter *)
Lemma total_perm (l l' : list R) : Permutation l l' -> total (fun x => x) l = total (fun x => x) l'.
Proof. unfold total. induction 1; cbn [fold_right]; lra. Qed.
Lemma total_app (l l' : list R) :
  total (fun x => x) (l ++ l') = total (fun x => x) l + total (fun x => x) l'.
Proof. unfold total. induction l as [|x l IH]; cbn [fold_right app]; lra. Qed.
Lemma added_total l s : added Rplus 0 l s -> s = total (fun x => x) l.
Proof.
  induction 1 as [|x|l l1 l2 s1 s2 A1 E1 A2 E2 P]; cbn; try lra.
  rewrite (total_perm _ _ P), total_app. lra.
Qed.
Lemma fit_by_order (sum : list R -> R) x y : (forall l, added Rplus 0 l (sum l)) ->
  cj_curve_fit_by sum x y = cj_curve_fit x y.
Proof.
  intros S.
  assert (E : forall l, sum l = np_sum l).
  { intros l. rewrite np_sum_total. now apply added_total. }
  unfold cj_curve_fit, cj_curve_fit_by. rewrite !E.
  destruct (if Nat.eqb _ _ then _ else _); [cbn [bind]|reflexivity].
  destruct (npdiv _ _); [cbn [bind]|reflexivity].
  destruct (npdiv _ _); [cbn [bind]|reflexivity].
  destruct (npdiv _ _); [cbn [bind]|reflexivity].
  destruct (pydiv _ _); [cbn [bind]|reflexivity].
  rewrite !E. reflexivity.
Qed.

(** ** Left to right and numpy's order are orders *)
Section Orders.
  Context {A : Type} {NA : Num A}.
  Notation adds := (added nadd (zero : A)).
  Lemma fold_added l : forall l0 s, adds l0 s -> adds (l0 ++ l) (fold_left nadd l s).
  Proof.
    induction l as [|x l IH]; intros l0 s H; cbn [fold_left]; [now rewrite app_nil_r|].
    replace (l0 ++ x :: l) with ((l0 ++ [x]) ++ l) by now rewrite <- app_assoc.
    apply IH. eapply added_two; [exact H | apply added_one | reflexivity].
  Qed.
  Lemma np_sum_added l : adds l (np_sum l).
  Proof. apply (fold_added l []). constructor. Qed.

  Lemma forall2_zip (Ls : list (list A)) : forall r b, length r = length Ls -> length b = length Ls ->
    Forall2 adds Ls r ->
    exists Ls', Forall2 adds Ls' (zip_with nadd r b) /\ length Ls' = length Ls
      /\ Permutation (concat Ls') (concat Ls ++ b).
  Proof.
    induction Ls as [|L Ls IH]; intros r b Lr Lb H.
    - destruct r, b; try discriminate. exists []. repeat split; constructor.
    - destruct r as [|x r], b as [|y b]; try discriminate. cbn in Lr, Lb.
      inversion H as [|? ? ? ? H1 H2]; subst.
      destruct (IH r b ltac:(lia) ltac:(lia) H2) as (Ls' & F & Le & P).
      exists ((L ++ [y]) :: Ls'). split; [|split].
      + cbn. constructor; [|exact F]. eapply added_two; [exact H1 | apply added_one | reflexivity].
      + cbn; lia.
      + cbn [concat]. rewrite P, <- !app_assoc. apply Permutation_app_head. cbn.
        apply Permutation_middle.
  Qed.
  Lemma tree8_added Ls r : Forall2 adds Ls r -> length r = 8%nat -> adds (concat Ls) (tree8 r).
  Proof.
    intros F L.
    destruct r as [|r0 [|r1 [|r2 [|r3 [|r4 [|r5 [|r6 [|r7 [|]]]]]]]]]; try discriminate.
    repeat match goal with H : Forall2 _ _ (_ :: _) |- _ => inversion H; subst; clear H end.
    repeat match goal with H : Forall2 _ _ [] |- _ => inversion H; subst; clear H end.
    cbn [concat tree8]. rewrite app_nil_r.
    eapply added_two;
      [eapply added_two; [eapply added_two | eapply added_two |]
      |eapply added_two; [eapply added_two | eapply added_two |]|];
      try eassumption; try reflexivity.
    now rewrite <- !app_assoc.
  Qed.
  Lemma f2_length (Ls : list (list A)) r : Forall2 adds Ls r -> length Ls = length r.
  Proof. induction 1; cbn; congruence. Qed.
  Lemma eight_added fuel : forall Ls r l, length Ls = 8%nat -> Forall2 adds Ls r ->
    adds (concat Ls ++ l) (eight_sums fuel r l).
  Proof.
    induction fuel as [|fuel IH]; intros Ls r l L F;
      pose proof (f2_length _ _ F) as Lr; rewrite L in Lr; cbn [eight_sums].
    - apply fold_added. apply tree8_added; [exact F | lia].
    - destruct (Nat.ltb_spec (length l) 8) as [c|c].
      + apply fold_added. apply tree8_added; [exact F | lia].
      + assert (Lb : length (firstn 8 l) = 8%nat) by (rewrite firstn_length; lia).
        destruct (forall2_zip Ls r (firstn 8 l)) as (Ls' & F' & Le & P); try lia; try assumption.
        pose proof (IH Ls' _ (skipn 8 l) ltac:(lia) F') as H.
        (* the same numbers in another order *)
        assert (Q : Permutation (concat Ls ++ l) (concat Ls' ++ skipn 8 l)).
        { rewrite P, <- app_assoc, firstn_skipn. reflexivity. }
        revert H Q. generalize (concat Ls' ++ skipn 8 l) (concat Ls ++ l)
          (eight_sums fuel (zip_with nadd r (firstn 8 l)) (skipn 8 l)).
        intros l1 l2 s H Q. revert l2 Q.
        induction H as [|x|l3 l4 l5 s3 s4 A1 _ A2 _ P']; intros l2 Q.
        * apply Permutation_sym, Permutation_nil in Q as ->. constructor.
        * apply Permutation_sym, Permutation_length_1_inv in Q as ->. constructor.
        * eapply added_two; [exact A1 | exact A2 |]. now rewrite Q.
  Qed.
  Lemma numpy_pairwise_added fuel : forall l, adds l (numpy_pairwise fuel l).
  Proof.
    induction fuel as [|fuel IH]; intros l; cbn [numpy_pairwise];
      (destruct (Nat.ltb_spec (length l) 8) as [c|c]; [apply np_sum_added|]);
      (destruct (Nat.leb_spec (length l) 128) as [c'|c']).
    - rewrite <- (firstn_skipn 8 l) at 1.
      replace (firstn 8 l) with (concat (map (fun x => [x]) (firstn 8 l))) at 1
        by (induction (firstn 8 l) as [|x t IHt]; cbn; congruence).
      apply eight_added; [rewrite map_length, firstn_length; lia|].
      induction (firstn 8 l); cbn; constructor; auto; constructor.
    - apply np_sum_added.
    - rewrite <- (firstn_skipn 8 l) at 1.
      replace (firstn 8 l) with (concat (map (fun x => [x]) (firstn 8 l))) at 1
        by (induction (firstn 8 l) as [|x t IHt]; cbn; congruence).
      apply eight_added; [rewrite map_length, firstn_length; lia|].
      induction (firstn 8 l); cbn; constructor; auto; constructor.
    - eapply added_two; [apply IH | apply IH |]. now rewrite firstn_skipn.
  Qed.
  Lemma numpy_sum_added l : adds l (numpy_sum l).
  Proof. apply numpy_pairwise_added. Qed.
End Orders.

(** ** R^2 never exceeds one, whatever the rounding *)
Section Rounded.
  Variable u : R.
  Variable rnd : R -> R.
  Hypothesis Rn : rounding u rnd.
  Lemma rnd_0 : rnd 0 = 0.
  Proof. destruct Rn as (_ & _ & _ & I & _). exact (I 0%Z ltac:(lia)). Qed.
  Lemma rnd_1 : rnd 1 = 1.
  Proof. destruct Rn as (_ & _ & _ & I & _). exact (I 1%Z ltac:(lia)). Qed.
  Lemma rnd_pos x : 0 <= x -> 0 <= rnd x.
  Proof. intros H. rewrite <- rnd_0. destruct Rn as (_ & _ & M & _). now apply M. Qed.
  Lemma rzero : @zero R (Num_rounded rnd) = 0.
  Proof. transitivity (rnd 0); [|exact rnd_0]. unfold zero; cbn [nofQ Num_rounded]. f_equal. unfold Q2R; cbn; lra. Qed.
  Lemma rone : @one R (Num_rounded rnd) = 1.
  Proof. transitivity (rnd 1); [|exact rnd_1]. unfold one; cbn [nofQ Num_rounded]. f_equal. unfold Q2R; cbn; lra. Qed.
  Lemma added_pos l s : added (@nadd R (Num_rounded rnd)) (@zero R (Num_rounded rnd)) l s ->
    (forall x, In x l -> 0 <= x) -> 0 <= s.
  Proof.
    induction 1 as [|x|l l1 l2 s1 s2 A1 IH1 A2 IH2 P]; intros H.
    - rewrite rzero. lra.
    - apply H. now left.
    - cbn. apply rnd_pos.
      assert (forall x, In x (l1 ++ l2) -> 0 <= x) as H'.
      { intros x Ix. apply H. eapply Permutation_in; [symmetry; exact P | exact Ix]. }
      pose proof (IH1 (fun x Ix => H' x (in_or_app _ _ _ (or_introl Ix)))).
      pose proof (IH2 (fun x Ix => H' x (in_or_app _ _ _ (or_intror Ix)))). lra.
  Qed.
  Lemma sq_pos x : 0 <= @pow2 R (Num_rounded rnd) x.
  Proof. unfold pow2; cbn. apply rnd_pos. nra. Qed.
  Lemma r2_at_most_one (sum : list R -> R) x y f r :
    (forall l, added (@nadd R (Num_rounded rnd)) (@zero R (Num_rounded rnd)) l (sum l)) ->
    @cj_curve_fit_by R (Num_rounded rnd) sum x y = Ok f -> fit_r2 f = Ok r -> r <= 1.
  Proof.
    intros S. unfold cj_curve_fit_by.
    destruct (if Nat.eqb _ _ then _ else _); [cbn [bind]|discriminate].
    destruct (npdiv _ _) as [m|]; [cbn [bind]|discriminate].
    destruct (npdiv _ _); [cbn [bind]|discriminate].
    destruct (npdiv _ _); [cbn [bind]|discriminate].
    destruct (pydiv _ _); [cbn [bind]|discriminate].
    intros [= <-]. cbn [fit_r2].
    match goal with |- context [npdiv ?p ?q] =>
      assert (P1 : 0 <= p); [|assert (P2 : 0 <= q); [|set (sse := p) in *; set (sst := q) in *]] end.
    - eapply added_pos; [apply S|]. intros v Iv.
      unfold zip_with in Iv. apply in_map_iff in Iv as (p & <- & _). apply sq_pos.
    - eapply added_pos; [apply S|]. intros v Iv. apply in_map_iff in Iv as (p & <- & _). apply sq_pos.
    - unfold npdiv. destruct (neqb sst zero) eqn:Z; [discriminate|]. cbn [bind].
      intros [= <-]. rewrite rone. cbn [nsub ndiv Num_rounded].
      rewrite <- rnd_1 at 2. destruct Rn as (_ & _ & M & _). apply M.
      enough (0 <= rnd (sse / sst)) by lra.
      apply rnd_pos. apply Rmult_le_pos; [exact P1|].
      destruct P2 as [H|H]; [left; now apply Rinv_0_lt_compat|].
      exfalso. revert Z. cbn [neqb Num_rounded]. rewrite rzero, <- H.
      rewrite Reqb_true; [discriminate|reflexivity].
  Qed.
End Rounded.

(** ** The double-precision fit of rational data can be computed on rationals *)
Notation ND := (Num_rounded double).
Notation NQ := Num_doubleQ.
Definition res_map {X Y} (f : X -> Y) (r : result X) : result Y :=
  match r with Ok a => Ok (f a) | Err e => Err e end.
Definition fit_R (f : fit Q) : fit R :=
  mkFit (Q2R (fit_a f)) (Q2R (fit_b f)) (Q2R (fit_c f)) (res_map Q2R (fit_r2 f)).
Lemma tr_add p q : @nadd R ND (Q2R p) (Q2R q) = Q2R (@nadd Q NQ p q).
Proof. cbn. now rewrite <- Q2R_plus, doubleQ_ok. Qed.
Lemma tr_sub p q : @nsub R ND (Q2R p) (Q2R q) = Q2R (@nsub Q NQ p q).
Proof. cbn. now rewrite <- Q2R_minus, doubleQ_ok. Qed.
Lemma tr_mul p q : @nmul R ND (Q2R p) (Q2R q) = Q2R (@nmul Q NQ p q).
Proof. cbn. now rewrite <- Q2R_mult, doubleQ_ok. Qed.
Lemma tr_lit q : @nofQ R ND q = Q2R (@nofQ Q NQ q).
Proof. cbn. apply doubleQ_ok. Qed.
Lemma tr_zero : @zero R ND = Q2R (@zero Q NQ).
Proof. apply tr_lit. Qed.
Lemma tr_one : @one R ND = Q2R (@one Q NQ).
Proof. apply tr_lit. Qed.
Lemma tr_n n : @n_of_nat R ND n = Q2R (@n_of_nat Q NQ n).
Proof. apply tr_lit. Qed.
Lemma tr_div0 p q : @neqb Q NQ q (@zero Q NQ) = false -> @ndiv R ND (Q2R p) (Q2R q) = Q2R (@ndiv Q NQ p q).
Proof.
  cbn [neqb NQ]. intros H. cbn [ndiv Num_rounded NQ].
  rewrite <- Q2R_div, doubleQ_ok; [reflexivity|]. intros E.
  assert (Qeq_bool q (@zero Q NQ) = true); [|congruence].
  apply Qeq_bool_iff. rewrite E. reflexivity.
Qed.
Lemma tr_eqb p : @neqb R ND (Q2R p) (@zero R ND) = @neqb Q NQ p (@zero Q NQ).
Proof. rewrite tr_zero. cbn [neqb Num_rounded NQ]. symmetry. apply Qeq_bool_R. Qed.
Lemma tr_npdiv p q : @npdiv R ND (Q2R p) (Q2R q) = res_map Q2R (@npdiv Q NQ p q).
Proof.
  unfold npdiv. rewrite tr_eqb. destruct (@neqb Q NQ q _) eqn:E; [reflexivity|].
  cbn [res_map]. f_equal. now apply tr_div0.
Qed.
Lemma tr_pydiv p q : @pydiv R ND (Q2R p) (Q2R q) = res_map Q2R (@pydiv Q NQ p q).
Proof.
  unfold pydiv. rewrite tr_eqb. destruct (@neqb Q NQ q _) eqn:E; [reflexivity|].
  cbn [res_map]. f_equal. now apply tr_div0.
Qed.
Lemma tr_fold l : forall s, fold_left (@nadd R ND) (map Q2R l) (Q2R s) = Q2R (fold_left (@nadd Q NQ) l s).
Proof. induction l as [|x l IH]; intros s; cbn [map fold_left]; [reflexivity|]. rewrite tr_add. apply IH. Qed.
Lemma tr_sum l : @np_sum R ND (map Q2R l) = Q2R (@np_sum Q NQ l).
Proof. unfold np_sum. rewrite tr_zero. apply tr_fold. Qed.
Lemma tr_zip (fR : R -> R -> R) (fQ : Q -> Q -> Q) : (forall p q, fR (Q2R p) (Q2R q) = Q2R (fQ p q)) ->
  forall x y, zip_with fR (map Q2R x) (map Q2R y) = map Q2R (zip_with fQ x y).
Proof.
  intros H. induction x as [|a x IH]; intros [|b y]; cbn in *; try reflexivity.
  unfold zip_with in *. cbn. now rewrite H, IH.
Qed.
Lemma tr_map (fR : R -> R) (fQ : Q -> Q) : (forall p, fR (Q2R p) = Q2R (fQ p)) ->
  forall x, map fR (map Q2R x) = map Q2R (map fQ x).
Proof. intros H x. rewrite !map_map. apply map_ext. exact H. Qed.
Lemma tr_tree8 r : @tree8 R ND (map Q2R r) = Q2R (@tree8 Q NQ r).
Proof.
  unfold tree8.
  destruct r as [|r0 [|r1 [|r2 [|r3 [|r4 [|r5 [|r6 [|r7 [|r8 r]]]]]]]]]; cbn [map];
    try (rewrite <- tr_sum; reflexivity).
  now rewrite !tr_add.
Qed.
Lemma tr_eight fuel : forall r l, @eight_sums R ND fuel (map Q2R r) (map Q2R l)
  = Q2R (@eight_sums Q NQ fuel r l).
Proof.
  induction fuel as [|fuel IH]; intros r l; cbn [eight_sums];
    rewrite ?map_length, ?tr_tree8, ?tr_fold; [reflexivity|].
  destruct (Nat.ltb _ 8); [reflexivity|].
  rewrite firstn_map, skipn_map, (tr_zip _ (@nadd Q NQ)) by apply tr_add. apply IH.
Qed.
Lemma tr_pairwise fuel : forall l, @numpy_pairwise R ND fuel (map Q2R l)
  = Q2R (@numpy_pairwise Q NQ fuel l).
Proof.
  induction fuel as [|fuel IH]; intros l; cbn [numpy_pairwise]; rewrite map_length;
    (destruct (Nat.ltb _ 8); [apply tr_sum|]);
    (destruct (Nat.leb _ 128); [rewrite firstn_map, skipn_map; apply tr_eight|]).
  - apply tr_sum.
  - rewrite !firstn_map, !skipn_map, !IH. apply tr_add.
Qed.
Lemma tr_numpy l : @numpy_sum R ND (map Q2R l) = Q2R (@numpy_sum Q NQ l).
Proof. unfold numpy_sum. rewrite map_length. apply tr_pairwise. Qed.

Lemma fit_transfer (sumR : list R -> R) (sumQ : list Q -> Q) x y :
  (forall l, sumR (map Q2R l) = Q2R (sumQ l)) ->
  @cj_curve_fit_by R ND sumR (map Q2R x) (map Q2R y)
  = res_map fit_R (@cj_curve_fit_by Q NQ sumQ x y).
Proof.
  intros S. unfold cj_curve_fit_by. rewrite !map_length.
  destruct (Nat.eqb (length x) (length y));
    [|destruct (Nat.eqb (length x) 1 || Nat.eqb (length y) 1)%bool; reflexivity].
  cbn [bind].
  rewrite (tr_map (@pow2 R ND) (@pow2 Q NQ)) by (intros; unfold pow2; now rewrite tr_mul).
  rewrite (tr_map (@pow3 R ND) (@pow3 Q NQ)) by (intros; unfold pow3; now rewrite !tr_mul).
  rewrite (tr_map (@pow4 R ND) (@pow4 Q NQ)) by (intros; unfold pow4; now rewrite !tr_mul).
  rewrite (tr_zip (fun xi yi => @nmul R ND yi xi) (fun xi yi => @nmul Q NQ yi xi))
    by (intros; now rewrite tr_mul).
  rewrite (tr_zip (fun xi yi => @nmul R ND yi (@pow2 R ND xi)) (fun xi yi => @nmul Q NQ yi (@pow2 Q NQ xi)))
    by (intros; unfold pow2; now rewrite !tr_mul).
  rewrite !S, tr_n, tr_one.
  repeat first [rewrite tr_mul | rewrite tr_sub | rewrite tr_add].
  rewrite tr_npdiv.
  destruct (@npdiv Q NQ (sumQ y) _) as [m|]; cbn [res_map bind]; [|reflexivity].
  rewrite tr_npdiv. match goal with |- context [res_map Q2R ?t] => destruct t as [b|] end;
    cbn [res_map bind]; [|reflexivity].
  rewrite tr_npdiv. match goal with |- context [res_map Q2R ?t] => destruct t as [i|] end;
    cbn [res_map bind]; [|reflexivity].
  rewrite tr_pydiv. match goal with |- context [res_map Q2R ?t] => destruct t as [k|] end;
    cbn [res_map bind]; [|reflexivity].
  repeat first [rewrite tr_mul | rewrite tr_sub | rewrite tr_add].
  match goal with |- context [mkFit (Q2R ?A) (Q2R b) (Q2R ?C)] => set (qa := A); set (qc := C) end.
  unfold fit_R; cbn [fit_a fit_b fit_c fit_r2]. f_equal. f_equal.
  rewrite (tr_map _ (fun xi => @nadd Q NQ (@nadd Q NQ (@nmul Q NQ qa (@pow2 Q NQ xi)) (@nmul Q NQ b xi)) qc))
    by (intros; unfold pow2; now rewrite !tr_mul, !tr_add).
  rewrite (tr_zip _ (fun yi fi => @pow2 Q NQ (@nsub Q NQ yi fi)))
    by (intros; unfold pow2; now rewrite !tr_sub, !tr_mul).
  rewrite (tr_map _ (fun yi => @pow2 Q NQ (@nsub Q NQ yi m)))
    by (intros; unfold pow2; now rewrite !tr_sub, !tr_mul).
  rewrite !S, tr_npdiv.
  destruct (@npdiv Q NQ _ _) as [ratio|]; cbn [res_map bind]; [|reflexivity].
  now rewrite tr_sub.
Qed.
