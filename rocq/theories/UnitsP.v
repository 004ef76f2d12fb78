(** * UnitsP: lemmas about units.py. *)
From Coq Require Import String ZArith QArith Reals Qreals List Bool Lra.
From Verif Require Import PyBase Pint UnitsM Spec QLemmas.
Import ListNotations.
Local Open Scope R_scope.

Lemma supported_documented s d :
  In (s, d) documented_dimensions <-> supported_dimension s = Some d.
Proof.
  split.
  - cbn. intros H.
    repeat (destruct H as [H|H]; [injection H as <- <-; reflexivity|]). contradiction.
  - unfold supported_dimension, documented_dimensions.
    repeat match goal with
    | |- context [String.eqb s ?k] =>
      destruct (String.eqb_spec s k) as [->|]; [intros [= <-]; cbn; tauto|]
    end. discriminate.
Qed.

Lemma supported_none s :
  ~ In s (map fst documented_dimensions) -> supported_dimension s = None.
Proof.
  intros H. destruct (supported_dimension s) as [d|] eqn:E; [|reflexivity].
  exfalso; apply H. apply supported_documented in E.
  now apply (in_map fst) in E.
Qed.

Lemma worth_base a u x r : worth a u x -> base_mag (mkQ a u r) = x.
Proof.
  unfold worth, base_mag; cbn. destruct (u_off u); rnum; intros ->; lra.
Qed.

Lemma check_scalar s d a u x pos :
  In (s, d) documented_dimensions -> worth a u x ->
  let r := check_pint_quantity (OQuant (MNum a) u) s pos in
  (r = Ok true <-> u_dim u = d /\ (pos = true -> 0 <= x))
  /\ (r = Ok true \/ is_value_error r).
Proof.
  intros Hs%supported_documented W r.
  pose proof (worth_base a u x 0 W) as B.
  unfold r; clear r; unfold check_pint_quantity; cbn [bind]; rewrite Hs, B; rnum.
  rewrite zero_R.
  destruct (dim_eqb (u_dim u) d) eqn:E; [apply dim_eqb_eq in E|].
  - destruct pos; cbn [andb].
    + destruct (Rltb_spec x 0); cbn [raise_if bind negb].
      * split; [split; [discriminate|intros [_ H]; specialize (H eq_refl); lra]|].
        right; apply value_error_intro.
      * split; [split; [intros _; split; [assumption|intros _; lra]|auto]|auto].
    + cbn. split; [split; [intros _; split; [assumption|discriminate]|auto]|auto].
  - assert (u_dim u <> d) by (intros Ed; now rewrite Ed, dim_eqb_refl in E).
    destruct (pos && Rltb x 0)%bool; cbn [raise_if bind negb];
      (split; [split; [discriminate|intros [H' _]; contradiction]
              |right; apply value_error_intro]).
Qed.

Lemma check_unknown s o pos :
  ~ In s (map fst documented_dimensions) ->
  (forall u, o <> OQuant (A:=R) (MArr []) u) ->
  is_value_error (check_pint_quantity o s pos).
Proof.
  intros Hs%supported_none Ho; unfold check_pint_quantity.
  destruct o as [[a|[|a l]|] u|]; cbn [bind]; rewrite ?Hs; try apply value_error_intro.
  exfalso; now apply (Ho u).
Qed.

Lemma check_not_quantity s pos :
  is_value_error (check_pint_quantity (A:=R) OOther s pos)
  /\ forall u, is_value_error (check_pint_quantity (A:=R) (OQuant MNonNum u) s pos).
Proof.
  unfold check_pint_quantity; cbn [bind]; split; intros;
    destruct (supported_dimension s); apply value_error_intro.
Qed.

Lemma check_array_first s a l u pos :
  check_pint_quantity (A:=R) (OQuant (MArr (a :: l)) u) s pos
  = check_pint_quantity (OQuant (MNum a) u) s pos.
Proof. reflexivity. Qed.

Lemma check_array_unsound :
  check_pint_quantity (OQuant (MArr [1; -1]) (mult_unit d_length 1)) "length" true
  = Ok true.
Proof.
  rewrite check_array_first.
  apply (check_scalar "length" d_length 1 (mult_unit d_length 1) 1 true).
  - cbn; tauto.
  - unfold worth; cbn; ring.
  - split; [reflexivity|intros; lra].
Qed.

Lemma parse_preserves i d x reg :
  denotes i d x ->
  exists q, parse_quant_input i reg = Ok q
    /\ q_reg q = reg /\ denotes (PQuant q) d x
    /\ (forall u, expressed_in i u -> q_unit q = u)
    /\ (forall reg', parse_quant_input (PQuant q) reg' = parse_quant_input i reg').
Proof.
  intros H; destruct (parse_denotes _ _ _ reg H) as (q & E & W & D & Wo & Rg).
  exists q; split; [assumption|]. split; [assumption|].
  split; [now constructor|]. split.
  - destruct H as [q0 d x W0 D0 W1 | m s u d x L D0 W1]; cbn in E; intros u0 Hu;
      inversion Hu; subst.
    + now injection E as <-.
    + unfold quant in E; rewrite L in E; injection E as <-; cbn; congruence.
  - intros reg'. destruct H as [q0 d x W0 D0 W1 | m s u d x L D0 W1]; cbn in E |- *.
    + now injection E as <-.
    + unfold quant in *; rewrite L in *; injection E as <-; reflexivity.
Qed.

Lemma parse_magnitude_unit (reg : nat) :
  (forall q, exists q', parse_quant_input (A:=R) (PQuant q) reg = Ok q'
     /\ q_mag q' = q_mag q /\ q_unit q' = q_unit q /\ q_reg q' = reg)
  /\ (forall m s u, lookup_unit s = Some u ->
        exists q', parse_quant_input (A:=R) (PSeq [ENum m; EStr s]) reg = Ok q'
          /\ q_mag q' = m /\ q_unit q' = u /\ q_reg q' = reg).
Proof.
  split.
  - intros q; eexists; split; [reflexivity|]; auto.
  - intros m s u L; cbn; unfold quant; rewrite L; eexists; split; [reflexivity|]; auto.
Qed.

Lemma parse_rejects (reg : nat) :
  (forall l, length l <> 2%nat -> is_value_error (parse_quant_input (A:=R) (PSeq l) reg))
  /\ is_value_error (parse_quant_input (A:=R) PNoIter reg)
  /\ (forall m s, lookup_unit (A:=R) s = None ->
        raises (parse_quant_input (A:=R) (PSeq [ENum m; EStr s]) reg)).
Proof.
  split; [|split].
  - intros [|x [|y [|z l]]] H; cbn in H; try (now exfalso; apply H);
      apply value_error_intro.
  - apply value_error_intro.
  - intros m s L; cbn; unfold quant; rewrite L; unfold raises; eauto.
Qed.
