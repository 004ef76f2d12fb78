(** * Properties_DimText: C123.  What check_pint_quantity says when it refuses, and that
    comparing dimensionality strings is comparing dimensions. *)
From Coq Require Import String Ascii ZArith Reals List Bool Lra.
From Verif Require Import PyBase Pint UnitsM Spec QLemmas DimTextM DimTextSpec DimTextP.
Import ListNotations.
Local Open Scope string_scope.

Lemma entry_documented name d : In (name, d) documented_dimensions ->
  units_entry name = Some (dimensionality_str d).
Proof.
  intros H. cbn in H. repeat (destruct H as [H|H]; [injection H as <- <-; reflexivity|]). contradiction.
Qed.
Lemma entry_unknown name : ~ In name (map fst documented_dimensions) -> units_entry name = None.
Proof.
  intros H. unfold units_entry. destruct (find _ _) as [[s d]|] eqn:E; [|reflexivity].
  exfalso. apply find_some in E. destruct E as (Hs & E). apply String.eqb_eq in E. cbn in E. subst s.
  apply H. apply in_map_iff. exists (name, d). split; [reflexivity|exact Hs].
Qed.
Lemma entry_iff name : units_entry name = option_map dimensionality_str (supported_dimension name).
Proof.
  unfold units_entry, dimension_names, supported_dimension. cbn [find fst snd option_map].
  rewrite !(String.eqb_sym _ name).
  repeat (destruct (String.eqb name _); [reflexivity|]). reflexivity.
Qed.

(** Two dimensionality strings are equal exactly for equal dimensions. *)
Theorem C123_strings_compare_dimensions :
  forall d d', dimensionality_str d = dimensionality_str d' <-> d = d'.
Proof. intros d d'. split; [apply str_injective|now intros ->]. Qed.
Print Assumptions C123_strings_compare_dimensions.

(** A text is the text of one dimension only. *)
Theorem C123_one_reading :
  forall s d d', reads_as s d -> reads_as s d' -> d = d'.
Proof. exact reads_unique. Qed.
Print Assumptions C123_one_reading.

(** A number of the wrong dimension: the message names both dimensions. *)
Theorem C123_wrong_dimension_message :
  forall (name : string) (d : dim) (a : R) (u : unit_ R) (x : R) (pos : bool),
    In (name, d) documented_dimensions -> worth a u x ->
    u_dim u <> d -> (pos = true -> 0 <= x)%R ->
    exists actual expected,
      check_with_texts (OQuant (MNum a) u) name pos
      = Err (ValueError (actual ++ " is not " ++ expected))
      /\ reads_as actual (u_dim u) /\ reads_as expected d.
Proof.
  intros name d a u x pos Hn W Hd Hp.
  exists (without_brackets (dimensionality_str (u_dim u))), (without_brackets (dimensionality_str d)).
  split; [|split; apply text_reads].
  unfold check_with_texts. cbn [bind]. rewrite (entry_documented _ _ Hn).
  assert (B : base_mag (mkQ a u 0) = x).
  { unfold worth in W. unfold base_mag; cbn [q_unit q_mag]. destruct (u_off u); rnum; Lra.lra. }
  rewrite B. rnum. rewrite zero_R.
  assert (E : (pos && Rltb x 0)%bool = false).
  { destruct pos; [|reflexivity]. cbn. apply Rltb_false. now apply Hp. }
  rewrite E. cbn [raise_if bind].
  destruct (String.eqb_spec (dimensionality_str d) (dimensionality_str (u_dim u))) as [E2|E2].
  - apply str_injective in E2. congruence.
  - reflexivity.
Qed.
Print Assumptions C123_wrong_dimension_message.

(** The other refusals, in the order of the code. *)
Theorem C123_other_messages :
  (forall name (o : pyobj R) pos, ~ In name (map fst documented_dimensions) ->
     (forall u, o <> OQuant (MArr []) u) ->
     check_with_texts o name pos = Err (ValueError (name ++ " not a supported dimension type")))
  /\ (forall name d pos, In (name, d) documented_dimensions ->
     check_with_texts (A:=R) OOther name pos = Err (ValueError "Non-pint quantity")
     /\ (forall u, check_with_texts (A:=R) (OQuant MNonNum u) name pos
                   = Err (ValueError "Non-numeric pint quantity"))
     /\ (forall a u x, worth a u x -> (x < 0)%R ->
           check_with_texts (OQuant (MNum a) u) name true = Err (ValueError "Input value < 0"))).
Proof.
  split.
  - intros name o pos Hn Ho. unfold check_with_texts. rewrite (entry_unknown _ Hn).
    destruct o as [[a|[|a l]|] u|]; cbn [bind]; try reflexivity. exfalso. now apply (Ho u).
  - intros name d pos Hn. unfold check_with_texts. rewrite (entry_documented _ _ Hn).
    split; [reflexivity|]. split; [reflexivity|]. intros a u x W Hx. cbn [bind].
    assert (B : base_mag (mkQ a u 0) = x).
    { unfold worth in W. unfold base_mag; cbn [q_unit q_mag]. destruct (u_off u); rnum; Lra.lra. }
    rewrite B. rnum. rewrite zero_R, Rltb_true by exact Hx. reflexivity.
Qed.
Print Assumptions C123_other_messages.

(** The model with texts is the model of C01 and C02 with the one text filled in: the same
    answers, the same exceptions. *)
Theorem C123_refines :
  forall (o : pyobj R) (name : string) (pos : bool),
    check_with_texts o name pos = check_pint_quantity o name pos
    \/ (check_pint_quantity o name pos = Err (ValueError "wrong dimension")
        /\ is_value_error (check_with_texts o name pos)).
Proof.
  intros o name pos.
  assert (S : forall a u,
    check_with_texts (OQuant (MNum a) u) name pos = check_pint_quantity (OQuant (MNum a) u) name pos
    \/ (check_pint_quantity (A:=R) (OQuant (MNum a) u) name pos = Err (ValueError "wrong dimension")
        /\ is_value_error (check_with_texts (OQuant (MNum a) u) name pos))).
  { intros a u. unfold check_with_texts, check_pint_quantity. cbn [bind]. rewrite entry_iff.
    destruct (supported_dimension name) as [d|]; cbn [option_map]; [|now left].
    destruct (pos && nltb (base_mag {| q_mag := a; q_unit := u; q_reg := 0 |}) zero)%bool;
      cbn [raise_if bind]; [now left|].
    destruct (String.eqb_spec (dimensionality_str d) (dimensionality_str (u_dim u))) as [E|E].
    - apply str_injective in E. subst d. rewrite dim_eqb_refl. now left.
    - right. destruct (dim_eqb (u_dim u) d) eqn:Ed; [apply dim_eqb_eq in Ed; congruence|].
      cbn. split; [reflexivity|]. eexists. reflexivity. }
  destruct o as [[a|[|a l]|] u|].
  - apply S.
  - now left.
  - exact (S a u).
  - left. unfold check_with_texts, check_pint_quantity. cbn [bind]. rewrite entry_iff.
    now destruct (supported_dimension name).
  - left. unfold check_with_texts, check_pint_quantity. cbn [bind]. rewrite entry_iff.
    now destruct (supported_dimension name).
Qed.
Print Assumptions C123_refines.

(** 3 psi where an area is wanted *)
Example C123_case :
  check_with_texts (OQuant (MNum 3%R) (mult_unit d_pressure s_psi)) "area" false
  = Err (ValueError "mass / length / time ** 2 is not length ** 2")
  /\ In ("area", d_area) documented_dimensions /\ u_dim (mult_unit (A:=R) d_pressure s_psi) <> d_area
  /\ reads_as "mass / length / time ** 2" d_pressure
  /\ dimensionality_str (mkDim (-10) 0 0 (-1)) = "1 / [length] ** 10 / [temperature]".
Proof.
  split; [reflexivity|]. split; [cbn; tauto|]. split; [discriminate|]. split; [|reflexivity].
  exact (text_reads d_pressure).
Qed.
