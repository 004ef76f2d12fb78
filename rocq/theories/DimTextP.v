(** * DimTextP: reading dimensions in messages. *)
From Coq Require Import String Ascii ZArith List Bool Lia.
From Verif Require Import PyBase Pint Show UnitsM TextSpec StrLemmas TextP Csv DimTextM DimTextSpec
  Properties_Warnings.
Import ListNotations.
Local Open Scope string_scope.

(** ** A text has one reading *)
Definition stop (s : string) : Prop :=
  s = "" \/ exists r, s = " * " ++ r \/ s = " / " ++ r.

Lemma digit_not_space c d : digit_is c d -> c <> " "%char.
Proof.
  intros H ->. assert (E : digit " " = Some (Z.of_nat d)) by (apply digit_iff; eauto). discriminate E.
Qed.
Lemma digit_is_unique c d d' : digit_is c d -> digit_is c d' -> d = d'.
Proof.
  intros H H'. assert (E : digit c = Some (Z.of_nat d)) by (apply digit_iff; eauto).
  assert (E' : digit c = Some (Z.of_nat d')) by (apply digit_iff; eauto).
  rewrite E in E'. injection E'. lia.
Qed.
Lemma stop_no_digit c r d : stop (String c r) -> digit_is c d -> False.
Proof.
  intros [E|(x & [E|E])] H; [discriminate|..]; injection E as -> _; now apply digit_not_space in H.
Qed.
Lemma digits_stop t n j : digits t n j -> forall t' n' j' X X', digits t' n' j' ->
  t ++ X = t' ++ X' -> stop X -> stop X' -> n = n' /\ j = j' /\ X = X'.
Proof.
  induction 1 as [|c d s n k Hc Hs IH]; intros t' n' j' X X' H' E S1 S2.
  - destruct H' as [|c' d' s' n' k' Hc' Hs']; [auto|]. cbn in E. subst X.
    exfalso; eapply stop_no_digit; eassumption.
  - destruct H' as [|c' d' s' n' k' Hc' Hs'].
    + cbn in E. subst X'. exfalso; eapply stop_no_digit; eassumption.
    + cbn in E. injection E as -> E. destruct (IH _ _ _ _ _ Hs' E S1 S2) as (-> & -> & ->).
      now rewrite (digit_is_unique _ _ _ Hc Hc').
Qed.

(** what may follow a name: nothing, a separator, or the power sign *)
Definition name_end (s : string) : Prop := s = "" \/ exists r, s = String " " r.
Lemma name_split k d k' d' X X' : name_of k d -> name_of k' d' -> k ++ X = k' ++ X' -> d = d' /\ X = X'.
Proof. intros [] [] E; try discriminate E; injection E as ->; auto. Qed.

Lemma stop_no_power r X : stop X -> X <> " ** " ++ r.
Proof. intros [->|(x & [->| ->])]; discriminate. Qed.
Lemma power_one d : dim_power d 1 = d.
Proof. destruct d. unfold dim_power; simpl. f_equal; lia. Qed.

Lemma factor_split t e t' e' X X' : factor t e -> factor t' e' -> stop X -> stop X' ->
  t ++ X = t' ++ X' -> e = e' /\ X = X'.
Proof.
  intros H H' S1 S2 E. destruct H as [k d Hk|k d t n j Hk Ht Hj]; destruct H' as [k' d' Hk'|k' d' t' n' j' Hk' Ht' Hj'];
    rewrite ?app_assoc' in E.
  - eapply name_split; eassumption.
  - destruct (name_split _ _ _ _ _ _ Hk Hk' E) as (_ & E'). rewrite ?app_assoc' in E'.
    exfalso. exact (stop_no_power _ _ S1 E').
  - destruct (name_split _ _ _ _ _ _ Hk Hk' E) as (_ & E'). rewrite ?app_assoc' in E'. symmetry in E'.
    exfalso. exact (stop_no_power _ _ S2 E').
  - destruct (name_split _ _ _ _ _ _ Hk Hk' E) as (-> & E'). rewrite ?app_assoc' in E'.
    cbn in E'. injection E' as E'. destruct (digits_stop _ _ _ Ht _ _ _ _ _ Ht' E' S1 S2) as (-> & _ & ->). auto.
Qed.

(** a product as its first part and what follows *)
Definition sep (times : bool) : string := if times then " * " else " / ".
Fixpoint follow (l : list (bool * string * dim)) : string :=
  match l with [] => "" | (b, t, _) :: r => sep b ++ t ++ follow r end.
Definition combine1 (d : dim) (x : bool * string * dim) : dim :=
  let '(b, _, e) := x in if b then dim_mul d e else dim_div d e.
Definition factors (l : list (bool * string * dim)) : Prop :=
  Forall (fun x => let '(_, t, e) := x in factor t e) l.
Lemma follow_stop l : stop (follow l).
Proof. destruct l as [|[[[] t] e] r]; [now left|..]; right; eexists; [left|right]; reflexivity. Qed.
Lemma follow_app l m : follow (l ++ m)%list = follow l ++ follow m.
Proof. induction l as [|[[b t] e] r IH]; [reflexivity|]. cbn [follow app]. rewrite IH, !app_assoc'. reflexivity. Qed.

Lemma follow_unique l : factors l -> forall m, factors m -> follow l = follow m ->
  forall d, fold_left combine1 l d = fold_left combine1 m d.
Proof.
  induction l as [|[[b t] e] r IH]; intros Hl m Hm E d.
  - destruct m as [|[[[] ?] ?] ?]; [reflexivity|discriminate E..].
  - destruct m as [|[[b' t'] e'] r']; [destruct b; discriminate E|].
    inversion Hl as [|? ? Ht Hr]; subst. inversion Hm as [|? ? Ht' Hr']; subst.
    cbn [follow] in E.
    assert (b = b' /\ t ++ follow r = t' ++ follow r') as (-> & E').
    { destruct b, b'; cbn in E; try discriminate E; injection E as E; auto. }
    destruct (factor_split _ _ _ _ _ _ Ht Ht' (follow_stop r) (follow_stop r') E') as (-> & E2).
    cbn [fold_left]. now apply IH.
Qed.

Definition first_part (s : string) (d : dim) : Prop := (s = "1" /\ d = d_none) \/ factor s d.
Lemma product_parts s d : product s d -> exists h d0 l,
  first_part h d0 /\ factors l /\ s = h ++ follow l /\ d = fold_left combine1 l d0.
Proof.
  induction 1 as [|s d H|s d t e H (h & d0 & l & F & FL & -> & ->) Ht|s d t e H (h & d0 & l & F & FL & -> & ->) Ht].
  - exists "1", d_none, []. repeat split; [now left|constructor].
  - exists s, d, []. repeat split; [now right|constructor|]. now rewrite app_nil.
  - exists h, d0, (l ++ [(true, t, e)])%list. repeat split; [exact F|..].
    + apply Forall_app; split; [exact FL|]. now constructor.
    + rewrite follow_app, app_assoc'. cbn [follow sep]. now rewrite app_nil.
    + rewrite fold_left_app. reflexivity.
  - exists h, d0, (l ++ [(false, t, e)])%list. repeat split; [exact F|..].
    + apply Forall_app; split; [exact FL|]. now constructor.
    + rewrite follow_app, app_assoc'. cbn [follow sep]. now rewrite app_nil.
    + rewrite fold_left_app. reflexivity.
Qed.
Lemma factor_head t e : factor t e -> exists c r, t = String c r /\ c <> "1"%char /\ c <> "d"%char.
Proof. intros [k d []|k d t' n j [] _ _]; do 2 eexists; (split; [reflexivity|split; discriminate]). Qed.

Lemma product_unique s d d' : product s d -> product s d' -> d = d'.
Proof.
  intros H H'. apply product_parts in H. apply product_parts in H'.
  destruct H as (h & d0 & l & F & FL & -> & ->). destruct H' as (h' & d0' & l' & F' & FL' & E & ->).
  assert (d0 = d0' /\ follow l = follow l') as (<- & E').
  { destruct F as [(-> & ->)|F], F' as [(-> & ->)|F'].
    - cbn in E. injection E as E. auto.
    - apply factor_head in F'. destruct F' as (c & r & -> & N & _). cbn in E. injection E as E _. congruence.
    - apply factor_head in F. destruct F as (c & r & -> & N & _). cbn in E. injection E as E _. congruence.
    - exact (factor_split _ _ _ _ _ _ F F' (follow_stop l) (follow_stop l') E). }
  now apply follow_unique.
Qed.
Lemma product_head s d : product s d -> forall r, s <> String "d" r.
Proof.
  intros H r. apply product_parts in H. destruct H as (h & d0 & l & F & _ & -> & _).
  destruct F as [(-> & _)|F]; [discriminate|].
  apply factor_head in F. destruct F as (c & r' & -> & _ & N). cbn. congruence.
Qed.
Lemma reads_unique s d d' : reads_as s d -> reads_as s d' -> d = d'.
Proof.
  intros [(E & ->)|H] [(E' & ->)|H'].
  - reflexivity.
  - exfalso. subst s. exact (product_head _ _ H' _ eq_refl).
  - exfalso. subst s. exact (product_head _ _ H _ eq_refl).
  - eapply product_unique; eassumption.
Qed.

(** ** pint's text, brackets removed, reads as the dimension *)
Lemma remove_app c a b : remove_char c (a ++ b) = remove_char c a ++ remove_char c b.
Proof. induction a as [|x a IH]; [reflexivity|]. cbn. rewrite IH. destruct (Ascii.eqb x c); reflexivity. Qed.
Lemma without_app a b : without_brackets (a ++ b) = without_brackets a ++ without_brackets b.
Proof. unfold without_brackets. now rewrite !remove_app. Qed.
Lemma digits_without t n j : digits t n j -> without_brackets t = t.
Proof.
  induction 1 as [|c d s n k Hc Hs IH]; [reflexivity|].
  unfold without_brackets in *. cbn.
  assert (c <> "["%char /\ c <> "]"%char) as (N1 & N2).
  { assert (E : digit c = Some (Z.of_nat d)) by (apply digit_iff; eauto).
    split; intros ->; discriminate E. }
  apply Ascii.eqb_neq in N1. apply Ascii.eqb_neq in N2. rewrite N1. cbn. now rewrite N2, IH.
Qed.

Lemma power_factor k k' d n : name_of k' d -> without_brackets k = k' -> (0 < n)%Z ->
  factor (without_brackets (power_str k n)) (dim_power d n).
Proof.
  intros Hk E Hn. unfold power_str. destruct (Z.eqb_spec n 1) as [->|N].
  - rewrite E, power_one. now constructor.
  - destruct (show_int_spells n ltac:(lia)) as (j & Hj & Hz).
    rewrite !without_app, E, (digits_without _ _ _ Hj). econstructor; [exact Hk|exact Hj|].
    destruct j; [|lia]. exfalso. assert (Es : show_int n = "") by (inversion Hj; congruence).
    destruct Hz as [Hz|(c & r & Hz & _)]; congruence.
Qed.

(** the text of a list of factors, in order *)
Definition parts_text (pos neg : list string) : string :=
  match pos, neg with
  | [], [] => "dimensionless"
  | pos, [] => String.concat " * " pos
  | [], neg => "1 / " ++ String.concat " / " neg
  | pos, neg => String.concat " * " pos ++ " / " ++ String.concat " / " neg
  end.
Lemma concat_follow b t r : String.concat (sep b) (t :: r) = t ++ follow (map (fun u => (b, u, d_none)) r).
Proof.
  revert t. induction r as [|u r IH]; intros t; [cbn; now rewrite app_nil|].
  change (String.concat (sep b) (t :: u :: r)) with (t ++ sep b ++ String.concat (sep b) (u :: r)).
  rewrite IH. reflexivity.
Qed.
Lemma without_concat s l : without_brackets s = s ->
  without_brackets (String.concat s l) = String.concat s (map without_brackets l).
Proof.
  intros E. induction l as [|t r IH]; [reflexivity|]. destruct r as [|u r]; [reflexivity|].
  change (String.concat s (t :: u :: r)) with (t ++ s ++ String.concat s (u :: r)).
  rewrite !without_app, IH, E. reflexivity.
Qed.
Lemma products_mul l ds : Forall2 factor l ds -> forall s d, product s d ->
  product (s ++ follow (map (fun u => (true, u, d_none)) l)) (fold_left dim_mul ds d).
Proof.
  induction 1 as [|t e l ds Ht Hl IH]; intros s d H; cbn [map follow fold_left]; [now rewrite app_nil|].
  replace (s ++ sep true ++ t ++ follow (map (fun u => (true, u, d_none)) l))
    with ((s ++ " * " ++ t) ++ follow (map (fun u => (true, u, d_none)) l)) by (rewrite !app_assoc'; reflexivity).
  apply IH. now constructor.
Qed.
Lemma products_div l ds : Forall2 factor l ds -> forall s d, product s d ->
  product (s ++ follow (map (fun u => (false, u, d_none)) l)) (fold_left dim_div ds d).
Proof.
  induction 1 as [|t e l ds Ht Hl IH]; intros s d H; cbn [map follow fold_left]; [now rewrite app_nil|].
  replace (s ++ sep false ++ t ++ follow (map (fun u => (false, u, d_none)) l))
    with ((s ++ " / " ++ t) ++ follow (map (fun u => (false, u, d_none)) l)) by (rewrite !app_assoc'; reflexivity).
  apply IH. now constructor.
Qed.
Lemma mul_none d : dim_mul d_none d = d.
Proof. destruct d. unfold dim_mul, d_none; cbn. f_equal; lia. Qed.

Lemma parts_read pos neg dp dn : Forall2 factor pos dp -> Forall2 factor neg dn ->
  reads_as (parts_text pos neg) (fold_left dim_div dn (fold_left dim_mul dp d_none)).
Proof.
  intros Hp Hn. destruct Hp as [|t e pos dp Ht Hp].
  - destruct Hn as [|t e neg dn Ht Hn]; [left; split; reflexivity|]. right. cbn [parts_text fold_left].
    change " / " with (sep false) at 2. rewrite concat_follow.
    replace ("1 / " ++ t ++ follow (map (fun u => (false, u, d_none)) neg))
      with (("1" ++ " / " ++ t) ++ follow (map (fun u => (false, u, d_none)) neg)) by (rewrite !app_assoc'; reflexivity).
    apply products_div; [exact Hn|]. constructor; [constructor|exact Ht].
  - right. assert (P : product (String.concat " * " (t :: pos)) (fold_left dim_mul (e :: dp) d_none)).
    { change " * " with (sep true). rewrite concat_follow. cbn [fold_left]. rewrite mul_none.
      apply products_mul; [exact Hp|now constructor]. }
    destruct Hn as [|t' e' neg dn Ht' Hn]; [exact P|].
    change (parts_text (t :: pos) (t' :: neg))
      with (String.concat " * " (t :: pos) ++ " / " ++ String.concat " / " (t' :: neg)).
    change (String.concat " / " (t' :: neg)) with (String.concat (sep false) (t' :: neg)). rewrite concat_follow.
    set (u := String.concat " * " (t :: pos)) in *.
    replace (u ++ " / " ++ t' ++ follow (map (fun v => (false, v, d_none)) neg))
      with ((u ++ " / " ++ t') ++ follow (map (fun v => (false, v, d_none)) neg)) by (rewrite !app_assoc'; reflexivity).
    change (fold_left dim_div (e' :: dn) (fold_left dim_mul (e :: dp) d_none))
      with (fold_left dim_div dn (dim_div (fold_left dim_mul (e :: dp) d_none) e')).
    apply products_div; [exact Hn|]. now constructor.
Qed.

Lemma without_parts pos neg : without_brackets (parts_text pos neg)
  = parts_text (map without_brackets pos) (map without_brackets neg).
Proof.
  destruct pos as [|p pos], neg as [|n neg].
  - reflexivity.
  - change (parts_text [] (n :: neg)) with ("1 / " ++ String.concat " / " (n :: neg)).
    rewrite without_app, without_concat by reflexivity. reflexivity.
  - change (parts_text (p :: pos) []) with (String.concat " * " (p :: pos)).
    rewrite without_concat by reflexivity. reflexivity.
  - change (parts_text (p :: pos) (n :: neg))
      with (String.concat " * " (p :: pos) ++ " / " ++ String.concat " / " (n :: neg)).
    rewrite !without_app, !without_concat by reflexivity. reflexivity.
Qed.

Definition base_names : list (string * dim) :=
  [("[length]", mkDim 1 0 0 0); ("[mass]", mkDim 0 1 0 0); ("[temperature]", mkDim 0 0 0 1);
   ("[time]", mkDim 0 0 1 0)].

Lemma pos_factors (f : dim -> Z) l : Forall (fun kd => name_of (without_brackets (fst kd)) (snd kd)) l ->
  let items := map (fun kd => (fst kd, f (snd kd))) l in
  Forall2 factor (map without_brackets (pos_terms items))
    (map (fun kd => dim_power (snd kd) (f (snd kd))) (filter (fun kd => Z.ltb 0 (f (snd kd))) l)).
Proof.
  induction 1 as [|[k d] l Hk Hl IH]; cbn; [constructor|]. unfold pos_terms in *. cbn.
  destruct (Z.ltb_spec 0 (f d)); cbn; [|exact IH]. constructor; [|exact IH].
  eapply power_factor; [exact Hk|reflexivity|assumption].
Qed.
Lemma neg_factors (f : dim -> Z) l : Forall (fun kd => name_of (without_brackets (fst kd)) (snd kd)) l ->
  let items := map (fun kd => (fst kd, f (snd kd))) l in
  Forall2 factor (map without_brackets (neg_terms items))
    (map (fun kd => dim_power (snd kd) (- f (snd kd))) (filter (fun kd => Z.ltb (f (snd kd)) 0) l)).
Proof.
  induction 1 as [|[k d] l Hk Hl IH]; cbn; [constructor|]. unfold neg_terms in *. cbn.
  destruct (Z.ltb_spec (f d) 0); cbn; [|exact IH]. constructor; [|exact IH].
  eapply power_factor; [exact Hk|reflexivity|lia].
Qed.

Definition dot (d e : dim) : Z := (dL d * dL e + dM d * dM e + dT d * dT e + dK d * dK e)%Z.
Lemma items_dot d : dimension_items d = map (fun kd => (fst kd, dot d (snd kd))) base_names.
Proof. destruct d. unfold dimension_items, dot. simpl. repeat f_equal; lia. Qed.

Lemma text_reads d : reads_as (without_brackets (dimensionality_str d)) d.
Proof.
  assert (N : Forall (fun kd => name_of (without_brackets (fst kd)) (snd kd)) base_names)
    by (repeat constructor).
  replace (dimensionality_str d) with (parts_text (pos_terms (dimension_items d)) (neg_terms (dimension_items d)))
    by (unfold dimensionality_str; destruct (pos_terms _), (neg_terms _); reflexivity).
  rewrite without_parts, items_dot.
  pose proof (parts_read _ _ _ _ (pos_factors (dot d) _ N) (neg_factors (dot d) _ N)) as H. cbv zeta in H.
  match type of H with reads_as ?s ?e => assert (Ed : e = d); [clear H|rewrite Ed in H; exact H] end.
  destruct d as [l m t k].
  assert (E1 : dot (mkDim l m t k) (mkDim 1 0 0 0) = l) by (unfold dot; simpl; lia).
  assert (E2 : dot (mkDim l m t k) (mkDim 0 1 0 0) = m) by (unfold dot; simpl; lia).
  assert (E3 : dot (mkDim l m t k) (mkDim 0 0 0 1) = k) by (unfold dot; simpl; lia).
  assert (E4 : dot (mkDim l m t k) (mkDim 0 0 1 0) = t) by (unfold dot; simpl; lia).
  unfold base_names. cbn [filter snd]. rewrite E1, E2, E3, E4.
  destruct (Z.ltb_spec 0 l), (Z.ltb_spec 0 m), (Z.ltb_spec 0 k), (Z.ltb_spec 0 t),
    (Z.ltb_spec l 0), (Z.ltb_spec m 0), (Z.ltb_spec k 0), (Z.ltb_spec t 0); try lia;
  cbn [map snd fold_left]; rewrite ?E1, ?E2, ?E3, ?E4;
  unfold dim_mul, dim_div, dim_power, d_none; cbn [dL dM dT dK]; f_equal; lia.
Qed.

Lemma str_injective d d' : dimensionality_str d = dimensionality_str d' -> d = d'.
Proof.
  intros E. pose proof (text_reads d) as H. rewrite E in H. exact (reads_unique _ _ _ H (text_reads d')).
Qed.
