(** * NanAccept: a nan is accepted wherever an ordinary number was.
    Two runs side by side: the second has nan in some of the places where the first has a
    number.  If the first gives a result so does the second, and the results again differ
    at most by nan in place of numbers. *)
From Coq Require Import String ZArith QArith Reals Qreals List Bool Lra.
From Verif Require Import PyBase Pint UnitsM Spec QLemmas Interp Csv Tables TubeM WindowM BoltM DdtM
  NanM NanSpec NanP.
Import ListNotations.
Local Open Scope string_scope.
Local Open Scope num_scope.

Lemma fo_bind {B C} (P : B -> B -> Prop) (Q : C -> C -> Prop) x x' k k' :
  follows P x x' -> (forall a a', P a a' -> follows Q (k a) (k' a')) ->
  follows Q (bind x k) (bind x' k').
Proof.
  intros H K c E. apply bind_inv in E. destruct E as (a & Ea & E).
  destruct (H a Ea) as (a' & -> & Pa). exact (K a a' Pa c E).
Qed.
Lemma fo_ok {B} (P : B -> B -> Prop) a a' : P a a' -> follows P (Ok a) (Ok a').
Proof. intros H b [= <-]. eauto. Qed.
Lemma fo_same {B} (x : result B) : follows eq x x.
Proof. intros a E. eauto. Qed.

Lemma on_refl x : or_nan x x.
Proof. now left. Qed.
Lemma on_fl2 f x x' y y' : or_nan x x' -> or_nan y y' -> or_nan (fl2 f x y) (fl2 f x' y').
Proof. intros [->| ->] [->| ->]; [now left|right; apply fl2_r|now right|now right]. Qed.
Lemma on_fl1 f x x' : or_nan x x' -> or_nan (fl1 f x) (fl1 f x').
Proof. intros [->| ->]; [now left|now right]. Qed.
Lemma on_flc f x x' y y' : or_nan x x' -> or_nan y y' -> flc f x y = false -> flc f x' y' = false.
Proof. intros [->| ->] [->| ->]; auto; intros; apply flc_r. Qed.
Lemma on_pydiv x x' y y' : or_nan x x' -> or_nan y y' -> follows or_nan (pydiv x y) (pydiv x' y').
Proof.
  intros X Y. unfold pydiv. destruct (y =? zero) eqn:E; [intros ? [=]|].
  assert (E' : (y' =? zero) = false) by (apply (on_flc _ _ _ _ _ Y (on_refl zero)), E).
  rewrite E'. apply fo_ok. now apply on_fl2.
Qed.
Lemma on_npdiv x x' y y' : or_nan x x' -> or_nan y y' -> follows or_nan (npdiv x y) (npdiv x' y').
Proof.
  intros X Y. unfold npdiv. destruct (y =? zero) eqn:E; [intros ? [=]|].
  assert (E' : (y' =? zero) = false) by (apply (on_flc _ _ _ _ _ Y (on_refl zero)), E).
  rewrite E'. apply fo_ok. now apply on_fl2.
Qed.
Definition on_div (d : fl -> fl -> result fl) : Prop :=
  forall x x' y y', or_nan x x' -> or_nan y y' -> follows or_nan (d x y) (d x' y').
Lemma on_npsqrt x x' : or_nan x x' -> follows or_nan (npsqrt x) (npsqrt x').
Proof.
  intros X. unfold npsqrt. destruct (x <? zero) eqn:E; [intros ? [=]|].
  assert (E' : (x' <? zero) = false) by (apply (on_flc _ _ _ _ _ X (on_refl zero)), E).
  rewrite E'. apply fo_ok. now apply on_fl1.
Qed.

Lemma on_base q q' : q_or_nan q q' -> or_nan (base_mag q) (base_mag q').
Proof.
  intros (U & _ & M). unfold base_mag. rewrite U.
  destruct (u_off (q_unit q)); repeat apply on_fl2; auto using on_refl.
Qed.
Lemma on_offset q q' : q_or_nan q q' -> offset_free q' = offset_free q.
Proof. intros (U & _). unfold offset_free. now rewrite U. Qed.
Lemma on_reg p p' q q' : q_or_nan p p' -> q_or_nan q q' -> same_reg p' q' = same_reg p q.
Proof. intros (_ & A & _) (_ & B & _). unfold same_reg. now rewrite A, B. Qed.
Ltac mk := apply fo_ok; split; [|split]; cbn [q_unit q_reg q_mag]; try congruence.
Ltac sames := repeat (eapply fo_bind; [apply fo_same|intros ? ? <-]).

Lemma fo_to q q' u : q_or_nan q q' -> follows q_or_nan (q_to q u) (q_to q' u).
Proof.
  intros Q. unfold q_to. destruct Q as (U & G & M). rewrite U. destruct (dim_eqb _ _); [|intros ? [=]].
  mk. pose proof (on_base q q' (conj U (conj G M))).
  destruct (u_off u); repeat apply on_fl2; auto using on_refl.
Qed.
Lemma fo_to' q q' u u' : q_or_nan q q' -> u' = u -> follows q_or_nan (q_to q u) (q_to q' u').
Proof. intros H ->. now apply fo_to. Qed.
Lemma fo_to_str q q' s : q_or_nan q q' -> follows q_or_nan (q_to_str q s) (q_to_str q' s).
Proof. intros Q. unfold q_to_str. destruct (lookup_unit s); [now apply fo_to|intros ? [=]]. Qed.
Lemma fo_mul p p' q q' : q_or_nan p p' -> q_or_nan q q' -> follows q_or_nan (q_mul p q) (q_mul p' q').
Proof.
  intros P Q. unfold q_mul. rewrite (on_reg _ _ _ _ P Q), (on_offset _ _ P), (on_offset _ _ Q). sames.
  destruct P as (U & G & M), Q as (U' & G' & M'). mk. now apply on_fl2.
Qed.
Lemma fo_div d p p' q q' : on_div d -> q_or_nan p p' -> q_or_nan q q' ->
  follows q_or_nan (q_div d p q) (q_div d p' q').
Proof.
  intros D P Q. unfold q_div. rewrite (on_reg _ _ _ _ P Q), (on_offset _ _ P), (on_offset _ _ Q). sames.
  destruct P as (U & G & M), Q as (U' & G' & M'). eapply fo_bind; [now apply D|]. intros. now mk.
Qed.
Lemma fo_scale k k' q q' : or_nan k k' -> q_or_nan q q' -> follows q_or_nan (q_scale k q) (q_scale k' q').
Proof.
  intros K Q. unfold q_scale. rewrite (on_offset _ _ Q). sames.
  destruct Q as (U' & G' & M'). mk. now apply on_fl2.
Qed.
Lemma fo_divn d q q' k k' : on_div d -> q_or_nan q q' -> or_nan k k' ->
  follows q_or_nan (q_divn d q k) (q_divn d q' k').
Proof.
  intros D Q K. unfold q_divn. rewrite (on_offset _ _ Q). sames.
  destruct Q as (U & G & M). eapply fo_bind; [now apply D|]. intros. now mk.
Qed.
Lemma fo_ndivq d q q' k k' : on_div d -> or_nan k k' -> q_or_nan q q' ->
  follows q_or_nan (n_divq d k q) (n_divq d k' q').
Proof.
  intros D K Q. unfold n_divq. rewrite (on_offset _ _ Q). sames.
  destruct Q as (U & G & M). eapply fo_bind; [now apply D|]. intros. now mk.
Qed.
Lemma fo_addsub f p p' q q' : q_or_nan p p' -> q_or_nan q q' ->
  follows q_or_nan (q_addsub (fl2 f) p q) (q_addsub (fl2 f) p' q').
Proof.
  intros P Q. unfold q_addsub. rewrite (on_reg _ _ _ _ P Q), (on_offset _ _ P), (on_offset _ _ Q). sames.
  eapply fo_bind; [apply fo_to'; [exact Q|apply P]|]. intros r r' (_ & _ & Mr).
  destruct P as (U & G & M). mk. now apply on_fl2.
Qed.
Lemma fo_add p p' q q' : q_or_nan p p' -> q_or_nan q q' -> follows q_or_nan (q_add p q) (q_add p' q').
Proof. apply fo_addsub. Qed.
Lemma fo_sub p p' q q' : q_or_nan p p' -> q_or_nan q q' -> follows q_or_nan (q_sub p q) (q_sub p' q').
Proof. apply fo_addsub. Qed.
Lemma fo_naddq k k' q q' : or_nan k k' -> q_or_nan q q' -> follows q_or_nan (n_addq k q) (n_addq k' q').
Proof.
  intros K Q. unfold n_addq. pose proof (on_base _ _ Q). destruct Q as (U & G & M). rewrite U.
  destruct (dim_eqb _ _); [|intros ? [=]]. mk. now apply on_fl2.
Qed.
Lemma fo_sq q q' : q_or_nan q q' -> follows q_or_nan (q_sq q) (q_sq q').
Proof.
  intros Q. unfold q_sq. rewrite (on_offset _ _ Q). sames. destruct Q as (U & G & M). mk. now apply on_fl2.
Qed.
Lemma fo_sqrt q q' : q_or_nan q q' -> follows q_or_nan (q_sqrt q) (q_sqrt q').
Proof.
  intros Q. unfold q_sqrt. rewrite (on_offset _ _ Q). sames. destruct Q as (U & G & M). rewrite U.
  destruct (dim_root _ _); [|intros ? [=]]. eapply fo_bind; [now apply on_npsqrt|]. intros. now mk.
Qed.
Lemma fo_root4 q q' : q_or_nan q q' -> follows q_or_nan (q_root4 q) (q_root4 q').
Proof.
  intros Q. unfold q_root4. rewrite (on_offset _ _ Q). sames. destruct Q as (U & G & M). rewrite U.
  destruct (dim_root _ _); [|intros ? [=]]. destruct (q_mag q <? zero) eqn:E; [intros ? [=]|].
  assert (E' : (q_mag q' <? zero) = false) by (apply (on_flc _ _ _ _ _ M (on_refl zero)), E).
  rewrite E'. mk. now do 2 apply on_fl1.
Qed.
Lemma fo_plain q q' : q_or_nan q q' -> follows or_nan (q_plain q) (q_plain q').
Proof.
  intros Q. unfold q_plain. eapply fo_bind; [now apply fo_to|]. intros r r' (_ & _ & M). now apply fo_ok.
Qed.
Lemma fo_check q q' d pos : q_or_nan q q' -> follows eq (check_q q d pos) (check_q q' d pos).
Proof.
  intros Q. unfold check_q, check_pint_quantity. cbn [bind].
  destruct (supported_dimension d); [|intros ? [=]].
  assert (B : or_nan (base_mag (mkQ (q_mag q) (q_unit q) 0)) (base_mag (mkQ (q_mag q') (q_unit q') 0))).
  { apply on_base. split; [apply Q|split; [reflexivity|apply Q]]. }
  destruct Q as (U & G & M). rewrite U in *.
  destruct (base_mag (mkQ (q_mag q) (q_unit q) 0) <? zero) eqn:E.
  - destruct pos; [intros ? [=]|]. apply fo_same.
  - assert (E' : (base_mag (mkQ (q_mag q') (q_unit q) 0) <? zero) = false)
      by (apply (on_flc _ _ _ _ _ B (on_refl zero)), E).
    rewrite E'. apply fo_same.
Qed.
Lemma fo_quant reg m s : follows q_or_nan (quant reg m s) (quant reg m s).
Proof. intros q E. exists q. repeat split; auto using on_refl. Qed.

Lemma fo_parse i i' reg : arg_or_nan i i' ->
  follows q_or_nan (parse_quant_input i reg) (parse_quant_input i' reg).
Proof.
  intros [j|m u r r'|m s].
  - intros q E. exists q. repeat split; auto using on_refl.
  - cbn. mk; try reflexivity. now right.
  - cbn. unfold quant. destruct (lookup_unit s); [|intros ? [=]]. mk; try reflexivity. now right.
Qed.
Lemma fo_parse_base i i' reg : arg_or_nan i i' ->
  follows q_or_nan (parse_base i reg) (parse_base i' reg).
Proof.
  intros I. unfold parse_base. eapply fo_bind; [now apply fo_parse|]. intros q q' Q.
  pose proof (on_base _ _ Q). destruct Q as (U & G & M). unfold to_base_units. mk.
Qed.

Ltac on := solve [assumption | apply on_refl | now left | now right
  | repeat apply on_fl2; try assumption; apply on_refl ].
Ltac fo1 :=
  match goal with
  | |- follows _ (bind (parse_base _ _) _) _ => eapply fo_bind; [apply fo_parse_base; eassumption|intros ? ? ?]
  | |- follows _ (bind (parse_quant_input _ _) _) _ => eapply fo_bind; [apply fo_parse; eassumption|intros ? ? ?]
  | |- follows _ (bind (check_q _ _ _) _) _ => eapply fo_bind; [apply fo_check; eassumption|intros ? ? <-]
  | |- follows _ (bind (quant _ _ _) _) _ => eapply fo_bind; [apply fo_quant|intros ? ? ?]
  | |- follows _ (bind (q_mul _ _) _) _ => eapply fo_bind; [apply fo_mul; eassumption|intros ? ? ?]
  | |- follows _ (bind (q_div pydiv _ _) _) _ => eapply fo_bind; [apply (fo_div _ _ _ _ _ on_pydiv); eassumption|intros ? ? ?]
  | |- follows _ (bind (q_div npdiv _ _) _) _ => eapply fo_bind; [apply (fo_div _ _ _ _ _ on_npdiv); eassumption|intros ? ? ?]
  | |- follows _ (bind (q_divn pydiv _ _) _) _ => eapply fo_bind; [apply (fo_divn _ _ _ _ _ on_pydiv); [eassumption|on]|intros ? ? ?]
  | |- follows _ (bind (n_divq pydiv _ _) _) _ => eapply fo_bind; [apply (fo_ndivq _ _ _ _ _ on_pydiv); [on|eassumption]|intros ? ? ?]
  | |- follows _ (bind (n_divq npdiv _ _) _) _ => eapply fo_bind; [apply (fo_ndivq _ _ _ _ _ on_npdiv); [on|eassumption]|intros ? ? ?]
  | |- follows _ (bind (q_scale _ _) _) _ => eapply fo_bind; [apply fo_scale; [on|eassumption]|intros ? ? ?]
  | |- follows _ (bind (q_add _ _) _) _ => eapply fo_bind; [apply fo_add; eassumption|intros ? ? ?]
  | |- follows _ (bind (q_sub _ _) _) _ => eapply fo_bind; [apply fo_sub; eassumption|intros ? ? ?]
  | |- follows _ (bind (n_addq _ _) _) _ => eapply fo_bind; [apply fo_naddq; [on|eassumption]|intros ? ? ?]
  | |- follows _ (bind (q_sq _) _) _ => eapply fo_bind; [apply fo_sq; eassumption|intros ? ? ?]
  | |- follows _ (bind (q_sqrt _) _) _ => eapply fo_bind; [apply fo_sqrt; eassumption|intros ? ? ?]
  | |- follows _ (bind (q_root4 _) _) _ => eapply fo_bind; [apply fo_root4; eassumption|intros ? ? ?]
  | |- follows _ (bind (q_plain _) _) _ => eapply fo_bind; [apply fo_plain; eassumption|intros ? ? ?]
  | |- follows _ (bind (npsqrt _) _) _ => eapply fo_bind; [apply on_npsqrt; on|intros ? ? ?]
  | |- follows _ (bind (q_to_str _ _) _) _ => eapply fo_bind; [apply fo_to_str; eassumption|intros ? ? ?]
  | |- follows _ (bind (raise_if ?b ?e) _) (bind (raise_if ?b ?e) _) => eapply fo_bind; [apply fo_same|intros ? ? <-]
  | |- follows _ (bind (thread_cell _ _ _ _) _) _ => eapply fo_bind; [apply fo_same|intros ? ? <-]
  | |- follows _ (bind (threads_per_inch _) _) _ => eapply fo_bind; [apply fo_same|intros ? ? <-]
  | |- follows _ (q_plain _) _ => apply fo_plain; eassumption
  | |- follows _ (q_mul _ _) _ => apply fo_mul; eassumption
  | |- follows _ (q_scale _ _) _ => apply fo_scale; [on|eassumption]
  | |- follows _ (q_to _ _) _ => apply fo_to'; [eassumption|]
  | |- follows _ (q_root4 _) _ => apply fo_root4; eassumption
  | |- follows _ (q_div pydiv _ _) _ => apply (fo_div _ _ _ _ _ on_pydiv); eassumption
  end.
Ltac fos := repeat fo1.

Lemma ac_safety_factor L L' W W' t t' P P' M M' reg :
  arg_or_nan L L' -> arg_or_nan W W' -> arg_or_nan t t' -> arg_or_nan P P' -> arg_or_nan M M' ->
  follows or_nan (safety_factor L W t P M reg) (safety_factor L' W' t' P' M' reg).
Proof. intros. unfold safety_factor. fos. Qed.
Lemma ac_thickness L L' W W' s s' P P' M M' reg :
  arg_or_nan L L' -> arg_or_nan W W' -> (s' = s \/ exists x, s = SfNum x /\ s' = SfNum NaN) ->
  arg_or_nan P P' -> arg_or_nan M M' ->
  follows q_or_nan (minimum_thickness L W s P M reg) (minimum_thickness L' W' s' P' M' reg).
Proof.
  intros ? ? S ? ?. unfold minimum_thickness. fos. eapply (fo_bind or_nan).
  - destruct S as [->|(x & -> & ->)].
    + intros v E. exists v. split; [exact E|apply on_refl].
    + cbv beta iota. change (NaN <? one) with false. destruct (x <? one); [intros ? [=]|].
      apply fo_ok. now right.
  - intros ? ? ?. fos. match goal with Q : q_or_nan ?w ?w' |- q_unit ?w' = q_unit ?w => apply Q end.
Qed.
Lemma ac_blockage_diameter d d' b reg : arg_or_nan d d' ->
  follows q_or_nan (calculate_blockage_diameter d b reg) (calculate_blockage_diameter d' b reg).
Proof.
  intros. unfold calculate_blockage_diameter. eapply fo_bind; [apply fo_same|intros ? ? <-]. fos.
Qed.
Lemma ac_blockage_ratio d d' b b' reg : arg_or_nan d d' -> arg_or_nan b b' ->
  follows or_nan (calculate_blockage_ratio d b reg) (calculate_blockage_ratio d' b' reg).
Proof.
  intros. unfold calculate_blockage_ratio. fos.
  match goal with A : q_or_nan ?q ?q', B : q_or_nan ?r ?r' |- context [q_ge ?r ?q] =>
    rename A into HA, B into HB; assert (MA := proj2 (proj2 HA)); assert (MB := proj2 (proj2 HB)) end.
  eapply (fo_bind eq).
  { match goal with |- follows _ (raise_if (?x =? zero) _) (raise_if (?y =? zero) _) =>
      destruct (x =? zero) eqn:E; [intros ? [=]|];
      assert (E' : (y =? zero) = false) by (apply (on_flc _ _ _ _ _ MA (on_refl zero)), E);
      rewrite E'; apply fo_same end. }
  intros ? ? <-. eapply (fo_bind (fun x y => x = false -> y = false)).
  { unfold q_ge, q_cmp. rewrite (on_reg _ _ _ _ HB HA).
    eapply fo_bind; [apply fo_same|intros ? ? <-].
    rewrite (proj1 HA), (proj1 HB). destruct (dim_eqb _ _); [|intros ? [=]]. apply fo_ok.
    apply on_flc; now apply on_base. }
  intros g g' Hg. eapply (fo_bind eq).
  { destruct g; [intros ? [=]|]. rewrite Hg by reflexivity. apply fo_same. }
  intros ? ? <-. eapply fo_bind; [apply on_pydiv; on|]. intros. apply fo_ok. on.
Qed.
Lemma ac_max_pressure i i' o o' s s' k k' :
  q_or_nan i i' -> q_or_nan o o' -> q_or_nan s s' -> or_nan k k' ->
  follows q_or_nan (calculate_max_pressure i o s k) (calculate_max_pressure i' o' s' k').
Proof. intros. unfold calculate_max_pressure. fos. Qed.
Lemma ac_critical i i' o o' e e' d d' nu nu' :
  q_or_nan i i' -> q_or_nan o o' -> q_or_nan e e' -> q_or_nan d d' -> or_nan nu nu' ->
  follows q_or_nan (critical_velocity i o e d nu) (critical_velocity i' o' e' d' nu').
Proof. intros. unfold critical_velocity. fos. Qed.
Lemma ac_dlf i i' o o' c c' e e' d d' nu nu' pm :
  q_or_nan i i' -> q_or_nan o o' -> q_or_nan c c' -> q_or_nan e e' -> q_or_nan d d' -> or_nan nu nu' ->
  follows (fun _ _ => True) (dynamic_load_factor i o c e d nu pm) (dynamic_load_factor i' o' c' e' d' nu' pm).
Proof.
  intros. unfold dynamic_load_factor. fos. eapply fo_bind; [apply ac_critical; eassumption|].
  intros ? ? ?. fos. now apply fo_ok.
Qed.
Lemma ac_max_stress t t' mat w reg : arg_or_nan t t' ->
  follows q_or_nan (calculate_max_stress t mat w reg) (calculate_max_stress t' mat w reg).
Proof.
  intros. unfold calculate_max_stress. fos. eapply fo_bind; [apply fo_same|intros l ? <-]. fos.
  eapply (fo_bind or_nan).
  - match goal with Q : q_or_nan ?q ?q' |- follows _ (np_interp (q_mag ?q) _) _ =>
      destruct Q as (_ & _ & [-> | ->]) end.
    + intros v E. exists v. split; [exact E|apply on_refl].
    + destruct l; [intros ? [=]|]. apply fo_ok. now right.
  - intros v v' V. unfold quant. destruct (lookup_unit _); [|intros ? [=]]. now mk.
Qed.

(** ** Bolt, with nan for the engagement length *)
Lemma qn_refl q : q_or_nan q q.
Proof. repeat split; auto using on_refl. Qed.
Ltac same1 :=
  match goal with |- follows _ (bind ?x _) (bind ?x _) => eapply fo_bind; [apply fo_same|intros ? ? <-] end.
Ltac hon := solve [eassumption | apply qn_refl].
Lemma fo_shear_area t e e' d x y : q_or_nan e e' ->
  follows q_or_nan (shear_area t e d x y) (shear_area t e' d x y).
Proof.
  intros E. unfold shear_area. same1.
  eapply fo_bind; [apply fo_mul; hon|intros ? ? ?].
  eapply fo_bind; [apply fo_mul; hon|intros ? ? ?].
  do 5 same1. apply fo_mul; hon.
Qed.
Local Opaque THREAD_SPECS.
Lemma ac_areas size cls b p e e' reg : q_or_nan e e' ->
  follows (fun t t' => shear_warning t = false ->
             screw_area t' = screw_area t /\ q_or_nan (plate_area t) (plate_area t')
             /\ shear_warning t' = false)
    (calculate_stress_areas size cls b p e reg) (calculate_stress_areas size cls b p e' reg).
Proof.
  intros E. unfold calculate_stress_areas. do 2 same1.
  eapply fo_bind; [apply fo_check; hon|intros ? ? <-].
  assert (E' : q_or_nan (rereg e reg) (rereg e' reg))
    by (destruct E as (U & G & M); split; [exact U|split; [reflexivity|exact M]]).
  do 13 same1.
  eapply fo_bind; [apply fo_shear_area; hon|intros ss ss' Hs].
  eapply (fo_bind (fun x y => x = false -> y = false)).
  { unfold q_lt, q_cmp. rewrite (on_reg _ _ _ _ Hs (qn_refl _)). same1. rewrite (proj1 Hs).
    destruct (dim_eqb _ _); [|intros ? [=]]. apply fo_ok. apply on_flc; [now apply on_base|apply on_refl]. }
  intros w w' Hw.
  eapply fo_bind; [apply fo_shear_area; hon|intros pl pl' Hp].
  eapply fo_bind; [apply fo_mul; hon|intros ? ? ?].
  eapply fo_bind; [apply fo_mul; hon|intros ? ? ?].
  eapply fo_bind; [apply (fo_div _ _ _ _ _ on_npdiv); hon|intros ? ? ?].
  do 8 same1.
  eapply fo_bind; [apply fo_mul; hon|intros ? ? ?].
  apply fo_ok. cbn [shear_warning screw_area plate_area]. intros Ew. rewrite (Hw Ew), Ew.
  auto.
Qed.
Lemma fo_rereg q q' reg : q_or_nan q q' -> q_or_nan (rereg q reg) (rereg q' reg).
Proof. intros (U & G & M). split; [exact U|split; [reflexivity|exact M]]. Qed.
Lemma fow_bind {B C} (P : B -> B -> Prop) (S : C -> Prop) (Q : C -> C -> Prop) x x' k k' :
  follows P x x' ->
  (forall a a', P a a' -> forall c, k a = Ok c -> S c -> exists c', k' a' = Ok c' /\ Q c c') ->
  forall c, bind x k = Ok c -> S c -> exists c', bind x' k' = Ok c' /\ Q c c'.
Proof.
  intros H K c E Sc. apply bind_inv in E. destruct E as (a & Ea & E).
  destruct (H a Ea) as (a' & -> & Pa). exact (K a a' Pa c E Sc).
Qed.
Ltac wsame1 := eapply fow_bind; [apply fo_same|intros ? ? <-].
Lemma ac_bolt P a n size cls b p e e' reg : arg_or_nan e e' ->
  forall f, calculate_safety_factors P a n size cls b p e reg = Ok f -> sf_warning f = false ->
  exists f', calculate_safety_factors P a n size cls b p e' reg = Ok f'
    /\ (sf_bolt f' = sf_bolt f /\ or_nan (sf_plate f) (sf_plate f') /\ sf_warning f' = false).
Proof.
  intros E. unfold calculate_safety_factors. do 4 wsame1.
  eapply fow_bind; [apply fo_parse; hon|intros e1 e1' E1].
  do 4 wsame1. eapply fow_bind; [apply fo_check; hon|intros ? ? <-]. do 4 wsame1.
  eapply fow_bind; [apply ac_areas; hon|intros t t' T]. cbv zeta.
  intros f H W.
  assert (Wt : shear_warning t = false) by (binds H; injection H as <-; exact W).
  destruct (T Wt) as (-> & Tp & ->). clear T. revert f H W.
  do 3 wsame1.
  eapply fow_bind; [apply (fo_div _ _ _ _ _ on_npdiv); [hon|apply fo_rereg; hon]|intros ? ? ?].
  eapply fow_bind; [apply (fo_div _ _ _ _ _ on_npdiv); hon|intros ? ? ?].
  eapply fow_bind; [apply fo_plain; hon|intros ? ? ?].
  intros f [= <-] W. eexists. split; [reflexivity|]. cbn [sf_bolt sf_plate sf_warning]. auto.
Qed.
