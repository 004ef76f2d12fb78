(** * UnitIndep: a call's outcome depends only on the physical values of its
    arguments.  A relational argument: two quantities are similar when they stand for
    the same value; every operation maps similar operands to similar outcomes. *)
From Coq Require Import String ZArith QArith Reals Qreals List Bool Lra Psatz.
From Verif Require Import PyBase Pint UnitsM Spec QLemmas WindowM DdtM Csv Tables TubeM BoltM.
Import ListNotations.
Local Open Scope R_scope.

Lemma so_bind {A B} (P : A -> A -> Prop) (Q : B -> B -> Prop) r1 r2 f1 f2 :
  same_outcome P r1 r2 ->
  (forall a b, P a b -> same_outcome Q (f1 a) (f2 b)) ->
  same_outcome Q (bind r1 f1) (bind r2 f2).
Proof. destruct r1, r2; cbn; auto; try contradiction. Qed.

Lemma so_returns r1 r2 d x reg :
  returns r1 d x reg -> returns r2 d x reg -> same_outcome same_value r1 r2.
Proof. intros (q1 & -> & H1) (q2 & -> & H2); cbn. exists d, x, reg; auto. Qed.

Lemma so_eq {A} (r1 r2 : result A) : r1 = r2 -> same_outcome eq r1 r2.
Proof. intros ->; destruct r2; reflexivity. Qed.
Lemma so_eq_inv {A} (r1 r2 : result A) : same_outcome eq r1 r2 -> r1 = r2.
Proof. destruct r1, r2; cbn; try contradiction; congruence. Qed.

Lemma so_raise b e : same_outcome (@eq unit) (raise_if b e) (raise_if b e).
Proof. now apply so_eq. Qed.

Lemma so_parse i1 i2 reg :
  same_argument i1 i2 ->
  same_outcome same_value (parse_quant_input i1 reg) (parse_quant_input i2 reg).
Proof. intros (d & x & N & H1 & H2). eapply so_returns; apply parse_quant_den; eauto. Qed.

Lemma so_parse_base i1 i2 reg :
  same_argument i1 i2 -> parse_base i1 reg = parse_base i2 reg.
Proof.
  intros (d & x & N & H1 & H2).
  destruct (parse_denotes _ _ _ reg H1) as (q1 & E1 & P1).
  destruct (parse_denotes _ _ _ reg H2) as (q2 & E2 & P2).
  unfold parse_base; rewrite E1, E2; cbn. unfold to_base_units.
  rewrite (parsed_base_mag _ _ _ _ P1), (parsed_base_mag _ _ _ _ P2).
  destruct P1 as (_ & -> & _ & ->), P2 as (_ & -> & _ & ->). reflexivity.
Qed.

Lemma so_check q1 q2 s pos :
  same_value q1 q2 -> same_outcome eq (check_q q1 s pos) (check_q q2 s pos).
Proof.
  intros (d & x & reg & H1 & H2); apply so_eq.
  unfold check_q, check_pint_quantity; cbn [bind].
  change (base_mag {| q_mag := q_mag q1; q_unit := q_unit q1; q_reg := 0 |})
    with (base_mag q1).
  change (base_mag {| q_mag := q_mag q2; q_unit := q_unit q2; q_reg := 0 |})
    with (base_mag q2).
  rewrite (stands_base _ _ _ _ H1), (stands_base _ _ _ _ H2).
  destruct H1 as (-> & _), H2 as (-> & _). reflexivity.
Qed.

Lemma sv_mag_zero q1 q2 d x reg :
  stands_for q1 d x reg -> stands_for q2 d x reg -> (q_mag q1 = 0 <-> q_mag q2 = 0).
Proof.
  intros H1 H2. destruct (stands_mag_sign _ _ _ _ H1) as [_ Z1].
  destruct (stands_mag_sign _ _ _ _ H2) as [_ Z2]. tauto.
Qed.

(** A division that fails exactly on a zero divisor, always in the same way. *)
Definition good_div (div : R -> R -> result R) : Prop :=
  div_ok div /\ exists e, forall x, div x 0 = Err e.
Lemma pydiv_good : good_div pydiv.
Proof. split; [exact pydiv_ok | exists ZeroDivisionError; exact pydiv_zero]. Qed.
Lemma npdiv_good : good_div npdiv.
Proof. split; [exact npdiv_ok | exists NotFinite; exact npdiv_zero]. Qed.

Lemma same_reg_sim p1 p2 q1 q2 :
  same_value p1 p2 -> same_value q1 q2 -> same_reg p1 q1 = same_reg p2 q2.
Proof.
  intros (? & ? & ? & H1 & H2) (? & ? & ? & H3 & H4); unfold same_reg.
  destruct H1 as (_ & _ & _ & _ & ->), H2 as (_ & _ & _ & _ & ->),
    H3 as (_ & _ & _ & _ & ->), H4 as (_ & _ & _ & _ & ->). reflexivity.
Qed.
Lemma sv_off p1 p2 : same_value p1 p2 -> offset_free p1 = Ok tt /\ offset_free p2 = Ok tt.
Proof.
  intros (? & ? & ? & H1 & H2). split; eapply offset_free_ok; eauto.
Qed.

Lemma so_mul p1 p2 q1 q2 :
  same_value p1 p2 -> same_value q1 q2 ->
  same_outcome same_value (q_mul p1 q1) (q_mul p2 q2).
Proof.
  intros Hp Hq. pose proof (same_reg_sim _ _ _ _ Hp Hq) as E.
  destruct Hp as (d & x & r & P1 & P2), Hq as (d' & y & r' & Q1 & Q2).
  destruct (Nat.eq_dec r r') as [->|N].
  - eapply so_returns; eapply q_mul_den; eauto.
  - unfold q_mul; rewrite E. unfold same_reg.
    destruct P2 as (_ & _ & _ & _ & ->), Q2 as (_ & _ & _ & _ & ->).
    apply Nat.eqb_neq in N; rewrite N. reflexivity.
Qed.

Lemma so_div div p1 p2 q1 q2 :
  good_div div -> same_value p1 p2 -> same_value q1 q2 ->
  same_outcome same_value (q_div div p1 q1) (q_div div p2 q2).
Proof.
  intros (Hd & e & He) Hp Hq. pose proof (same_reg_sim _ _ _ _ Hp Hq) as E.
  pose proof (sv_off _ _ Hp) as [O1 O2]; pose proof (sv_off _ _ Hq) as [O3 O4].
  destruct Hp as (d & x & r & P1 & P2), Hq as (d' & y & r' & Q1 & Q2).
  destruct (Nat.eq_dec r r') as [->|N].
  - destruct (Req_dec y 0) as [->|Ny].
    + unfold q_div. rewrite E, O1, O2, O3, O4.
      rewrite (same_reg_refl _ _ r') by (apply P2 || apply Q2). cbn [bind].
      destruct (stands_mag_sign _ _ _ _ Q1) as [_ Z1].
      destruct (stands_mag_sign _ _ _ _ Q2) as [_ Z2].
      rewrite (proj2 Z1 eq_refl), (proj2 Z2 eq_refl), !He. reflexivity.
    + eapply so_returns; eapply q_div_den; eauto.
  - unfold q_div; rewrite E. unfold same_reg.
    destruct P2 as (_ & _ & _ & _ & ->), Q2 as (_ & _ & _ & _ & ->).
    apply Nat.eqb_neq in N; rewrite N. reflexivity.
Qed.

Lemma so_scale k q1 q2 :
  same_value q1 q2 -> same_outcome same_value (q_scale k q1) (q_scale k q2).
Proof. intros (d & x & r & H1 & H2). eapply so_returns; eapply q_scale_den; eauto. Qed.

Lemma so_divn div k q1 q2 :
  good_div div -> same_value q1 q2 ->
  same_outcome same_value (q_divn div q1 k) (q_divn div q2 k).
Proof.
  intros (Hd & e & He) Hq. pose proof (sv_off _ _ Hq) as [O3 O4].
  destruct Hq as (d & x & r & H1 & H2).
  destruct (Req_dec k 0) as [->|N].
  - unfold q_divn; rewrite O3, O4; cbn [bind]. rewrite !He. reflexivity.
  - eapply so_returns; eapply q_divn_den; eauto.
Qed.

Lemma so_ndivq div k q1 q2 :
  good_div div -> same_value q1 q2 ->
  same_outcome same_value (n_divq div k q1) (n_divq div k q2).
Proof.
  intros (Hd & e & He) Hq. pose proof (sv_off _ _ Hq) as [O3 O4].
  destruct Hq as (d & x & r & H1 & H2).
  destruct (Req_dec x 0) as [->|N].
  - unfold n_divq; rewrite O3, O4; cbn [bind].
    destruct (stands_mag_sign _ _ _ _ H1) as [_ Z1].
    destruct (stands_mag_sign _ _ _ _ H2) as [_ Z2].
    rewrite (proj2 Z1 eq_refl), (proj2 Z2 eq_refl), !He. reflexivity.
  - eapply so_returns; eapply n_divq_den; eauto.
Qed.

Lemma so_addsub op p1 p2 q1 q2 :
  (forall a b k : R, op (a * k) (b * k) = op a b * k) ->
  same_value p1 p2 -> same_value q1 q2 ->
  same_outcome same_value (q_addsub op p1 q1) (q_addsub op p2 q2).
Proof.
  intros Hop Hp Hq. pose proof (same_reg_sim _ _ _ _ Hp Hq) as E.
  pose proof (sv_off _ _ Hp) as [O1 O2]; pose proof (sv_off _ _ Hq) as [O3 O4].
  destruct Hp as (d & x & r & P1 & P2), Hq as (d' & y & r' & Q1 & Q2).
  destruct (Nat.eq_dec r r') as [->|N].
  - destruct (dim_eqb d d') eqn:Ed.
    + apply dim_eqb_eq in Ed as <-. eapply so_returns; eapply q_addsub_den; eauto.
    + unfold q_addsub. rewrite E, O1, O2, O3, O4.
      rewrite (same_reg_refl _ _ r') by (apply P2 || apply Q2). cbn [bind].
      unfold q_to. destruct P1 as (-> & _), P2 as (-> & _), Q1 as (-> & _), Q2 as (-> & _).
      destruct (dim_eqb d' d) eqn:Ed'; [|reflexivity].
      apply dim_eqb_eq in Ed' as ->. now rewrite dim_eqb_refl in Ed.
  - unfold q_addsub; rewrite E. unfold same_reg.
    destruct P2 as (_ & _ & _ & _ & ->), Q2 as (_ & _ & _ & _ & ->).
    apply Nat.eqb_neq in N; rewrite N. reflexivity.
Qed.
Lemma so_add p1 p2 q1 q2 :
  same_value p1 p2 -> same_value q1 q2 ->
  same_outcome same_value (q_add p1 q1) (q_add p2 q2).
Proof. apply so_addsub; intros; rnum; ring. Qed.
Lemma so_sub p1 p2 q1 q2 :
  same_value p1 p2 -> same_value q1 q2 ->
  same_outcome same_value (q_sub p1 q1) (q_sub p2 q2).
Proof. apply so_addsub; intros; rnum; ring. Qed.

Lemma so_naddq k q1 q2 :
  same_value q1 q2 -> same_outcome same_value (n_addq k q1) (n_addq k q2).
Proof.
  intros (d & x & r & H1 & H2).
  destruct (dim_eqb d d_none) eqn:E.
  - apply dim_eqb_eq in E as ->. eapply so_returns; eapply n_addq_den; eauto.
  - unfold n_addq. destruct H1 as (-> & _), H2 as (-> & _). rewrite E. reflexivity.
Qed.

Lemma so_sq q1 q2 : same_value q1 q2 -> same_outcome same_value (q_sq q1) (q_sq q2).
Proof. intros (d & x & r & H1 & H2). eapply so_returns; eapply q_sq_den; eauto. Qed.

Lemma so_sqrt q1 q2 : same_value q1 q2 -> same_outcome same_value (q_sqrt q1) (q_sqrt q2).
Proof.
  intros Hq. pose proof (sv_off _ _ Hq) as [O1 O2].
  destruct Hq as (d & x & r & H1 & H2).
  destruct (dim_root 2 d) as [d'|] eqn:Ed.
  - destruct (Rlt_or_le x 0) as [N|N].
    + unfold q_sqrt; rewrite O1, O2; cbn [bind].
      destruct (stands_mag_sign _ _ _ _ H1) as [S1 _], (stands_mag_sign _ _ _ _ H2) as [S2 _].
      destruct H1 as (-> & _), H2 as (-> & _). rewrite Ed. unfold npsqrt; rnum.
      rewrite zero_R, !Rltb_true by (now apply S1 || now apply S2). reflexivity.
    + eapply so_returns; eapply q_sqrt_den; eauto.
  - unfold q_sqrt; rewrite O1, O2; cbn [bind].
    destruct H1 as (-> & _), H2 as (-> & _). rewrite Ed. reflexivity.
Qed.

Lemma so_root4 q1 q2 : same_value q1 q2 -> same_outcome same_value (q_root4 q1) (q_root4 q2).
Proof.
  intros Hq. pose proof (sv_off _ _ Hq) as [O1 O2].
  destruct Hq as (d & x & r & H1 & H2).
  destruct (dim_root 4 d) as [d'|] eqn:Ed.
  - destruct (Rlt_or_le x 0) as [N|N].
    + unfold q_root4; rewrite O1, O2; cbn [bind].
      destruct (stands_mag_sign _ _ _ _ H1) as [S1 _], (stands_mag_sign _ _ _ _ H2) as [S2 _].
      destruct H1 as (-> & _), H2 as (-> & _). rewrite Ed. rnum.
      rewrite zero_R, !Rltb_true by (now apply S1 || now apply S2). reflexivity.
    + eapply so_returns; eapply q_root4_den; eauto.
  - unfold q_root4; rewrite O1, O2; cbn [bind].
    destruct H1 as (-> & _), H2 as (-> & _). rewrite Ed. reflexivity.
Qed.

Lemma so_cmp c p1 p2 q1 q2 :
  same_value p1 p2 -> same_value q1 q2 ->
  same_outcome eq (q_cmp c p1 q1) (q_cmp c p2 q2).
Proof.
  intros Hp Hq. apply so_eq. unfold q_cmp.
  rewrite (same_reg_sim _ _ _ _ Hp Hq). destruct (same_reg p2 q2); cbn [bind]; auto.
  destruct Hp as (? & ? & ? & P1 & P2), Hq as (? & ? & ? & Q1 & Q2).
  rewrite (stands_base _ _ _ _ P1), (stands_base _ _ _ _ P2),
    (stands_base _ _ _ _ Q1), (stands_base _ _ _ _ Q2).
  destruct P1 as (-> & _), P2 as (-> & _), Q1 as (-> & _), Q2 as (-> & _). reflexivity.
Qed.
Lemma so_lt p1 p2 q1 q2 :
  same_value p1 p2 -> same_value q1 q2 -> same_outcome eq (q_lt p1 q1) (q_lt p2 q2).
Proof. apply so_cmp. Qed.
Lemma so_ge p1 p2 q1 q2 :
  same_value p1 p2 -> same_value q1 q2 -> same_outcome eq (q_ge p1 q1) (q_ge p2 q2).
Proof. apply so_cmp. Qed.

(** Conversion to one given unit: the results are the same quantity. *)
Lemma to_eq q1 q2 u : same_value q1 q2 -> q_to q1 u = q_to q2 u.
Proof.
  intros (d & x & r & H1 & H2). unfold q_to.
  rewrite (stands_base _ _ _ _ H1), (stands_base _ _ _ _ H2).
  destruct H1 as (-> & _ & _ & _ & ->), H2 as (-> & _ & _ & _ & ->). reflexivity.
Qed.
Lemma so_to_str q1 q2 s : same_value q1 q2 -> same_outcome eq (q_to_str q1 s) (q_to_str q2 s).
Proof.
  intros H; apply so_eq. unfold q_to_str. destruct (lookup_unit s); auto. now apply to_eq.
Qed.
(** Conversion to similar units. *)
Lemma so_to_unit q1 q2 p1 p2 :
  same_value q1 q2 -> same_value p1 p2 ->
  same_outcome same_value (q_to q1 (q_unit p1)) (q_to q2 (q_unit p2)).
Proof.
  intros Hq (d' & x' & r' & P1 & P2). destruct Hq as (d & x & r & H1 & H2).
  destruct (dim_eqb d d') eqn:Ed.
  - apply dim_eqb_eq in Ed as <-. eapply so_returns; eapply q_to_den; eauto;
      (apply P1 || apply P2).
  - unfold q_to. destruct H1 as (-> & _), H2 as (-> & _), P1 as (-> & _), P2 as (-> & _).
    rewrite Ed. reflexivity.
Qed.
Lemma so_plain q1 q2 : same_value q1 q2 -> same_outcome eq (q_plain q1) (q_plain q2).
Proof. intros H; apply so_eq. unfold q_plain. now rewrite (to_eq q1 q2). Qed.

Lemma sv_quant reg m s (u : unit_ R) : lookup_unit s = Some u -> u_off u = None ->
  same_outcome same_value (quant reg m s) (quant reg m s).
Proof. intros L F. eapply so_returns; eapply quant_den; eauto. Qed.

Lemma so_refl_Q (r : result Q) : same_outcome eq r r.
Proof. now apply so_eq. Qed.

(** One step of a pair of programs. *)
Ltac ui :=
  match goal with
  | |- same_outcome _ (bind (parse_base _ _) _) (bind (parse_base _ _) _) =>
    eapply so_bind; [eapply so_parse_base; eauto|]
  | |- same_outcome _ (bind (parse_quant_input _ _) _) _ =>
    eapply so_bind; [eapply so_parse; eauto| intros ? ? ?]
  | |- same_outcome _ (bind (check_q _ _ _) _) _ =>
    eapply so_bind; [eapply so_check; eauto| intros ? ? _]
  | |- same_outcome _ (bind (raise_if _ _) _) _ =>
    eapply so_bind; [eapply so_raise | intros ? ? _]
  | |- same_outcome _ (bind (q_mul _ _) _) _ =>
    eapply so_bind; [eapply so_mul; eauto| intros ? ? ?]
  | |- same_outcome _ (bind (q_div pydiv _ _) _) _ =>
    eapply so_bind; [eapply (so_div pydiv _ _ _ _ pydiv_good); eauto| intros ? ? ?]
  | |- same_outcome _ (bind (q_div npdiv _ _) _) _ =>
    eapply so_bind; [eapply (so_div npdiv _ _ _ _ npdiv_good); eauto| intros ? ? ?]
  | |- same_outcome _ (bind (q_divn pydiv _ _) _) _ =>
    eapply so_bind; [eapply (so_divn pydiv _ _ _ pydiv_good); eauto| intros ? ? ?]
  | |- same_outcome _ (bind (n_divq pydiv _ _) _) _ =>
    eapply so_bind; [eapply (so_ndivq pydiv _ _ _ pydiv_good); eauto| intros ? ? ?]
  | |- same_outcome _ (bind (q_scale _ _) _) _ =>
    eapply so_bind; [eapply so_scale; eauto| intros ? ? ?]
  | |- same_outcome _ (bind (q_add _ _) _) _ =>
    eapply so_bind; [eapply so_add; eauto| intros ? ? ?]
  | |- same_outcome _ (bind (q_sub _ _) _) _ =>
    eapply so_bind; [eapply so_sub; eauto| intros ? ? ?]
  | |- same_outcome _ (bind (n_addq _ _) _) _ =>
    eapply so_bind; [eapply so_naddq; eauto| intros ? ? ?]
  | |- same_outcome _ (bind (q_sq _) _) _ =>
    eapply so_bind; [eapply so_sq; eauto| intros ? ? ?]
  | |- same_outcome _ (bind (q_sqrt _) _) _ =>
    eapply so_bind; [eapply so_sqrt; eauto| intros ? ? ?]
  | |- same_outcome _ (bind (q_lt _ _) _) _ =>
    eapply so_bind; [eapply so_lt; eauto| intros ? ? <-]
  | |- same_outcome _ (bind (q_ge _ _) _) _ =>
    eapply so_bind; [eapply so_ge; eauto| intros ? ? <-]
  | |- same_outcome _ (bind (q_plain _) _) _ =>
    eapply so_bind; [eapply so_plain; eauto| intros ? ? <-]
  | |- same_outcome _ (bind (q_to_str _ _) _) _ =>
    eapply so_bind; [eapply so_to_str; eauto| intros ? ? <-]
  | |- same_outcome _ (bind (quant _ _ _) _) _ =>
    eapply so_bind; [eapply sv_quant; reflexivity| intros ? ? ?]
  | |- same_outcome _ (bind (thread_cell _ _ _ _) _) _ =>
    eapply so_bind; [eapply so_eq; reflexivity| intros ? ? <-]
  | |- same_outcome _ (bind (threads_per_inch _) _) _ =>
    eapply so_bind; [eapply so_eq; reflexivity| intros ? ? <-]
  | |- same_outcome _ (q_mul _ _) _ => eapply so_mul; eauto
  | |- same_outcome _ (q_div pydiv _ _) _ => eapply (so_div pydiv _ _ _ _ pydiv_good); eauto
  | |- same_outcome _ (q_scale _ _) _ => eapply so_scale; eauto
  | |- same_outcome _ (q_root4 _) _ => eapply so_root4; eauto
  | |- same_outcome _ (q_plain _) _ => eapply so_plain; eauto
  end.

(** ** Functions *)
Lemma ui_window_sf l1 l2 w1 w2 t1 t2 p1 p2 m1 m2 reg :
  same_argument l1 l2 -> same_argument w1 w2 -> same_argument t1 t2 ->
  same_argument p1 p2 -> same_argument m1 m2 ->
  safety_factor l1 w1 t1 p1 m1 reg = safety_factor l2 w2 t2 p2 m2 reg.
Proof.
  intros; unfold safety_factor.
  rewrite (so_parse_base l1 l2), (so_parse_base w1 w2), (so_parse_base t1 t2),
    (so_parse_base p1 p2), (so_parse_base m1 m2) by assumption. reflexivity.
Qed.

Lemma ui_window_thickness l1 l2 w1 w2 sf p1 p2 m1 m2 reg :
  same_argument l1 l2 -> same_argument w1 w2 ->
  same_argument p1 p2 -> same_argument m1 m2 ->
  minimum_thickness l1 w1 sf p1 m1 reg = minimum_thickness l2 w2 sf p2 m2 reg.
Proof.
  intros; unfold minimum_thickness.
  rewrite (so_parse_base l1 l2), (so_parse_base w1 w2),
    (so_parse_base p1 p2), (so_parse_base m1 m2) by assumption. reflexivity.
Qed.

Lemma ui_blockage_ratio t1 t2 b1 b2 reg :
  same_argument t1 t2 -> same_argument b1 b2 ->
  calculate_blockage_ratio t1 b1 reg = calculate_blockage_ratio t2 b2 reg.
Proof.
  intros; unfold calculate_blockage_ratio.
  rewrite (so_parse_base t1 t2), (so_parse_base b1 b2) by assumption. reflexivity.
Qed.

Lemma ui_blockage_diameter p1 p2 br reg :
  same_argument p1 p2 ->
  same_outcome same_value (calculate_blockage_diameter p1 br reg)
                          (calculate_blockage_diameter p2 br reg).
Proof.
  intros; unfold calculate_blockage_diameter.
  eapply so_bind; [eapply so_eq; reflexivity | intros ? ? <-]. repeat ui.
Qed.

Lemma ui_dlf i1 i2 o1 o2 v1 v2 e1 e2 d1 d2 nu f :
  same_value i1 i2 -> same_value o1 o2 -> same_value v1 v2 ->
  same_value e1 e2 -> same_value d1 d2 ->
  dynamic_load_factor i1 o1 v1 e1 d1 nu f = dynamic_load_factor i2 o2 v2 e2 d2 nu f.
Proof.
  intros; apply so_eq_inv; unfold dynamic_load_factor.
  do 6 ui.
  eapply so_bind; [unfold critical_velocity; repeat ui | intros ? ? ?].
  repeat ui. now apply so_eq.
Qed.

Lemma ui_max_pressure i1 i2 o1 o2 s1 s2 sf :
  same_value i1 i2 -> same_value o1 o2 -> same_value s1 s2 ->
  same_outcome same_value (calculate_max_pressure i1 o1 s1 sf)
                          (calculate_max_pressure i2 o2 s2 sf).
Proof. intros; unfold calculate_max_pressure; repeat ui. Qed.

Definition same_areas (a b : thread_areas R) : Prop :=
  same_value (screw_area a) (screw_area b) /\ same_value (plate_area a) (plate_area b)
  /\ same_value (minimum_engagement a) (minimum_engagement b)
  /\ shear_warning a = shear_warning b.

Lemma sv_rereg q1 q2 reg : same_value q1 q2 -> same_value (rereg q1 reg) (rereg q2 reg).
Proof.
  intros (d & x & r & H1 & H2); exists d, x, reg.
  destruct H1 as (? & ? & ? & ? & _), H2 as (? & ? & ? & ? & _).
  unfold rereg; repeat split; cbn; auto.
Qed.

Lemma ui_stress_areas size cls b1 b2 p1 p2 e1 e2 reg :
  same_value b1 b2 -> same_value p1 p2 -> same_value e1 e2 ->
  same_outcome same_areas (calculate_stress_areas size cls b1 p1 e1 reg)
                          (calculate_stress_areas size cls b2 p2 e2 reg).
Proof.
  intros Hb Hp He; unfold calculate_stress_areas.
  do 3 ui.
  pose proof (sv_rereg _ _ reg Hb); pose proof (sv_rereg _ _ reg Hp);
    pose proof (sv_rereg _ _ reg He).
  repeat ui.
  eapply so_bind.
  { unfold tensile_area. ui. ui.
    match goal with |- context [if ?c then _ else _] => destruct c end; repeat ui. }
  intros ? ? ?.
  eapply so_bind; [unfold shear_area; repeat ui | intros ? ? ?].
  ui.
  eapply so_bind; [unfold shear_area; repeat ui | intros ? ? ?].
  repeat ui. cbn. unfold same_areas; cbn.
  match goal with |- context [if ?c then _ else _] => destruct c end; auto.
Qed.

Lemma ui_bolt mp1 mp2 wa1 wa2 n size cls b1 b2 p1 p2 e1 e2 reg :
  same_argument mp1 mp2 -> same_argument wa1 wa2 -> same_argument b1 b2 ->
  same_argument p1 p2 -> same_argument e1 e2 ->
  calculate_safety_factors mp1 wa1 n size cls b1 p1 e1 reg
  = calculate_safety_factors mp2 wa2 n size cls b2 p2 e2 reg.
Proof.
  intros; apply so_eq_inv; unfold calculate_safety_factors.
  repeat ui.
  eapply so_bind; [eapply ui_stress_areas; eauto|].
  intros ? ? (A1 & A2 & A3 & A4).
  pose proof (sv_rereg _ _ reg A1); pose proof (sv_rereg _ _ reg A2).
  repeat ui. cbn. now rewrite A4.
Qed.
