(** * QLemmas: compositional reasoning about the pint model over the reals. *)
From Coq Require Import String ZArith QArith Reals Qreals List Bool Lra Lia Psatz.
From Verif Require Import PyBase Pint UnitsM Spec.
Import ListNotations.
Local Open Scope R_scope.

(** ** Booleans over R *)
Lemma Rltb_true x y : x < y -> Rltb x y = true.
Proof. unfold Rltb; destruct (Rlt_dec x y); intros; [reflexivity | lra]. Qed.
Lemma Rltb_false x y : y <= x -> Rltb x y = false.
Proof. unfold Rltb; destruct (Rlt_dec x y); intros; [lra | reflexivity]. Qed.
Lemma Rleb_true x y : x <= y -> Rleb x y = true.
Proof. unfold Rleb; destruct (Rle_dec x y); intros; [reflexivity | lra]. Qed.
Lemma Rleb_false x y : y < x -> Rleb x y = false.
Proof. unfold Rleb; destruct (Rle_dec x y); intros; [lra | reflexivity]. Qed.
Lemma Reqb_true x y : x = y -> Reqb x y = true.
Proof. unfold Reqb; destruct (Req_EM_T x y); intros; [reflexivity | contradiction]. Qed.
Lemma Reqb_false x y : x <> y -> Reqb x y = false.
Proof. unfold Reqb; destruct (Req_EM_T x y); intros; [contradiction | reflexivity]. Qed.
Lemma Rltb_spec x y : reflect (x < y) (Rltb x y).
Proof. unfold Rltb; destruct (Rlt_dec x y); constructor; assumption. Qed.
Lemma Rleb_spec x y : reflect (x <= y) (Rleb x y).
Proof. unfold Rleb; destruct (Rle_dec x y); constructor; assumption. Qed.
Lemma Reqb_spec x y : reflect (x = y) (Reqb x y).
Proof. unfold Reqb; destruct (Req_EM_T x y); constructor; assumption. Qed.

(** Reduce class projections at R and literals. *)
Ltac rnum := cbn [nadd nsub nmul ndiv nopp nabs nsqrt nltb nleb neqb nofQ npi Num_R] in *.
Ltac q2r := unfold Q2R in *; cbn [Qnum Qden inject_Z] in *.

Lemma zero_R : zero = 0. Proof. unfold zero; rnum; q2r; lra. Qed.
Lemma one_R : one = 1. Proof. unfold one; rnum; q2r; lra. Qed.

(** ** Binding *)
Lemma returns_bind {B} (r : result (quantity R)) (f : quantity R -> result B)
      (P : result B -> Prop) d x reg :
  returns r d x reg ->
  (forall q, stands_for q d x reg -> P (f q)) ->
  P (bind r f).
Proof. intros (q & -> & Hq) H; cbn; auto. Qed.

Lemma bind_ok {A B} (a : A) (f : A -> result B) : bind (Ok a) f = f a.
Proof. reflexivity. Qed.
Lemma bind_err {A B} e (f : A -> result B) : bind (Err e) f = Err e.
Proof. reflexivity. Qed.
Lemma raise_if_false e : raise_if false e = Ok tt.
Proof. reflexivity. Qed.

Lemma bind_inv {A B} (r : result A) (f : A -> result B) b :
  bind r f = Ok b -> exists a, r = Ok a /\ f a = Ok b.
Proof. destruct r; cbn; intros H; [eauto | discriminate]. Qed.

(** ** Dimensions *)
Lemma dim_eqb_refl d : dim_eqb d d = true.
Proof. unfold dim_eqb; now rewrite !Z.eqb_refl. Qed.
Lemma dim_eqb_eq a b : dim_eqb a b = true <-> a = b.
Proof.
  unfold dim_eqb; destruct a, b; cbn.
  rewrite !andb_true_iff, !Z.eqb_eq.
  split; [intros [[[-> ->] ->] ->]; reflexivity | intros [= -> -> -> ->]; auto].
Qed.
Lemma dim_eqb_neq a b : a <> b -> dim_eqb a b = false.
Proof.
  intros H; destruct (dim_eqb a b) eqn:E; [|reflexivity].
  now apply dim_eqb_eq in E.
Qed.

(** ** Units *)
Lemma s_inch_pos : 0 < @s_inch R _.
Proof. unfold s_inch; rnum; q2r; lra. Qed.
Lemma s_psi_pos : 0 < @s_psi R _.
Proof.
  unfold s_psi; rnum. apply Rdiv_lt_0_compat.
  - q2r; lra.
  - apply Rmult_lt_0_compat; apply s_inch_pos.
Qed.

Lemma unit_table_wf : Forall (fun su => wf_unit (snd su)) (@unit_table R _).
Proof.
  unfold unit_table, mult_unit, wf_unit.
  pose proof s_inch_pos; pose proof s_psi_pos.
  repeat constructor; cbn [snd u_scale u_off u_dim]; rewrite ?one_R; try congruence;
    rnum; rewrite ?one_R;
    try (apply Rmult_lt_0_compat; auto; q2r; lra);
    try (apply Rdiv_lt_0_compat; auto; lra);
    try (q2r; lra); try assumption.
Qed.

Lemma assoc_in {B} s (l : list (string * B)) b : assoc s l = Some b -> In (s, b) l.
Proof.
  induction l as [|[k v] l IH]; cbn; [discriminate|].
  destruct (String.eqb_spec k s) as [->|]; [intros [= ->]; auto | auto].
Qed.

Lemma lookup_wf s u : @lookup_unit R _ s = Some u -> wf_unit u.
Proof.
  intros H; apply assoc_in in H.
  pose proof unit_table_wf as F; rewrite Forall_forall in F.
  exact (F _ H).
Qed.

(** ** Operations *)
Lemma stands_mag_sign q d x r :
  stands_for q d x r -> (q_mag q < 0 <-> x < 0) /\ (q_mag q = 0 <-> x = 0).
Proof.
  intros (_ & _ & Hs & <- & _). split; split; intros H.
  - nra.
  - destruct (Rlt_or_le (q_mag q) 0); [assumption | nra].
  - rewrite H; ring.
  - apply Rmult_integral in H as [|]; lra.
Qed.

Lemma stands_base q d x r : stands_for q d x r -> base_mag q = x.
Proof. unfold base_mag; intros (_ & -> & _ & <- & _); reflexivity. Qed.

Definition div_ok (div : R -> R -> result R) : Prop :=
  forall x y, y <> 0 -> div x y = Ok (x / y).
Lemma pydiv_ok : div_ok pydiv.
Proof. intros x y H; unfold pydiv; rnum; now rewrite zero_R, Reqb_false. Qed.
Lemma npdiv_ok : div_ok npdiv.
Proof. intros x y H; unfold npdiv; rnum; now rewrite zero_R, Reqb_false. Qed.
Lemma pydiv_zero x : pydiv x 0 = Err ZeroDivisionError.
Proof. unfold pydiv; rnum; now rewrite zero_R, Reqb_true. Qed.
Lemma npdiv_zero x : npdiv x 0 = Err NotFinite.
Proof. unfold npdiv; rnum; now rewrite zero_R, Reqb_true. Qed.

Lemma same_reg_refl p q r :
  q_reg p = r -> q_reg q = r -> same_reg (A:=R) p q = Ok tt.
Proof. intros E1 E2; unfold same_reg; now rewrite E1, E2, Nat.eqb_refl. Qed.

Lemma offset_free_ok q d x r : stands_for q d x r -> offset_free q = Ok tt.
Proof. unfold offset_free; now intros (_ & -> & _). Qed.

Lemma q_mul_den p q d1 d2 x y r :
  stands_for p d1 x r -> stands_for q d2 y r ->
  returns (q_mul p q) (dim_mul d1 d2) (x * y) r.
Proof.
  intros Hp Hq; unfold q_mul.
  pose proof (offset_free_ok _ _ _ _ Hp) as Op.
  pose proof (offset_free_ok _ _ _ _ Hq) as Oq.
  destruct Hp as (Dp & Fp & Sp & <- & Rp), Hq as (Dq & Fq & Sq & <- & Rq).
  rewrite (same_reg_refl _ _ r Rp Rq), Op, Oq; cbn.
  eexists; split; [reflexivity|].
  repeat split; cbn; try congruence; rnum.
  - now apply Rmult_lt_0_compat.
  - ring.
Qed.

Lemma q_div_den div p q d1 d2 x y r :
  div_ok div -> y <> 0 ->
  stands_for p d1 x r -> stands_for q d2 y r ->
  returns (q_div div p q) (dim_div d1 d2) (x / y) r.
Proof.
  intros Hd Hy Hp Hq; unfold q_div.
  pose proof (offset_free_ok _ _ _ _ Hp) as Op.
  pose proof (offset_free_ok _ _ _ _ Hq) as Oq.
  destruct Hp as (Dp & Fp & Sp & <- & Rp), Hq as (Dq & Fq & Sq & <- & Rq).
  rewrite (same_reg_refl _ _ r Rp Rq), Op, Oq; cbn.
  assert (Hm : q_mag q <> 0) by (intros E; apply Hy; rewrite E; ring).
  rewrite Hd by assumption; cbn.
  eexists; split; [reflexivity|].
  repeat split; cbn; try congruence; rnum.
  - now apply Rdiv_lt_0_compat.
  - field; split; [lra | assumption].
Qed.

Lemma q_scale_den k q d x r :
  stands_for q d x r -> returns (q_scale k q) d (k * x) r.
Proof.
  intros Hq; unfold q_scale; rewrite (offset_free_ok _ _ _ _ Hq); cbn.
  destruct Hq as (Dq & Fq & Sq & <- & Rq).
  eexists; split; [reflexivity|]; repeat split; cbn; auto; rnum; ring.
Qed.

Lemma q_scale_unit k q q' : q_scale (A:=R) k q = Ok q' -> q_unit q' = q_unit q.
Proof.
  unfold q_scale; destruct (offset_free q); cbn; [|discriminate].
  now intros [= <-].
Qed.
Lemma q_divn_unit div k q q' : q_divn (A:=R) div q k = Ok q' -> q_unit q' = q_unit q.
Proof.
  unfold q_divn; destruct (offset_free q); cbn; [|discriminate].
  destruct (div (q_mag q) k); cbn; [|discriminate]. now intros [= <-].
Qed.

Lemma q_divn_den div k q d x r :
  div_ok div -> k <> 0 -> stands_for q d x r ->
  returns (q_divn div q k) d (x / k) r.
Proof.
  intros Hd Hk Hq; unfold q_divn; rewrite (offset_free_ok _ _ _ _ Hq); cbn.
  destruct Hq as (Dq & Fq & Sq & <- & Rq).
  rewrite Hd by assumption; cbn.
  eexists; split; [reflexivity|]; repeat split; cbn; auto; rnum; field; assumption.
Qed.

Lemma n_divq_den div k q d x r :
  div_ok div -> x <> 0 -> stands_for q d x r ->
  returns (n_divq div k q) (dim_div d_none d) (k / x) r.
Proof.
  intros Hd Hx Hq; unfold n_divq; rewrite (offset_free_ok _ _ _ _ Hq); cbn.
  destruct Hq as (Dq & Fq & Sq & <- & Rq).
  assert (Hm : q_mag q <> 0) by (intros E; apply Hx; rewrite E; ring).
  rewrite Hd by assumption; cbn.
  eexists; split; [reflexivity|]; repeat split; cbn; auto; rnum; rewrite ?one_R.
  - now rewrite Dq.
  - apply Rdiv_lt_0_compat; lra.
  - field; split; (assumption || lra).
Qed.

Lemma q_to_den q u d x r :
  stands_for q d x r -> u_dim u = d -> u_off u = None -> 0 < u_scale u ->
  returns (q_to q u) d x r.
Proof.
  intros Hq Du Fu Su; unfold q_to.
  pose proof (stands_base _ _ _ _ Hq) as B.
  destruct Hq as (Dq & Fq & Sq & E & Rq).
  rewrite Dq, Du, dim_eqb_refl, Fu.
  eexists; split; [reflexivity|]; repeat split; cbn; auto.
  rnum; rewrite B; field; lra.
Qed.

Lemma q_to_unit q u q' : q_to (A:=R) q u = Ok q' -> q_unit q' = u.
Proof.
  unfold q_to; destruct (dim_eqb _ _); [|discriminate]. now intros [= <-].
Qed.

Lemma q_to_str_den q s (u : unit_ R) d x r :
  stands_for q d x r -> lookup_unit s = Some u -> u_dim u = d -> u_off u = None ->
  returns (q_to_str q s) d x r.
Proof.
  intros Hq L Du Fu; unfold q_to_str; rewrite L.
  apply q_to_den; auto. apply lookup_wf in L; apply L.
Qed.

Lemma q_addsub_den op p q d x y r :
  (forall a b k : R, op (a * k) (b * k) = op a b * k) ->
  stands_for p d x r -> stands_for q d y r ->
  returns (q_addsub op p q) d (op x y) r.
Proof.
  intros Hop Hp Hq; unfold q_addsub.
  pose proof (offset_free_ok _ _ _ _ Hp) as Op.
  pose proof (offset_free_ok _ _ _ _ Hq) as Oq.
  rewrite Op, Oq.
  rewrite (same_reg_refl _ _ r) by (apply Hp || apply Hq); cbn.
  assert (T : returns (q_to q (q_unit p)) d y r).
  { apply q_to_den; auto; apply Hp. }
  destruct T as (q' & E & T).
  pose proof (q_to_unit _ _ _ E) as U.
  rewrite E; cbn.
  eexists; split; [reflexivity|].
  destruct Hp as (Dp & Fp & Sp & <- & Rp), T as (Dq & Fq & Sq & <- & Rq).
  repeat split; cbn; auto. rewrite U. symmetry; apply Hop.
Qed.
Lemma q_add_den p q d x y r :
  stands_for p d x r -> stands_for q d y r -> returns (q_add p q) d (x + y) r.
Proof. intros; unfold q_add; apply q_addsub_den; auto; intros; rnum; ring. Qed.
Lemma q_sub_den p q d x y r :
  stands_for p d x r -> stands_for q d y r -> returns (q_sub p q) d (x - y) r.
Proof. intros; unfold q_sub; apply q_addsub_den; auto; intros; rnum; ring. Qed.

Lemma n_addq_den k q x r :
  stands_for q d_none x r -> returns (n_addq k q) d_none (k + x) r.
Proof.
  intros Hq; unfold n_addq; rewrite (stands_base _ _ _ _ Hq).
  destruct Hq as (Dq & Fq & Sq & E & Rq); rewrite Dq, dim_eqb_refl.
  eexists; split; [reflexivity|]; repeat split; cbn; auto; rnum; rewrite ?one_R; lra.
Qed.

Lemma q_sq_den q d x r :
  stands_for q d x r -> returns (q_sq q) (dim_mul d d) (x * x) r.
Proof.
  intros Hq; unfold q_sq; rewrite (offset_free_ok _ _ _ _ Hq); cbn.
  destruct Hq as (Dq & Fq & Sq & <- & Rq).
  eexists; split; [reflexivity|]; repeat split; cbn; auto; unfold sq; rnum.
  - now rewrite Dq.
  - now apply Rmult_lt_0_compat.
  - ring.
Qed.

Lemma q_sqrt_den q d d' x r :
  stands_for q d x r -> dim_root 2 d = Some d' -> 0 <= x ->
  returns (q_sqrt q) d' (sqrt x) r.
Proof.
  intros Hq Hd Hx; unfold q_sqrt; rewrite (offset_free_ok _ _ _ _ Hq); cbn [bind].
  destruct (stands_mag_sign _ _ _ _ Hq) as [S0 _].
  destruct Hq as (Dq & Fq & Sq & <- & Rq).
  rewrite Dq, Hd. unfold npsqrt; rnum; rewrite zero_R, Rltb_false
    by (destruct (Rle_or_lt 0 (q_mag q)); [assumption | apply S0 in H; lra]); cbn.
  eexists; split; [reflexivity|]; repeat split; cbn; auto; rnum.
  - now apply sqrt_lt_R0.
  - rewrite <- sqrt_mult; auto; lra.
Qed.

Lemma q_root4_den q d d' x r :
  stands_for q d x r -> dim_root 4 d = Some d' -> 0 <= x ->
  returns (q_root4 q) d' (sqrt (sqrt x)) r.
Proof.
  intros Hq Hd Hx; unfold q_root4; rewrite (offset_free_ok _ _ _ _ Hq); cbn [bind].
  destruct (stands_mag_sign _ _ _ _ Hq) as [S0 _].
  destruct Hq as (Dq & Fq & Sq & <- & Rq).
  assert (0 <= q_mag q)
    by (destruct (Rle_or_lt 0 (q_mag q)); [assumption | apply S0 in H; lra]).
  rewrite Dq, Hd; rnum; rewrite zero_R, Rltb_false by assumption.
  eexists; split; [reflexivity|]; repeat split; cbn; auto; rnum.
  - now apply sqrt_lt_R0, sqrt_lt_R0.
  - rewrite sqrt_mult, sqrt_mult; auto using sqrt_pos; lra.
Qed.

Lemma q_cmp_den c p q d x y r :
  stands_for p d x r -> stands_for q d y r -> q_cmp c p q = Ok (c x y).
Proof.
  intros Hp Hq; unfold q_cmp.
  rewrite (same_reg_refl _ _ r) by (apply Hp || apply Hq); cbn.
  rewrite (stands_base _ _ _ _ Hp), (stands_base _ _ _ _ Hq).
  destruct Hp as (-> & _), Hq as (-> & _). now rewrite dim_eqb_refl.
Qed.

Lemma q_plain_den q x r : stands_for q d_none x r -> q_plain q = Ok x.
Proof.
  intros Hq; unfold q_plain.
  assert (T : returns (q_to q (mult_unit d_none one)) d_none x r).
  { apply q_to_den; auto; cbn; rewrite one_R; lra. }
  destruct T as (q' & E & T).
  pose proof (q_to_unit _ _ _ E) as U; rewrite E; cbn.
  destruct T as (_ & _ & _ & <- & _). rewrite U; cbn; rewrite one_R; f_equal; ring.
Qed.

Lemma quant_den m s (u : unit_ R) reg :
  lookup_unit s = Some u -> u_off u = None ->
  returns (quant reg m s) (u_dim u) (m * u_scale u) reg.
Proof.
  intros L F; unfold quant; rewrite L.
  eexists; split; [reflexivity|]; repeat split; cbn; auto. apply lookup_wf in L; apply L.
Qed.

(** ** Parsing *)
Definition parsed (q : quantity R) (d : dim) (x : R) (reg : nat) : Prop :=
  wf_unit (q_unit q) /\ u_dim (q_unit q) = d /\ worth (q_mag q) (q_unit q) x
  /\ q_reg q = reg.

Lemma parse_denotes i d x reg :
  denotes i d x -> exists q, parse_quant_input i reg = Ok q /\ parsed q d x reg.
Proof.
  intros [q d' x' W D E | m s u d' x' L D E].
  - eexists; split; [reflexivity|]. repeat split; cbn; try apply W; auto.
  - cbn. unfold quant; rewrite L. eexists; split; [reflexivity|].
    pose proof (lookup_wf _ _ L) as W. repeat split; cbn; try apply W; auto.
Qed.

Lemma parsed_stands q d x reg :
  parsed q d x reg -> d <> d_temperature -> stands_for q d x reg.
Proof.
  intros ((W1 & W2) & D & E & Rg) H. unfold worth in E.
  assert (u_off (q_unit q) = None) as F.
  { destruct (u_off (q_unit q)); [|reflexivity].
    exfalso; apply H; rewrite <- D; apply W2; discriminate. }
  rewrite F in E. repeat split; auto; lra.
Qed.

Lemma parsed_base_mag q d x reg : parsed q d x reg -> base_mag q = x.
Proof.
  intros (_ & _ & E & _); unfold worth, base_mag in *.
  destruct (u_off (q_unit q)); rnum; lra.
Qed.

Lemma parsed_base q d x reg : parsed q d x reg -> stands_for (to_base_units q) d x reg.
Proof.
  intros H; pose proof (parsed_base_mag _ _ _ _ H) as B.
  destruct H as (_ & D & _ & Rg).
  unfold to_base_units; repeat split; cbn; auto; rewrite ?one_R; try lra.
Qed.

Lemma parse_base_den i d x reg :
  denotes i d x -> returns (parse_base i reg) d x reg.
Proof.
  intros H; destruct (parse_denotes _ _ _ reg H) as (q & E & P).
  unfold parse_base; rewrite E; cbn. eexists; split; [reflexivity|].
  now apply parsed_base.
Qed.

Lemma parse_quant_den i d x reg :
  denotes i d x -> d <> d_temperature -> returns (parse_quant_input i reg) d x reg.
Proof.
  intros H N; destruct (parse_denotes _ _ _ reg H) as (q & E & P).
  rewrite E. eexists; split; [reflexivity|]. now apply parsed_stands.
Qed.

(** ** Checks *)
Lemma check_q_base q s d pos :
  supported_dimension s = Some d -> u_dim (q_unit q) = d ->
  (pos = true -> 0 <= base_mag q) ->
  check_q q s pos = Ok true.
Proof.
  intros Hs Hd Hp; unfold check_q, check_pint_quantity; cbn [bind]; rewrite Hs.
  change (base_mag {| q_mag := q_mag q; q_unit := q_unit q; q_reg := 0 |})
    with (base_mag q).
  rewrite Hd, dim_eqb_refl. rnum; rewrite zero_R.
  destruct pos; cbn [andb]; [rewrite Rltb_false by auto|]; reflexivity.
Qed.

Lemma check_q_ok q s d x r pos :
  stands_for q d x r -> supported_dimension s = Some d -> (pos = true -> 0 <= x) ->
  check_q q s pos = Ok true.
Proof.
  intros Hq Hs Hp; eapply check_q_base; eauto; [apply Hq|].
  now rewrite (stands_base _ _ _ _ Hq).
Qed.

Lemma check_q_neg q s d :
  supported_dimension s = Some d -> base_mag q < 0 ->
  check_q q s true = Err (ValueError "Input value < 0").
Proof.
  intros Hs Hn; unfold check_q, check_pint_quantity; cbn [bind]; rewrite Hs.
  change (base_mag {| q_mag := q_mag q; q_unit := q_unit q; q_reg := 0 |})
    with (base_mag q).
  rnum; rewrite zero_R, Rltb_true by assumption; reflexivity.
Qed.

Lemma check_q_dim q s d pos :
  supported_dimension s = Some d -> u_dim (q_unit q) <> d ->
  is_value_error (check_q q s pos).
Proof.
  intros Hs Hd; unfold check_q, check_pint_quantity; cbn [bind]; rewrite Hs.
  rewrite dim_eqb_neq by assumption.
  destruct (pos && _); cbn; unfold is_value_error; eauto.
Qed.

(** Every outcome of a check. *)
Lemma check_q_inv q s d pos b :
  supported_dimension s = Some d -> check_q q s pos = Ok b ->
  u_dim (q_unit q) = d /\ (pos = true -> 0 <= base_mag q).
Proof.
  intros Hs; unfold check_q, check_pint_quantity; cbn [bind]; rewrite Hs.
  change (base_mag {| q_mag := q_mag q; q_unit := q_unit q; q_reg := 0 |})
    with (base_mag q).
  rnum; rewrite zero_R.
  destruct (dim_eqb (u_dim (q_unit q)) d) eqn:E; [apply dim_eqb_eq in E|].
  - destruct pos; cbn [andb].
    + destruct (Rltb_spec (base_mag q) 0); cbn; [discriminate|].
      intros _; split; auto; intros _; lra.
    + intros _; split; auto; discriminate.
  - destruct (pos && _); cbn; discriminate.
Qed.

(** ** Tactics *)
Ltac nz := let E := fresh in intros E; lra.

(** Step over the first bind of the goal, whose operands are known. *)
Ltac den_use lem :=
  let z := fresh "q" in let E := fresh "E" in let Hz := fresh "Hq" in
  destruct lem as (z & E & Hz); rewrite E; cbn [bind]; clear E.

Ltac side := first [assumption | nz | lra | idtac].

Ltac dstep :=
  match goal with
  | H : denotes ?i ?d ?x |- context [bind (parse_base ?i ?r) _] =>
    den_use (parse_base_den i d x r H)
  | H : denotes ?i ?d ?x |- context [bind (parse_quant_input ?i ?r) _] =>
    den_use (parse_quant_den i d x r H ltac:(discriminate))
  | H : stands_for ?q ?d ?x ?r |- context [bind (check_q ?q ?s ?p) _] =>
    rewrite (check_q_ok q s d x r p H eq_refl) by (discriminate || (intros _; lra));
    cbn [bind]
  | Ha : stands_for ?a ?d1 ?x ?r, Hb : stands_for ?b ?d2 ?y ?r
    |- context [bind (q_mul ?a ?b) _] =>
    den_use (q_mul_den a b d1 d2 x y r Ha Hb)
  | Ha : stands_for ?a ?d1 ?x ?r, Hb : stands_for ?b ?d2 ?y ?r
    |- context [bind (q_div pydiv ?a ?b) _] =>
    let N := fresh "N" in
    assert (N : y <> 0); [side | den_use (q_div_den pydiv a b d1 d2 x y r pydiv_ok N Ha Hb)]
  | Ha : stands_for ?a ?d1 ?x ?r, Hb : stands_for ?b ?d2 ?y ?r
    |- context [bind (q_div npdiv ?a ?b) _] =>
    let N := fresh "N" in
    assert (N : y <> 0); [side | den_use (q_div_den npdiv a b d1 d2 x y r npdiv_ok N Ha Hb)]
  | Ha : stands_for ?a ?d ?x ?r |- context [bind (q_scale ?k ?a) _] =>
    den_use (q_scale_den k a d x r Ha)
  | Ha : stands_for ?a ?d ?x ?r |- context [bind (q_divn pydiv ?a ?k) _] =>
    let N := fresh "N" in
    assert (N : k <> 0); [rnum; q2r; side | den_use (q_divn_den pydiv k a d x r pydiv_ok N Ha)]
  | Ha : stands_for ?a ?d ?x ?r |- context [bind (n_divq pydiv ?k ?a) _] =>
    let N := fresh "N" in
    assert (N : x <> 0); [side | den_use (n_divq_den pydiv k a d x r pydiv_ok N Ha)]
  | Ha : stands_for ?a ?d ?x ?r, Hb : stands_for ?b ?d ?y ?r
    |- context [bind (q_add ?a ?b) _] =>
    den_use (q_add_den a b d x y r Ha Hb)
  | Ha : stands_for ?a ?d ?x ?r, Hb : stands_for ?b ?d2 ?y ?r
    |- context [bind (q_add ?a ?b) _] =>
    den_use (q_add_den a b d x y r Ha Hb)
  | Ha : stands_for ?a ?d ?x ?r, Hb : stands_for ?b ?d2 ?y ?r
    |- context [bind (q_sub ?a ?b) _] =>
    den_use (q_sub_den a b d x y r Ha Hb)
  | Ha : stands_for ?a ?d ?x ?r |- context [bind (n_addq ?k ?a) _] =>
    den_use (n_addq_den k a x r Ha)
  | Ha : stands_for ?a ?d ?x ?r |- context [bind (q_sq ?a) _] =>
    den_use (q_sq_den a d x r Ha)
  | Ha : stands_for ?a ?d ?x ?r, Hb : stands_for ?b ?d2 ?y ?r
    |- context [bind (q_lt ?a ?b) _] =>
    rewrite (q_cmp_den nltb a b d x y r Ha Hb : q_lt a b = _); cbn [bind]
  | Ha : stands_for ?a ?d ?x ?r |- context [bind (q_plain ?a) _] =>
    rewrite (q_plain_den a x r Ha); cbn [bind]
  | Ha : stands_for ?a ?d ?x ?r |- context [bind (q_sqrt ?a) _] =>
    let N := fresh "N" in
    assert (N : 0 <= x); [side | den_use (q_sqrt_den a d _ x r Ha eq_refl N)]
  | Ha : stands_for ?a ?d ?x ?r |- context [bind (q_to_str ?a ?s) _] =>
    den_use (q_to_str_den a s _ d x r Ha eq_refl eq_refl eq_refl)
  | |- context [bind (quant ?r ?m ?s) _] =>
    den_use (quant_den m s _ r eq_refl eq_refl)
  end.

(** ** Every outcome of the positive check on a parsed argument *)
Lemma check_q_cases q d' x r s d :
  stands_for q d' x r -> supported_dimension s = Some d ->
  (d' = d /\ 0 <= x /\ check_q q s true = Ok true)
  \/ ((d' <> d \/ x < 0) /\ is_value_error (check_q q s true)).
Proof.
  intros Hq Hs.
  destruct (dim_eqb d' d) eqn:E.
  - apply dim_eqb_eq in E; subst d'.
    destruct (Rlt_or_le x 0) as [N|N].
    + right; split; auto. unfold is_value_error.
      rewrite (check_q_neg q s d Hs) by now rewrite (stands_base _ _ _ _ Hq). eauto.
    + left; repeat split; auto. eapply check_q_ok; eauto.
  - right; split.
    + left; intros ->; now rewrite dim_eqb_refl in E.
    + eapply check_q_dim; eauto. destruct Hq as (-> & _). intros ->.
      now rewrite dim_eqb_refl in E.
Qed.

Lemma is_value_error_bind {A B} (r : result A) (f : A -> result B) :
  is_value_error r -> is_value_error (bind r f).
Proof. intros (m & ->); unfold is_value_error; cbn; eauto. Qed.

Lemma value_error_intro {A} m : is_value_error (@Err A (ValueError m)).
Proof. unfold is_value_error; eauto. Qed.

(** ** Convenient denotations *)
Lemma denotes_in m s (u : unit_ R) x :
  lookup_unit s = Some u -> worth m u x -> denotes (PSeq [ENum m; EStr s]) (u_dim u) x.
Proof. intros; eapply denotes_pair; eauto. Qed.
Lemma denotes_m x : denotes (PSeq [ENum x; EStr "m"]) d_length x.
Proof. eapply denotes_pair; [reflexivity|reflexivity|]. unfold worth; cbn; rewrite one_R; ring. Qed.
Lemma denotes_Pa x : denotes (PSeq [ENum x; EStr "Pa"]) d_pressure x.
Proof. eapply denotes_pair; [reflexivity|reflexivity|]. unfold worth; cbn; rewrite one_R; ring. Qed.
Lemma denotes_K x : denotes (PSeq [ENum x; EStr "K"]) d_temperature x.
Proof. eapply denotes_pair; [reflexivity|reflexivity|]. unfold worth; cbn; rewrite one_R; ring. Qed.
Lemma denotes_inch x : denotes (PSeq [ENum x; EStr "in"]) d_length (x * (254/10000)).
Proof.
  eapply denotes_pair; [reflexivity|reflexivity|].
  unfold worth, s_inch; cbn; rnum; unfold s_inch; rnum; q2r; lra.
Qed.
Lemma denotes_MPa x : denotes (PSeq [ENum x; EStr "MPa"]) d_pressure (x * 1000000).
Proof.
  eapply denotes_pair; [reflexivity|reflexivity|].
  unfold worth; cbn; rnum; q2r; lra.
Qed.
Lemma stands_denotes q d x r : stands_for q d x r -> denotes (PQuant q) d x.
Proof.
  intros (D & F & S & E & _). constructor; auto.
  - split; auto. rewrite F; congruence.
  - unfold worth; rewrite F; lra.
Qed.

(** The positive check on any quantity. *)
Lemma check_cases q d' x s d pos :
  u_dim (q_unit q) = d' -> worth (q_mag q) (q_unit q) x ->
  supported_dimension s = Some d ->
  (d' = d /\ (pos = true -> 0 <= x) /\ check_q q s pos = Ok true)
  \/ ((d' <> d \/ (pos = true /\ x < 0)) /\ is_value_error (check_q q s pos)).
Proof.
  intros D W Hs.
  assert (B : base_mag q = x).
  { unfold worth, base_mag in *; destruct (u_off (q_unit q)); rnum; lra. }
  destruct (dim_eqb d' d) eqn:E.
  - apply dim_eqb_eq in E; subst d.
    destruct pos.
    + destruct (Rlt_or_le x 0) as [N|N].
      * right; split; auto. unfold is_value_error.
        rewrite (check_q_neg q s d' Hs) by now rewrite B. eauto.
      * left; repeat split; auto. eapply check_q_base; eauto. now rewrite B.
    + left; repeat split; auto; [discriminate|]. eapply check_q_base; eauto; discriminate.
  - assert (d' <> d) by (intros Ed; now rewrite Ed, dim_eqb_refl in E).
    right; split; auto. eapply check_q_dim; eauto. congruence.
Qed.
