(** * IeeeOrderP: the window and blockage functions on all doubles. *)
From Coq Require Import SpecFloat String ZArith QArith Reals Qreals List Bool Lra Lia.
From Flocq Require Import Core BinarySingleNaN.
From Verif Require Import PyBase Pint UnitsM WindowM DdtM QLemmas IeeeM IeeeSpec IeeeP IeeeSignP.
Import ListNotations.
Local Open Scope R_scope.

Lemma ok_inj {A} (a a' : A) : Ok a = Ok a' -> a = a'.
Proof. congruence. Qed.
Notation B0 := (@zero b64 NB).
Notation B1 := (@one b64 NB).

(** Unfolding a successful call *)
Lemma parse_base_inv {A} {NA : Num A} (i : pyin A) reg Q : parse_base i reg = Ok Q ->
  exists q, parse_quant_input i reg = Ok q
            /\ Q = mkQ (base_mag q) (mult_unit (u_dim (q_unit q)) one) (q_reg q).
Proof.
  unfold parse_base. intros H. apply bind_inv in H. destruct H as (q & E & F). exists q.
  split; [exact E|]. unfold to_base_units in F. congruence.
Qed.
Lemma check_inv (q : quantity b64) name b d : @check_q b64 NB q name true = Ok b ->
  supported_dimension name = Some d ->
  Bltb (base_mag (mkQ (q_mag q) (q_unit q) 0)) B0 = false /\ u_dim (q_unit q) = d.
Proof.
  unfold check_q, check_pint_quantity. cbn [bind]. intros H S. rewrite S in H. revert H.
  destruct (andb true _) eqn:E; cbn [raise_if bind]; [discriminate|].
  destruct (dim_eqb (u_dim (q_unit q)) d) eqn:D; cbn [negb raise_if bind]; [|discriminate].
  intros _. split; [exact E|now apply dim_eqb_eq].
Qed.

Definition base_arg (d : dim) (i : pyin b64) (reg : nat) (m : b64) : Prop :=
  exists q, parse_quant_input i reg = Ok q /\ m = base_mag q /\ nn m /\ u_dim (q_unit q) = d.

Definition c1 : b64 := @sq b64 NB (@ndiv b64 NB B1 B1).
Definition c2 : b64 := @nmul b64 NB c1 (@nmul b64 NB B1 B1).
Definition K : b64 := @window_k b64 NB.
Definition two : b64 := @nofQ b64 NB 2.
Definition chain (t L W P M : b64) : b64 :=
  let r := Bdiv mode_NE L W in
  let q := Bplus mode_NE B1 (Bmult mode_NE (Bmult mode_NE r r) c1) in
  let tl := Bdiv mode_NE t L in
  Bdiv mode_NE (Bmult mode_NE (Bdiv mode_NE
    (Bmult mode_NE (Bmult mode_NE tl tl) (Bmult mode_NE (Bmult mode_NE two M) q))
    (Bmult mode_NE K P)) (Bdiv mode_NE c2 B1)) B1.

Ltac step H := apply bind_inv in H; let x := fresh "x" in let E := fresh "E" in destruct H as (x & E & H).

Lemma pydiv_inv (x y z : b64) : @pydiv b64 NB x y = Ok z -> Beqb y B0 = false /\ z = Bdiv mode_NE x y.
Proof.
  unfold pydiv. cbn [neqb NB ndiv]. destruct (Beqb y B0) eqn:E; [discriminate|]. intros H.
  split; [reflexivity|congruence].
Qed.
Lemma q_div_inv m1 d1 s1 r1 m2 d2 s2 r2 (q : quantity b64) :
  q_div (@pydiv b64 NB) (mkQ m1 (mult_unit d1 s1) r1) (mkQ m2 (mult_unit d2 s2) r2) = Ok q ->
  Beqb m2 B0 = false
  /\ q = mkQ (Bdiv mode_NE m1 m2) (mult_unit (dim_div d1 d2) (Bdiv mode_NE s1 s2)) r1.
Proof.
  unfold q_div. intros H. step H. step H. step H. step H.
  apply pydiv_inv in E2. destruct E2 as (Z & ->). split; [exact Z|]. apply ok_inj in H. rewrite <- H. reflexivity.
Qed.
Lemma q_mul_inv m1 d1 s1 r1 m2 d2 s2 r2 (q : quantity b64) :
  @q_mul b64 NB (mkQ m1 (mult_unit d1 s1) r1) (mkQ m2 (mult_unit d2 s2) r2) = Ok q ->
  q = mkQ (Bmult mode_NE m1 m2) (mult_unit (dim_mul d1 d2) (Bmult mode_NE s1 s2)) r1.
Proof.
  unfold q_mul. intros H. step H. step H. step H.
  apply ok_inj in H. rewrite <- H. reflexivity.
Qed.
Lemma q_sq_inv m d s r (q : quantity b64) :
  @q_sq b64 NB (mkQ m (mult_unit d s) r) = Ok q ->
  q = mkQ (Bmult mode_NE m m) (mult_unit (dim_mul d d) (@sq b64 NB s)) r.
Proof.
  unfold q_sq. intros H. step H.
  apply ok_inj in H. rewrite <- H. reflexivity.
Qed.
Lemma q_scale_inv c m d s r (q : quantity b64) :
  @q_scale b64 NB c (mkQ m (mult_unit d s) r) = Ok q ->
  q = mkQ (Bmult mode_NE c m) (mult_unit d s) r.
Proof.
  unfold q_scale. intros H. step H.
  apply ok_inj in H. rewrite <- H. reflexivity.
Qed.
Lemma n_addq_inv c m d s r (q : quantity b64) :
  @n_addq b64 NB c (mkQ m (mult_unit d s) r) = Ok q ->
  q = mkQ (Bplus mode_NE c (Bmult mode_NE m s)) (mult_unit d_none B1) r.
Proof.
  unfold n_addq. destruct (dim_eqb _ _); [|discriminate]. intros H. apply ok_inj in H. rewrite <- H. reflexivity.
Qed.
Lemma q_to_inv m d s r d' s' (q : quantity b64) :
  @q_to b64 NB (mkQ m (mult_unit d s) r) (mult_unit d' s') = Ok q ->
  q = mkQ (Bdiv mode_NE (Bmult mode_NE m s) s') (mult_unit d' s') r.
Proof.
  unfold q_to. destruct (dim_eqb _ _); [|discriminate].
  intros H. apply ok_inj in H. rewrite <- H. reflexivity.
Qed.
Lemma q_plain_inv m d s r (x : b64) :
  @q_plain b64 NB (mkQ m (mult_unit d s) r) = Ok x -> x = Bdiv mode_NE (Bmult mode_NE m s) B1.
Proof.
  unfold q_plain. intros H. step H. apply q_to_inv in E. subst x0. apply ok_inj in H. rewrite <- H. reflexivity.
Qed.

Lemma arg_inv i reg Q name b d : @parse_base b64 NB i reg = Ok Q -> @check_q b64 NB Q name true = Ok b ->
  supported_dimension name = Some d ->
  exists m r, base_arg d i reg m /\ Q = mkQ m (mult_unit d B1) r.
Proof.
  intros P C S. apply parse_base_inv in P. destruct P as (q & E & ->).
  apply (fun h => check_inv _ _ _ _ h S) in C. destruct C as (C & D). cbn [q_unit u_dim mult_unit] in D.
  cbn [q_mag q_unit base_mag mult_unit Pint.u_off u_scale nmul NB] in C.
  exists (base_mag q), (q_reg q). split; [|now rewrite D].
  exists q. split; [exact E|]. split; [reflexivity|]. split; [now apply accepted_nn|exact D].
Qed.

Lemma safety_factor_chain l w t p m reg f : @safety_factor b64 NB l w t p m reg = Ok f ->
  exists L W T P M, base_arg d_length l reg L /\ base_arg d_length w reg W /\ base_arg d_length t reg T /\ base_arg d_pressure p reg P /\ base_arg d_pressure m reg M
    /\ Beqb L B0 = false /\ Beqb W B0 = false /\ Beqb (Bmult mode_NE K P) B0 = false
    /\ f = chain T L W P M.
Proof.
  unfold safety_factor. intros H.
  apply bind_inv in H; destruct H as (QL & PL & H). apply bind_inv in H; destruct H as (QW & PW & H).
  apply bind_inv in H; destruct H as (QT & PT & H). apply bind_inv in H; destruct H as (QP & PP & H).
  apply bind_inv in H; destruct H as (QM & PM & H).
  apply bind_inv in H; destruct H as (? & CL & H). apply bind_inv in H; destruct H as (? & CW & H).
  apply bind_inv in H; destruct H as (? & CT & H). apply bind_inv in H; destruct H as (? & CP & H).
  apply bind_inv in H; destruct H as (? & CM & H).
  destruct (arg_inv _ _ _ _ _ _ PL CL eq_refl) as (L & rl & AL & ->).
  destruct (arg_inv _ _ _ _ _ _ PW CW eq_refl) as (W & rw & AW & ->).
  destruct (arg_inv _ _ _ _ _ _ PT CT eq_refl) as (T & rt & AT & ->).
  destruct (arg_inv _ _ _ _ _ _ PP CP eq_refl) as (P & rp & AP & ->).
  destruct (arg_inv _ _ _ _ _ _ PM CM eq_refl) as (M & rm & AM & ->).
  clear PL PW PT PP PM CL CW CT CP CM.
  exists L, W, T, P, M. do 5 (split; [assumption|]).
  apply bind_inv in H; destruct H as (q & E & H). apply q_div_inv in E. destruct E as (ZW & ->).
  apply bind_inv in H; destruct H as (q & E & H). apply q_div_inv in E. destruct E as (ZL & ->).
  apply bind_inv in H; destruct H as (q & E & H). apply q_sq_inv in E. subst q.
  apply bind_inv in H; destruct H as (q & E & H). apply q_scale_inv in E. subst q.
  apply bind_inv in H; destruct H as (q & E & H). apply q_sq_inv in E. subst q.
  apply bind_inv in H; destruct H as (q & E & H). apply n_addq_inv in E. subst q.
  apply bind_inv in H; destruct H as (q & E & H). apply q_mul_inv in E. subst q.
  apply bind_inv in H; destruct H as (q & E & H). apply q_mul_inv in E. subst q.
  apply bind_inv in H; destruct H as (q & E & H). apply q_scale_inv in E. subst q.
  apply bind_inv in H; destruct H as (q & E & H). apply q_div_inv in E. destruct E as (ZP & ->).
  apply q_plain_inv in H.
  split; [exact ZL|]. split; [exact ZW|]. split; [exact ZP|]. exact H.
Qed.

Lemma c1_pp : pp c1. Proof. vm_compute. reflexivity. Qed.
Lemma c2_pp : pp c2. Proof. vm_compute. reflexivity. Qed.
Lemma c21_pp : pp (Bdiv mode_NE c2 B1). Proof. vm_compute. reflexivity. Qed.
Lemma B1_pp : pp B1. Proof. vm_compute. reflexivity. Qed.
Lemma two_pp : pp two. Proof. vm_compute. reflexivity. Qed.
Lemma K_pp : pp K. Proof. vm_compute. reflexivity. Qed.
Lemma pp_nz x : pp x -> Beqb x B0 = false.
Proof. destruct x as [s|[|]| |[|] m e B]; try discriminate. reflexivity. Qed.

Lemma ratio_nn L W : nn L -> nn W -> Beqb W B0 = false ->
  nn (Bplus mode_NE B1 (Bmult mode_NE (Bmult mode_NE (Bdiv mode_NE L W) (Bdiv mode_NE L W)) c1)).
Proof.
  intros A B Z. apply add_nn; [apply pp_nn, B1_pp|]. apply mul_nn; [|apply pp_nn, c1_pp].
  apply mul_nn; now apply div_nn.
Qed.

Lemma chain_nn t L W P M : nn t -> nn L -> nn W -> nn P -> nn M ->
  Beqb L B0 = false -> Beqb W B0 = false -> Beqb (Bmult mode_NE K P) B0 = false ->
  nn (chain t L W P M).
Proof.
  intros Ht HL HW HP HM ZL ZW ZP. unfold chain.
  apply div_nn; [|apply pp_nn, B1_pp|apply pp_nz, B1_pp].
  apply mul_nn; [|apply pp_nn, c21_pp].
  apply div_nn; [|apply mul_nn; [apply pp_nn, K_pp|exact HP]|exact ZP].
  apply mul_nn; [apply mul_nn; now apply div_nn|].
  apply mul_nn; [apply mul_nn; [apply pp_nn, two_pp|exact HM]|now apply ratio_nn].
Qed.

Lemma xr_refl x : xr x <= xr x. Proof. lra. Qed.

(** The last two steps, and the order in every argument. *)
Lemma chain_le t t' L W P P' M M' :
  nn t -> nn t' -> nn L -> nn W -> nn P -> nn P' -> nn M -> nn M' ->
  Beqb L B0 = false -> Beqb W B0 = false ->
  Beqb (Bmult mode_NE K P) B0 = false -> Beqb (Bmult mode_NE K P') B0 = false ->
  xr t <= xr t' -> xr P' <= xr P -> xr M <= xr M' ->
  is_nan (chain t L W P M) = false -> is_nan (chain t' L W P' M') = false ->
  xr (chain t L W P M) <= xr (chain t' L W P' M').
Proof.
  intros Ht Ht' HL HW HP HP' HM HM' ZL ZW ZP ZP' Lt LP LM N N'. unfold chain in *.
  set (q := Bplus mode_NE B1 _) in *.
  assert (Hq : nn q) by now apply ratio_nn.
  assert (Nk := pp_nn _ K_pp). assert (N2 := pp_nn _ two_pp). assert (N1 := pp_nn _ B1_pp).
  assert (Nc := pp_nn _ c21_pp).
  set (tl := Bdiv mode_NE t L) in *. set (tl' := Bdiv mode_NE t' L) in *.
  assert (Htl : nn tl) by now apply div_nn. assert (Htl' : nn tl') by now apply div_nn.
  destruct (div_nan _ _ N) as (N3 & _). destruct (div_nan _ _ N') as (N3' & _).
  destruct (mul_nan _ _ N3) as (N4 & _). destruct (mul_nan _ _ N3') as (N4' & _).
  destruct (div_nan _ _ N4) as (N5 & N6). destruct (div_nan _ _ N4') as (N5' & N6').
  destruct (mul_nan _ _ N5) as (N7 & N8). destruct (mul_nan _ _ N5') as (N7' & N8').
  destruct (mul_nan _ _ N7) as (N9 & _). destruct (mul_nan _ _ N7') as (N9' & _).
  destruct (mul_nan _ _ N8) as (N10 & _). destruct (mul_nan _ _ N8') as (N10' & _).
  assert (D : nn (Bmult mode_NE K P)) by now apply mul_nn.
  assert (D' : nn (Bmult mode_NE K P')) by now apply mul_nn.
  assert (Q1 : nn (Bmult mode_NE two M)) by now apply mul_nn.
  assert (Q1' : nn (Bmult mode_NE two M')) by now apply mul_nn.
  assert (Q2 : nn (Bmult mode_NE tl tl)) by now apply mul_nn.
  assert (Q2' : nn (Bmult mode_NE tl' tl')) by now apply mul_nn.
  assert (Q3 : nn (Bmult mode_NE (Bmult mode_NE two M) q)) by now apply mul_nn.
  assert (Q3' : nn (Bmult mode_NE (Bmult mode_NE two M') q)) by now apply mul_nn.
  apply div_le; try assumption; try apply xr_refl; try (apply pp_nz, B1_pp).
  1, 2: apply mul_nn; [apply div_nn; [apply mul_nn|..]|]; assumption.
  apply mul_le; try assumption; try apply xr_refl.
  1, 2: apply div_nn; [apply mul_nn|..]; assumption.
  apply div_le; try assumption.
  1, 2: now apply mul_nn.
  - apply mul_le; try assumption.
    + assert (xr tl <= xr tl') by (apply div_le; try assumption; apply xr_refl).
      apply mul_le; assumption.
    + apply mul_le; try assumption; try apply xr_refl.
      apply mul_le; try assumption; apply xr_refl.
  - apply mul_le; try assumption; apply xr_refl.
Qed.

(** ** minimum_thickness *)
Definition c3 : b64 := @nmul b64 NB B1 (@nsqrt b64 NB (@ndiv b64 NB B1 (@nmul b64 NB B1 B1))).
Definition chain_min (L W s P M : b64) : b64 :=
  let r := Bdiv mode_NE L W in
  let q := Bplus mode_NE B1 (Bmult mode_NE (Bmult mode_NE r r) c1) in
  Bdiv mode_NE (Bmult mode_NE
    (Bmult mode_NE
      (Bmult mode_NE (Bsqrt mode_NE (Bdiv mode_NE (Bmult mode_NE s K) two)) L)
      (Bsqrt mode_NE (Bdiv mode_NE P (Bmult mode_NE M q)))) c3) B1.

Lemma npsqrt_inv (x y : b64) : @npsqrt b64 NB x = Ok y -> y = Bsqrt mode_NE x.
Proof.
  unfold npsqrt. cbn [nltb NB nsqrt]. destruct (Bltb x B0); [discriminate|]. congruence.
Qed.
Lemma q_sqrt_inv m d s r (q : quantity b64) :
  @q_sqrt b64 NB (mkQ m (mult_unit d s) r) = Ok q ->
  exists d', q = mkQ (Bsqrt mode_NE m) (mult_unit d' (Bsqrt mode_NE s)) r.
Proof.
  unfold q_sqrt. intros H. step H. cbn [q_unit u_dim mult_unit] in H.
  destruct (dim_root 2 d) as [d'|]; [|discriminate]. step H.
  apply npsqrt_inv in E0. subst x0. exists d'. apply ok_inj in H. rewrite <- H. reflexivity.
Qed.

Lemma minimum_thickness_chain l w s p m reg q : @minimum_thickness b64 NB l w (SfNum s) p m reg = Ok q ->
  exists L W P M, base_arg d_length l reg L /\ base_arg d_length w reg W
    /\ base_arg d_pressure p reg P /\ base_arg d_pressure m reg M
    /\ Bltb s B1 = false /\ Beqb W B0 = false
    /\ Beqb (Bmult mode_NE M (Bplus mode_NE B1 (Bmult mode_NE (Bmult mode_NE (Bdiv mode_NE L W) (Bdiv mode_NE L W)) c1))) B0 = false
    /\ q_mag q = chain_min L W s P M /\ q_unit q = mult_unit d_length B1.
Proof.
  unfold minimum_thickness. intros H.
  apply bind_inv in H; destruct H as (QL & PL & H). apply bind_inv in H; destruct H as (QW & PW & H).
  apply bind_inv in H; destruct H as (QP & PP & H). apply bind_inv in H; destruct H as (QM & PM & H).
  apply bind_inv in H; destruct H as (? & CL & H). apply bind_inv in H; destruct H as (? & CW & H).
  apply bind_inv in H; destruct H as (? & CP & H). apply bind_inv in H; destruct H as (? & CM & H).
  destruct (arg_inv _ _ _ _ _ _ PL CL eq_refl) as (L & rl & AL & ->).
  destruct (arg_inv _ _ _ _ _ _ PW CW eq_refl) as (W & rw & AW & ->).
  destruct (arg_inv _ _ _ _ _ _ PP CP eq_refl) as (P & rp & AP & ->).
  destruct (arg_inv _ _ _ _ _ _ PM CM eq_refl) as (M & rm & AM & ->).
  clear PL PW PP PM CL CW CP CM.
  exists L, W, P, M. do 4 (split; [assumption|]).
  apply bind_inv in H; destruct H as (sf & Es & H). cbn [nltb NB] in Es.
  destruct (Bltb s B1) eqn:S1; [discriminate|]. apply ok_inj in Es. subst sf. split; [reflexivity|].
  apply bind_inv in H; destruct H as (q0 & E & H). apply q_div_inv in E. destruct E as (ZW & ->).
  apply bind_inv in H; destruct H as (q0 & E & H). apply npsqrt_inv in E. subst q0.
  apply bind_inv in H; destruct H as (q0 & E & H). apply q_scale_inv in E. subst q0.
  apply bind_inv in H; destruct H as (q0 & E & H). apply q_sq_inv in E. subst q0.
  apply bind_inv in H; destruct H as (q0 & E & H). apply n_addq_inv in E. subst q0.
  apply bind_inv in H; destruct H as (q0 & E & H). apply q_mul_inv in E. subst q0.
  apply bind_inv in H; destruct H as (q0 & E & H). apply q_div_inv in E. destruct E as (ZM & ->).
  apply bind_inv in H; destruct H as (q0 & E & H). apply q_sqrt_inv in E. destruct E as (d' & ->).
  apply bind_inv in H; destruct H as (q0 & E & H). apply q_mul_inv in E. subst q0.
  apply q_to_inv in H. subst q. cbn [q_mag q_unit].
  split; [exact ZW|]. split; [exact ZM|]. split; reflexivity.
Qed.

Lemma c3_pp : pp c3. Proof. vm_compute. reflexivity. Qed.
Lemma sf_nn s : Bltb s B1 = false -> nn s.
Proof.
  intros H. destruct (is_nan s) eqn:N; [destruct s; try discriminate; reflexivity|].
  destruct (nnb s) eqn:W; [exact W|]. exfalso. rewrite one_eq in H.
  destruct (not_nn s N ltac:(unfold nn; congruence)) as [->|(F & L)]; [discriminate|].
  rewrite Bltb_correct in H; [|exact F|reflexivity]. rewrite one_lit_1 in H.
  rewrite Rlt_bool_true in H by lra. discriminate.
Qed.
Lemma chain_min_nn L W s P M : nn L -> nn W -> nn s -> nn P -> nn M ->
  Beqb W B0 = false ->
  Beqb (Bmult mode_NE M (Bplus mode_NE B1 (Bmult mode_NE (Bmult mode_NE (Bdiv mode_NE L W) (Bdiv mode_NE L W)) c1))) B0 = false ->
  nn (chain_min L W s P M).
Proof.
  intros HL HW Hs HP HM ZW ZM. unfold chain_min.
  apply div_nn; [|apply pp_nn, B1_pp|apply pp_nz, B1_pp].
  apply mul_nn; [|apply pp_nn, c3_pp].
  apply mul_nn.
  - apply mul_nn; [|exact HL]. apply sqrt_nn, div_nn; [|apply pp_nn, two_pp|apply pp_nz, two_pp].
    apply mul_nn; [exact Hs|apply pp_nn, K_pp].
  - apply sqrt_nn, div_nn; [exact HP| |exact ZM]. apply mul_nn; [exact HM|]. now apply ratio_nn.
Qed.
Lemma chain_min_le L W s s' P P' M M' :
  nn L -> nn W -> nn s -> nn s' -> nn P -> nn P' -> nn M -> nn M' ->
  Beqb W B0 = false ->
  (forall X, X = M \/ X = M' ->
   Beqb (Bmult mode_NE X (Bplus mode_NE B1 (Bmult mode_NE (Bmult mode_NE (Bdiv mode_NE L W) (Bdiv mode_NE L W)) c1))) B0 = false) ->
  xr s <= xr s' -> xr P <= xr P' -> xr M' <= xr M ->
  is_nan (chain_min L W s P M) = false -> is_nan (chain_min L W s' P' M') = false ->
  xr (chain_min L W s P M) <= xr (chain_min L W s' P' M').
Proof.
  intros HL HW Hs Hs' HP HP' HM HM' ZW ZM Ls LP LM N N'. unfold chain_min in *.
  pose proof (ZM M (or_introl eq_refl)) as Z. pose proof (ZM M' (or_intror eq_refl)) as Z'. clear ZM.
  set (q := Bplus mode_NE B1 _) in *.
  assert (Hq : nn q) by now apply ratio_nn.
  assert (Nk := pp_nn _ K_pp). assert (N2 := pp_nn _ two_pp). assert (N1 := pp_nn _ B1_pp).
  assert (Nc := pp_nn _ c3_pp). assert (Z2 := pp_nz _ two_pp). assert (Z1 := pp_nz _ B1_pp).
  destruct (div_nan _ _ N) as (A1 & _). destruct (div_nan _ _ N') as (A1' & _).
  destruct (mul_nan _ _ A1) as (A2 & _). destruct (mul_nan _ _ A1') as (A2' & _).
  destruct (mul_nan _ _ A2) as (A3 & A4). destruct (mul_nan _ _ A2') as (A3' & A4').
  destruct (mul_nan _ _ A3) as (A5 & _). destruct (mul_nan _ _ A3') as (A5' & _).
  pose proof (sqrt_nan _ A5) as A6. pose proof (sqrt_nan _ A5') as A6'.
  pose proof (sqrt_nan _ A4) as A7. pose proof (sqrt_nan _ A4') as A7'.
  destruct (div_nan _ _ A6) as (A8 & _). destruct (div_nan _ _ A6') as (A8' & _).
  destruct (div_nan _ _ A7) as (_ & A9). destruct (div_nan _ _ A7') as (_ & A9').
  assert (B1' : nn (Bmult mode_NE s K)) by now apply mul_nn.
  assert (B2' : nn (Bmult mode_NE s' K)) by now apply mul_nn.
  assert (B3' : nn (Bmult mode_NE M q)) by now apply mul_nn.
  assert (B4' : nn (Bmult mode_NE M' q)) by now apply mul_nn.
  set (u := Bmult mode_NE s K) in *. set (u' := Bmult mode_NE s' K) in *.
  set (v := Bmult mode_NE M q) in *. set (v' := Bmult mode_NE M' q) in *.
  assert (Lu : xr u <= xr u') by (apply mul_le; try assumption; apply xr_refl).
  assert (Lv : xr v' <= xr v) by (apply mul_le; try assumption; apply xr_refl).
  assert (C1' : nn (Bdiv mode_NE u two)) by now apply div_nn.
  assert (C2' : nn (Bdiv mode_NE u' two)) by now apply div_nn.
  assert (C3' : nn (Bdiv mode_NE P v)) by now apply div_nn.
  assert (C4' : nn (Bdiv mode_NE P' v')) by now apply div_nn.
  assert (L1 : xr (Bdiv mode_NE u two) <= xr (Bdiv mode_NE u' two)) by (apply div_le; try assumption; apply xr_refl).
  assert (L2 : xr (Bdiv mode_NE P v) <= xr (Bdiv mode_NE P' v')) by (apply div_le; assumption).
  set (a := Bdiv mode_NE u two) in *. set (a' := Bdiv mode_NE u' two) in *.
  set (b := Bdiv mode_NE P v) in *. set (b' := Bdiv mode_NE P' v') in *.
  assert (L3 := sqrt_le a a' C1' C2' A6 A6' L1). assert (L4 := sqrt_le b b' C3' C4' A7 A7' L2).
  assert (D1 := sqrt_nn a C1'). assert (D2 := sqrt_nn a' C2'). assert (D3 := sqrt_nn b C3'). assert (D4 := sqrt_nn b' C4').
  assert (E1 : nn (Bmult mode_NE (Bsqrt mode_NE a) L)) by now apply mul_nn.
  assert (E2 : nn (Bmult mode_NE (Bsqrt mode_NE a') L)) by now apply mul_nn.
  assert (L5 : xr (Bmult mode_NE (Bsqrt mode_NE a) L) <= xr (Bmult mode_NE (Bsqrt mode_NE a') L))
    by (apply mul_le; try assumption; apply xr_refl).
  apply div_le; try assumption; try apply xr_refl.
  1, 2: apply mul_nn; [now apply mul_nn|exact Nc].
  apply mul_le; try assumption; try apply xr_refl.
  1, 2: now apply mul_nn.
  apply mul_le; assumption.
Qed.

(** ** The same unit *)
Lemma given_le name m1 m2 reg d b1 b2 : Bleb m1 m2 = true -> d <> d_temperature ->
  base_arg d (PSeq [ENum m1; EStr name]) reg b1 -> base_arg d (PSeq [ENum m2; EStr name]) reg b2 ->
  xr b1 <= xr b2.
Proof.
  intros L Nd (q1 & P1 & E1 & H1 & D1) (q2 & P2 & E2 & H2 & D2).
  cbn [parse_quant_input quantity_of_items] in P1, P2. unfold quant in P1, P2.
  pose proof (IeeeP.lookup_sim name) as U. pose proof (IeeeP.lookup_off name) as W.
  destruct (@lookup_unit b64 NB name) as [v|]; [|discriminate].
  destruct (@lookup_unit R IeeeP.ND name) as [v'|]; [|contradiction].
  apply ok_inj in P1. apply ok_inj in P2. subst q1 q2. cbn [q_unit] in D1.
  assert (O : Pint.u_off v = None).
  { destruct (Pint.u_off v) eqn:O; [|reflexivity]. exfalso. apply Nd. rewrite <- D1. apply (W v eq_refl). congruence. }
  destruct U as (_ & (Fs & Rs & _) & Ps & _).
  unfold base_mag in E1, E2. cbn [q_unit q_mag nmul NB] in E1, E2. rewrite O in E1, E2.
  set (s := u_scale v) in *. rewrite <- Rs in Ps.
  assert (Hs : nn s) by (apply nn_finite; [exact Fs|lra]).
  assert (Ns : pp s).
  { destruct s as [x|[|]| |[|] m e B]; try discriminate; cbn [B2R] in Ps; try lra; reflexivity. }
  assert (N1 : is_nan m1 = false) by (destruct m1; try reflexivity; discriminate).
  assert (N2 : is_nan m2 = false) by (destruct m2; try reflexivity; destruct m1 as [x|[|]| |[|] m e B]; discriminate).
  assert (K0 : forall m, is_nan m = false -> is_nan (Bmult mode_NE m s) = false).
  { intros m N. destruct s as [x|[|]| |[|] k e B]; try discriminate.
    destruct m as [x'|[|]| |[|] k' e' B']; try discriminate; try reflexivity;
    match goal with |- is_nan (Bmult _ ?a ?b) = _ =>
      pose proof (Bmult_correct 53 1024 prec_pos prec_emax mode_NE a b) as C;
      destruct (Rlt_bool _ _);
      [destruct C as (_ & C & _); destruct (Bmult mode_NE a b); try reflexivity; discriminate
      |destruct (Bmult mode_NE a b); try reflexivity; discriminate] end. }
  pose proof (K0 m1 N1) as Nb1. pose proof (K0 m2 N2) as Nb2. rewrite <- E1 in Nb1. rewrite <- E2 in Nb2.
  destruct (nnb m1) eqn:W1.
  - assert (W2 : nn m2).
    { destruct (nnb m2) eqn:W2; [exact W2|]. exfalso.
      destruct (not_nn m2 N2 ltac:(unfold nn; congruence)) as [->|(F & Lt)].
      - destruct m1 as [x|[|]| |[|] m e B]; discriminate.
      - destruct (is_finite m1) eqn:F1.
        + rewrite Bleb_correct in L by assumption. pose proof (nn_B2R _ W1).
          rewrite Rle_bool_false in L by lra. discriminate.
        + destruct m1 as [x|[|]| |[|] m e B]; try discriminate. destruct m2 as [x|[|]| |[|] m e B]; discriminate. }
    rewrite E1, E2. apply mul_le; try assumption; try apply xr_refl; try (apply K0; assumption).
    now apply le_xr.
  - assert (X0 : xr b1 = 0).
    { destruct (not_nn m1 N1 ltac:(unfold nn; congruence)) as [M|(F & Lt)].
      - exfalso. rewrite M in E1. destruct s as [x|[|]| |[|] k e B]; try discriminate. rewrite E1 in H1. discriminate.
      - pose proof (Bmult_correct 53 1024 prec_pos prec_emax mode_NE m1 s) as C.
        cbn [round_mode] in C. fold (rd (B2R m1 * B2R s)) in C.
        assert (Q : rd (B2R m1 * B2R s) <= 0) by (rewrite <- rd_0; apply rd_le; nra).
        destruct (Rlt_bool_spec (Rabs (rd (B2R m1 * B2R s))) (bpow radix2 1024)) as [Lb|Lb].
        + destruct C as (C1 & C2 & _). rewrite <- E1 in C1, C2. rewrite F, Fs in C2.
          rewrite xr_finite by exact C2. pose proof (nn_B2R _ H1). rewrite C1 in *. lra.
        + exfalso. rewrite <- E1 in C.
          assert (Sg : xorb (Bsign m1) (Bsign s) = true).
          { destruct s as [x|[|]| |[|] k e B]; try discriminate.
            destruct m1 as [x'|[|]| |[|] k' e' B']; try discriminate. reflexivity. }
          rewrite Sg in C. assert (b1 = B754_infinity true) by (apply B2SF_inj; rewrite C; reflexivity).
          subst b1. rewrite H in H1. discriminate. }
    rewrite X0. apply nn_xr, H2.
Qed.
