(** * WeakP: two runs of Reflection.get_eq_state, step by step (C137, C138). *)
From Coq Require Import String ZArith QArith Qreals Reals List Bool Lra Lia Psatz.
From Verif Require Import PyBase Gas GasP FitM QLemmas FitP SdM SdSpec SdP PerfectP ReflectSpec
  IdealGas FixInterval.
Import ListNotations.
Local Open Scope R_scope.

Section Run.
(** gas constant 250 and heat capacity [cp]; the post-shock gas has temperature [T2] and
    density 1 and moves at [u] *)
Context (qT qc qu : Q).
Notation T2 := (Q2R qT).
Notation cp := (Q2R qc).
Notation u := (Q2R qu).
Context (HT2 : 0 < T2) (Hcp : 0 < cp) (q1 : R).
Notation air := (ideal_gas 250 cp q1).
Definition behind : R * R * bool := (T2, 1, false).
Notation V := (u * u).

Definition wk_k (x : R) : R := 1 / ((1 - x) * (1 - x - x / 50)).
Definition wk_den (T x : R) : R := 250 * T / (51/50 * x) + V * (x - 250 / cp) * wk_k x.
Definition wk_dx (T x : R) : R :=
  (250 * T2 * (1 - x) - V * (x - (125 / cp) * (x + 1)) / (1 - x)) / wk_den T x.
Definition wk_eh (T x : R) : R := cp * (T - T2) - V / (1 - x) + V * (1/2).
Definition wk_dT (T x : R) : R := (V * wk_k x * wk_dx T x - wk_eh T x) / cp.

Lemma air_equilibrium T D T' D' :
  equilibrium air (T, D, false) D' T' = ([EvTD T' D'; EvEquilibrate "TV"], Ok (T', D', false)).
Proof. reflexivity. Qed.

Definition wk_ep (T x : R) : R := 250 * T / x - 250 * T2 - V / (1 - x).
Lemma air_err T x : x <> 0 -> x <> 1 ->
  error_reflected air npdiv u (T, 1 / x, false) behind = Ok (wk_eh T x, wk_ep T x).
Proof.
  intros H0 H1. rewrite error_reflected_R.
  - unfold reflected_energy_imbalance, reflected_momentum_imbalance, behind, wk_eh, wk_ep.
    cbn [ideal_gas ct_P ct_enthalpy ct_density fst snd]. rnum.
    replace (Q2R 0) with 0 by (unfold Q2R; simpl; lra).
    f_equal. f_equal; field; repeat split; lra.
  - right; reflexivity.
  - cbn. lra.
  - unfold behind. cbn [ideal_gas ct_density fst snd]. intros E. apply H1.
    apply Rmult_eq_reg_r with (/ x); [|now apply Rinv_neq_0_compat].
    rewrite Rinv_r by exact H0. rewrite Rmult_1_l. unfold Rdiv in E. rewrite Rinv_1 in E. lra.
Qed.

Lemma air_body T x :
  0 < T -> 0 < x < 1 -> 1 - x - x / 50 <> 0 -> wk_den T x <> 0 ->
  exists tr dT dx,
    eq_body air npdiv u behind 1 (T, 1 / x, false) T x (1 / x)
      = (tr, Ok (T + dT, 1 / (x + dx), false, T + dT, x + dx, 1 / (x + dx), dT, dx))
    /\ warnings tr = []
    /\ cut (wk_dT T x) (1/5 * T) dT
    /\ (x + wk_dx T x <= 1 -> cut (wk_dx T x) (1/5 * x) dx)
    /\ (1 < x + wk_dx T x -> cut (wk_dx T x) (1/2 * (1 - x)) dx)
    /\ 0 < x + dx <= 1.
Proof.
  intros HT Hx Hk Hden.
  assert (Hd : is_div npdiv) by (right; reflexivity).
  destruct (limit_temperature_reflected_R npdiv (wk_dT T x) T Hd HT) as (dT & ET & CT).
  destruct (limit_volume_R npdiv (wk_dx T x) x 1 Hd ltac:(lra)) as (dx & EX & C1 & C2 & C3).
  assert (Hx51 : 51/50 * x <> 1) by lra.
  unfold eq_body. rewrite air_err by lra. rewrite bind_pure_ok. rnum. rewrite lit_002, one_R.
  rewrite (air_equilibrium T (1/x)). rewrite bind_some.
  rewrite air_err by lra. rewrite bind_pure_ok.
  rewrite npdiv_ok by nra. rewrite bind_pure_ok.
  rewrite npdiv_ok by nra. rewrite bind_pure_ok.
  rewrite pydiv_ok by lra. rewrite bind_pure_ok.
  rewrite air_equilibrium, bind_some.
  rewrite air_err by lra. rewrite bind_pure_ok.
  rewrite npdiv_ok by lra. rewrite bind_pure_ok.
  rewrite npdiv_ok by lra. rewrite bind_pure_ok.
  set (hT := (wk_eh (T + T * (1 / 50)) x - wk_eh T x) / (T * (1 / 50))).
  set (pT := (wk_ep (T + T * (1 / 50)) x - wk_ep T x) / (T * (1 / 50))).
  set (hV := (wk_eh T (x + 1 / 50 * x) - wk_eh T x) / (1 / 50 * x)).
  set (pV := (wk_ep T (x + 1 / 50 * x) - wk_ep T x) / (1 / 50 * x)).
  assert (EhT : hT = cp) by (unfold hT, wk_eh; field; repeat split; lra).
  assert (EpT : pT = 250 / x) by (unfold pT, wk_ep; field; repeat split; lra).
  assert (EhV : hV = - V * wk_k x) by (unfold hV, wk_eh, wk_k; field; repeat split; lra).
  assert (EpV : pV = - (wk_den T x + V * (250 / cp) * wk_k x) / x).
  { unfold pV, wk_ep, wk_den, wk_k. field; repeat split; lra. }
  assert (Ej : hT * pV - pT * hV = - cp * wk_den T x / x).
  { rewrite EhT, EpT, EhV, EpV. field. lra. }
  assert (Nj : - cp * wk_den T x / x <> 0).
  { intros E. apply Hden. apply Rmult_eq_reg_r with (- cp / x).
    - rewrite Rmult_0_l. rewrite <- E. field. lra.
    - apply Rlt_not_eq. assert (0 < cp / x) by (apply Rdiv_lt_0_compat; lra).
      unfold Rdiv in *. lra. }
  assert (E1 : - 250 / x * - wk_eh T x + cp * - wk_ep T x
               = wk_dx T x * (- cp * wk_den T x / x)).
  { unfold wk_dx, wk_eh, wk_ep. field. repeat split; try lra; exact Hden. }
  assert (ES : solve2 npdiv hT pT hV pV (wk_eh T x) (wk_ep T x) = Ok (wk_dT T x, wk_dx T x)).
  { unfold solve2. rnum. rewrite Ej, !npdiv_ok by exact Nj. cbn [bind]. f_equal.
    assert (ED : (- pT * - wk_eh T x + hT * - wk_ep T x) / (- cp * wk_den T x / x) = wk_dx T x).
    { rewrite EhT, EpT. replace (- (250 / x) * - wk_eh T x) with (- 250 / x * - wk_eh T x) by (field; lra).
      rewrite E1. field. split; (exact Hden || lra). }
    rewrite ED. f_equal.
    rewrite EhV, EpV. unfold wk_dT.
    apply Rmult_eq_reg_r with (- cp * wk_den T x / x); [|exact Nj].
    replace ((V * wk_k x * wk_dx T x - wk_eh T x) / cp * (- cp * wk_den T x / x))
      with (V * wk_k x / cp * (wk_dx T x * (- cp * wk_den T x / x)) + wk_eh T x * wk_den T x / x)
      by (field; lra).
    rewrite <- E1. field. split; (exact Hden || lra). }
  rewrite ES, bind_pure_ok. rewrite ET, bind_pure_ok. rewrite EX, bind_pure_ok.
  rewrite npdiv_ok by lra. rewrite bind_pure_ok.
  rewrite air_equilibrium, bind_some.
  eexists _, dT, dx. split; [reflexivity|]. split; [reflexivity|]. auto.
Qed.

(** ** The same in interval arithmetic *)
Definition q_ (n : Z) (d : positive) : itv := i_of (n # d).
Lemma in_q n d : inside (q_ n d) (IZR n / IZR (Zpos d)).
Proof. apply in_of. Qed.
Lemma in_q' n d r : r = IZR n / IZR (Zpos d) -> inside (q_ n d) r.
Proof. intros ->. apply in_of. Qed.

Lemma i_pos_nonzero i : i_pos i = true -> i_nonzero i = true.
Proof. unfold i_nonzero. now intros ->. Qed.

(** a step limited to [m], if it is sure whether it is *)
Definition i_cut (d m : itv) : option itv :=
  if i_pos (i_sub d m) then Some m
  else if i_neg (i_add d m) then Some (i_opp m)
  else if i_neg (i_sub d m) && i_pos (i_add d m) then Some d else None.
Lemma in_cut d m e rd rm re :
  i_cut d m = Some e -> inside d rd -> inside m rm -> 0 < rm -> cut rd rm re -> inside e re.
Proof.
  intros H Hd Hm Hp Hc. unfold i_cut in H.
  destruct (i_pos (i_sub d m)) eqn:E1.
  - injection H as <-. pose proof (in_pos _ _ E1 (in_sub _ _ _ _ Hd Hm)) as S.
    destruct Hc as [(C & ->)|[(C & ->)|(C & ->)]]; [|exact Hm|lra].
    pose proof (Rle_abs rd). lra.
  - destruct (i_neg (i_add d m)) eqn:E2.
    + injection H as <-. pose proof (in_neg _ _ E2 (in_add _ _ _ _ Hd Hm)) as S.
      destruct Hc as [(C & ->)|[(C & ->)|(C & ->)]]; [|lra|now apply in_opp].
      pose proof (Rabs_left rd ltac:(lra)). lra.
    + destruct (_ && _) eqn:E3; [|discriminate]. injection H as <-.
      apply andb_prop in E3. destruct E3 as (E3 & E4).
      pose proof (in_neg _ _ E3 (in_sub _ _ _ _ Hd Hm)) as S.
      pose proof (in_pos _ _ E4 (in_add _ _ _ _ Hd Hm)) as S'.
      destruct Hc as [(C & ->)|[(C & ->)|(C & ->)]]; [exact Hd|lra|lra].
Qed.
(** is a step surely larger than [m], or surely not *)
Definition i_large (d m : itv) : option bool :=
  if i_pos (i_sub d m) || i_neg (i_add d m) then Some true
  else if i_neg (i_sub d m) && i_pos (i_add d m) then Some false else None.
Lemma in_large d m b rd rm : i_large d m = Some b -> inside d rd -> inside m rm -> 0 < rm ->
  Rltb rm (Rabs rd) = b.
Proof.
  intros H Hd Hm Hp. unfold i_large in H.
  pose proof (in_sub _ _ _ _ Hd Hm) as Is. pose proof (in_add _ _ _ _ Hd Hm) as Ia.
  destruct (_ || _) eqn:E.
  - injection H as <-. apply Rltb_true. apply orb_true_iff in E. destruct E as [E|E].
    + apply (in_pos _ _ E) in Is. pose proof (Rle_abs rd). lra.
    + apply (in_neg _ _ E) in Ia. rewrite Rabs_left by lra. lra.
  - destruct (_ && _) eqn:E2; [|discriminate]. injection H as <-.
    apply andb_prop in E2. destruct E2 as (A & B).
    apply (in_neg _ _ A) in Is. apply (in_pos _ _ B) in Ia.
    apply Rltb_false. apply Rabs_le. lra.
Qed.

Definition w_gap (x : itv) : itv := i_sub (q_ 1 1) x.
Definition w_gap2 (x : itv) : itv := i_sub (w_gap x) (i_mul x (q_ 1 50)).
Definition w_k (x : itv) : itv := i_div (q_ 1 1) (i_mul (w_gap x) (w_gap2 x)).
Definition w_V : itv := i_of (qu * qu).
Definition w_den (T x : itv) : itv :=
  i_add (i_div (i_mul (q_ 250 1) T) (i_mul (q_ 51 50) x))
        (i_mul (i_mul w_V (i_sub x (i_of (inject_Z 250 / qc)))) (w_k x)).
Definition w_dx (T x : itv) : itv :=
  i_div (i_sub (i_mul (i_of (250 * qT)) (w_gap x))
               (i_div (i_mul w_V (i_sub x (i_mul (i_of (inject_Z 125 / qc)) (i_add x (q_ 1 1))))) (w_gap x)))
        (w_den T x).
Definition w_dT (T x dx : itv) : itv :=
  i_mul (i_sub (i_mul (i_mul w_V (w_k x)) dx)
               (i_add (i_sub (i_mul (i_of qc) (i_sub T (i_of qT))) (i_div w_V (w_gap x)))
                      (i_mul w_V (q_ 1 2))))
        (i_of (inject_Z 1 / qc)).
Definition w_lim (x dx : itv) : option itv :=
  let y := i_sub (i_add x dx) (q_ 1 1) in
  if i_pos y then i_cut dx (i_mul (q_ 1 2) (w_gap x))
  else if i_neg y then i_cut dx (i_mul (q_ 1 5) x) else None.
(** the new temperature and volume and whether the loop goes on *)
Definition w_step (T x : itv) : option (itv * itv * bool) :=
  if i_pos T && i_pos x && i_pos (w_gap x) && i_nonzero (w_gap2 x)
     && i_nonzero (i_mul (w_gap x) (w_gap2 x)) && i_pos (i_mul (q_ 51 50) x)
     && i_nonzero (w_den T x) then
    let dx := w_dx T x in
    let dT := w_dT T x dx in
    match i_cut dT (i_mul (q_ 1 5) T), w_lim x dx with
    | Some dT', Some dx' =>
        let T' := i_add T dT' in let x' := i_add x dx' in
        if i_pos T' && i_pos x' then
          match i_large dT' (i_mul (q_ 1 10000) T'), i_large dx' (i_mul (q_ 1 10000) x') with
          | Some b, Some c => Some (T', x', b || c)
          | _, _ => None
          end
        else None
    | _, _ => None
    end
  else None.

Local Opaque q_ i_of i_mul i_add i_sub i_div i_opp i_pos i_neg i_nonzero i_cut i_large.
Lemma in_V : inside w_V V.
Proof. unfold w_V. rewrite <- Q2R_mult. apply in_of. Qed.
Lemma in_A : inside (i_of (250 * qT)) (250 * T2).
Proof.
  replace (250 * T2) with (Q2R (250 * qT)); [apply in_of|]. rewrite Q2R_mult. f_equal.
  unfold Q2R; simpl; lra.
Qed.
Lemma in_over n : inside (i_of (inject_Z n / qc)) (IZR n / cp).
Proof.
  replace (IZR n / cp) with (Q2R (inject_Z n / qc)); [apply in_of|]. rewrite Q2R_div.
  - f_equal. unfold Q2R; simpl; lra.
  - intros E. apply Qeq_eqR in E. replace (Q2R 0) with 0 in E by (unfold Q2R; simpl; lra). lra.
Qed.
Ltac inq := apply in_q'; lra.
Lemma w_step_sound iT ix iT' ix' go T x :
  w_step iT ix = Some (iT', ix', go) -> inside iT T -> inside ix x ->
  exists tr T' x' dT dx,
    eq_body air npdiv u behind 1 (T, 1 / x, false) T x (1 / x)
      = (tr, Ok (T', 1 / x', false, T', x', 1 / x', dT, dx))
    /\ warnings tr = [] /\ inside iT' T' /\ inside ix' x'
    /\ Rltb (1/10000 * T') (Rabs dT) || Rltb (1/10000 * x') (Rabs dx) = go.
Proof.
  intros H HT Hx. unfold w_step in H.
  destruct (i_pos iT) eqn:PT; [|discriminate]. destruct (i_pos ix) eqn:Px; [|discriminate].
  destruct (i_pos (w_gap ix)) eqn:Pg; [|discriminate].
  destruct (i_nonzero (w_gap2 ix)) eqn:Pg2; [|discriminate].
  destruct (i_nonzero (i_mul (w_gap ix) (w_gap2 ix))) eqn:Pgg; [|discriminate].
  destruct (i_pos (i_mul (q_ 51 50) ix)) eqn:P51; [|discriminate].
  destruct (i_nonzero (w_den iT ix)) eqn:Pd; [|discriminate]. cbn [andb] in H.
  pose proof (in_pos _ _ PT HT) as HT0. pose proof (in_pos _ _ Px Hx) as Hx0.
  assert (Ig : inside (w_gap ix) (1 - x)) by (apply in_sub; [inq|exact Hx]).
  assert (Ig2 : inside (w_gap2 ix) (1 - x - x / 50)).
  { unfold w_gap2. replace (x / 50) with (x * (1 / 50)) by field. apply in_sub; [exact Ig|].
    apply in_mul; [exact Hx|inq]. }
  pose proof (in_pos _ _ Pg Ig) as Hg. pose proof (in_nonzero _ _ Pg2 Ig2) as Hg2.
  assert (Pg' : i_nonzero (w_gap ix) = true) by (now apply i_pos_nonzero).
  assert (Ik : inside (w_k ix) (wk_k x)).
  { apply in_div; [exact Pgg|inq|]. now apply in_mul. }
  assert (Iden : inside (w_den iT ix) (wk_den T x)).
  { apply in_add.
    - apply in_div; [now apply i_pos_nonzero| |].
      + apply in_mul; [inq|exact HT].
      + apply in_mul; [inq|exact Hx].
    - apply in_mul; [|exact Ik]. apply in_mul; [exact in_V|].
      apply in_sub; [exact Hx|apply in_over]. }
  pose proof (in_nonzero _ _ Pd Iden) as Hden.
  assert (Idx : inside (w_dx iT ix) (wk_dx T x)).
  { apply in_div; [exact Pd| |exact Iden]. apply in_sub.
    - apply in_mul; [exact in_A|exact Ig].
    - apply in_div; [exact Pg'| |exact Ig]. apply in_mul; [exact in_V|]. apply in_sub; [exact Hx|].
      apply in_mul; [apply in_over|]. apply in_add; [exact Hx|inq]. }
  assert (IdT : inside (w_dT iT ix (w_dx iT ix)) (wk_dT T x)).
  { unfold wk_dT, w_dT, wk_eh.
    match goal with |- inside _ (?a / cp) => replace (a / cp) with (a * (1 / cp)) by (field; lra) end.
    apply in_mul; [|apply in_over]. apply in_sub.
    - apply in_mul; [|exact Idx]. apply in_mul; [exact in_V|exact Ik].
    - apply in_add.
      + apply in_sub.
        * apply in_mul; [apply in_of|]. apply in_sub; [exact HT|apply in_of].
        * apply in_div; [exact Pg'|exact in_V|exact Ig].
      + apply in_mul; [exact in_V|inq]. }
  set (idx := w_dx iT ix) in *. set (idT := w_dT iT ix idx) in *.
  destruct (i_cut idT (i_mul (q_ 1 5) iT)) as [idT'|] eqn:ECT; [|discriminate].
  destruct (w_lim ix idx) as [idx'|] eqn:ECX; [|discriminate].
  destruct (air_body T x HT0 ltac:(lra) Hg2 Hden) as (tr & dT & dx & E & Ew & C1 & C2 & C3 & C4).
  assert (I1 : inside idT' dT).
  { eapply in_cut; [exact ECT|exact IdT| | |exact C1]; [|lra]. apply in_mul; [inq|exact HT]. }
  assert (I2 : inside idx' dx).
  { unfold w_lim in ECX.
    assert (Iy : inside (i_sub (i_add ix idx) (q_ 1 1)) (x + wk_dx T x - 1)).
    { apply in_sub; [now apply in_add|inq]. }
    destruct (i_pos (i_sub (i_add ix idx) (q_ 1 1))) eqn:Y1.
    - apply (in_pos _ _ Y1) in Iy. eapply in_cut; [exact ECX|exact Idx| | |apply C3; lra]; [|lra].
      apply in_mul; [inq|exact Ig].
    - destruct (i_neg (i_sub (i_add ix idx) (q_ 1 1))) eqn:Y2; [|discriminate].
      apply (in_neg _ _ Y2) in Iy. eapply in_cut; [exact ECX|exact Idx| | |apply C2; lra]; [|lra].
      apply in_mul; [inq|exact Hx]. }
  cbv zeta in H.
  destruct (i_pos (i_add iT idT')) eqn:Q1; [|discriminate].
  destruct (i_pos (i_add ix idx')) eqn:Q2; [|discriminate]. cbn [andb] in H.
  destruct (i_large idT' _) as [b|] eqn:L1; [|discriminate].
  destruct (i_large idx' _) as [c|] eqn:L2; [|discriminate].
  injection H as <- <- <-.
  assert (J1 : inside (i_add iT idT') (T + dT)) by now apply in_add.
  assert (J2 : inside (i_add ix idx') (x + dx)) by now apply in_add.
  pose proof (in_pos _ _ Q1 J1). pose proof (in_pos _ _ Q2 J2).
  exists tr, (T + dT), (x + dx), dT, dx. split; [exact E|]. split; [exact Ew|].
  split; [exact J1|]. split; [exact J2|].
  rewrite (in_large _ _ _ _ _ L1 I1), (in_large _ _ _ _ _ L2 I2); [reflexivity| | | |]; try lra.
  - apply in_mul; [inq|exact J2].
  - apply in_mul; [inq|exact J1].
Qed.

(** the loop: [n] passes at most *)
Fixpoint w_run (n : nat) (T x : itv) : option (itv * itv * nat) :=
  match n with
  | O => None
  | S n => match w_step T x with
           | Some (T', x', true) =>
               match w_run n T' x' with Some (a, b, m) => Some (a, b, S m) | None => None end
           | Some (T', x', false) => Some (T', x', 1%nat)
           | None => None
           end
  end.

Lemma after_eq {A B} tr (a : list (event A)) (r : result B) : after tr (a, r) = ((tr ++ a)%list, r).
Proof. reflexivity. Qed.

Lemma w_run_sound n : forall iT ix iT' ix' m fuel mx k T x dT dx,
  w_run n iT ix = Some (iT', ix', m) -> (m <= fuel)%nat -> (k + Z.of_nat m < mx)%Z ->
  inside iT T -> inside ix x ->
  Rltb (1/10000 * T) (Rabs dT) || Rltb (1/10000 * x) (Rabs dx) = true ->
  exists tr T' x',
    eq_loop air fuel npdiv u behind 1 (1/10000) (1/10000) mx k (T, 1 / x, false) T x (1 / x) dT dx
      = (tr, Ok (T', 1 / x', false))
    /\ warnings tr = [] /\ inside iT' T' /\ inside ix' x'.
Proof.
  induction n as [|n IH]; intros * H Hf Hm HT Hx Hgo; cbn [w_run] in H; [discriminate|].
  destruct (w_step iT ix) as [[[iT1 ix1] go]|] eqn:E; [|discriminate].
  destruct (w_step_sound _ _ _ _ _ _ _ E HT Hx) as (tr & T1 & x1 & dT1 & dx1 & Eb & Ew & I1 & I2 & Eg).
  destruct fuel as [|fuel].
  { exfalso. destruct go; [destruct (w_run n iT1 ix1) as [[[? ?] ?]|]|]; try discriminate;
      injection H as <- <- <-; lia. }
  destruct go.
  - destruct (w_run n iT1 ix1) as [[[iT2 ix2] m2]|] eqn:E2; [|discriminate]. injection H as <- <- <-.
    destruct (IH _ _ _ _ _ fuel mx (k + 1)%Z _ _ _ _ E2 ltac:(lia) ltac:(lia) I1 I2 Eg)
      as (tr' & T' & x' & EL & Ew' & I1' & I2').
    exists (tr ++ tr')%list, T', x'. split.
    + cbn [eq_loop]. rnum. rewrite Hgo. destruct (Z.eqb_spec (k + 1) mx); [lia|].
      rewrite Eb, bind_some, EL. apply after_eq.
    + split; [|auto]. unfold warnings in *. now rewrite filter_app, Ew, Ew'.
  - injection H as <- <- <-. exists (tr ++ [])%list, T1, x1. split.
    + cbn [eq_loop]. rnum. rewrite Hgo. destruct (Z.eqb_spec (k + 1) mx); [lia|].
      rewrite Eb, bind_some. destruct fuel; cbn [eq_loop]; rnum; rewrite Eg; reflexivity.
    + rewrite app_nil_r. auto.
Qed.

End Run.

(** start of [reflect]: one fifth of the volume, temperature T2 (P2 + U^2 4/5) / (5 P2) *)
Lemma run_from qT qc qu qs q1 iT ix m :
  0 < Q2R qT -> 0 < Q2R qc -> 0 < Q2R qs < 10000000 ->
  w_run qT qc qu 40 (i_of qs) (q_ 1 5) = Some (iT, ix, m) -> (m <= 40)%nat ->
  exists tr T x,
    get_eq_state (ideal_gas 250 (Q2R qc) q1) 500 npdiv (Q2R qu) (Q2R qT, 1, false) (Q2R qs, 5, false)
      (1/10000) (1/10000) 500 = (tr, Ok (T, 1 / x, false))
    /\ warnings tr = [] /\ inside iT T /\ inside ix x.
Proof.
  intros HT2 Hcp Hs E Hm.
  rewrite get_eq_state_unfold by (cbn; lra).
  cbn [ideal_gas ct_density ct_T fst snd].
  rewrite air_equilibrium, bind_some. replace (1 / 1) with 1 by field.
  assert (Hx : inside (q_ 1 5) (1 / 5)) by (apply in_q'; lra).
  assert (Hgo : Rltb (1/10000 * Q2R qs) (Rabs 1000) || Rltb (1/10000 * (1/5)) (Rabs 1000) = true).
  { rewrite (Rltb_true (1/10000 * Q2R qs)); [reflexivity|]. rewrite Rabs_pos_eq by lra. lra. }
  eapply w_run_sound with (q1 := q1) (fuel := 500%nat) (mx := 500%Z) (k := 0%Z) in E;
    [|exact Hcp|lia|lia|apply in_of|exact Hx|exact Hgo].
  destruct E as (tr & T & x & EL & Ew & IT & Ix).
  replace (1 / (1 / 5)) with 5 in EL by field. unfold behind in EL. rewrite EL, after_eq.
  eexists _, T, x. split; [reflexivity|]. split; [exact Ew|]. auto.
Qed.

(** *** a weak shock: 482.8 K, gamma 4/3, followed at 2 m/s *)
Definition weak_start : Q := Qred ((4828 # 10) * (120700 + 402 * 402 * (4#5)) / (5 * 120700)).
Definition weak_passes : option (itv * itv * nat) :=
  Eval vm_compute in w_run (4828 # 10) 1000 2 40 (i_of weak_start) (q_ 1 5).
Lemma weak_passes_ok : w_run (4828 # 10) 1000 2 40 (i_of weak_start) (q_ 1 5) = weak_passes.
Proof. vm_compute. reflexivity. Qed.
Lemma weak_run : exists tr T x,
  get_eq_state (ideal_gas 250 1000 0) 500 npdiv 2 (4828/10, 1, false)
    (4828/10 * (120700 + 402 * 402 * (4/5)) / (5 * 120700), 5, false) (1/10000) (1/10000) 500
    = (tr, Ok (T, 1 / x, false))
  /\ warnings tr = [] /\ 4796/10 < T < 4797/10 /\ 9999/10000 < x < 1.
Proof.
  pose proof weak_passes_ok as E. unfold weak_passes in E.
  assert (ES : Q2R weak_start = 4828/10 * (120700 + 402 * 402 * (4/5)) / (5 * 120700)).
  { let q := eval vm_compute in weak_start in change weak_start with q. unfold Q2R. cbn [Qnum Qden]. lra. }
  assert (E1 : Q2R (4828#10) = 4828/10) by (unfold Q2R; simpl; lra).
  assert (E2 : Q2R 1000 = 1000) by (unfold Q2R; simpl; lra).
  assert (E3 : Q2R 2 = 2) by (unfold Q2R; simpl; lra).
  apply run_from with (q1 := 0) in E; [|lra|lra|lra|lia].
  rewrite ES, E1, E2, E3 in E. destruct E as (tr & T & x & E & Ew & IT & Ix).
  exists tr, T, x. split; [exact E|]. split; [exact Ew|].
  clear - IT Ix. unfold inside in IT, Ix. cbn [fst snd] in IT, Ix.
  pose proof scl_value as Es. rewrite Es in IT, Ix. lra.
Qed.

(** *** a strong one: 760 K, gamma 20/19, followed at 800 m/s *)
Definition strong_start : Q := Qred (760 * (190000 + 1000 * 1000 * (4#5)) / (5 * 190000)).
Definition strong_passes : option (itv * itv * nat) :=
  Eval vm_compute in w_run 760 5000 800 40 (i_of strong_start) (q_ 1 5).
Lemma strong_passes_ok : w_run 760 5000 800 40 (i_of strong_start) (q_ 1 5) = strong_passes.
Proof. vm_compute. reflexivity. Qed.
Lemma strong_run : exists tr T x,
  get_eq_state (ideal_gas 250 5000 320000) 500 npdiv 800 (760, 1, false)
    (760 * (190000 + 1000 * 1000 * (4/5)) / (5 * 190000), 5, false) (1/10000) (1/10000) 500
    = (tr, Ok (T, 1 / x, false))
  /\ warnings tr = [] /\ 2138/10000 < x < 2139/10000.
Proof.
  pose proof strong_passes_ok as E. unfold strong_passes in E.
  assert (ES : Q2R strong_start = 760 * (190000 + 1000 * 1000 * (4/5)) / (5 * 190000)).
  { let q := eval vm_compute in strong_start in change strong_start with q. unfold Q2R. cbn [Qnum Qden]. lra. }
  assert (E1 : Q2R 760 = 760) by (unfold Q2R; simpl; lra).
  assert (E2 : Q2R 5000 = 5000) by (unfold Q2R; simpl; lra).
  assert (E3 : Q2R 800 = 800) by (unfold Q2R; simpl; lra).
  apply run_from with (q1 := 320000) in E; [|lra|lra|lra|lia].
  rewrite ES, E1, E2, E3 in E. destruct E as (tr & T & x & E & Ew & IT & Ix).
  exists tr, T, x. split; [exact E|]. split; [exact Ew|].
  clear - IT Ix. unfold inside in IT, Ix. cbn [fst snd] in IT, Ix.
  pose proof scl_value as Es. rewrite Es in IT, Ix. lra.
Qed.
