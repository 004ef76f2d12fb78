(** * RoundSearchP: the search for the initial pressure in rounded arithmetic. *)
From Coq Require Import String ZArith QArith Reals Qreals List Bool Lra Lia Psatz.
From Verif Require Import PyBase Pint UnitsM Spec QLemmas Gas GasP SdM ThermoM TubeM InitPressureM InitPressureSpec
  InitPressureP RoundM RoundSpec RoundP RoundSearchSpec.
Import ListNotations.
Local Open Scope R_scope.

Lemma dlf_values_any {A} {NA : Num A} a b c d e nu f n :
  dynamic_load_factor (A:=A) a b c d e nu f = Ok n -> n = 1%nat \/ n = 2%nat \/ n = 4%nat.
Proof.
  unfold dynamic_load_factor; intros H.
  repeat (apply bind_inv in H as (? & _ & H)).
  destruct (_ <? _)%num in H; [|destruct (_ <? _)%num in H]; injection H as <-; auto.
Qed.

Lemma Rabs_le_inv a b : Rabs a <= b -> - b <= a <= b.
Proof. unfold Rabs. destruct (Rcase_abs a); lra. Qed.

Section Search.
  Context (u : R) (rnd : R -> R) (Hr : rounding u rnd) {G X : Type} (L : cantera R G X).
  Context (tube_id tube_od T : quantity R) (x : X) (mech : string) (max_pressure : quantity R)
          (E rho : quantity R) (nu f : R) (use : bool) (reg : nat) (p : pool R) (w : which).
  Let M := q_mag max_pressure.
  Local Instance NR : Num R := Num_rounded rnd.
  Let Hu : 0 <= u <= 1/1024. Proof. exact (proj1 Hr). Qed.
  Let loop := @pressure_loop R G X NR L tube_id tube_od T x mech max_pressure E rho nu f use reg p w.
  Let next := next_trial_r u rnd L tube_id tube_od T x mech E rho nu f use reg p M.
  Notation factor_r := (rounded_factor rnd tube_id tube_od E rho nu f).
  Notation shock_r := (shocks_at rnd L T x mech reg p).

  Lemma zero_NR : @zero R NR = 0. Proof. exact (zero_rnd u rnd Hr). Qed.
  Lemma one_NR : @one R NR = 1. Proof. exact (one_rnd u rnd Hr). Qed.
  Lemma small_nat n : n = 1%nat \/ n = 2%nat \/ n = 4%nat -> @n_of_nat R NR n = INR n.
  Proof.
    intros H. unfold n_of_nat. cbn [nofQ NR Num_rounded].
    replace (Q2R (inject_Z (Z.of_nat n))) with (IZR (Z.of_nat n)) by (unfold Q2R, inject_Z; cbn; field).
    rewrite INR_IZR_INZ. apply (rnd_int u rnd Hr). destruct H as [-> |[-> | -> ]]; cbn; lia.
  Qed.
  Lemma load_factor_r s k : @load_factor R G NR tube_id tube_od E rho nu f s = Ok k <->
    exists n, factor_r s = Ok n /\ k = INR n.
  Proof.
    unfold load_factor, rounded_factor. fold NR. split.
    - destruct (dynamic_load_factor _ _ _ _ _ _ _) as [n|] eqn:En; cbn [bind]; [|discriminate].
      intros [= <-]. exists n. split; [reflexivity|]. apply small_nat. eapply dlf_values_any, En.
    - intros (n & En & ->). rewrite En. cbn [bind]. rewrite small_nat; [reflexivity|].
      eapply dlf_values_any, En.
  Qed.

  Lemma atm_unit : @lookup_unit R NR "atm" = Some (mult_unit d_pressure (@nofQ R NR 101325)).
  Proof. reflexivity. Qed.

  Lemma update_near q M0 k P :
    near u 3 (q * M0 / (k * P)) (rnd (rnd (M0 * q) / rnd (k * P))).
  Proof.
    apply (rnd_near u rnd Hr 2). apply (near_div u Hu 1 1).
    - apply (rnd_near u rnd Hr 0). rewrite (Rmult_comm q). apply near_refl. exact Hu.
    - apply (rnd_near u rnd Hr 0), near_refl; exact Hu.
  Qed.
  Lemma near3_within a b : near u 3 a b -> within (6 * u) a b.
  Proof. apply (near_within u Hu); cbn [INR]; lra. Qed.

  Lemma next_pressure_r q k (s : shock_states R G) q' m : in_atm rnd q m reg ->
    @next_pressure R G X NR L max_pressure q k s = Ok q' ->
    k * ct_P L (reflected_state s) <> 0
    /\ exists m', in_atm rnd q' m' reg
        /\ m' = rnd (rnd (M * m) / rnd (k * ct_P L (reflected_state s))).
  Proof.
    intros (E1 & E2 & E3) H. fold NR in E1. rewrite atm_unit in E1. injection E1 as E1.
    unfold next_pressure, q_scale, q_divn, offset_free in H.
    rewrite <- E1 in H. cbn [mult_unit u_off bind q_mag q_unit q_reg] in H.
    destruct (pydiv _ _) as [z|] eqn:Ez in H; [|discriminate]. cbn [bind] in H. injection H as <-.
    unfold pydiv in Ez. destruct (_ =? _)%num eqn:Z in Ez; [discriminate|].
    cbn [neqb nmul ndiv NR Num_rounded] in Z, Ez. fold M in Ez. rewrite zero_NR in Z.
    unfold Reqb in Z. destruct (Req_EM_T _ _) as [|Nz] in Z; [discriminate|]. injection Ez as <-.
    split.
    - intros C. apply Nz. rewrite C. apply (rnd_int u rnd Hr 0). lia.
    - eexists. split; [|reflexivity]. split; [reflexivity|]. split; [cbn [q_mag]; now rewrite E2|exact E3].
  Qed.
  Lemma next_pressure_r_ok q k (s : shock_states R G) m : in_atm rnd q m reg ->
    k * ct_P L (reflected_state s) <> 0 ->
    exists q', @next_pressure R G X NR L max_pressure q k s = Ok q'.
  Proof.
    intros (E1 & E2 & E3) Hn. fold NR in E1. rewrite atm_unit in E1. injection E1 as E1.
    unfold next_pressure, q_scale, q_divn, offset_free.
    rewrite <- E1. cbn [mult_unit u_off bind q_mag q_unit q_reg].
    unfold pydiv. cbn [neqb nmul ndiv NR Num_rounded]. rewrite zero_NR.
    unfold Reqb. destruct (Req_EM_T _ _) as [Z|]; [|eexists; reflexivity]. exfalso.
    assert (B : near u 1 (k * ct_P L (reflected_state s)) (rnd (k * ct_P L (reflected_state s))))
      by (apply (rnd_near u rnd Hr 0), near_refl; exact Hu).
    apply Hn. exact (near_zero u Hu _ _ _ B Z).
  Qed.

  (** how the computed error relates to the true one *)
  Definition error_r (P k : R) : R := rnd (rnd (rnd (P * k) - M) / M).
  Definition meets_r (tol : R) (t : trial G) : Prop :=
    Rabs (error_r (ct_P L (state_at w (shocks t))) (factor t)) <= tol.

  Lemma loop_spec_r : forall budget tol err q k s q' k' m,
    in_atm rnd q m reg ->
    value (loop budget tol err q k s) = Ok (q', k') ->
    let t := mkTrial q s k in
    exists ts t',
      (forall a b, consecutive (t :: ts) a b -> next a b)
      /\ last (t :: ts) t = t' /\ tried t' = q' /\ factor t' = k'
      /\ (length ts <= budget)%nat
      /\ (ts = [] -> Rabs err <= tol \/ budget = 0%nat)
      /\ (ts <> [] -> tol < Rabs err /\ M <> 0)
      /\ (ts <> [] -> (length ts < budget)%nat -> meets_r tol t').
  Proof.
    unfold loop. induction budget as [|budget IH]; intros * Hq H; cbn [pressure_loop] in *;
      cbn [nltb nabs NR Num_rounded] in H.
    - exists [], (mkTrial q s k).
      assert (value (ret (A:=R) (q, k)) = Ok (q', k')) as Hrr by (destruct (Rltb _ _); exact H).
      rewrite value_ret in Hrr. injection Hrr as -> ->.
      split; [intros a b Hc; apply consecutive_inv in Hc as [(r & Hrr & _)|([|] & y & Hrr)]; discriminate|].
      split; [reflexivity|]. split; [reflexivity|]. split; [reflexivity|].
      split; [cbn; lia|]. split; [intros _; right; reflexivity|].
      split; congruence.
    - destruct (Rltb tol (Rabs err)) eqn:Et.
      + unfold Rltb in Et. destruct (Rlt_dec tol (Rabs err)) as [Hlt|]; [|discriminate].
        apply value_bind_ok in H. destruct H as (q1 & Hq1 & H & _). rewrite value_pure in Hq1.
        apply value_bind_ok in H. destruct H as (s1 & Hs1 & H & _).
        apply value_bind_ok in H. destruct H as (k1 & Hk1 & H & _). rewrite value_pure in Hk1.
        apply value_bind_ok in H. destruct H as (e1 & He1 & H & _). rewrite value_pure in He1.
        destruct (next_pressure_r _ _ _ _ _ Hq Hq1) as (Hn & m1 & Hq1' & Em1).
        assert (HM : M <> 0 /\ e1 = error_r (ct_P L (state_at w s1)) k1).
        { unfold pydiv in He1. destruct (_ =? _)%num eqn:Z in He1; [discriminate|]. injection He1 as <-.
          cbn [neqb NR Num_rounded] in Z. rewrite zero_NR in Z. unfold Reqb in Z.
          destruct (Req_EM_T _ _) as [|Nz] in Z; [discriminate|]. split; [exact Nz|reflexivity]. }
        destruct HM as (HM & ->).
        assert (Hnext : next (mkTrial q s k) (mkTrial q1 s1 k1)).
        { split; [|split].
          - exists m1. split; [exact Hq1'|]. split; [exact Hn|]. cbn [tried factor shocks].
            rewrite Em1. destruct Hq as (_ & -> & _). apply near3_within, update_near.
          - exact Hs1.
          - cbn [shocks factor]. destruct use; [apply load_factor_r; exact Hk1|].
            rewrite one_NR in Hk1. congruence. }
        destruct (IH tol _ q1 k1 s1 q' k' _ Hq1' H)
          as (ts & t' & Hc & Hl & Ht & Hf & Hlen & Hnil & Hcons & Hm).
        exists (mkTrial q1 s1 k1 :: ts), t'.
        split.
        { intros a b Hab. apply consecutive_inv in Hab as [(r & Hrr & ->)|Hab].
          - injection Hrr as <- _. exact Hnext.
          - apply Hc. exact Hab. }
        split. { rewrite <- Hl. destruct ts as [|b ts]; [reflexivity|].
          change (last (b :: ts) (mkTrial q s k) = last (b :: ts) (mkTrial q1 s1 k1)).
          clear. revert b. induction ts as [|c ts IH]; intros b; [reflexivity|]. apply (IH c). }
        split; [exact Ht|]. split; [exact Hf|]. split; [cbn; lia|].
        split; [discriminate|]. split; [intros _; split; assumption|].
        intros _ Hlt'. cbn [length] in Hlt'. destruct ts as [|b ts].
        * destruct (Hnil eq_refl) as [Hd|Hd]; [|lia]. cbn in Hl. subst t'. exact Hd.
        * apply Hm; [discriminate|]. cbn [length] in *. lia.
      + rewrite value_ret in H. injection H as -> ->. exists [], (mkTrial q' s k').
        split; [intros a b Hc; apply consecutive_inv in Hc as [(r & Hrr & _)|([|] & y & Hrr)]; discriminate|].
        split; [reflexivity|]. split; [reflexivity|]. split; [reflexivity|].
        split; [cbn; lia|]. split; [|split; congruence].
        intros _. left. unfold Rltb in Et. destruct (Rlt_dec tol (Rabs err)); [discriminate|lra].
  Qed.

  Lemma search_inv_r tol max_it name both a :
    which_state name = Some w ->
    value (@calculate_max_initial_pressure R G X NR L tube_id tube_od T x mech max_pressure E rho nu f
             use reg tol max_it p name both) = Ok a ->
    exists t ts,
      is_search_r u rnd L tube_id tube_od T x mech E rho nu f use reg p M (t :: ts)
      /\ reports both (last (t :: ts) t) a
      /\ (length ts <= Z.to_nat max_it)%nat
      /\ (ts = [] -> Rabs (rnd (rnd (factor t / M) - 1)) <= Rabs tol \/ Z.to_nat max_it = 0%nat)
      /\ M <> 0
      /\ (ts <> [] -> (length ts < Z.to_nat max_it)%nat -> meets_r (Rabs tol) (last (t :: ts) t)).
  Proof.
    intros Hw H. unfold calculate_max_initial_pressure in H. rewrite Hw in H.
    apply value_bind_ok in H. destruct H as (q & Hq & H & _). rewrite value_pure in Hq.
    unfold quant in Hq. rewrite atm_unit in Hq. injection Hq as <-. rewrite one_NR in H.
    apply value_bind_ok in H. destruct H as (s & Hs & H & _).
    apply value_bind_ok in H. destruct H as (k & Hk & H & _). rewrite value_pure in Hk.
    apply value_bind_ok in H. destruct H as (e & He & H & _). rewrite value_pure in He.
    apply value_bind_ok in H. destruct H as ([q' k'] & Hl & H & _).
    rewrite value_ret in H. injection H as <-.
    assert (Hq : in_atm rnd (mkQ 1 (mult_unit d_pressure (@nofQ R NR 101325)) reg) 1 reg) by (repeat split).
    destruct (loop_spec_r _ _ _ _ _ _ _ _ _ Hq Hl) as (ts & t' & Hc & Hla & Ht & Hf & Hlen & Hnil & _ & Hm).
    pose proof (proj1 (load_factor_r _ _) Hk) as (n & Hn & Ek).
    assert (HM : M <> 0 /\ e = rnd (k / M)).
    { unfold pydiv in He. destruct (_ =? _)%num eqn:Z in He; [discriminate|]. injection He as <-.
      cbn [neqb NR Num_rounded] in Z. rewrite zero_NR in Z. unfold Reqb in Z.
      destruct (Req_EM_T _ _) as [|Nz] in Z; [discriminate|]. split; [exact Nz|].
      cbn [q_mag nmul ndiv NR Num_rounded]. fold M. f_equal. f_equal. rewrite Rmult_1_l.
      rewrite Ek. rewrite INR_IZR_INZ. apply (rnd_int u rnd Hr).
      destruct (dlf_values_any (NA:=NR) _ _ _ _ _ _ _ _ Hn) as [-> |[-> | -> ]]; cbn; lia. }
    destruct HM as (HM & ->).
    eexists (mkTrial _ s k), ts. split; [|split; [|split; [|split; [|split]]]].
    - split; [|exact Hc]. split; [exact Hq|]. split; [exact Hs|]. exists n. split; [exact Hn|exact Ek].
    - rewrite Hla. unfold reports. rewrite Ht, Hf. reflexivity.
    - exact Hlen.
    - intros En. destruct (Hnil En) as [D|D]; [left|right; exact D].
      exact D.
    - exact HM.
    - intros H1 H2. rewrite Hla. apply Hm; assumption.
  Qed.

  (** from the computed error to the true one *)
  Lemma rnd_back y : Rabs y <= Rabs (rnd y) / (1 - u).
  Proof.
    pose proof (proj1 (proj2 Hr) y) as He.
    assert (Rabs y <= Rabs (rnd y) + u * Rabs y).
    { replace y with (rnd y - (rnd y - y)) at 1 by ring. eapply Rle_trans; [apply Rabs_triang|].
      rewrite Rabs_Ropp. lra. }
    apply Rmult_le_reg_r with (1 - u); [lra|]. unfold Rdiv. rewrite Rmult_assoc, Rinv_l by lra. lra.
  Qed.
  Lemma true_error P k tol : M <> 0 -> Rabs (error_r P k) <= tol ->
    Rabs (P * k - M) <= ((1 + 4 * u) * tol + 2 * u) * Rabs M.
  Proof.
    intros HM H. unfold error_r in H.
    pose proof (rnd_back (rnd (rnd (P * k) - M) / M)) as B1.
    pose proof (rnd_back (rnd (P * k) - M)) as B2.
    pose proof (rnd_back (P * k)) as B3.
    pose proof (proj1 (proj2 Hr) (P * k)) as He.
    assert (T0 : 0 <= tol) by (pose proof (Rabs_pos (rnd (rnd (rnd (P * k) - M) / M))); lra).
    assert (AM : 0 < Rabs M) by (apply Rabs_pos_lt; exact HM).
    set (v := / (1 - u)) in *.
    assert (V : 1 <= v) by (unfold v; rewrite <- Rinv_1; apply Rinv_le_contravar; lra).
    assert (V' : (1 - u) * v = 1) by (unfold v; apply Rinv_r; lra).
    unfold Rdiv in B1 at 3. unfold Rdiv in B2, B3. fold v in B1, B2, B3.
    set (e := rnd (rnd (P * k) - M)) in *. set (c := rnd (P * k)) in *.
    assert (D1 : Rabs e <= tol * v * Rabs M).
    { unfold Rdiv in B1. rewrite Rabs_mult, Rabs_inv in B1.
      assert (Rabs e * / Rabs M <= tol * v).
      { eapply Rle_trans; [exact B1|]. apply Rmult_le_compat_r; [lra|]. exact H. }
      apply Rmult_le_reg_r with (/ Rabs M); [now apply Rinv_0_lt_compat|].
      rewrite (Rmult_assoc _ (Rabs M)), Rinv_r by lra. lra. }
    assert (D2 : Rabs (c - M) <= tol * v * v * Rabs M).
    { eapply Rle_trans; [exact B2|]. replace (tol * v * v * Rabs M) with (tol * v * Rabs M * v) by ring.
      apply Rmult_le_compat_r; lra. }
    assert (D3 : Rabs c <= Rabs M + tol * v * v * Rabs M).
    { replace c with (M + (c - M)) by ring. eapply Rle_trans; [apply Rabs_triang|]. lra. }
    assert (D4 : Rabs (P * k) <= (Rabs M + tol * v * v * Rabs M) * v).
    { eapply Rle_trans; [exact B3|]. apply Rmult_le_compat_r; lra. }
    assert (D5 : Rabs (P * k - M) <= u * Rabs (P * k) + tol * v * v * Rabs M).
    { replace (P * k - M) with (- (c - P * k) + (c - M)) by ring.
      eapply Rle_trans; [apply Rabs_triang|]. rewrite Rabs_Ropp. lra. }
    assert (V1 : v <= 1 + 101/100 * u).
    { apply Rmult_le_reg_l with (1 - u); [lra|]. rewrite V'. nra. }
    assert (V3 : v * v + u * v * v * v <= 1 + 4 * u).
    { assert (V2 : v * v <= 1 + 3 * u).
      { apply Rle_trans with ((1 + 101/100 * u) * (1 + 101/100 * u)); [apply Rmult_le_compat; lra|]. nra. }
      assert (V2' : v * v <= 1 + 205/100 * u).
      { apply Rle_trans with ((1 + 101/100 * u) * (1 + 101/100 * u)); [apply Rmult_le_compat; lra|]. nra. }
      assert (V5 : v * v * v <= 102/100).
      { apply Rle_trans with ((1 + 3 * u) * (1 + 101/100 * u)); [apply Rmult_le_compat; nra|]. nra. }
      assert (u * (v * v * v) <= u * (102/100)) by (apply Rmult_le_compat_l; lra). lra. }
    assert (D6 : Rabs (P * k - M) <= (u * v + tol * (v * v + u * v * v * v)) * Rabs M).
    { eapply Rle_trans; [exact D5|]. apply Rmult_le_compat_l with (r := u) in D4; [|lra].
      eapply Rle_trans; [apply Rplus_le_compat_r; exact D4|]. apply Req_le. ring. }
    eapply Rle_trans; [exact D6|]. apply Rmult_le_compat_r; [lra|]. nra.
  Qed.

  (** ** Nearly proportional chemistry *)
  Context (r eta : R) (n : nat).
  Context (Hp : nearly_proportional rnd L tube_id tube_od T x mech E rho nu f reg p r eta n).
  Context (Huse : use = true) (Hr0 : 0 < r) (He : 0 <= eta <= 1/4) (HM : 0 < M).

  Lemma some_factor : n = 1%nat \/ n = 2%nat \/ n = 4%nat.
  Proof.
    destruct (Hp (mkQ 1 (mult_unit d_pressure (@nofQ R NR 101325)) reg) 1) as (s & _ & _ & F);
      [repeat split|lra|]. exact (dlf_values_any (NA:=NR) _ _ _ _ _ _ _ _ F).
  Qed.
  Lemma some_factor_pos : 1 <= INR n.
  Proof. destruct some_factor as [-> |[-> | -> ]]; cbn; lra. Qed.

  Lemma step_close m P m' : 0 < m -> within eta (r * m) P ->
    within (6 * u) (m * M / (INR n * P)) m' ->
    0 < P /\ 0 < m' /\ within (2 * eta + 6 * u) (M / (INR n * r)) m'.
  Proof.
    intros Hm HP Hm'. pose proof some_factor_pos as Hn.
    assert (Pm : 0 < r * m) by nra. unfold within in HP. rewrite (Rabs_pos_eq (r * m)) in HP by lra.
    apply Rabs_le_inv in HP. set (h := (P - r * m) / (r * m)).
    assert (Eh : P = r * m * (1 + h)) by (unfold h; field; lra).
    assert (Hh : - eta <= h <= eta).
    { unfold h. split.
      - apply Rmult_le_reg_r with (r * m); [lra|]. unfold Rdiv. rewrite Rmult_assoc, Rinv_l by lra. lra.
      - apply Rmult_le_reg_r with (r * m); [lra|]. unfold Rdiv. rewrite Rmult_assoc, Rinv_l by lra. lra. }
    assert (P0 : 0 < P) by (rewrite Eh; apply Rmult_lt_0_compat; lra).
    split; [exact P0|].
    set (A := M / (INR n * r)). assert (A0 : 0 < A) by (apply Rdiv_lt_0_compat; nra).
    assert (Ea : m * M / (INR n * P) = A * / (1 + h)).
    { rewrite Eh. unfold A. field. repeat split; lra. }
    rewrite Ea in Hm'. set (g := / (1 + h)) in *.
    assert (Hg : (1 + h) * g = 1) by (unfold g; apply Rinv_r; lra).
    assert (G0 : 0 < g) by (unfold g; apply Rinv_0_lt_compat; lra).
    assert (G1 : - (4/3 * eta) <= g - 1 <= 4/3 * eta).
    { assert (g <= 4/3) by (apply Rmult_le_reg_l with (1 + h); [lra|]; rewrite Hg; lra).
      assert (g - 1 = - (h * g)) by lra. split; nra. }
    unfold within in Hm'. rewrite (Rabs_pos_eq (A * g)) in Hm' by nra. apply Rabs_le_inv in Hm'.
    split; [nra|]. unfold within. rewrite (Rabs_pos_eq A) by lra.
    apply Rabs_le.
    assert (Q1 : - (6 * u * (4/3)) * A <= m' - A * g <= 6 * u * (4/3) * A) by (split; nra).
    assert (Q : 6 * u * (A * g) <= 6 * u * (A * (1 + 4/3 * eta))).
    { apply Rmult_le_compat_l; [lra|]. apply Rmult_le_compat_l; lra. }
    assert (Q2 : 6 * u * (4/3 * eta) <= 2/3 * eta) by nra.
    assert (Q3 : 6 * u * (A * (1 + 4/3 * eta)) <= (6 * u + 2/3 * eta) * A) by nra.
    assert (Q4 : - (4/3 * eta) * A <= A * g - A <= 4/3 * eta * A) by nra.
    split; lra.
  Qed.

  Lemma loop_returns : forall budget tol err q s m,
    in_atm rnd q m reg -> 0 < m -> shock_r q = Ok s ->
    exists q', value (loop budget tol err q (INR n) s) = Ok (q', INR n)
      /\ ((tol < Rabs err /\ budget <> 0%nat /\
           exists m', in_atm rnd q' m' reg /\ within (2 * eta + 6 * u) (M / (INR n * r)) m')
          \/ ((Rabs err <= tol \/ budget = 0%nat) /\ q' = q)).
  Proof.
    unfold loop. induction budget as [|budget IH]; intros * Hq Hm Hs; cbn [pressure_loop];
      cbn [nltb nabs NR Num_rounded].
    - exists q. split; [destruct (Rltb _ _); reflexivity|]. right. auto.
    - destruct (Rltb tol (Rabs err)) eqn:Et; unfold Rltb in Et;
        destruct (Rlt_dec tol (Rabs err)) as [Hlt|Hge]; try discriminate.
      + destruct (Hp q m Hq Hm) as (s0 & Hs0 & HP & _).
        assert (s0 = s) by congruence. subst s0.
        assert (P0 : INR n * ct_P L (reflected_state s) <> 0).
        { pose proof some_factor_pos.
          destruct (step_close m (ct_P L (reflected_state s))
                      (m * M / (INR n * ct_P L (reflected_state s))) Hm HP) as (P0 & _).
          - unfold within. rewrite Rminus_diag_eq, Rabs_R0 by reflexivity.
            apply Rmult_le_pos; [lra|apply Rabs_pos].
          - nra. }
        destruct (next_pressure_r_ok q (INR n) s m Hq P0) as (q1 & Hq1).
        destruct (next_pressure_r q (INR n) s q1 m Hq Hq1) as (_ & m1 & Hm1 & Em1).
        assert (Hw : within (6 * u) (m * M / (INR n * ct_P L (reflected_state s))) m1)
          by (rewrite Em1; apply near3_within, update_near).
        destruct (step_close m _ m1 Hm HP Hw) as (_ & M1 & C1).
        destruct (Hp q1 m1 Hm1 M1) as (s1 & Hs1 & _ & F1).
        assert (Hk : @load_factor R G NR tube_id tube_od E rho nu f s1 = Ok (INR n))
          by (apply load_factor_r; exists n; split; [exact F1|reflexivity]).
        assert (Hd : exists e1, @pydiv R NR (ct_P L (state_at w s1) * INR n - q_mag max_pressure)%num
                                 (q_mag max_pressure) = Ok e1).
        { unfold pydiv. cbn [neqb NR Num_rounded]. rewrite zero_NR. unfold Reqb.
          destruct (Req_EM_T _ _) as [Z|]; [|eexists; reflexivity]. exfalso. unfold M in HM. lra. }
        destruct Hd as (e1 & Hd).
        destruct (IH tol e1 q1 s1 m1 Hm1 M1 Hs1) as (q' & V & D).
        exists q'. split.
        * rewrite Hq1, bind_pure_ok, value_bind. unfold shock_at.
          assert (Hs1' : value (@calculate_reflected_shock_state R G X NR L T q1 x mech reg p) = Ok s1) by exact Hs1.
          rewrite Hs1'. cbn [bind]. rewrite Huse, Hk, bind_pure_ok.
          rewrite Hd, bind_pure_ok. rewrite Huse in V. exact V.
        * left. split; [exact Hlt|]. split; [discriminate|].
          destruct D as [(_ & _ & D)|(_ & ->)]; [exact D|]. exists m1. split; assumption.
      + exists q. split; [reflexivity|]. right. split; [left; lra|reflexivity].
  Qed.

  Lemma search_returns tol max_it name :
    which_state name = Some w ->
    exists q, value (@calculate_max_initial_pressure R G X NR L tube_id tube_od T x mech max_pressure
                E rho nu f use reg tol max_it p name true) = Ok (PressureAndFactor q (INR n))
      /\ ((Rabs tol < Rabs (rnd (rnd (INR n / M) - 1)) /\ (0 < max_it)%Z /\
           exists m, in_atm rnd q m reg /\ within (2 * eta + 6 * u) (M / (INR n * r)) m)
          \/ ((Rabs (rnd (rnd (INR n / M) - 1)) <= Rabs tol \/ (max_it <= 0)%Z) /\ in_atm rnd q 1 reg)).
  Proof.
    intros Hw. unfold calculate_max_initial_pressure. rewrite Hw.
    unfold quant. rewrite atm_unit, bind_pure_ok. cbv zeta. rewrite one_NR.
    set (q0 := mkQ 1 (mult_unit d_pressure (@nofQ R NR 101325)) reg).
    assert (Hq : in_atm rnd q0 1 reg) by (repeat split).
    destruct (Hp q0 1 Hq ltac:(lra)) as (s & Hs & _ & F).
    rewrite value_bind. unfold shock_at. assert (Hs' : value (@calculate_reflected_shock_state R G X NR L T q0 x mech reg p) = Ok s) by exact Hs.
    rewrite Hs'.
    cbn [bind].
    assert (Hk : @load_factor R G NR tube_id tube_od E rho nu f s = Ok (INR n))
      by (apply load_factor_r; exists n; split; [exact F|reflexivity]).
    rewrite Hk, bind_pure_ok.
    assert (Hd : @pydiv R NR (q_mag q0 * INR n)%num (q_mag max_pressure) = Ok (rnd (INR n / M))).
    { unfold pydiv. cbn [neqb NR Num_rounded]. rewrite zero_NR. unfold Reqb.
      destruct (Req_EM_T _ _) as [Z|]; [exfalso; unfold M in HM; lra|].
      cbn [q_mag q0 nmul ndiv NR Num_rounded]. do 3 f_equal. rewrite Rmult_1_l, INR_IZR_INZ.
      apply (rnd_int u rnd Hr). destruct some_factor as [-> |[-> | -> ]]; cbn; lia. }
    rewrite Hd, bind_pure_ok.
    destruct (loop_returns (Z.to_nat max_it) (Rabs tol) (rnd (rnd (INR n / M) - 1)) q0 s 1 Hq ltac:(lra) Hs)
      as (q & V & D).
    exists q. split.
    - rewrite value_bind. unfold loop in V. cbn [nsub nabs NR Num_rounded] in V |- *. rewrite V. reflexivity.
    - destruct D as [(D1 & D2 & D3)|(D1 & ->)].
      + left. split; [exact D1|]. split; [lia|exact D3].
      + right. split; [|exact Hq]. destruct D1; [left; assumption|right; lia].
  Qed.
End Search.
