(** * SdP: lemmas about the model of sd.py over the reals. *)
From Coq Require Import String ZArith QArith Reals Qreals List Bool Lra Lia Psatz.
From Verif Require Import PyBase Gas GasP FitM QLemmas FitP SdM SdSpec.
Import ListNotations.
Local Open Scope R_scope.

Lemma lit_05 : Q2R 0.5 = 1/2. Proof. unfold Q2R; simpl; lra. Qed.
Lemma lit_02 : Q2R 0.2 = 1/5. Proof. unfold Q2R; simpl; lra. Qed.
Lemma lit_002 : Q2R 0.02 = 1/50. Proof. unfold Q2R; simpl; lra. Qed.
Lemma lit_2000 : Q2R 2000 = 2000. Proof. unfold Q2R; simpl; lra. Qed.
Lemma lit_1000 : Q2R 1000 = 1000. Proof. unfold Q2R; simpl; lra. Qed.

Section SdP.
  Context {G X : Type} (L : cantera R G X).

  Lemma error_equilibrium_R (w i : G) (U : R) :
    ct_density L w <> 0 ->
    error_equilibrium L w i U = Ok (energy_imbalance L i w U, momentum_imbalance L i w U).
  Proof.
    intros H. unfold error_equilibrium. rnum. rewrite pydiv_ok by exact H. cbn [bind].
    unfold energy_imbalance, momentum_imbalance, sq. rnum. rewrite lit_05.
    f_equal. f_equal; field; exact H.
  Qed.
  Lemma error_equilibrium_inv (w i : G) (U : R) eh ep :
    error_equilibrium L w i U = Ok (eh, ep) ->
    ct_density L w <> 0 /\ eh = energy_imbalance L i w U /\ ep = momentum_imbalance L i w U.
  Proof.
    intros H. destruct (Req_EM_T (ct_density L w) 0) as [E|E].
    - unfold error_equilibrium in H. rewrite pydiv_zero in H by exact E. discriminate.
    - rewrite error_equilibrium_R in H by exact E. injection H as <- <-. auto.
  Qed.

  Definition is_div (div : R -> R -> result R) : Prop := div = pydiv \/ div = npdiv.
  Lemma div_ok div x y : is_div div -> y <> 0 -> div x y = Ok (x / y).
  Proof. intros [->| ->] H; [apply pydiv_ok|apply npdiv_ok]; exact H. Qed.
  Lemma div_inv div x y z : is_div div -> div x y = Ok z -> y <> 0 /\ z = x / y.
  Proof.
    intros Hd H. destruct (Req_EM_T y 0) as [E|E].
    - destruct Hd as [->| ->]; [rewrite pydiv_zero in H by exact E|rewrite npdiv_zero in H by exact E];
        discriminate.
    - rewrite div_ok in H by assumption. split; [exact E|]. congruence.
  Qed.

  Lemma error_reflected_R div (u : R) (w g2 : G) :
    is_div div -> ct_density L g2 <> 0 -> ct_density L w / ct_density L g2 <> 1 ->
    error_reflected L div u w g2
    = Ok (reflected_energy_imbalance L g2 w u, reflected_momentum_imbalance L g2 w u).
  Proof.
    intros Hd H Hr. unfold error_reflected. rnum. rewrite pydiv_ok by exact H. cbn [bind].
    rewrite one_R. rewrite !div_ok by (auto; lra). cbn [bind].
    unfold reflected_energy_imbalance, reflected_momentum_imbalance, sq. rnum. rewrite lit_05.
    set (r := ct_density L w / ct_density L g2) in *.
    f_equal. f_equal; field; lra.
  Qed.
  Lemma error_reflected_inv div (u : R) (w g2 : G) eh ep :
    is_div div -> error_reflected L div u w g2 = Ok (eh, ep) ->
    ct_density L g2 <> 0 /\ ct_density L w / ct_density L g2 <> 1
    /\ eh = reflected_energy_imbalance L g2 w u /\ ep = reflected_momentum_imbalance L g2 w u.
  Proof.
    intros Hd H. destruct (Req_EM_T (ct_density L g2) 0) as [E|E].
    { unfold error_reflected in H. rewrite pydiv_zero in H by exact E. discriminate. }
    destruct (Req_EM_T (ct_density L w / ct_density L g2) 1) as [E1|E1].
    { unfold error_reflected in H. rnum. rewrite pydiv_ok in H by exact E. cbn [bind] in H.
      apply bind_inv in H. destruct H as (z & Hz & _).
      apply div_inv in Hz; [|exact Hd]. rewrite one_R in Hz. lra. }
    rewrite error_reflected_R in H by assumption. injection H as <- <-. auto.
  Qed.

  (** C67 *)
  Lemma imbalance_zero_iff (g1 g2 : G) (U : R) :
    ct_density L g2 <> 0 ->
    (energy_imbalance L g1 g2 U = 0 /\ momentum_imbalance L g1 g2 U = 0) <->
    (exists w, wave_conserves L g1 g2 U w).
  Proof.
    intros H. unfold energy_imbalance, momentum_imbalance, wave_conserves. split.
    - intros (H1 & H2). exists (U * ct_density L g1 / ct_density L g2).
      split; [field; exact H|]. split; lra.
    - intros (w & Hm & Hp & He).
      assert (Ew : U * ct_density L g1 / ct_density L g2 = w).
      { rewrite (Rmult_comm U), Hm. field. exact H. }
      rewrite Ew. split; lra.
  Qed.

  (** C68 *)
  Lemma reflected_zero_iff (g2 g3 : G) (u : R) :
    ct_density L g2 <> 0 -> ct_density L g3 <> 0 -> ct_density L g3 <> ct_density L g2 ->
    (reflected_energy_imbalance L g2 g3 u = 0 /\ reflected_momentum_imbalance L g2 g3 u = 0) <->
    (exists W, wave_conserves L g2 g3 (u + W) W).
  Proof.
    intros H2 H3 Hne.
    unfold reflected_energy_imbalance, reflected_momentum_imbalance, wave_conserves.
    set (r2 := ct_density L g2) in *. set (r3 := ct_density L g3) in *.
    assert (Hr : r3 / r2 - 1 <> 0).
    { intros E. apply Hne. assert (r3 / r2 = 1) by lra.
      apply (f_equal (fun x => x * r2)) in H. unfold Rdiv in H.
      rewrite Rmult_assoc, Rinv_l in H by exact H2. lra. }
    assert (Hd : r3 - r2 <> 0) by lra.
    assert (Eh : forall x, x^2 / 2 * (r3 / r2 + 1) / (r3 / r2 - 1) = x^2/2 * (r3 + r2) / (r3 - r2)).
    { intros x. field. repeat split; auto. }
    assert (Ep : forall x, r3 * x^2 / (r3 / r2 - 1) = r3 * r2 * x^2 / (r3 - r2)).
    { intros x. field. repeat split; auto. }
    rewrite Eh, Ep. split.
    - intros (E1 & E2). exists (u * r2 / (r3 - r2)).
      split; [field; exact Hd|]. split.
      + assert (EP : ct_P L g3 = ct_P L g2 + r3 * r2 * u^2 / (r3 - r2)) by lra.
        rewrite EP. field. exact Hd.
      + assert (EH : ct_enthalpy L g3 = ct_enthalpy L g2 + u^2/2 * (r3 + r2) / (r3 - r2)) by lra.
        rewrite EH. field. exact Hd.
    - intros (W & Hm & Hp & He).
      assert (EW : W = u * r2 / (r3 - r2)).
      { apply Rmult_eq_reg_r with (r3 - r2); [|exact Hd].
        unfold Rdiv. rewrite Rmult_assoc, Rinv_l by exact Hd. lra. }
      assert (EH : ct_enthalpy L g3 = ct_enthalpy L g2 + (u + W)^2 / 2 - W^2/2) by lra.
      assert (EP : ct_P L g3 = ct_P L g2 + r2 * (u+W)^2 - r3 * W^2) by lra.
      rewrite EH, EP, EW. split; field; exact Hd.
  Qed.

  (** ** 2x2 solve *)
  Lemma solve2_inv div h1 p1 h2 p2 eh ep d1 d2 :
    is_div div -> solve2 div h1 p1 h2 p2 eh ep = Ok (d1, d2) ->
    h1 * p2 - p1 * h2 <> 0 /\ the_solution h1 h2 p1 p2 eh ep d1 d2.
  Proof.
    intros Hd H. unfold solve2 in H. rnum.
    apply bind_inv in H. destruct H as (x & Hx & H).
    apply bind_inv in H. destruct H as (y & Hy & H).
    apply div_inv in Hx; [|exact Hd]. apply div_inv in Hy; [|exact Hd].
    destruct Hx as (Hj & ->). destruct Hy as (_ & ->).
    injection H as <- <-. split; [exact Hj|]. unfold the_solution. split.
    - split; field; exact Hj.
    - intros a b Ha Hb. split.
      + apply Rmult_eq_reg_r with (h1 * p2 - p1 * h2); [|exact Hj].
        unfold Rdiv. rewrite Rmult_assoc, Rinv_l by exact Hj. nra.
      + apply Rmult_eq_reg_r with (h1 * p2 - p1 * h2); [|exact Hj].
        unfold Rdiv. rewrite Rmult_assoc, Rinv_l by exact Hj. nra.
  Qed.

  Lemma solve2_singular div h1 p1 h2 p2 eh ep :
    is_div div -> h1 * p2 - p1 * h2 = 0 ->
    solve2 div h1 p1 h2 p2 eh ep = Err ZeroDivisionError
    \/ solve2 div h1 p1 h2 p2 eh ep = Err NotFinite.
  Proof.
    intros [->| ->] Hj; unfold solve2; rnum;
      [left; rewrite pydiv_zero by exact Hj|right; rewrite npdiv_zero by exact Hj]; reflexivity.
  Qed.

  (** ** limiters *)
  Lemma limit_temperature_R d T : 0 < T ->
    exists d', limit_temperature d T = Ok d' /\ cut d (1/5 * T) d'.
  Proof.
    intros HT. unfold limit_temperature. rnum. rewrite lit_02.
    destruct (Rltb_spec (1/5 * T) (Rabs d)) as [H|H].
    - assert (Ha : Rabs d <> 0) by lra.
      rewrite pydiv_ok by exact Ha. cbn [bind]. eexists. split; [reflexivity|].
      unfold cut. right. destruct (Rle_dec 0 d) as [Hd|Hd].
      + left. rewrite Rabs_right in * by lra. split; [lra|]. field. lra.
      + right. rewrite Rabs_left in * by lra. split; [lra|]. field. lra.
    - exists d. split; [reflexivity|]. left. split; lra.
  Qed.

  Lemma cut_by_scaling div d m : is_div div -> 0 <= m ->
    exists d', (if Rltb m (Rabs d) then div (m * d) (Rabs d) else Ok d) = Ok d' /\ cut d m d'.
  Proof.
    intros Hdiv HT. destruct (Rltb_spec m (Rabs d)) as [H|H].
    - assert (Ha : Rabs d <> 0) by lra.
      rewrite div_ok by assumption. eexists. split; [reflexivity|].
      unfold cut. right. destruct (Rle_dec 0 d) as [Hd|Hd].
      + left. rewrite Rabs_right in * by lra. split; [lra|]. field. lra.
      + right. rewrite Rabs_left in * by lra. split; [lra|]. field. lra.
    - exists d. split; [reflexivity|]. left. split; lra.
  Qed.

  Lemma cut_bound d m d' : 0 <= m -> cut d m d' -> - m <= d' <= m.
  Proof.
    intros Hm [(H & ->)|[(H & ->)|(H & ->)]]; try lra.
    unfold Rabs in H. destruct (Rcase_abs d); lra.
  Qed.
  Lemma cut_shrinks d m d' : 0 <= m -> cut d m d' -> (0 <= d -> 0 <= d' <= d) /\ (d <= 0 -> d <= d' <= 0).
  Proof.
    intros Hm [(H & ->)|[(H & ->)|(H & ->)]]; lra.
  Qed.

  (** ** equilibrium *)
  Lemma equilibrium_inv g D T g' :
    value (equilibrium L g D T) = Ok g' ->
    settles L g T D g'
    /\ trace (equilibrium L g D T) = [EvTD T D; EvEquilibrate "TV"].
  Proof.
    unfold equilibrium, set_TD, equilibrate, io_bind, act, value, trace. cbn [fst snd].
    destruct (ct_set_TD L g T D) as [g1|e] eqn:E1; cbn [fst snd]; [|discriminate].
    intros H. split; [exists g1; auto|reflexivity].
  Qed.
  Lemma equilibrium_all (P : event R -> Prop) g D T :
    P (EvTD T D) -> P (EvEquilibrate "TV") -> all_events P (equilibrium L g D T).
  Proof.
    intros H1 H2. unfold equilibrium. apply all_bind; [apply all_act; auto|].
    intros b _. apply all_act; auto.
  Qed.

  (** ** cj_state *)
  Ltac io_step H :=
    let b := fresh "b" in let E := fresh "E" in let T := fresh "Tr" in
    apply value_bind_ok in H; destruct H as (b & E & H & T).

  Definition body_trace D T T' : list (event R) :=
    [EvTD (T + 1/50 * T) D; EvEquilibrate "TV"; EvTD T D; EvEquilibrate "TV";
     EvTD T' D; EvEquilibrate "TV"].

  Lemma cj_body_inv initial D g T V g' T' V' dT dV :
    0 < T ->
    value (cj_body L initial D g T V) = Ok (g', T', V', dT, dV) ->
    cj_newton_step L initial D (T, V, g) (T', V', g')
    /\ T' = T + dT /\ V' = V + dV /\ 4/5 * T <= T' <= 6/5 * T
    /\ trace (cj_body L initial D g T V) = body_trace D T T'.
  Proof.
    intros HT H. unfold cj_body in *.
    io_step H. destruct b as (eh, ep). rewrite Tr. clear Tr.
    rewrite value_pure in E. apply error_equilibrium_inv in E. destruct E as (_ & -> & ->).
    io_step H. rename b into gT. rewrite Tr. clear Tr.
    apply equilibrium_inv in E. destruct E as (HgT & ->). rnum.
    io_step H. destruct b as (eh1, ep1). rewrite Tr. clear Tr.
    rewrite value_pure in E. apply error_equilibrium_inv in E. destruct E as (_ & -> & ->).
    io_step H. rewrite value_pure in E. rewrite Tr. clear Tr.
    apply div_inv in E; [|left; reflexivity]. destruct E as (_ & ->).
    io_step H. rewrite value_pure in E. rewrite Tr. clear Tr.
    apply div_inv in E; [|left; reflexivity]. destruct E as (_ & ->).
    io_step H. rename b into gU. rewrite Tr. clear Tr.
    apply equilibrium_inv in E. destruct E as (HgU & ->).
    io_step H. destruct b as (eh2, ep2). rewrite Tr. clear Tr.
    rewrite value_pure in E. apply error_equilibrium_inv in E. destruct E as (_ & -> & ->).
    io_step H. rewrite value_pure in E. rewrite Tr. clear Tr.
    apply div_inv in E; [|left; reflexivity]. destruct E as (_ & ->).
    io_step H. rewrite value_pure in E. rewrite Tr. clear Tr.
    apply div_inv in E; [|left; reflexivity]. destruct E as (_ & ->).
    io_step H. destruct b as (d1, d2). rewrite value_pure in E. rewrite Tr. clear Tr.
    apply solve2_inv in E; [|left; reflexivity]. destruct E as (_ & Hsol).
    io_step H. rewrite value_pure in E. rewrite Tr. clear Tr.
    destruct (limit_temperature_R d1 T HT) as (d1' & E' & Hcut).
    rewrite E' in E. injection E as <-.
    io_step H. rename b into gf. rewrite Tr. clear Tr.
    apply equilibrium_inv in E. destruct E as (Hgf & ->).
    rewrite value_ret in H.
    assert (Eq : (gf, T + d1', V + d2, d1', d2) = (g', T', V', dT, dV)) by congruence.
    assert (E1 : gf = g') by congruence.
    assert (E2 : T + d1' = T') by congruence.
    assert (E3 : V + d2 = V') by congruence.
    assert (E4 : d1' = dT) by congruence.
    assert (E5 : d2 = dV) by congruence.
    clear Eq H. subst gf d1' d2.
    rewrite lit_002 in *.
    split; [|split; [auto|split; [auto|split]]].
    - unfold cj_newton_step. exists gT, gU, d1, dV.
      split; [exact HgT|]. split; [exact HgU|]. split; [rewrite <- E2; exact Hgf|].
      split; [exact Hsol|]. split; [|auto].
      replace (T' - T) with dT by lra. exact Hcut.
    - apply cut_bound in Hcut; lra.
    - cbn [app trace pure fst snd ret]. unfold body_trace. rewrite E2. reflexivity.
  Qed.

  Lemma cj_body_all (P : event R -> Prop) initial D g T V :
    0 < T -> (forall T', 0 < T' -> P (EvTD T' D)) -> P (EvEquilibrate "TV") ->
    all_events P (cj_body L initial D g T V).
  Proof.
    intros HT H1 H2. unfold cj_body. rnum. rewrite lit_002.
    apply all_bind; [apply all_pure|]. intros [eh ep] _.
    apply all_bind; [apply equilibrium_all; auto; apply H1; lra|]. intros gT _.
    apply all_bind; [apply all_pure|]. intros [eh1 ep1] _.
    apply all_bind; [apply all_pure|]. intros hT _.
    apply all_bind; [apply all_pure|]. intros pT _.
    apply all_bind; [apply equilibrium_all; auto; apply H1; lra|]. intros gU _.
    apply all_bind; [apply all_pure|]. intros [eh2 ep2] _.
    apply all_bind; [apply all_pure|]. intros hV _.
    apply all_bind; [apply all_pure|]. intros pV _.
    apply all_bind; [apply all_pure|]. intros [d1 d2] _.
    apply all_bind; [apply all_pure|]. intros d1' E. rewrite value_pure in E.
    destruct (limit_temperature_R d1 T HT) as (d1'' & E' & Hcut).
    rewrite E' in E. injection E as <-. apply cut_bound in Hcut; [|lra].
    apply all_bind; [apply equilibrium_all; auto; apply H1; lra|]. intros gf _.
    apply all_ret.
  Qed.

  Lemma cj_loop_all (P : event R -> Prop) fuel : forall initial tT tV D mx k g T V dT dV,
    0 < T -> (forall T', 0 < T' -> P (EvTD T' D)) -> P (EvEquilibrate "TV") ->
    (forall m, P (EvWarn m)) -> P EvStuck ->
    all_events P (cj_loop L fuel initial tT tV D mx k g T V dT dV).
  Proof.
    induction fuel as [|fuel IH]; intros * HT H1 H2 H3 H4; cbn [cj_loop]; rnum;
      destruct (_ || _)%bool; try apply all_ret.
    - apply all_act; auto.
    - destruct (Z.eqb _ _).
      + apply all_bind; [apply all_emit; auto|]. intros; apply all_ret.
      + apply all_bind; [apply cj_body_all; auto|].
        intros [[[[g' T'] V'] dT'] dV'] E. apply cj_body_inv in E; [|exact HT].
        apply IH; auto. lra.
  Qed.

  Lemma chain_cons {I} (step : I -> I -> Prop) p q l :
    step p q -> chain step (q :: l) -> chain step (p :: q :: l).
  Proof.
    intros H1 H2 before a b after E. destruct before as [|c before]; simpl in E.
    - injection E as -> -> ->. exact H1.
    - injection E as -> E. exact (H2 before a b after E).
  Qed.
  Lemma chain_single {I} (step : I -> I -> Prop) p : chain step [p].
  Proof.
    intros before a b after E. destruct before as [|c [|d before]]; discriminate.
  Qed.

  Definition unconverged tT tV T V dT dV : bool :=
    (Rltb (tT * T) (Rabs dT) || Rltb (tV * V) (Rabs dV))%bool.
  Lemma unconverged_false tT tV T V dT dV :
    unconverged tT tV T V dT dV = false <-> Rabs dT <= tT * T /\ Rabs dV <= tV * V.
  Proof.
    unfold unconverged. rewrite orb_false_iff.
    destruct (Rltb_spec (tT * T) (Rabs dT)), (Rltb_spec (tV * V) (Rabs dV));
      split; intros [? ?]; split; try discriminate; try lra; auto.
  Qed.

  (** What a run of the loop that returns looks like. *)
  Lemma cj_loop_spec fuel : forall initial tT tV D mx k g T V dT dV gf Vf,
    0 < T -> (k < mx)%Z ->
    value (cj_loop L fuel initial tT tV D mx k g T V dT dV) = Ok (gf, Vf) ->
    let tr := trace (cj_loop L fuel initial tT tV D mx k g T V dT dV) in
    exists rest Tf,
      let its := (T, V, g) :: rest in
      chain (cj_newton_step L initial D) its
      /\ (exists before, its = (before ++ [(Tf, Vf, gf)])%list)
      /\ (k + Z.of_nat (length rest) < mx)%Z
      /\ settings tr = cj_settings D its
      /\ ((warnings tr = []
           /\ (rest = [] -> Rabs dT <= tT * T /\ Rabs dV <= tV * V)
           /\ (forall before p q, its = (before ++ [p; q])%list ->
                Rabs (itT q - itT p) <= tT * itT q /\ Rabs (itU q - itU p) <= tV * itU q))
         \/ (length (warnings tr) = 1%nat
             /\ (k + Z.of_nat (length rest) + 1 = mx)%Z
             /\ (rest = [] -> ~ (Rabs dT <= tT * T /\ Rabs dV <= tV * V))
             /\ (forall before p q, its = (before ++ [p; q])%list ->
                ~ (Rabs (itT q - itT p) <= tT * itT q /\ Rabs (itU q - itU p) <= tV * itU q)))).
  Proof.
    induction fuel as [|fuel IH]; intros * HT Hk; cbn [cj_loop]; rnum;
      change (Rltb (tT * T) (Rabs dT) || Rltb (tV * V) (Rabs dV))%bool
        with (unconverged tT tV T V dT dV);
      destruct (unconverged tT tV T V dT dV) eqn:Ec.
    - intros H. discriminate H.
    - intros H. cbv zeta. rewrite value_ret in H.
      assert (E1 : g = gf) by congruence. assert (E2 : V = Vf) by congruence. subst gf Vf.
      exists [], T. repeat split; auto.
      + apply chain_single.
      + exists []. reflexivity.
      + simpl. lia.
      + left. apply unconverged_false in Ec. repeat split; try (apply Ec); auto;
          destruct before as [|c [|d before]]; discriminate.
    - destruct (Z.eqb (k + 1) mx) eqn:Em.
      + intros H. cbv zeta. io_step H. rewrite value_ret in H.
        assert (E1 : g = gf) by congruence. assert (E2 : V = Vf) by congruence. subst gf Vf.
        rewrite Tr.
        exists [], T. apply Z.eqb_eq in Em. repeat split; auto.
        * apply chain_single.
        * exists []. reflexivity.
        * simpl. lia.
        * right. repeat split; simpl; auto; try lia.
          -- intros _ Hc. apply unconverged_false in Hc. congruence.
          -- intros before p q Hb. destruct before as [|c [|d before]]; discriminate.
      + intros H. cbv zeta. apply Z.eqb_neq in Em.
        io_step H. destruct b as [[[[g' T'] V'] dT'] dV'].
        rewrite Tr. clear Tr. cbv beta iota in H |- *.
        apply cj_body_inv in E; [|exact HT].
        destruct E as (Hstep & ET & EV & Hb & Etr). rewrite Etr.
        assert (HT' : 0 < T') by lra.
        assert (Hk' : (k + 1 < mx)%Z) by lia.
        destruct (IH _ _ _ _ _ _ _ _ _ _ _ _ _ HT' Hk' H)
          as (rest & Tf & Hch & (bef & Hlast) & Hlen & Hset & Hw).
        set (tr := trace (cj_loop L fuel initial tT tV D mx (k + 1) g' T' V' dT' dV')) in *.
        exists ((T', V', g') :: rest), Tf.
        split; [apply chain_cons; assumption|].
        split; [exists ((T, V, g) :: bef); simpl; rewrite Hlast; reflexivity|].
        split; [simpl length; lia|].
        split; [unfold body_trace, settings; cbn [flat_map app]; unfold settings in Hset;
                rewrite Hset; reflexivity|].
        assert (Ew : warnings (body_trace D T T' ++ tr) = warnings tr) by reflexivity.
        rewrite Ew.
        assert (Epair : forall before p q,
          (T, V, g) :: (T', V', g') :: rest = (before ++ [p; q])%list ->
          (rest = [] /\ p = (T, V, g) /\ q = (T', V', g'))
          \/ exists b', (T', V', g') :: rest = (b' ++ [p; q])%list).
        { intros before p q E0. destruct before as [|c before].
          - simpl in E0. left. injection E0 as E1 E2 E3. subst. auto.
          - simpl in E0. injection E0 as _ E0. right. exists before. exact E0. }
        destruct Hw as [(W1 & W2 & W3)|(W1 & W2 & W3 & W4)]; [left|right].
        * split; [exact W1|]. split; [discriminate|].
          intros before p q Hb'. destruct (Epair _ _ _ Hb') as [(Er & -> & ->)|(b' & Hb'')].
          -- specialize (W2 Er). unfold itT, itU; cbn [fst snd].
             replace (T' - T) with dT' by lra. replace (V' - V) with dV' by lra. exact W2.
          -- exact (W3 b' p q Hb'').
        * split; [exact W1|]. split; [simpl length; lia|]. split; [discriminate|].
          intros before p q Hb'. destruct (Epair _ _ _ Hb') as [(Er & -> & ->)|(b' & Hb'')].
          -- specialize (W3 Er). unfold itT, itU; cbn [fst snd].
             replace (T' - T) with dT' by lra. replace (V' - V) with dV' by lra. exact W3.
          -- exact (W4 b' p q Hb'').
    - intros H. cbv zeta. rewrite value_ret in H.
      assert (E1 : g = gf) by congruence. assert (E2 : V = Vf) by congruence. subst gf Vf.
      exists [], T. repeat split; auto.
      + apply chain_single.
      + exists []. reflexivity.
      + simpl. lia.
      + left. apply unconverged_false in Ec. repeat split; try (apply Ec); auto;
          destruct before as [|c [|d before]]; discriminate.
  Qed.

  Definition not_stuck (e : event R) : Prop := e <> EvStuck.
  Lemma not_stuck_finishes {B} (r : io R B) : all_events not_stuck r -> finishes r.
  Proof.
    unfold all_events, finishes. intros H Hin. rewrite Forall_forall in H.
    exact (H _ Hin eq_refl).
  Qed.

  Lemma cj_loop_finishes fuel : forall initial tT tV D mx k g T V dT dV,
    0 < T -> (k < mx)%Z -> (mx - k <= Z.of_nat fuel)%Z ->
    all_events not_stuck (cj_loop L fuel initial tT tV D mx k g T V dT dV).
  Proof.
    induction fuel as [|fuel IH]; intros * HT Hk Hf; cbn [cj_loop]; rnum;
      destruct (_ || _)%bool; try apply all_ret.
    - lia.
    - destruct (Z.eqb _ _) eqn:Em.
      + apply all_bind; [apply all_emit; discriminate|]. intros; apply all_ret.
      + apply all_bind; [apply cj_body_all; [exact HT| |]; intros; discriminate|].
        intros [[[[g' T'] V'] dT'] dV'] E. apply cj_body_inv in E; [|exact HT].
        apply Z.eqb_neq in Em. apply IH; [lra|lia|lia].
  Qed.

  (** ** get_eq_state *)
  Definition eq_trace T v T' v' : list (event R) :=
    [EvTD (T + 1/50 * T) (1 / v); EvEquilibrate "TV";
     EvTD T (1 / (v + 1/50 * v)); EvEquilibrate "TV";
     EvTD T' (1 / v'); EvEquilibrate "TV"].

  Lemma limit_temperature_reflected_R div d T : is_div div -> 0 < T ->
    exists d', limit_temperature_reflected div d T = Ok d' /\ cut d (1/5 * T) d'.
  Proof.
    intros Hd HT. unfold limit_temperature_reflected. rnum. rewrite lit_02.
    apply cut_by_scaling; [exact Hd|lra].
  Qed.

  Lemma limit_volume_R div d v v2 : is_div div -> 0 < v <= v2 ->
    exists d', limit_volume div d v v2 = Ok d'
      /\ (v + d <= v2 -> cut d (1/5 * v) d')
      /\ (v2 < v + d -> cut d (1/2 * (v2 - v)) d')
      /\ 0 < v + d' <= v2.
  Proof.
    intros Hd Hv. unfold limit_volume. rnum. rewrite lit_02, lit_05.
    destruct (Rltb_spec v2 (v + d)) as [H|H].
    - destruct (cut_by_scaling div d (1/2 * (v2 - v)) Hd) as (d' & E & Hc); [lra|].
      exists d'. split; [exact E|]. split; [intros; lra|]. split; [auto|].
      pose proof (cut_bound d (1/2 * (v2 - v)) d' ltac:(lra) Hc).
      pose proof (cut_shrinks d (1/2 * (v2 - v)) d' ltac:(lra) Hc). lra.
    - destruct (cut_by_scaling div d (1/5 * v) Hd) as (d' & E & Hc); [lra|].
      exists d'. split; [exact E|]. split; [auto|]. split; [intros; lra|].
      pose proof (cut_bound d (1/5 * v) d' ltac:(lra) Hc).
      pose proof (cut_shrinks d (1/5 * v) d' ltac:(lra) Hc).
      destruct (Rle_dec 0 d); lra.
  Qed.

  Lemma eq_body_inv div u g2 g T v D g' T' v' D' dT dv :
    is_div div -> 0 < T -> 0 < v <= 1 / ct_density L g2 -> D = 1 / v ->
    value (eq_body L div u g2 (1 / ct_density L g2) g T v D) = Ok (g', T', v', D', dT, dv) ->
    rs_newton_step L g2 u (T, v, g) (T', v', g')
    /\ T' = T + dT /\ v' = v + dv /\ 4/5 * T <= T' <= 6/5 * T
    /\ 0 < v' <= 1 / ct_density L g2 /\ D' = 1 / v'
    /\ trace (eq_body L div u g2 (1 / ct_density L g2) g T v D) = eq_trace T v T' v'.
  Proof.
    intros Hd HT Hv -> H. unfold eq_body in *.
    io_step H. destruct b as (eh, ep). rewrite Tr. clear Tr.
    rewrite value_pure in E. apply error_reflected_inv in E; [|exact Hd].
    destruct E as (_ & _ & -> & ->).
    io_step H. rename b into gT. rewrite Tr. clear Tr.
    apply equilibrium_inv in E. destruct E as (HgT & ->). rnum.
    io_step H. destruct b as (eh1, ep1). rewrite Tr. clear Tr.
    rewrite value_pure in E. apply error_reflected_inv in E; [|exact Hd].
    destruct E as (_ & _ & -> & ->).
    io_step H. rewrite value_pure in E. rewrite Tr. clear Tr.
    apply div_inv in E; [|exact Hd]. destruct E as (_ & ->).
    io_step H. rewrite value_pure in E. rewrite Tr. clear Tr.
    apply div_inv in E; [|exact Hd]. destruct E as (_ & ->).
    io_step H. rewrite value_pure in E. rewrite Tr. clear Tr.
    apply div_inv in E; [|left; reflexivity]. destruct E as (_ & ->). rewrite one_R in H |- *.
    io_step H. rename b into gv. rewrite Tr. clear Tr.
    apply equilibrium_inv in E. destruct E as (Hgv & ->).
    io_step H. destruct b as (eh2, ep2). rewrite Tr. clear Tr.
    rewrite value_pure in E. apply error_reflected_inv in E; [|exact Hd].
    destruct E as (_ & _ & -> & ->).
    io_step H. rewrite value_pure in E. rewrite Tr. clear Tr.
    apply div_inv in E; [|exact Hd]. destruct E as (_ & ->).
    io_step H. rewrite value_pure in E. rewrite Tr. clear Tr.
    apply div_inv in E; [|exact Hd]. destruct E as (_ & ->).
    io_step H. destruct b as (d1, d2). rewrite value_pure in E. rewrite Tr. clear Tr.
    apply solve2_inv in E; [|exact Hd]. destruct E as (_ & Hsol).
    io_step H. rewrite value_pure in E. rewrite Tr. clear Tr.
    destruct (limit_temperature_reflected_R div d1 T Hd HT) as (d1' & E' & Hcut).
    rewrite E' in E. injection E as <-.
    io_step H. rewrite value_pure in E. rewrite Tr. clear Tr.
    destruct (limit_volume_R div d2 v _ Hd Hv) as (d2' & E2' & Hc1 & Hc2 & Hv').
    rewrite E2' in E. injection E as <-.
    io_step H. rewrite value_pure in E. rewrite Tr. clear Tr.
    apply div_inv in E; [|exact Hd]. destruct E as (_ & ->).
    io_step H. rename b into gf. rewrite Tr. clear Tr.
    apply equilibrium_inv in E. destruct E as (Hgf & ->).
    rewrite value_ret in H.
    assert (E1 : gf = g') by congruence.
    assert (E2 : T + d1' = T') by congruence.
    assert (E3 : v + d2' = v') by congruence.
    assert (E4 : d1' = dT) by congruence.
    assert (E5 : d2' = dv) by congruence.
    assert (E6 : 1 / (v + d2') = D') by congruence.
    clear H. subst gf d1' d2' D'.
    rewrite lit_002 in *. rewrite (Rmult_comm T (1/50)) in *. rewrite E2, E3 in *.
    split; [|split; [auto|split; [auto|split; [|split; [|split]]]]].
    - unfold rs_newton_step. cbv zeta. exists gT, gv, d1, d2.
      split; [exact HgT|]. split; [exact Hgv|]. split; [exact Hgf|].
      split; [exact Hsol|].
      replace (T' - T) with dT by lra. replace (v' - v) with dv by lra. auto.
    - apply cut_bound in Hcut; lra.
    - exact Hv'.
    - reflexivity.
    - cbn [app trace pure fst snd ret]. unfold eq_trace. reflexivity.
  Qed.

  Lemma eq_body_all (P : event R -> Prop) div u g2 g T v D :
    is_div div -> 0 < T -> 0 < v <= 1 / ct_density L g2 -> D = 1 / v ->
    (forall T' v', 0 < T' -> 0 < v' <= 51/50 * (1 / ct_density L g2) -> P (EvTD T' (1 / v'))) ->
    P (EvEquilibrate "TV") ->
    all_events P (eq_body L div u g2 (1 / ct_density L g2) g T v D).
  Proof.
    intros Hd HT Hv -> H1 H2. unfold eq_body. rnum. rewrite lit_002, one_R.
    apply all_bind; [apply all_pure|]. intros [eh ep] _.
    apply all_bind; [apply equilibrium_all; auto; apply H1; lra|]. intros gT _.
    apply all_bind; [apply all_pure|]. intros [eh1 ep1] _.
    apply all_bind; [apply all_pure|]. intros hT _.
    apply all_bind; [apply all_pure|]. intros pT _.
    apply all_bind; [apply all_pure|]. intros D1 E. rewrite value_pure in E.
    apply div_inv in E; [|left; reflexivity]. destruct E as (_ & ->).
    apply all_bind; [apply equilibrium_all; auto; apply H1; lra|]. intros gv _.
    apply all_bind; [apply all_pure|]. intros [eh2 ep2] _.
    apply all_bind; [apply all_pure|]. intros hV _.
    apply all_bind; [apply all_pure|]. intros pV _.
    apply all_bind; [apply all_pure|]. intros [d1 d2] _.
    apply all_bind; [apply all_pure|]. intros d1' E. rewrite value_pure in E.
    destruct (limit_temperature_reflected_R div d1 T Hd HT) as (d1'' & E' & Hcut).
    rewrite E' in E. injection E as <-. apply cut_bound in Hcut; [|lra].
    apply all_bind; [apply all_pure|]. intros d2' E. rewrite value_pure in E.
    destruct (limit_volume_R div d2 v _ Hd Hv) as (d2'' & E2' & _ & _ & Hv').
    rewrite E2' in E. injection E as <-.
    apply all_bind; [apply all_pure|]. intros D2 E. rewrite value_pure in E.
    apply div_inv in E; [|exact Hd]. destruct E as (_ & ->).
    apply all_bind; [apply equilibrium_all; auto; apply H1; lra|]. intros gf _.
    apply all_ret.
  Qed.

  Lemma eq_loop_all (P : event R -> Prop) fuel : forall div u g2 tT tv mx k g T v D dT dv,
    is_div div -> 0 < T -> 0 < v <= 1 / ct_density L g2 -> D = 1 / v ->
    (forall T' v', 0 < T' -> 0 < v' <= 51/50 * (1 / ct_density L g2) -> P (EvTD T' (1 / v'))) ->
    P (EvEquilibrate "TV") -> (forall m, P (EvWarn m)) -> P EvStuck ->
    all_events P (eq_loop L fuel div u g2 (1 / ct_density L g2) tT tv mx k g T v D dT dv).
  Proof.
    induction fuel as [|fuel IH]; intros * Hd HT Hv HD H1 H2 H3 H4; cbn [eq_loop]; rnum;
      destruct (_ || _)%bool; try apply all_ret.
    - apply all_act; auto.
    - destruct (Z.eqb _ _).
      + apply all_bind; [apply all_emit; auto|]. intros; apply all_ret.
      + apply all_bind; [apply eq_body_all; auto|].
        intros [[[[[g' T'] v'] D'] dT'] dv'] E. apply eq_body_inv in E; auto.
        destruct E as (_ & _ & _ & HT' & Hv' & HD' & _).
        apply IH; auto. lra.
  Qed.

  Lemma eq_loop_finishes fuel : forall div u g2 tT tv mx k g T v D dT dv,
    is_div div -> 0 < T -> 0 < v <= 1 / ct_density L g2 -> D = 1 / v ->
    (k < mx)%Z -> (mx - k <= Z.of_nat fuel)%Z ->
    all_events not_stuck (eq_loop L fuel div u g2 (1 / ct_density L g2) tT tv mx k g T v D dT dv).
  Proof.
    induction fuel as [|fuel IH]; intros * Hd HT Hv HD Hk Hf; cbn [eq_loop]; rnum;
      destruct (_ || _)%bool; try apply all_ret.
    - lia.
    - destruct (Z.eqb _ _) eqn:Em.
      + apply all_bind; [apply all_emit; discriminate|]. intros; apply all_ret.
      + apply all_bind; [apply eq_body_all; auto; intros; discriminate|].
        intros [[[[[g' T'] v'] D'] dT'] dv'] E. apply eq_body_inv in E; auto.
        destruct E as (_ & _ & _ & HT' & Hv' & HD' & _).
        apply Z.eqb_neq in Em. apply IH; auto; [lra|lia|lia].
  Qed.

  Lemma eq_loop_spec fuel : forall div u g2 tT tv mx k g T v D dT dv gf,
    is_div div -> 0 < T -> 0 < v <= 1 / ct_density L g2 -> D = 1 / v -> (k < mx)%Z ->
    value (eq_loop L fuel div u g2 (1 / ct_density L g2) tT tv mx k g T v D dT dv) = Ok gf ->
    let tr := trace (eq_loop L fuel div u g2 (1 / ct_density L g2) tT tv mx k g T v D dT dv) in
    exists rest Tf vf,
      let its := (T, v, g) :: rest in
      chain (rs_newton_step L g2 u) its
      /\ (exists before, its = (before ++ [(Tf, vf, gf)])%list)
      /\ (forall p, In p its -> 0 < itT p /\ 0 < itU p <= 1 / ct_density L g2)
      /\ (k + Z.of_nat (length rest) < mx)%Z
      /\ settings tr = rs_settings its
      /\ ((warnings tr = []
           /\ (rest = [] -> Rabs dT <= tT * T /\ Rabs dv <= tv * v)
           /\ (forall before p q, its = (before ++ [p; q])%list ->
                Rabs (itT q - itT p) <= tT * itT q /\ Rabs (itU q - itU p) <= tv * itU q))
         \/ (length (warnings tr) = 1%nat
             /\ (k + Z.of_nat (length rest) + 1 = mx)%Z
             /\ (rest = [] -> ~ (Rabs dT <= tT * T /\ Rabs dv <= tv * v))
             /\ (forall before p q, its = (before ++ [p; q])%list ->
                ~ (Rabs (itT q - itT p) <= tT * itT q /\ Rabs (itU q - itU p) <= tv * itU q)))).
  Proof.
    induction fuel as [|fuel IH]; intros * Hd HT Hv HD Hk; cbn [eq_loop]; rnum;
      change (Rltb (tT * T) (Rabs dT) || Rltb (tv * v) (Rabs dv))%bool
        with (unconverged tT tv T v dT dv);
      destruct (unconverged tT tv T v dT dv) eqn:Ec.
    - intros H. discriminate H.
    - intros H. cbv zeta. rewrite value_ret in H. injection H as <-.
      exists [], T, v.
      split; [apply chain_single|]. split; [exists []; reflexivity|].
      split; [intros p [<-|[]]; auto|]. split; [simpl; lia|]. split; [reflexivity|].
      left. apply unconverged_false in Ec. split; [reflexivity|]. split; [auto|].
      intros before p q Hb. destruct before as [|c [|d before]]; discriminate.
    - destruct (Z.eqb (k + 1) mx) eqn:Em.
      + intros H. cbv zeta. io_step H. rewrite value_ret in H. injection H as <-.
        rewrite Tr. apply Z.eqb_eq in Em.
        exists [], T, v.
        split; [apply chain_single|]. split; [exists []; reflexivity|].
        split; [intros p [<-|[]]; auto|]. split; [simpl; lia|]. split; [reflexivity|].
        right. split; [reflexivity|]. split; [simpl; lia|]. split.
        * intros _ Hc. apply unconverged_false in Hc. congruence.
        * intros before p q Hb. destruct before as [|c [|d before]]; discriminate.
      + intros H. cbv zeta. apply Z.eqb_neq in Em.
        io_step H. destruct b as [[[[[g' T'] v'] D'] dT'] dv'].
        rewrite Tr. clear Tr. cbv beta iota in H |- *.
        apply eq_body_inv in E; auto.
        destruct E as (Hstep & ET & EV & Hb & Hv' & HD' & Etr). rewrite Etr.
        assert (HT' : 0 < T') by lra.
        assert (Hk' : (k + 1 < mx)%Z) by lia.
        destruct (IH _ _ _ _ _ _ _ _ _ _ _ _ _ _ Hd HT' Hv' HD' Hk' H)
          as (rest & Tf & vf & Hch & (bef & Hlast) & Hpos & Hlen & Hset & Hw).
        set (tr := trace (eq_loop L fuel div u g2 (1 / ct_density L g2) tT tv mx (k + 1) g' T' v' D' dT' dv')) in *.
        exists ((T', v', g') :: rest), Tf, vf.
        split; [apply chain_cons; assumption|].
        split; [exists ((T, v, g) :: bef); simpl; rewrite Hlast; reflexivity|].
        split; [intros p [<-|Hp]; [auto|apply Hpos; exact Hp]|].
        split; [simpl length; lia|].
        split; [unfold eq_trace, settings; cbn [flat_map app]; unfold settings in Hset;
                rewrite Hset; reflexivity|].
        assert (Ew : warnings (eq_trace T v T' v' ++ tr) = warnings tr) by reflexivity.
        rewrite Ew.
        assert (Epair : forall before p q,
          (T, v, g) :: (T', v', g') :: rest = (before ++ [p; q])%list ->
          (rest = [] /\ p = (T, v, g) /\ q = (T', v', g'))
          \/ exists b', (T', v', g') :: rest = (b' ++ [p; q])%list).
        { intros before p q E0. destruct before as [|c before].
          - simpl in E0. left. injection E0 as E1 E2 E3. subst. auto.
          - simpl in E0. injection E0 as _ E0. right. exists before. exact E0. }
        destruct Hw as [(W1 & W2 & W3)|(W1 & W2 & W3 & W4)]; [left|right].
        * split; [exact W1|]. split; [discriminate|].
          intros before p q Hb'. destruct (Epair _ _ _ Hb') as [(Er & -> & ->)|(b' & Hb'')].
          -- specialize (W2 Er). unfold itT, itU; cbn [fst snd].
             replace (T' - T) with dT' by lra. replace (v' - v) with dv' by lra. exact W2.
          -- exact (W3 b' p q Hb'').
        * split; [exact W1|]. split; [simpl length; lia|]. split; [discriminate|].
          intros before p q Hb'. destruct (Epair _ _ _ Hb') as [(Er & -> & ->)|(b' & Hb'')].
          -- specialize (W3 Er). unfold itT, itU; cbn [fst snd].
             replace (T' - T) with dT' by lra. replace (v' - v) with dv' by lra. exact W3.
          -- exact (W4 b' p q Hb'').
    - intros H. cbv zeta. rewrite value_ret in H. injection H as <-.
      exists [], T, v.
      split; [apply chain_single|]. split; [exists []; reflexivity|].
      split; [intros p [<-|[]]; auto|]. split; [simpl; lia|]. split; [reflexivity|].
      left. apply unconverged_false in Ec. split; [reflexivity|]. split; [auto|].
      intros before p q Hb. destruct before as [|c [|d before]]; discriminate.
  Qed.

  (** ** cj_state and get_eq_state as a whole *)
  Lemma guess_density_R div rho ratio v D :
    is_div div -> pydiv 1 rho = Ok v -> forall w, div v ratio = Ok w -> div 1 w = Ok D ->
    D = ratio * rho.
  Proof.
    intros Hd H1 w H2 H3.
    apply (div_inv pydiv) in H1; [|left; reflexivity]. destruct H1 as (N1 & ->).
    apply div_inv in H2; [|exact Hd]. destruct H2 as (N2 & ->).
    apply div_inv in H3; [|exact Hd]. destruct H3 as (N3 & ->). field. auto.
  Qed.

  Lemma cj_state_all (P : event R -> Prop) fuel div w i tT tV ratio mx :
    is_div div ->
    (forall T, 0 < T -> P (EvTD T (ratio * ct_density L i))) -> P (EvEquilibrate "TV") ->
    (forall m, P (EvWarn m)) -> P EvStuck ->
    all_events P (cj_state L fuel div w i tT tV ratio mx).
  Proof.
    intros Hd H1 H2 H3 H4. unfold cj_state. rnum. rewrite ?lit_2000, ?lit_1000, one_R.
    apply all_bind; [apply all_pure|]. intros v0 E0. rewrite value_pure in E0.
    apply all_bind; [apply all_pure|]. intros gv E1. rewrite value_pure in E1.
    apply all_bind; [apply all_pure|]. intros D E2. rewrite value_pure in E2.
    pose proof (guess_density_R _ _ _ _ _ Hd E0 _ E1 E2) as ->.
    apply all_bind; [apply equilibrium_all; auto; apply H1; lra|]. intros g0 _.
    apply cj_loop_all; auto. lra.
  Qed.

  Lemma cj_state_finishes fuel div w i tT tV ratio mx :
    is_div div -> (1 <= mx <= Z.of_nat fuel)%Z ->
    finishes (cj_state L fuel div w i tT tV ratio mx).
  Proof.
    intros Hd Hm. apply not_stuck_finishes. unfold cj_state. rnum.
    rewrite ?lit_2000, ?lit_1000.
    apply all_bind; [apply all_pure|]. intros v0 _.
    apply all_bind; [apply all_pure|]. intros gv _.
    apply all_bind; [apply all_pure|]. intros D _.
    apply all_bind; [apply equilibrium_all; discriminate|]. intros g0 _.
    apply cj_loop_finishes; [lra|lia|lia].
  Qed.

  Lemma cj_state_spec fuel div w i tT tV ratio mx g U :
    is_div div -> (1 <= mx)%Z ->
    value (cj_state L fuel div w i tT tV ratio mx) = Ok (g, U) ->
    let D := ratio * ct_density L i in
    let tr := trace (cj_state L fuel div w i tT tV ratio mx) in
    exists g0 rest Tf,
      let its := (2000, 2000, g0) :: rest in
      settles L w 2000 D g0
      /\ chain (cj_newton_step L i D) its
      /\ (exists before, its = (before ++ [(Tf, U, g)])%list)
      /\ (Z.of_nat (length rest) <= mx - 1)%Z
      /\ settings tr = (2000, D) :: cj_settings D its
      /\ ((warnings tr = []
           /\ (rest = [] -> 1000 <= tT * 2000 /\ 1000 <= tV * 2000)
           /\ last_step_within tT tV its)
         \/ (length (warnings tr) = 1%nat
             /\ (Z.of_nat (length rest) = mx - 1)%Z
             /\ (rest = [] -> ~ (1000 <= tT * 2000 /\ 1000 <= tV * 2000))
             /\ last_step_outside tT tV its)).
  Proof.
    intros Hd Hm H. cbv zeta. unfold cj_state in *. rnum.
    rewrite ?lit_2000, ?lit_1000, ?one_R in *.
    io_step H. rewrite value_pure in E. rewrite Tr. clear Tr.
    io_step H. rewrite value_pure in E0. rewrite Tr. clear Tr.
    io_step H. rewrite value_pure in E1. rewrite Tr. clear Tr.
    pose proof (guess_density_R _ _ _ _ _ Hd E _ E0 E1) as ->.
    io_step H. rename b1 into g0. rewrite Tr. clear Tr.
    apply equilibrium_inv in E2. destruct E2 as (Hs & ->).
    apply cj_loop_spec in H; [|lra|lia]. cbv zeta in H.
    destruct H as (rest & Tf & Hch & Hlast & Hlen & Hset & Hw).
    exists g0, rest, Tf. cbn [app trace pure fst].
    unfold trace in Hset, Hw.
    set (tr := fst (cj_loop L fuel i tT tV (ratio * ct_density L i) mx 0 g0 2000 2000 1000 1000)) in *.
    match goal with |- context [settings ?t] =>
      change t with (EvTD 2000 (ratio * ct_density L i) :: EvEquilibrate "TV" :: tr) end.
    split; [exact Hs|]. split; [exact Hch|]. split; [exact Hlast|]. split; [lia|].
    split; [unfold settings; cbn [flat_map app]; unfold settings in Hset; rewrite Hset; reflexivity|].
    change (warnings (EvTD 2000 (ratio * ct_density L i) :: EvEquilibrate "TV" :: tr))
      with (warnings tr).
    rewrite !Rabs_pos_eq in Hw by lra.
    destruct Hw as [(W1 & W2 & W3)|(W1 & W2 & W3 & W4)]; [left|right].
    - auto.
    - split; [exact W1|]. split; [lia|]. split; [exact W3|exact W4].
  Qed.

  Lemma inv_le_inv a b : 0 < a -> a <= b -> 1 / b <= 1 / a.
  Proof.
    intros. unfold Rdiv. rewrite !Rmult_1_l. apply Rinv_le_contravar; assumption.
  Qed.

  (** precondition of the reflected-shock iteration *)
  Definition compressed (g2 w : G) : Prop :=
    0 < ct_T L w /\ 0 < ct_density L g2 <= ct_density L w.

  Lemma compressed_start g2 w : compressed g2 w ->
    0 < 1 / ct_density L w <= 1 / ct_density L g2
    /\ ct_density L w = 1 / (1 / ct_density L w).
  Proof.
    intros (HT & H1 & H2). split; [split|].
    - apply Rdiv_lt_0_compat; lra.
    - apply inv_le_inv; lra.
    - field. lra.
  Qed.

  Lemma get_eq_state_unfold fuel div u g2 w tT tv mx :
    ct_density L g2 <> 0 -> ct_density L w <> 0 ->
    get_eq_state L fuel div u g2 w tT tv mx =
    (do gas <- equilibrium L w (ct_density L w) (ct_T L w);
     eq_loop L fuel div u g2 (1 / ct_density L g2) tT tv mx 0
             gas (ct_T L w) (1 / ct_density L w) (ct_density L w) 1000 1000).
  Proof.
    intros H1 H2. unfold get_eq_state. rnum. rewrite lit_1000, one_R.
    rewrite !pydiv_ok by assumption. rewrite !bind_pure_ok. reflexivity.
  Qed.

  Lemma get_eq_state_all (P : event R -> Prop) fuel div u g2 w tT tv mx :
    is_div div -> compressed g2 w ->
    (forall T v, 0 < T -> 0 < v <= 51/50 * (1 / ct_density L g2) -> P (EvTD T (1 / v))) ->
    P (EvEquilibrate "TV") -> (forall m, P (EvWarn m)) -> P EvStuck ->
    all_events P (get_eq_state L fuel div u g2 w tT tv mx).
  Proof.
    intros Hd Hc H1 H2 H3 H4. destruct (compressed_start _ _ Hc) as (Hv & HD).
    destruct Hc as (HT & Hr1 & Hr2).
    rewrite get_eq_state_unfold by lra.
    apply all_bind.
    - apply equilibrium_all; auto. rewrite HD. apply H1; lra.
    - intros g0 _. apply eq_loop_all; auto.
  Qed.

  Lemma get_eq_state_finishes fuel div u g2 w tT tv mx :
    is_div div -> compressed g2 w -> (1 <= mx <= Z.of_nat fuel)%Z ->
    finishes (get_eq_state L fuel div u g2 w tT tv mx).
  Proof.
    intros Hd Hc Hm. destruct (compressed_start _ _ Hc) as (Hv & HD).
    destruct Hc as (HT & Hr1 & Hr2).
    apply not_stuck_finishes. rewrite get_eq_state_unfold by lra.
    apply all_bind; [apply equilibrium_all; discriminate|].
    intros g0 _. apply eq_loop_finishes; auto; lia.
  Qed.

  Lemma get_eq_state_spec fuel div u g2 w tT tv mx g :
    is_div div -> compressed g2 w -> (1 <= mx)%Z ->
    value (get_eq_state L fuel div u g2 w tT tv mx) = Ok g ->
    let tr := trace (get_eq_state L fuel div u g2 w tT tv mx) in
    exists g0 rest Tf vf,
      let its := (ct_T L w, 1 / ct_density L w, g0) :: rest in
      settles L w (ct_T L w) (ct_density L w) g0
      /\ chain (rs_newton_step L g2 u) its
      /\ (exists before, its = (before ++ [(Tf, vf, g)])%list)
      /\ (forall p, In p its -> 0 < itT p /\ 0 < itU p <= 1 / ct_density L g2)
      /\ (Z.of_nat (length rest) <= mx - 1)%Z
      /\ settings tr = (ct_T L w, ct_density L w) :: rs_settings its
      /\ ((warnings tr = []
           /\ (rest = [] -> 1000 <= tT * ct_T L w /\ 1000 <= tv * (1 / ct_density L w))
           /\ last_step_within tT tv its)
         \/ (length (warnings tr) = 1%nat
             /\ (Z.of_nat (length rest) = mx - 1)%Z
             /\ (rest = [] -> ~ (1000 <= tT * ct_T L w /\ 1000 <= tv * (1 / ct_density L w)))
             /\ last_step_outside tT tv its)).
  Proof.
    intros Hd Hc Hm H. destruct (compressed_start _ _ Hc) as (Hv & HD).
    destruct Hc as (HT & Hr1 & Hr2). cbv zeta.
    rewrite get_eq_state_unfold in * by lra.
    io_step H. rename b into g0. rewrite Tr. clear Tr.
    apply equilibrium_inv in E. destruct E as (Hs & ->).
    apply eq_loop_spec in H; auto; [|lia]. cbv zeta in H.
    destruct H as (rest & Tf & vf & Hch & Hlast & Hpos & Hlen & Hset & Hw).
    exists g0, rest, Tf, vf. cbn [app].
    set (tr := trace (eq_loop L fuel div u g2 (1 / ct_density L g2) tT tv mx 0
             g0 (ct_T L w) (1 / ct_density L w) (ct_density L w) 1000 1000)) in *.
    match goal with |- context [settings ?t] =>
      change t with (EvTD (ct_T L w) (ct_density L w) :: EvEquilibrate "TV" :: tr) end.
    split; [exact Hs|]. split; [exact Hch|]. split; [exact Hlast|]. split; [exact Hpos|].
    split; [lia|].
    split; [unfold settings; cbn [flat_map app]; unfold settings in Hset; rewrite Hset; reflexivity|].
    change (warnings (EvTD (ct_T L w) (ct_density L w) :: EvEquilibrate "TV" :: tr))
      with (warnings tr).
    rewrite !Rabs_pos_eq in Hw by lra.
    destruct Hw as [(W1 & W2 & W3)|(W1 & W2 & W3 & W4)]; [left|right].
    - auto.
    - split; [exact W1|]. split; [lia|]. split; [exact W3|exact W4].
  Qed.

  (** ** reflect *)
  Lemma reflect_inv initial g2 w U P3 Wr g :
    value (reflect L initial g2 w U) = Ok (P3, Wr, g) ->
    let u := sqrt ((ct_P L g2 - ct_P L initial)
                   * (1 / ct_density L initial - 1 / ct_density L g2)) in
    ct_density L g2 <> 0 /\ u <> 0 /\ P3 = ct_P L g
    /\ Wr = (P3 - ct_P L g2) / u / ct_density L g2 - u.
  Proof.
    intros H. cbv zeta. unfold reflect in H. rnum. rewrite ?one_R in H.
    io_step H. rewrite value_pure in E.
    apply (div_inv pydiv) in E; [|left; reflexivity]. destruct E as (N1 & ->).
    io_step H. rewrite value_pure in E.
    apply (div_inv pydiv) in E; [|left; reflexivity]. destruct E as (N2 & ->).
    io_step H. rewrite value_pure in E. unfold npsqrt in E. rnum.
    destruct (Rltb _ _); [discriminate|]. injection E as <-.
    set (u := sqrt _) in *.
    io_step H. rewrite value_pure in E. clear E.
    io_step H. rewrite value_pure in E. clear E.
    io_step H. rewrite value_pure in E. clear E.
    io_step H. clear E.
    io_step H. clear E.
    io_step H. rewrite value_pure in E.
    apply (div_inv npdiv) in E; [|right; reflexivity]. destruct E as (N3 & ->).
    io_step H. rewrite value_pure in E.
    apply (div_inv npdiv) in E; [|right; reflexivity]. destruct E as (N4 & ->).
    rewrite value_ret in H.
    assert (E1 : ct_P L b3 = P3) by congruence.
    assert (E3 : b3 = g) by congruence.
    match type of H with Ok (_, ?x, _) = _ => assert (E2 : x = Wr) by congruence end.
    subst b3. repeat split; auto. rewrite <- E2, <- E1. reflexivity.
  Qed.
End SdP.
