(** * C59-C62, C74, C75: Detonation.cj_speed. *)
From Coq Require Import String ZArith QArith Reals Qreals List Bool Lra Lia Psatz Permutation.
From Verif Require Import PyBase Gas GasP FitM QLemmas FitP FitSpec SdM SdSpec SdP SpeedSpec SpeedP ExampleGas.
Import ListNotations.
Local Open Scope R_scope.

Lemma lit_tol : Q2R 0.0001 = 1/10000. Proof. unfold Q2R; simpl; lra. Qed.
Lemma lit_15 : Q2R 1.5 = 3/2. Proof. unfold Q2R; simpl; lra. Qed.
Lemma lit_20 : Q2R 2.0 = 2. Proof. unfold Q2R; simpl; lra. Qed.

(** How cj_speed may run its jobs: one after another, or in any order at all. *)
Definition any_pool (p : pool R) : Prop :=
  p = Serial \/ exists schedule, p = Workers schedule /\ reorders schedule.

Lemma serial_result {G X} (L : cantera R G X) P T x mech p rr rs d :
  any_pool p -> value (cj_speed L P T x mech p rr rs) = Ok d ->
  value (cj_speed L P T x mech Serial rr rs) = Ok d.
Proof.
  intros [->|(s & -> & Hs)] H; [exact H|]. apply (cj_speed_workers L s) in H; assumption.
Qed.

(** The last round and the returned dict. *)
Lemma cj_speed_inv {G X} (L : cantera R G X) P T x mech rr rs d :
  value (cj_speed L P T x mech Serial rr rs) = Ok d ->
  exists r1 r2 r3 r4 : round R,
    let '(_, _, f, v) := r4 in
    refining L P T x mech (3/2) 2 (map as_round [r1; r2; r3; r4])
    /\ v = vertex (as_round r4)
    /\ In ("cj speed"%string,
           ENumber (fit_a f * sq v + fit_b f * v + fit_c f)) d
    /\ (rr = true -> In ("R^2"%string, EMaybe (fit_r2 f)) d)
    /\ (rs = true -> exists g U, In ("cj state"%string, EGas g) d
          /\ cj_result L P T x mech v g U).
Proof.
  unfold cj_speed, cj_speed_rounds. intros H.
  apply value_bind_ok in H. destruct H as ((done0 & d') & H & H' & _).
  rewrite value_ret in H'. injection H' as ->.
  rnum. rewrite lit_tol, lit_15, lit_20 in H. rewrite value_pool in H.
  apply value_bind_ok in H. destruct H as (done & Hd & H & _). rewrite value_pool in H.
  apply speed_loop_spec in Hd; [|reflexivity].
  destruct Hd as (l & E & Hlen & Href & Hv). cbn [app] in E. subst l.
  destruct done as [|r1 [|r2 [|r3 [|r4 [|]]]]]; try discriminate Hlen.
  exists r1, r2, r3, r4. destruct r4 as [[[rat us] f] v] eqn:E4.
  split; [exact Href|].
  pose proof (Hv (rat, us, f, v) ltac:(simpl; auto)) as Ev. cbn [snd] in Ev.
  split; [exact Ev|].
  cbn [last_round rev app] in H.
  destruct rs.
  - apply value_bind_ok in H; destruct H as (i0 & Hi0 & H & _).
    apply value_bind_ok in H; destruct H as (w0 & Hw0 & H & _).
    apply value_bind_ok in H; destruct H as (i & Hi & H & _).
    apply value_bind_ok in H; destruct H as (w & Hw & H & _).
    apply value_bind_ok in H; destruct H as ((g & U) & Hg & H & _).
    assert (Hcj : cj_result L P T x mech v g U).
    { exists i, w. split; [exists i0; split; [exact Hi0|exact Hi]|].
      split; [exists w0; split; [exact Hw0|exact Hw]|exact Hg]. }
    destruct rr; rewrite value_ret in H; injection H as _ <-; rnum.
    + split; [simpl; auto|]. split; [intros _; simpl; auto|].
      intros _. exists g, U. split; [simpl; auto|exact Hcj].
    + split; [simpl; auto|]. split; [discriminate|].
      intros _. exists g, U. split; [simpl; auto|exact Hcj].
  - destruct rr; rewrite value_ret in H; injection H as _ <-; rnum.
    + split; [simpl; auto|]. split; [intros _; simpl; auto|discriminate].
    + split; [simpl; auto|]. split; discriminate.
Qed.

(** C59.  Whenever cj_speed returns, it has made four rounds: cj_state at 21 evenly
    spaced density ratios from 1.5 to 2.0, then from 0.999 to 1.001 times the vertex of
    the parabola fitted in the round before. *)
Theorem C59_four_rounds :
  forall {G X} (L : cantera R G X) P T x mech p return_r_squared return_state d,
    any_pool p ->
    value (cj_speed L P T x mech p return_r_squared return_state) = Ok d ->
    exists r1 r2 r3 r4, refining L P T x mech (3/2) 2 [r1; r2; r3; r4].
Proof.
  intros * Hp H. apply serial_result in H; [|exact Hp].
  destruct (cj_speed_inv L P T x mech _ _ d H) as (r1 & r2 & r3 & r4 & K).
  exists (as_round r1), (as_round r2), (as_round r3), (as_round r4).
  destruct r4 as [[[rat us] f] v]. exact (proj1 K).
Qed.
Print Assumptions C59_four_rounds.

(** ... and not more: two gas objects are created for each of the 84 calculations, and
    two more for the final state if it is asked for. *)
Theorem C59_no_other_work :
  forall {G X} (L : cantera R G X) P T x mech p return_r_squared (return_state : bool) d,
    any_pool p ->
    value (cj_speed L P T x mech p return_r_squared return_state) = Ok d ->
    gases_created (trace (cj_speed L P T x mech p return_r_squared return_state))
    = if return_state then 170%nat else 168%nat.
Proof.
  intros * Hp H. unfold cj_speed, cj_speed_rounds in *.
  apply value_bind_ok in H. destruct H as ((done0 & d') & H & _ & ->). rewrite created_app.
  rnum. rewrite lit_tol, lit_15, lit_20 in *.
  rewrite value_pool in H. rewrite trace_pool, created_app.
  replace (gases_created (trace (pool_step p EvPoolOpen))) with 0%nat by (destruct p; reflexivity).
  apply value_bind_ok in H. destruct H as (done & Hd & H & ->). rewrite created_app.
  rewrite value_pool in H. rewrite trace_pool, created_app.
  replace (gases_created (trace (pool_step p EvPoolClose))) with 0%nat by (destruct p; reflexivity).
  rewrite (speed_loop_creates L P T x mech 4 p _ _ _ _ _ _ Hp eq_refl Hd).
  destruct (last_round done) as [[[[a b] c] v] r2].
  destruct return_state.
  - apply value_bind_ok in H; destruct H as (i0 & Hi0 & H & ->).
    apply value_bind_ok in H; destruct H as (w0 & Hw0 & H & ->).
    apply value_bind_ok in H; destruct H as (i & Hi & H & ->).
    apply value_bind_ok in H; destruct H as (w & Hw & H & ->).
    apply value_bind_ok in H; destruct H as ((g & U) & Hg & H & ->).
    rewrite !created_app, cj_state_creates_none.
    destruct return_r_squared; reflexivity.
  - destruct return_r_squared; reflexivity.
Qed.
Print Assumptions C59_no_other_work.

(** C60.  In any arithmetic, for any cantera: if the worker pool hands back the results
    in any order whatsoever, cj_speed returns exactly what it returns without
    multiprocessing, and it raises exactly when the serial version raises. *)
Theorem C60_order_independent :
  forall {A G X} {NA : Num A} (L : cantera A G X) schedule P T x mech
         return_r_squared return_state,
    reorders schedule ->
    (forall d,
      value (cj_speed L P T x mech (Workers schedule) return_r_squared return_state) = Ok d
      <-> value (cj_speed L P T x mech Serial return_r_squared return_state) = Ok d)
    /\ (raises (value (cj_speed L P T x mech (Workers schedule) return_r_squared return_state))
        <-> raises (value (cj_speed L P T x mech Serial return_r_squared return_state))).
Proof.
  intros * Hs. split; [intros d; apply cj_speed_workers; exact Hs|].
  split; intros (e & He).
  - destruct (value (cj_speed L P T x mech Serial _ _)) as [d|e'] eqn:E; [|exists e'; reflexivity].
    apply (cj_speed_workers L schedule) in E; [|exact Hs]. congruence.
  - destruct (value (cj_speed L P T x mech (Workers schedule) _ _)) as [d|e'] eqn:E;
      [|exists e'; reflexivity].
    apply (cj_speed_workers L schedule) in E; [|exact Hs]. congruence.
Qed.
Print Assumptions C60_order_independent.

(** C61.  The speed is the value, at its vertex, of the least-squares parabola through
    the speeds of the last round; when that parabola opens upward this is its minimum. *)
Theorem C61_speed_is_vertex_value :
  forall {G X} (L : cantera R G X) P T x mech p return_r_squared return_state d,
    any_pool p ->
    value (cj_speed L P T x mech p return_r_squared return_state) = Ok d ->
    exists r1 r2 r3 r4 speed,
      refining L P T x mech (3/2) 2 [r1; r2; r3; r4]
      /\ In ("cj speed"%string, ENumber speed) d
      /\ speed = parabola (ra r4) (rb r4) (rc r4) (- rb r4 / (2 * ra r4))
      /\ (0 < ra r4 -> forall z, speed <= parabola (ra r4) (rb r4) (rc r4) z)
      /\ (ra r4 < 0 -> forall z, parabola (ra r4) (rb r4) (rc r4) z <= speed).
Proof.
  intros * Hp H. apply serial_result in H; [|exact Hp].
  destruct (cj_speed_inv L P T x mech _ _ d H) as (r1 & r2 & r3 & r4 & K).
  destruct r4 as [[[rat us] f] v] eqn:E4. destruct K as (Href & Ev & Hin & _).
  exists (as_round r1), (as_round r2), (as_round r3), (as_round r4). subst r4.
  eexists. split; [exact Href|]. split; [exact Hin|].
  unfold vertex in Ev. cbn [as_round ra rb rc] in *. subst v. unfold sq. rnum.
  assert (Ha : fit_a f <> 0).
  { cbn [map as_round refining] in Href. unfold round_over in Href. cbn [ra] in Href. tauto. }
  assert (E : fit_a f * (- fit_b f / (2 * fit_a f) * (- fit_b f / (2 * fit_a f)))
              + fit_b f * (- fit_b f / (2 * fit_a f)) + fit_c f
              = parabola (fit_a f) (fit_b f) (fit_c f) (- fit_b f / (2 * fit_a f)))
    by (unfold parabola; ring).
  split; [exact E|]. rewrite E. clear E.
  assert (Esq : forall z, parabola (fit_a f) (fit_b f) (fit_c f) z
     - parabola (fit_a f) (fit_b f) (fit_c f) (- fit_b f / (2 * fit_a f))
     = fit_a f * (z + fit_b f / (2 * fit_a f))^2).
  { intros z. unfold parabola. field. exact Ha. }
  split; intros Hs z; specialize (Esq z); pose proof (pow2_ge_0 (z + fit_b f / (2 * fit_a f))).
  - assert (0 <= fit_a f * (z + fit_b f / (2 * fit_a f))^2) by (apply Rmult_le_pos; lra). lra.
  - assert (0 <= (- fit_a f) * (z + fit_b f / (2 * fit_a f))^2) by (apply Rmult_le_pos; lra). lra.
Qed.
Print Assumptions C61_speed_is_vertex_value.

(** C62.  The keys of the result, in any arithmetic. *)
Theorem C62_keys :
  forall {A G X} {NA : Num A} (L : cantera A G X) P T x mech p return_r_squared return_state d,
    value (cj_speed L P T x mech p return_r_squared return_state) = Ok d ->
    NoDup (map fst d)
    /\ (In "cj speed"%string (map fst d))
    /\ (In "R^2"%string (map fst d) <-> return_r_squared = true)
    /\ (In "cj state"%string (map fst d) <-> return_state = true)
    /\ (forall k, In k (map fst d) -> In k ["cj speed"; "R^2"; "cj state"]%string).
Proof.
  intros * H. rewrite (cj_speed_keys L P T x mech p _ _ d H).
  destruct return_r_squared, return_state; cbn [app In].
  all: split; [repeat constructor; simpl; intuition discriminate|].
  all: split; [tauto|]. all: split; [intuition discriminate|].
  all: split; [intuition discriminate|]. all: intros k Hk; tauto.
Qed.
Print Assumptions C62_keys.

(** C74.  If the speeds computed by cj_state lie on a parabola with its vertex at a
    positive ratio (over 1.5-2.0 and within 0.1 % of the vertex), cj_speed returns the
    parabola's extremal value exactly, R^2 = 1 and the state at the vertex, as asked for. *)
Theorem C74_exact_on_parabola :
  forall {G X} (L : cantera R G X) P T x mech p a b c g U (return_r_squared return_state : bool),
    any_pool p -> a <> 0 -> 0 < - b / (2 * a) ->
    (forall r, 3/2 <= r <= 2 -> cj_velocity L P T x mech r (parabola a b c r)) ->
    (forall r, - b / (2 * a) * (999/1000) <= r <= - b / (2 * a) * (1001/1000) ->
       cj_velocity L P T x mech r (parabola a b c r)) ->
    cj_result L P T x mech (- b / (2 * a)) g U ->
    value (cj_speed L P T x mech p return_r_squared return_state)
    = Ok ([("cj speed"%string, ENumber (c - b^2 / (4 * a)))]
          ++ (if return_r_squared then [("R^2"%string, EMaybe (Ok 1))] else [])
          ++ (if return_state then [("cj state"%string, EGas g)] else []))%list.
Proof.
  intros * Hp Ha Hv H1 H2 Hg.
  assert (Hser : value (cj_speed L P T x mech Serial return_r_squared return_state)
    = Ok ([("cj speed"%string, ENumber (c - b^2 / (4 * a)))]
          ++ (if return_r_squared then [("R^2"%string, EMaybe (Ok 1))] else [])
          ++ (if return_state then [("cj state"%string, EGas g)] else []))%list).
  { unfold cj_speed, cj_speed_rounds. rnum. rewrite lit_tol, lit_15, lit_20.
    destruct (speed_loop_parabola L P T x mech a b c 4 Ha Hv H1 H2 1%nat (Ok zero) (3/2) 2 []
                eq_refl ltac:(lra) H1) as (rs & Hlen & Hval & Hin).
    rewrite value_bind, value_pool, value_bind, Hval. cbn [bind app]. rewrite value_pool.
    destruct rs as [|r1 [|r2 [|r3 [|r4 [|]]]]]; try discriminate Hlen.
    destruct (Hin r4 ltac:(simpl; auto)) as (Ea & Eb & Ec & Er & Ev).
    destruct r4 as [[[rat us] f] v]. cbn [fst snd] in *. cbn [last_round rev app].
    assert (Espeed : fit_a f * sq v + fit_b f * v + fit_c f = c - b^2 / (4 * a)).
    { rewrite Ea, Eb, Ec, Ev. unfold sq. rnum. field. exact Ha. }
    rewrite Espeed, Er. clear Espeed.
    destruct return_state.
    - destruct Hg as (i & w & (i0 & Hi0 & Hi) & (w0 & Hw0 & Hw) & Hcj).
      rewrite !value_bind.
      change (value (new_solution L mech "")) with (ct_new L mech "").
      rewrite Hi0. cbn [bind]. rewrite !value_bind.
      change (value (new_solution L mech "")) with (ct_new L mech "").
      rewrite Hi0. cbn [bind]. rewrite !value_bind.
      change (value (set_TPX L i0 T P x)) with (ct_set_TPX L i0 T P x).
      rewrite Hi. cbn [bind]. rewrite !value_bind.
      change (value (set_TPX L i0 T P x)) with (ct_set_TPX L i0 T P x).
      rewrite Hi. cbn [bind]. rewrite !value_bind.
      assert (w = i) as -> by congruence.
      rewrite Ev, Hcj. cbn [bind].
      destruct return_r_squared; rewrite value_ret; reflexivity.
    - destruct return_r_squared; rewrite value_ret; reflexivity. }
  destruct Hp as [->|(s & -> & Hs)]; [exact Hser|].
  apply (cj_speed_workers L s); assumption.
Qed.
Print Assumptions C74_exact_on_parabola.

(** C75.  With return_state, the state returned is the one cj_state computes at the
    vertex of the last fit. *)
Theorem C75_state_at_vertex :
  forall {G X} (L : cantera R G X) P T x mech p return_r_squared d,
    any_pool p ->
    value (cj_speed L P T x mech p return_r_squared true) = Ok d ->
    exists r1 r2 r3 r4 g U,
      refining L P T x mech (3/2) 2 [r1; r2; r3; r4]
      /\ In ("cj state"%string, EGas g) d
      /\ cj_result L P T x mech (- rb r4 / (2 * ra r4)) g U.
Proof.
  intros * Hp H. apply serial_result in H; [|exact Hp].
  destruct (cj_speed_inv L P T x mech _ _ d H) as (r1 & r2 & r3 & r4 & K).
  destruct r4 as [[[rat us] f] v] eqn:E4. destruct K as (Href & Ev & _ & _ & Hs).
  destruct (Hs eq_refl) as (g & U & Hg & Hc).
  exists (as_round r1), (as_round r2), (as_round r3), (as_round r4), g, U. subst r4.
  split; [exact Href|]. split; [exact Hg|]. rewrite Ev in Hc. exact Hc.
Qed.
Print Assumptions C75_state_at_vertex.

(** ** A gas for which all of this happens *)
(** ExampleGas.v: its CJ speed at density ratio D is 2000 + (D - 9/5)^2/10 m/s at every
    initial pressure.  Run serially or in any order: *)
Example example_gas_speed : forall p P mech (rr rs : bool), any_pool p -> 0 < P ->
  value (cj_speed example_gas P 300 fresh mech p rr rs)
  = Ok ([("cj speed"%string, ENumber 2000)]
        ++ (if rr then [("R^2"%string, EMaybe (Ok 1))] else [])
        ++ (if rs then [("cj state"%string,
                         EGas (2000, 9/5 * (P / 101325), P / 101325, burnt))] else []))%list.
Proof.
  intros p P mech rr rs Hpool HP.
  assert (E : forall r, parabola (1/10) (-9/25) (2000 + 81/250) r = 2000 + bump r)
    by (intros r; unfold parabola, bump; field).
  assert (Ev : - (-9/25) / (2 * (1/10)) = 9/5) by field.
  assert (Ec : (2000 + 81/250) - (-9/25)^2 / (4 * (1/10)) = 2000) by field.
  rewrite (C74_exact_on_parabola example_gas P 300 fresh mech p (1/10) (-9/25)
             (2000 + 81/250) (2000, 9/5 * (P/101325), P/101325, burnt)
             (2000 + bump (9/5)) rr rs Hpool); try lra.
  - rewrite Ec. reflexivity.
  - intros r Hr. rewrite E. eexists. apply example_cj_result; try lra. unfold bump. nra.
  - intros r Hr. rewrite Ev in Hr.
    rewrite E. eexists. apply example_cj_result; try lra. unfold bump. nra.
  - rewrite Ev. apply example_cj_result; try lra. unfold bump. nra.
Qed.
Example a_reversed_pool : any_pool (Workers (fun _ jobs => rev jobs)).
Proof.
  right. eexists. split; [reflexivity|]. intros n jobs. apply Permutation_sym, Permutation_rev.
Qed.
