(** * NanSearchP: the search for an initial pressure when the chemistry gives nan *)
From Coq Require Import String ZArith QArith Reals Qreals List Bool Lra Lia.
From Verif Require Import PyBase Pint UnitsM TubeM Gas GasP FitM SdM ThermoM InitPressureM FitP
  NanM NanSpec NanP NanSdSpec NanSdP.
Import ListNotations.
Local Open Scope num_scope.

Lemma last_step {B} (l : list B) : forall a d, last (a :: l) d = last l a.
Proof.
  induction l as [|b l IH]; intros a d; [reflexivity|]. change (last (b :: l) d = last (b :: l) a).
  now rewrite !IH.
Qed.

Section Search.
  Context {G X : Type} (L : cantera fl G X).
  Context (tube_id tube_od T : quantity fl) (x : X) (mech : string) (limit elastic density : quantity fl)
          (nu pm : fl) (use : bool) (reg : nat) (p : pool fl) (w : which).
  Let loop := pressure_loop L tube_id tube_od T x mech limit elastic density nu pm use reg p w.
  Definition evaluated_nan (e : evaluation G) : Prop :=
    value (calculate_reflected_shock_state L T (at_pressure e) x mech reg p) = Ok (result_of e).
  Definition name_of (w : which) : string := match w with AtReflected => "reflected" | AtCj => "cj" end.

  Lemma chosen_at (s : shock_states fl G) : chosen s (name_of w) (state_at w s).
  Proof. destruct w; constructor. Qed.
  Lemma chosen_is (s : shock_states fl G) g : chosen s (name_of w) g -> g = state_at w s.
  Proof. destruct w; cbn; intros H; inversion H; reflexivity. Qed.

  Lemma factor_ordinary (s : shock_states fl G) d :
    (if use then load_factor tube_id tube_od elastic density nu pm s else Ok one) = Ok d ->
    exists k, d = Fin k.
  Proof.
    destruct use; intros H.
    - unfold load_factor in H. apply QLemmas.bind_inv in H. destruct H as (n & _ & H).
      apply ok_inj in H. subst d. eexists. reflexivity.
    - apply ok_inj in H. subst d. eexists. reflexivity.
  Qed.

  Lemma error_of m (s : shock_states fl G) k err : q_mag limit = Fin m ->
    pydiv (ct_P L (state_at w s) * Fin k - q_mag limit) (q_mag limit) = Ok err ->
    (ct_P L (state_at w s) = NaN /\ err = NaN)
    \/ exists y, ct_P L (state_at w s) = Fin y /\ err = Fin ((y * k - m) / m)%R.
  Proof.
    intros -> H. unfold pydiv in H. destruct (_ =? _); [discriminate|]. apply ok_inj in H. subst err.
    destruct (ct_P L (state_at w s)) as [y|]; [right; exists y; split; reflexivity|left; auto].
  Qed.

  Notation near m t := (within L (name_of w) m t).
  Notation far m t := (outside L (name_of w) m t).

  Lemma loop_trials m t : q_mag limit = Fin m -> forall budget err q d s q' d',
    value (loop budget (Fin t) err q d s) = Ok (q', d') ->
    exists ts, (length ts <= budget)%nat /\ Forall evaluated_nan ts
      /\ (let e := last ts (q, s, d) in at_pressure e = q' /\ with_factor e = d')
      /\ (forall e l, ts = (l ++ [e])%list ->
            Forall (far m t) l
            /\ (length ts = budget \/ (exists g, chosen (result_of e) (name_of w) g /\ ct_P L g = NaN)
                \/ near m t e))
      /\ (ts = [] -> budget = O \/ (Fin t <? nabs err) = false)
      /\ (ts <> [] -> (Fin t <? nabs err) = true).
  Proof.
    intros Hm. unfold loop. induction budget as [|budget IH]; intros * H; cbn [pressure_loop] in H.
    - exists []. split; [cbn; lia|]. split; [constructor|].
      destruct (_ <? _); apply ok_pair_inj in H; destruct H as (<- & <-); (split; [split; reflexivity|]);
        (split; [intros e [|]; discriminate|split; [auto|congruence]]).
    - destruct (Fin t <? nabs err) eqn:C.
      2:{ apply ok_pair_inj in H; destruct H as (<- & <-). exists []. split; [cbn; lia|].
          split; [constructor|]. split; [split; reflexivity|].
          split; [intros e [|]; discriminate|split; [auto|congruence]]. }
      apply value_bind_ok in H. destruct H as (q1 & Hq1 & H & _).
      apply value_bind_ok in H. destruct H as (s1 & Hs1 & H & _).
      apply value_bind_ok in H. destruct H as (d1 & Hd1 & H & _). rewrite value_pure in Hd1.
      apply value_bind_ok in H. destruct H as (e1 & He1 & H & _). rewrite value_pure in He1.
      destruct (factor_ordinary _ _ Hd1) as (k & ->).
      pose proof (error_of _ _ _ _ Hm He1) as Er.
      assert (Far : (Fin t <? nabs e1) = true -> far m t (q1, s1, Fin k)).
      { intros C1. destruct Er as [(_ & ->)|(y & Hy & ->)]; [discriminate|].
        exists (state_at w s1), y, k. split; [apply chosen_at|]. split; [exact Hy|]. split; [reflexivity|].
        cbn [nltb nabs Num_fl flc fl1] in C1. unfold Rltb in C1. destruct (Rlt_dec _ _); easy. }
      assert (Near : (Fin t <? nabs e1) = false ->
        (exists g, chosen s1 (name_of w) g /\ ct_P L g = NaN) \/ near m t (q1, s1, Fin k)).
      { intros C1. destruct Er as [(Hy & ->)|(y & Hy & ->)].
        - left. exists (state_at w s1). split; [apply chosen_at|exact Hy].
        - right. exists (state_at w s1), y, k. split; [apply chosen_at|]. split; [exact Hy|].
          split; [reflexivity|].
          cbn [nltb nabs Num_fl flc fl1] in C1. unfold Rltb in C1. destruct (Rlt_dec _ _); [easy|lra]. }
      destruct (IH _ _ _ _ _ _ H) as (ts & Hl & Hf & Hlast & Hend & Hnil & Hcons).
      exists ((q1, s1, Fin k) :: ts). split; [cbn; lia|]. split; [constructor; [exact Hs1|exact Hf]|].
      split.
      { rewrite last_step. exact Hlast. }
      split; [|split; [discriminate|intros _; reflexivity]]. intros e l El. destruct l as [|e0 l].
      + injection El as <- ->. split; [constructor|].
        destruct (Hnil eq_refl) as [-> |C1]; [left; reflexivity|]. right. apply Near. exact C1.
      + injection El as <- El. destruct (Hend e l El) as (H1 & H2). split.
        * constructor; [|exact H1]. apply Far, Hcons. rewrite El. now destruct l.
        * destruct H2 as [H2|H2]; [left; cbn; now rewrite H2|right; exact H2].
  Qed.

  (** the whole search *)
  Lemma search_trials m t max_it both a :
    q_mag limit = Fin m ->
    value (calculate_max_initial_pressure L tube_id tube_od T x mech limit elastic density nu pm use reg
             (Fin t) max_it p (name_of w) both) = Ok a ->
    exists e0 ts,
      evaluated_nan e0 /\ one_atmosphere (at_pressure e0) reg
      /\ (length ts <= Z.to_nat max_it)%nat /\ Forall evaluated_nan ts
      /\ (let e := last ts e0 in
          a = if both then PressureAndFactor (at_pressure e) (with_factor e) else Pressure (at_pressure e))
      /\ (forall e l, ts = (l ++ [e])%list ->
            Forall (far m (Rabs t)) l
            /\ (length ts = Z.to_nat max_it \/ (exists g, chosen (result_of e) (name_of w) g /\ ct_P L g = NaN)
                \/ near m (Rabs t) e)).
  Proof.
    intros Hm H. unfold calculate_max_initial_pressure in H.
    replace (which_state (name_of w)) with (Some w) in H by (destruct w; reflexivity).
    apply value_bind_ok in H. destruct H as (q0 & Hq & H & _). rewrite value_pure in Hq.
    apply value_bind_ok in H. destruct H as (s0 & Hs & H & _).
    apply value_bind_ok in H. destruct H as (d0 & _ & H & _).
    apply value_bind_ok in H. destruct H as (e & _ & H & _).
    apply value_bind_ok in H. destruct H as ((q1 & d1) & K & H & _). rewrite value_ret in H.
    apply ok_inj in H. subst a.
    destruct (loop_trials m (Rabs t) Hm _ _ _ _ _ _ _ K) as (ts & H1 & H2 & (H3 & H4) & H5 & _).
    exists (q0, s0, d0), ts. split; [exact Hs|]. split.
    { cbn [at_pressure fst]. unfold quant in Hq. unfold one_atmosphere.
      destruct (lookup_unit "atm") as [u|]; [|discriminate]. apply ok_inj in Hq. subst q0.
      cbn [q_unit q_mag q_reg]. repeat split. unfold one. cbn. f_equal. unfold Q2R; cbn; lra. }
    split; [exact H1|]. split; [exact H2|]. split; [|exact H5].
    cbv zeta in *. rewrite <- H3, <- H4. reflexivity.
  Qed.
End Search.
