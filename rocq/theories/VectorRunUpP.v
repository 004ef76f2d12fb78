(** * VectorRunUpP: calculate_run_up with an array of diameters against the single calls. *)
From Coq Require Import String List Bool Arith Lia QArith.
From Verif Require Import PyBase Pint UnitsM Spec Csv Tables Interp TubeM DdtM WindowM BoltM VectorM
  VectorSpec VectorP VectorTubeM VectorTubeSpec VectorTubeP Gas GasP FitM SdM ThermoM RunUpM
  VectorRunUpM.
Import ListNotations.
Local Open Scope string_scope.
Local Open Scope nat_scope.

(** ** A number comes from numbers only *)
Section OnlyNumbers.
  Context {A : Type} {NA : Num A}.
  (** [v_to], at the end of both correlations, keeps arrays arrays *)
  Lemma lift2_sca {B C D} (g : B -> C -> result D) x y z :
    lift2 g x y = Ok (Sca z) -> exists a b, x = Sca a /\ y = Sca b.
  Proof.
    destruct x as [a|l], y as [b|m]; cbn.
    - intros _. eauto.
    - destruct (mapM _ _); discriminate.
    - destruct (mapM _ _); discriminate.
    - destruct (Nat.eqb _ _); [destruct (mapM _ _); discriminate|].
      destruct l as [|a0 [|a1 l]], m as [|b0 [|b1 m]]; cbn; try discriminate;
        repeat match goal with |- context [g ?u ?v] => destruct (g u v); cbn; try discriminate end;
        repeat match goal with |- context [mapM ?u ?v] => destruct (mapM u v); cbn; try discriminate end.
  Qed.
  Lemma vdiv_sca div (x y : vmag A) z :
    vdiv div x y = Ok (Sca z) -> exists a b, x = Sca a /\ y = Sca b.
  Proof.
    destruct x as [a|l], y as [b|m]; [intros _; eauto| | |]; apply lift2_sca.
  Qed.
  Lemma v_map_sca (f : A -> A) m z : v_map f m = Sca z -> exists a, m = Sca a.
  Proof. destruct m; cbn; [eauto|discriminate]. Qed.
  Ltac unbind := repeat match goal with
    | H : bind _ _ = Ok _ |- _ => apply bind_ok in H; destruct H as (? & ? & H)
    end.
  Lemma eq4_4_sca br t fs dr a r z :
    v_eq4_4 (A:=A) br t fs dr a = Ok r -> v_mag r = Sca z -> exists d, v_mag t = Sca d.
  Proof.
    unfold v_eq4_4. intros H Hz. unbind.
    unfold v_to in H. destruct (dim_eqb _ _); [|discriminate]. injection H as <-.
    cbn [v_mag] in Hz. apply v_map_sca in Hz. destruct Hz as (z1 & Hz).
    match goal with H : v_ndivq _ _ _ = Ok _ |- _ => unfold v_ndivq in H; unbind; injection H as <- end.
    cbn [v_mag] in Hz. subst.
    match goal with H : vdiv _ _ _ = Ok (Sca _) |- _ => apply vdiv_sca in H; destruct H as (? & ? & _ & Hq) end.
    match goal with H : v_div _ _ _ = Ok _ |- _ => unfold v_div in H; unbind; injection H as <- end.
    cbn [v_mag] in Hq. subst.
    match goal with H : vdiv _ _ _ = Ok (Sca _) |- _ => apply vdiv_sca in H; destruct H as (? & ? & _ & Hq) end.
    match goal with H : v_mul _ _ = Ok _ |- _ => unfold v_mul in H; unbind; injection H as <- end.
    cbn [v_mag] in Hq. subst.
    match goal with H : lift2 _ _ _ = Ok (Sca _) |- _ => apply lift2_sca in H; destruct H as (? & ? & _ & Hq) end.
    eauto.
  Qed.

End OnlyNumbers.

Section Sim.
  Context {A : Type} {NA : Num A} {TA : Trans A}.
  Context (n : nat) (Hn : 0 < n).
  Notation rrel := (rrel n). Notation vrel := (vrel n). Notation mrel := (mrel n).

  Ltac units := repeat match goal with
    | H : VectorP.vrel n ?v ?f, Hi : ?i < n |- context [q_unit (?f ?i)] =>
        rewrite (unit_of_rel n v f i H Hi)
    | H : VectorP.vrel n ?v ?f, Hi : ?i < n |- context [q_reg (?f ?i)] =>
        rewrite (reg_of_rel n v f i H Hi)
    end.
  Ltac guards :=
    repeat (apply (unit_step n Hn);
      [intros i Hi; unfold same_reg, v_same_reg, offset_free, v_offset_free; units; reflexivity|]).

  Lemma v_pow_rel q h e : vrel q h -> rrel vrel (v_pow q e) (fun i => q_pow (h i) e).
  Proof.
    intros Hq. unfold v_pow, q_pow. guards.
    destruct (dim_eqb (u_dim (v_unit q)) d_none) eqn:E.
    - eapply (wrap_step n);
        [apply (lift1_rel n Hn (fun x => if nltb x zero then Err NotFinite else Ok (npow x e)));
         apply (mag_of_rel n), Hq|].
      intros i Hi. units. rewrite E. destruct (nltb (q_mag (h i)) zero); reflexivity.
    - exists 0. split; [exact Hn|]. rewrite (unit_of_rel n q h 0 Hq Hn), E. eexists. reflexivity.
  Qed.
  Lemma v_log_rel q h : vrel q h -> rrel vrel (v_log q) (fun i => q_log (h i)).
  Proof.
    intros Hq. unfold v_log, q_log.
    destruct (dim_eqb (u_dim (v_unit q)) d_none) eqn:E.
    - eapply (wrap_step n);
        [apply (lift1_rel n Hn (fun x => if nltb zero x then Ok (nln x) else Err NotFinite));
         apply (v_base_mag_rel n Hn), Hq|].
      intros i Hi. units. rewrite E. destruct (nltb zero (base_mag (h i))); reflexivity.
    - exists 0. split; [exact Hn|]. rewrite (unit_of_rel n q h 0 Hq Hn), E. eexists. reflexivity.
  Qed.
  Lemma v_ndivq_rel div k kf q h : like_division div -> mrel k kf -> vrel q h ->
    rrel vrel (v_ndivq div k q) (fun i => n_divq div (kf i) (h i)).
  Proof.
    intros Hd Hk Hq. unfold v_ndivq, n_divq. guards.
    eapply (wrap_step n);
      [apply (vdiv_rel n Hn div); [exact Hd|exact Hk|apply (mag_of_rel n), Hq]|].
    intros i Hi. cbv beta. units. reflexivity.
  Qed.
  Lemma const_vrel (q : quantity A) : vrel (scalar q) (fun _ => q).
  Proof. apply (vrel_scalar n). Qed.
  Lemma only_all {B} (m : vmag B) b : only m b -> mrel m (fun _ => b).
  Proof. intros [-> | ->]; (split; [cbn; auto|reflexivity]). Qed.

  (** programs with effects: the values element by element, and the same effects *)
  Definition irel {V S} (R : V -> (nat -> S) -> Prop) (mv : io A V) (mf : nat -> io A S) : Prop :=
    rrel R (value mv) (fun i => value (mf i))
    /\ forall v, value mv = Ok v -> trace mv = trace (mf 0).

  Lemma irel_pure {V S} (R : V -> (nat -> S) -> Prop) rv rf :
    rrel R rv rf -> irel R (pure rv) (fun i => pure (rf i)).
  Proof. intros H. split; [exact H|]. reflexivity. Qed.
  Lemma irel_const {V S C} (R : V -> (nat -> S) -> Prop) (m : io A C) kv kf :
    (forall c, irel R (kv c) (fun i => kf i c)) ->
    irel R (io_bind m kv) (fun i => io_bind m (kf i)).
  Proof.
    intros K. destruct m as (tr & [c|e]).
    - destruct (K c) as (H1 & H2). rewrite !bind_some. split.
      + exact H1.
      + intros v Hv. unfold after, trace. rewrite bind_some. unfold after. cbn [fst].
        f_equal. apply (H2 v). exact Hv.
    - split; [|discriminate]. exists 0. split; [exact Hn|]. eexists. reflexivity.
  Qed.
  Lemma irel_bind {V S V' S'} (R : V -> (nat -> S) -> Prop) (R' : V' -> (nat -> S') -> Prop)
    rv rf kv kf :
    rrel R rv rf ->
    (forall v f, R v f -> irel R' (kv v) (fun i => kf i (f i))) ->
    irel R' (io_bind (pure rv) kv) (fun i => io_bind (pure (rf i)) (kf i)).
  Proof.
    intros H K. split.
    - rewrite value_bind, value_pure.
      apply (rrel_ext n R' _ (fun i => bind (rf i) (fun b => value (kf i b)))).
      { intros i _. rewrite value_bind, value_pure. reflexivity. }
      apply (rrel_bind n R R' rv rf); [exact H|]. intros v f Hv. exact (proj1 (K v f Hv)).
    - intros v Hv. rewrite value_bind, value_pure in Hv. destruct rv as [v0|e]; [|discriminate].
      cbn [bind] in Hv. destruct H as (f & Hf & H).
      destruct (H 0 Hn) as [E|[C _]]; [|lia]. rewrite E, !bind_pure_ok.
      exact (proj2 (K v0 f Hf) v Hv).
  Qed.
  Lemma irel_ext {V S} (R : V -> (nat -> S) -> Prop) mv mf mf' :
    (forall i, i < n -> mf i = mf' i) -> irel R mv mf -> irel R mv mf'.
  Proof.
    intros E (H1 & H2). split.
    - apply (rrel_ext n R _ _ _) with (2 := H1). intros i Hi. cbv beta. now rewrite E.
    - intros v Hv. rewrite <- (E 0 Hn). apply (H2 v Hv).
  Qed.

  Ltac op L := eapply (rrel_bind n); [eapply L; eassumption|]; intros ? ? ?.

  Context {G X : Type} (L : cantera A G X).

  Lemma eq4_1_rel br b t tf T P species reg g fs dr a :
    only br b -> vrel t tf ->
    irel vrel (v_eq4_1 L br t T P species reg g fs dr a)
      (fun i => eq4_1 L b (tf i) T P species reg g fs dr a).
  Proof.
    intros Hb Ht. unfold v_eq4_1, eq4_1.
    apply irel_const; intros T'. apply irel_const; intros P'. apply irel_const; intros g'.
    apply irel_const; intros rho. apply irel_const; intros mu. apply irel_pure.
    apply (const_step n Hn); intros mu'. apply (const_step n Hn); intros nu.
    apply (const_step n Hn); intros delta. apply (const_step n Hn); intros den.
    apply (const_step n Hn); intros front.
    eapply (rrel_bind n);
      [eapply (v_div_rel n Hn); [apply npdiv_like|apply const_vrel|exact Ht]|]; intros th thf Hth.
    op v_pow_rel. 
    eapply (rrel_bind n); [eapply (v_mul_rel n Hn); [apply const_vrel|eassumption]|]; intros ga gaf Hga.
    eapply (rrel_bind n); [eapply v_pow_rel; exact Hga|]; intros gb gbf Hgb.
    eapply (rrel_bind n);
      [eapply (lift1_rel n Hn (fun b => npsqrt (one - b)%num)); apply only_all; exact Hb|];
      intros ro rof Hro.
    eapply (rrel_bind n);
      [eapply (lift1_rel n Hn (fun r => npdiv (lit 2)%num (one - r)%num)); exact Hro|]; intros dh dhf Hdh.
    eapply (rrel_bind n); [eapply (v_half_rel n Hn); exact Hgb|]; intros sc scf Hsc.
    eapply (rrel_bind n); [eapply (v_scale_rel n Hn); [exact Hdh|exact Hgb]|]; intros gd gdf Hgd.
    eapply (rrel_bind n); [eapply v_log_rel; exact Hgd|]; intros l1 l1f Hl1.
    eapply (rrel_bind n); [eapply (v_scale_const_rel n Hn); exact Hl1|]; intros l2 l2f Hl2.
    eapply (rrel_bind n); [eapply (v_naddq_rel n Hn); exact Hl2|]; intros l3 l3f Hl3.
    eapply (rrel_bind n); [eapply (v_mul_rel n Hn); [exact Hsc|exact Hl3]|]; intros r1 r1f Hr1.
    eapply (rrel_bind n); [eapply (v_mul_rel n Hn); [exact Hr1|exact Ht]|]; intros r2 r2f Hr2.
    apply (rrel_ext n vrel _ (fun i => q_to (r2f i) (v_unit t))); [intros i Hi; units; reflexivity|].
    apply (v_to_rel n Hn), Hr2.
  Qed.

  Lemma eq4_4_rel br b t tf fs dr a :
    only br b -> vrel t tf ->
    rrel vrel (v_eq4_4 br t fs dr a) (fun i => eq4_4 b (tf i) fs dr a).
  Proof.
    intros Hb Ht. unfold v_eq4_4, eq4_4.
    apply (const_step n Hn); intros top. apply (const_step n Hn); intros top'.
    eapply (rrel_bind n); [eapply (v_mul_rel n Hn); [apply const_vrel|exact Ht]|]; intros bo bof Hbo.
    eapply (rrel_bind n);
      [eapply (v_div_rel n Hn); [apply npdiv_like|apply const_vrel|exact Hbo]|]; intros lh lhf Hlh.
    eapply (rrel_bind n).
    { eapply (vdiv_rel n Hn pydiv); [apply pydiv_like| |].
      - apply (map_rel n Hn (fun b => lit 2 * (one - b))%num). apply only_all; exact Hb.
      - apply (map_rel n Hn (fun b => one + lit 1.5 * b)%num). apply only_all; exact Hb. }
    intros rh rhf Hrh.
    eapply (rrel_bind n);
      [eapply v_ndivq_rel; [apply npdiv_like|exact Hrh|exact Hlh]|]; intros r1 r1f Hr1.
    apply (rrel_ext n vrel _ (fun i => q_to (r1f i) (v_unit t))); [intros i Hi; units; reflexivity|].
    apply (v_to_rel n Hn), Hr1.
  Qed.

  Lemma m_le_one (x y : vmag A) a b : only x a -> only y b -> m_le x y = Ok (nleb a b).
  Proof.
    intros Hx Hy. unfold m_le. destruct (lift2_only nleb x y a b Hx Hy) as (z & E & Hz).
    cbv beta in E. rewrite E. cbn [bind]. now apply truth_only.
  Qed.
  Definition onlys {B} (b : B) : only (Sca b) b := or_introl eq_refl.

  (** in the interpolated range: the arrays are refused although the single calls return *)
  Definition refused {V S} (rv : result V) (rf : nat -> result S) : Prop :=
    (forall i, i < n -> exists q, rf i = Ok q) -> is_value_error rv.
  Lemma refused_bind {V S V' S'} (R : V -> (nat -> S) -> Prop) (mv : io A V) mf
      (kv : V -> io A V') (kf : nat -> S -> io A S') :
    rrel R (value mv) (fun i => value (mf i)) ->
    (forall v f, R v f -> refused (value (kv v)) (fun i => value (kf i (f i)))) ->
    refused (value (io_bind mv kv)) (fun i => value (io_bind (mf i) (kf i))).
  Proof.
    intros H K Hall. rewrite value_bind.
    assert (Hm : forall i, i < n -> exists b, value (mf i) = Ok b /\ exists q, value (kf i b) = Ok q).
    { intros i Hi. destruct (Hall i Hi) as (q & Hq). rewrite value_bind in Hq.
      destruct (value (mf i)) as [b|e]; [|discriminate]. exists b. split; [reflexivity|]. exists q. exact Hq. }
    destruct (value mv) as [v|e].
    - destruct H as (f & Hf & H). cbn [bind]. apply (K v f Hf). intros i Hi.
      destruct (Hm i Hi) as (b & Eb & q & Hq). destruct (H i Hi) as [E|[_ E]].
      + exists q. assert (f i = b) by congruence. subst b. exact Hq.
      + rewrite Eb in E. discriminate.
    - destruct H as (i & Hi & e' & H). destruct (Hm i Hi) as (b & Eb & _). congruence.
  Qed.
  Lemma refused_const {V' S' C} (m : io A C) (kv : C -> io A V') (kf : nat -> C -> io A S') :
    (forall c, refused (value (kv c)) (fun i => value (kf i c))) ->
    refused (value (io_bind m kv)) (fun i => value (io_bind m (kf i))).
  Proof.
    intros K. apply (refused_bind (crel n) m (fun _ => m)); [apply (rrel_const n Hn)|].
    intros v f Hv Hall. apply (K v). intros i Hi. destruct (Hall i Hi) as (q & Hq).
    rewrite (Hv i Hi) in Hq. eauto.
  Qed.
  Lemma run_up_refused br b t ts T P species mech reg phase :
    only br b -> (nleb b (lit 0.1)%num = false) -> (nleb (lit 0.3)%num b = false) ->
    arel n t ts -> (exists l, br = Arr l \/ arg_mag t = Arr l) ->
    refused (value (v_run_up L br t T P species mech reg phase))
      (fun i => value (calculate_run_up L b (ts i) T P species mech reg phase)).
  Proof.
    intros Hb H1 H3 Ht Harr. unfold v_run_up, calculate_run_up.
    rewrite (m_le_one br (Sca zero) b zero Hb (onlys zero)), bind_pure_ok.
    rewrite (m_lt_only (Sca (lit 0.75)%num) br (lit 0.75)%num b (onlys _) Hb).
    replace (if nleb b zero then Ok true else Ok (nltb (lit 0.75)%num b))
      with (@Ok bool (nleb b zero || nltb (lit 0.75)%num b)) by (destruct (nleb b zero); reflexivity).
    rewrite bind_pure_ok. destruct (nleb b zero || nltb (lit 0.75)%num b).
    { intros H. destruct (H 0 Hn) as (q & C). discriminate C. }
    assert (Hpm : forall q, v_parse t reg = Ok q -> v_mag q = arg_mag t) by (intros q; apply v_parse_mag).
    destruct (v_parse t reg) as [q0|e0] eqn:Ep.
    2:{ pose proof (v_parse_rel n Hn t ts reg Ht) as R0. rewrite Ep in R0.
        destruct R0 as (i & Hi & e & R0). intros H. destruct (H i Hi) as (q & C).
        rewrite R0 in C. discriminate C. }
    specialize (Hpm q0 eq_refl).
    eapply (refused_bind (fun v f => v = q0 /\ vrel v f)).
    { rewrite value_pure. cbn [value pure snd].
      pose proof (v_parse_rel n Hn t ts reg Ht) as R0. rewrite Ep in R0.
      destruct R0 as (f & Hf & R0). exists f. split; [split; [reflexivity|exact Hf]|exact R0]. }
    intros q qf (-> & Hq).
    apply refused_const; intros T'. apply refused_const; intros P'.
    eapply (refused_bind anyrel); [eapply (v_check_rel n Hn); exact Hq|]; intros ? ? _.
    apply refused_const; intros _. apply refused_const; intros _.
    apply refused_const; intros fs. apply refused_const; intros g. apply refused_const; intros Tk.
    apply refused_const; intros Pp. apply refused_const; intros g1. apply refused_const; intros g2.
    apply refused_const; intros d1. apply refused_const; intros a.
    rewrite (m_le_one (Sca (lit 0.3)%num) br _ b (onlys _) Hb), bind_pure_ok.
    rewrite (m_le_one br (Sca (lit 0.1)%num) b _ Hb (onlys _)).
    rewrite H3, H1. cbn [andb]. rewrite !bind_pure_ok.
    eapply (refused_bind vrel); [exact (proj1 (eq4_1_rel _ _ _ _ _ _ _ _ _ _ _ _ Hb Hq))|].
    intros s sf Hs.
    destruct (v_eq4_4 br q0 fs _ a) as [r0|e0] eqn:E4.
    2:{ match type of E4 with v_eq4_4 _ _ _ ?dr _ = _ => pose proof (eq4_4_rel br b q0 qf fs dr a Hb Hq) as R0 end.
        rewrite E4 in R0.
        destruct R0 as (i & Hi & e & R0). intros H. destruct (H i Hi) as (q & C).
        rewrite R0 in C. discriminate C. }
    rewrite bind_pure_ok. intros _.
    assert (Eb : v_between br (v_mag s) (v_mag r0) = Err (ValueError "object too deep for desired array")).
    { destruct Harr as (l & [-> | El]); [reflexivity|].
      destruct br; [|reflexivity]. destruct (v_mag s); [|reflexivity].
      destruct (v_mag r0) eqn:Er; [|reflexivity]. exfalso.
      destruct (eq4_4_sca _ _ _ _ _ _ _ E4 Er) as (d & Ed). congruence. }
    rewrite Eb. eexists. reflexivity.
  Qed.

  (** away from the interpolated range *)
  Lemma run_up_rel br b t ts T P species mech reg phase :
    only br b ->
    ((lit 0.3 <=? b) && (b <=? lit 0.75) || (b <=? lit 0.1))%num = true ->
    arel n t ts ->
    irel vrel (v_run_up L br t T P species mech reg phase)
      (fun i => calculate_run_up L b (ts i) T P species mech reg phase).
  Proof.
    intros Hb Hr Ht. unfold v_run_up, calculate_run_up.
    rewrite (m_le_one br (Sca zero) b zero Hb (onlys zero)), bind_pure_ok.
    rewrite (m_lt_only (Sca (lit 0.75)%num) br (lit 0.75)%num b (onlys _) Hb).
    replace (if nleb b zero then Ok true else Ok (nltb (lit 0.75)%num b))
      with (@Ok bool (nleb b zero || nltb (lit 0.75)%num b)) by (destruct (nleb b zero); reflexivity).
    rewrite bind_pure_ok. destruct (nleb b zero || nltb (lit 0.75)%num b).
    { apply irel_pure. exists 0. split; [exact Hn|]. eexists. reflexivity. }
    eapply irel_bind; [eapply (v_parse_rel n Hn); exact Ht|]; intros q qf Hq.
    apply irel_const; intros T'. apply irel_const; intros P'.
    eapply irel_bind; [eapply (v_check_rel n Hn); exact Hq|]; intros ? ? _.
    apply irel_const; intros _. apply irel_const; intros _.
    apply irel_const; intros fs. apply irel_const; intros g. apply irel_const; intros Tk.
    apply irel_const; intros Pp. apply irel_const; intros g1. apply irel_const; intros g2.
    apply irel_const; intros d1. apply irel_const; intros a.
    rewrite (m_le_one (Sca (lit 0.3)%num) br _ b (onlys _) Hb), bind_pure_ok.
    rewrite (m_le_one br (Sca (lit 0.75)%num) b _ Hb (onlys _)).
    replace (if nleb (lit 0.3)%num b then Ok (nleb b (lit 0.75)%num) else Ok false)
      with (@Ok bool (nleb (lit 0.3)%num b && nleb b (lit 0.75)%num))
      by (destruct (nleb (lit 0.3)%num b); reflexivity).
    rewrite bind_pure_ok.
    rewrite (m_le_one br (Sca (lit 0.1)%num) b _ Hb (onlys _)), bind_pure_ok.
    destruct (nleb (lit 0.3)%num b && nleb b (lit 0.75)%num).
    - apply irel_pure. apply eq4_4_rel; assumption.
    - cbn [orb] in Hr. rewrite Hr. apply eq4_1_rel; assumption.
  Qed.
End Sim.

(** ** Numbers: the array functions on numbers are the functions on numbers. *)
Section Numbers.
  Context {A G X : Type} {NA : Num A} {TA : Trans A} (L : cantera A G X).
  Definition sc (r : result (quantity A)) : result (vquantity A) :=
    match r with Ok q => Ok (scalar q) | Err e => Err e end.
  Definition isc (m : io A (quantity A)) : io A (vquantity A) := (fst m, sc (snd m)).

  Lemma sc_bind {B} (r : result B) (k : B -> result (quantity A)) kv :
    (forall b, kv b = sc (k b)) -> bind r kv = sc (bind r k).
  Proof. intros H. destruct r as [b|e]; cbn [bind]; [apply H|reflexivity]. Qed.
  Lemma sc_bindq (r : result (quantity A)) (k : quantity A -> result (quantity A)) kv :
    (forall q, kv (scalar q) = sc (k q)) -> bind (sc r) kv = sc (bind r k).
  Proof. intros H. destruct r as [q|e]; cbn [bind sc]; [apply H|reflexivity]. Qed.
  Lemma isc_bind {B} (m : io A B) (k : B -> io A (quantity A)) kv :
    (forall b, kv b = isc (k b)) -> io_bind m kv = isc (io_bind m k).
  Proof.
    intros H. unfold io_bind, isc. destruct (snd m) as [b|e]; cbn [fst snd]; [rewrite H; reflexivity|reflexivity].
  Qed.
  Lemma isc_pure r : pure (sc r) = isc (pure r).
  Proof. reflexivity. Qed.

  Ltac ops := repeat match goal with
    | |- context [match ?x with _ => _ end] => destruct x; try reflexivity
    end.
  Lemma sc_mul p q : v_mul (scalar p) (scalar q) = sc (q_mul p q).
  Proof. unfold v_mul, q_mul, v_same_reg, same_reg, v_offset_free, offset_free. cbn [scalar v_unit v_reg v_mag]. ops. Qed.
  Lemma sc_div div p q : v_div div (scalar p) (scalar q) = sc (q_div div p q).
  Proof.
    unfold v_div, q_div, v_same_reg, same_reg, v_offset_free, offset_free. cbn [scalar v_unit v_reg v_mag vdiv].
    destruct (div (q_mag p) (q_mag q)); ops.
  Qed.
  Lemma sc_divn div p k : v_divn div (scalar p) (Sca k) = sc (q_divn div p k).
  Proof.
    unfold v_divn, q_divn, v_offset_free, offset_free. cbn [scalar v_unit v_reg v_mag vdiv].
    destruct (div (q_mag p) k); ops.
  Qed.
  Lemma sc_ndivq div p k : v_ndivq div (Sca k) (scalar p) = sc (n_divq div k p).
  Proof.
    unfold v_ndivq, n_divq, v_offset_free, offset_free. cbn [scalar v_unit v_reg v_mag vdiv].
    destruct (div k (q_mag p)); ops.
  Qed.
  Lemma sc_scale p k : v_scale (Sca k) (scalar p) = sc (q_scale k p).
  Proof. unfold v_scale, q_scale, v_offset_free, offset_free. cbn [scalar v_unit v_reg v_mag]. ops. Qed.
  Lemma sc_naddq p k : v_naddq k (scalar p) = sc (n_addq k p).
  Proof. unfold v_naddq, n_addq. cbn [scalar v_unit v_reg v_mag]. destruct (dim_eqb _ _); reflexivity. Qed.
  Lemma sc_to p u : v_to (scalar p) u = sc (q_to p u).
  Proof. unfold v_to, q_to. cbn [scalar v_unit v_reg v_mag]. destruct (dim_eqb _ _); reflexivity. Qed.
  Lemma sc_pow p e : v_pow (scalar p) e = sc (q_pow p e).
  Proof.
    unfold v_pow, q_pow, v_offset_free, offset_free. cbn [scalar v_unit v_reg v_mag].
    destruct (Pint.u_off _); [reflexivity|]. cbn [bind]. destruct (dim_eqb _ _); [|reflexivity].
    cbn [lift1]. destruct (nltb _ _); reflexivity.
  Qed.
  Lemma sc_log p : v_log (scalar p) = sc (q_log p).
  Proof.
    unfold v_log, q_log. cbn [scalar v_unit v_reg v_mag].
    destruct (dim_eqb _ _); [|reflexivity].
    change (v_base_mag (scalar p)) with (Sca (base_mag p)). cbn [lift1].
    destruct (nltb _ _); reflexivity.
  Qed.
  Lemma sca_bind {B} (r : result A) (kv : vmag A -> result B) :
    bind (let* c := r in Ok (Sca c)) kv = bind r (fun c => kv (Sca c)).
  Proof. destruct r; reflexivity. Qed.

  Lemma sc_eq4_1 b t T P species reg g fs dr a :
    v_eq4_1 L (Sca b) (scalar t) T P species reg g fs dr a
    = isc (eq4_1 L b t T P species reg g fs dr a).
  Proof.
    unfold v_eq4_1, eq4_1. do 5 (apply isc_bind; intros ?). rewrite <- isc_pure. f_equal.
    do 5 (apply sc_bind; intros ?).
    rewrite sc_div; apply sc_bindq; intros th.
    rewrite sc_pow; apply sc_bindq; intros th'.
    rewrite sc_mul; apply sc_bindq; intros ga.
    rewrite sc_pow; apply sc_bindq; intros gb.
    cbn [lift1]. rewrite sca_bind. apply sc_bind; intros r.
    cbn [lift1]. rewrite sca_bind. apply sc_bind; intros d.
    rewrite sc_divn; apply sc_bindq; intros s.
    rewrite sc_scale; apply sc_bindq; intros gd.
    rewrite sc_log; apply sc_bindq; intros l1.
    rewrite sc_scale; apply sc_bindq; intros l2.
    rewrite sc_naddq; apply sc_bindq; intros l3.
    rewrite sc_mul; apply sc_bindq; intros r1.
    rewrite sc_mul; apply sc_bindq; intros r2. apply sc_to.
  Qed.
  Lemma sc_eq4_4 b t fs dr a :
    v_eq4_4 (Sca b) (scalar t) fs dr a = sc (eq4_4 b t fs dr a).
  Proof.
    unfold v_eq4_4, eq4_4. do 2 (apply sc_bind; intros ?).
    rewrite sc_mul; apply sc_bindq; intros bo.
    rewrite sc_div; apply sc_bindq; intros lh.
    cbn [v_map vdiv]. rewrite sca_bind. apply sc_bind; intros r.
    rewrite sc_ndivq; apply sc_bindq; intros r1. apply sc_to.
  Qed.

  (** the same argument with a number in it *)
  Inductive same_arg : vpyin A -> pyin A -> Prop :=
  | same_q q : same_arg (VQ (scalar q)) (PQuant q)
  | same_pair m s : same_arg (VPair (Sca m) s) (PSeq [ENum m; EStr s])
  | same_bad : same_arg VBad PNoIter.
  Lemma sc_parse v i reg : same_arg v i -> v_parse v reg = sc (parse_quant_input i reg).
  Proof.
    intros H. destruct H; [reflexivity| |reflexivity].
    cbn [v_parse parse_quant_input quantity_of_items]. unfold quant. destruct (lookup_unit s); reflexivity.
  Qed.
  Lemma isc_bindq (r : result (quantity A)) (k : quantity A -> io A (quantity A)) kv :
    (forall q, kv (scalar q) = isc (k q)) -> io_bind (pure (sc r)) kv = isc (io_bind (pure r) k).
  Proof.
    intros H. destruct r as [q|e]; cbn [sc]; [|reflexivity]. rewrite !bind_pure_ok. apply H.
  Qed.
  Lemma isc_bindi (m : io A (quantity A)) (k : quantity A -> io A (quantity A)) kv :
    (forall q, kv (scalar q) = isc (k q)) -> io_bind (isc m) kv = isc (io_bind m k).
  Proof.
    intros H. destruct m as (tr & [q|e]); cbn [isc sc fst snd]; [|reflexivity].
    unfold isc. cbn [fst snd sc]. rewrite !bind_some, H. reflexivity.
  Qed.

  Lemma run_up_numbers b v i T P species mech reg phase :
    same_arg v i ->
    v_run_up L (Sca b) v T P species mech reg phase
    = isc (calculate_run_up L b i T P species mech reg phase).
  Proof.
    intros Hv. unfold v_run_up, calculate_run_up.
    rewrite (m_le_one (Sca b) (Sca zero) b zero (onlys _) (onlys _)), bind_pure_ok.
    rewrite (m_lt_only (Sca (lit 0.75)%num) (Sca b) (lit 0.75)%num b (onlys _) (onlys _)).
    replace (if nleb b zero then Ok true else Ok (nltb (lit 0.75)%num b))
      with (@Ok bool (nleb b zero || nltb (lit 0.75)%num b)) by (destruct (nleb b zero); reflexivity).
    rewrite bind_pure_ok. destruct (nleb b zero || nltb (lit 0.75)%num b); [reflexivity|].
    rewrite (sc_parse v i reg Hv). apply isc_bindq; intros q.
    apply isc_bind; intros T'. apply isc_bind; intros P'.
    change (v_check (scalar q) "length" true) with (check_q q "length" true).
    do 3 (apply isc_bind; intros _).
    apply isc_bind; intros fs. apply isc_bind; intros g. apply isc_bind; intros Tk.
    apply isc_bind; intros Pp. apply isc_bind; intros g1. apply isc_bind; intros g2.
    apply isc_bind; intros d1. apply isc_bind; intros a.
    rewrite (m_le_one (Sca (lit 0.3)%num) (Sca b) _ b (onlys _) (onlys _)), bind_pure_ok.
    rewrite (m_le_one (Sca b) (Sca (lit 0.75)%num) b _ (onlys _) (onlys _)).
    replace (if nleb (lit 0.3)%num b then Ok (nleb b (lit 0.75)%num) else Ok false)
      with (@Ok bool (nleb (lit 0.3)%num b && nleb b (lit 0.75)%num))
      by (destruct (nleb (lit 0.3)%num b); reflexivity).
    rewrite bind_pure_ok.
    rewrite (m_le_one (Sca b) (Sca (lit 0.1)%num) b _ (onlys _) (onlys _)), bind_pure_ok.
    destruct (nleb (lit 0.3)%num b && nleb b (lit 0.75)%num); [|destruct (nleb b (lit 0.1)%num)].
    - rewrite sc_eq4_4. apply isc_pure.
    - apply sc_eq4_1.
    - rewrite sc_eq4_1. apply isc_bindi; intros s. rewrite sc_eq4_4. apply isc_bindq; intros r.
      cbn [scalar v_mag v_unit v_between].
      destruct (np_interp b _); [rewrite !bind_pure_ok|]; reflexivity.
  Qed.
End Numbers.

(** ** Refusals *)
Section Refuse.
  Context {A G X : Type} {NA : Num A} {TA : Trans A} (L : cantera A G X).

  Lemma m_le_shape (x : vmag A) y b : m_le x (Sca y) = Ok b -> x = Arr [] \/ exists a, only x a.
  Proof.
    unfold m_le. destruct x as [a|[|a [|a' l]]].
    - intros _. right. exists a. left. reflexivity.
    - intros _. left. reflexivity.
    - intros _. right. exists a. right. reflexivity.
    - cbn. destruct (mapM _ l); cbn; discriminate.
  Qed.
  Lemma between_numbers br s r x : v_between (A:=A) br s r = Ok x ->
    exists b a c, br = Sca b /\ s = Sca a /\ r = Sca c.
  Proof. destruct br, s, r; cbn; try discriminate. eauto 6. Qed.

  (** what an answer says about the blockage ratio and the diameter *)
  Lemma run_up_shape br t T P species mech reg phase v :
    value (v_run_up L br t T P species mech reg phase) = Ok v ->
    exists b, only br b
      /\ ((nleb (lit 0.3)%num b && nleb b (lit 0.75)%num || nleb b (lit 0.1)%num)%bool = true
          \/ (br = Sca b /\ exists d, arg_mag t = Sca d)).
  Proof.
    unfold v_run_up. intros H.
    apply value_bind_ok in H. destruct H as (low & Elow & H & _).
    apply value_bind_ok in H. destruct H as (out & Eout & H & _).
    destruct out; [discriminate|].
    repeat match type of H with value (io_bind _ (fun _ => _)) = Ok _ => idtac end.
    apply value_bind_ok in H. destruct H as (q & Eq & H & _).
    do 5 (apply value_bind_ok in H; destruct H as (? & _ & H & _)).
    do 8 (apply value_bind_ok in H; destruct H as (? & _ & H & _)).
    apply value_bind_ok in H. destruct H as (from & Efrom & H & _).
    apply value_bind_ok in H. destruct H as (rr & Err_ & H & _).
    unfold value, pure in Elow, Efrom, Err_, Eq. cbn [snd] in Elow, Efrom, Err_, Eq.
    destruct (m_le_shape _ _ _ Elow) as [-> | (b & Hb)].
    - exfalso. cbn in Efrom. injection Efrom as <-. injection Err_ as <-.
      apply value_bind_ok in H. destruct H as (sr & Esr & H & _).
      cbn in Esr. injection Esr as <-.
      do 2 (apply value_bind_ok in H; destruct H as (? & _ & H & _)).
      apply value_bind_ok in H. destruct H as (xx & Ex & _).
      unfold value, pure in Ex. cbn [snd] in Ex. discriminate Ex.
    - exists b. split; [exact Hb|].
      rewrite (m_le_one _ _ _ _ (onlys _) Hb) in Efrom. injection Efrom as <-.
      rewrite (m_le_one _ _ _ _ Hb (onlys _)) in Err_.
      assert (E : rr = (nleb (lit 0.3)%num b && nleb b (lit 0.75)%num)%bool).
      { destruct (nleb (lit 0.3)%num b); injection Err_ as <-; reflexivity. }
      subst rr. destruct (nleb (lit 0.3)%num b && nleb b (lit 0.75)%num)%bool; [left; reflexivity|].
      apply value_bind_ok in H. destruct H as (sr & Esr & H & _).
      unfold value, pure in Esr. cbn [snd] in Esr.
      rewrite (m_le_one _ _ _ _ Hb (onlys _)) in Esr. injection Esr as <-.
      destruct (nleb b (lit 0.1)%num); [left; reflexivity|]. right.
      apply value_bind_ok in H. destruct H as (sm & _ & H & _).
      apply value_bind_ok in H. destruct H as (ro & Ero & H & _).
      apply value_bind_ok in H. destruct H as (xx & Ex & _).
      unfold value, pure in Ex, Ero. cbn [snd] in Ex, Ero.
      destruct (between_numbers _ _ _ _ Ex) as (b' & s' & r' & -> & _ & Er).
      split; [destruct Hb as [Hb|Hb]; [exact Hb|discriminate]|].
      destruct (eq4_4_sca _ _ _ _ _ _ _ Ero Er) as (d & Ed). exists d.
      rewrite <- Ed. symmetry. eapply v_parse_mag. exact Eq.
  Qed.
End Refuse.
