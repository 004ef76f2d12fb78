(** * SpeedP: lemmas about the model of Detonation.cj_speed. *)
From Coq Require Import String ZArith QArith Reals Qreals List Bool Lra Lia Psatz Permutation Sorting.
From Verif Require Import PyBase Gas GasP FitM QLemmas FitP SdM SdSpec SdP FitSpec SpeedSpec.
Import ListNotations.

(** ** Any arithmetic *)
Lemma io_map_inv {A B C} (f : B -> io A C) l : forall ys,
  value (io_map f l) = Ok ys <-> Forall2 (fun x y => value (f x) = Ok y) l ys.
Proof.
  induction l as [|x l IH]; intros ys; cbn [io_map].
  - rewrite value_ret. split; intros H.
    + injection H as <-. constructor.
    + inversion H. reflexivity.
  - rewrite value_bind. split; intros H.
    + destruct (value (f x)) as [y|e] eqn:E; cbn [bind] in H; [|discriminate].
      rewrite value_bind in H.
      destruct (value (io_map f l)) as [r|e] eqn:E2; cbn [bind] in H; [|discriminate].
      rewrite value_ret in H. injection H as <-. constructor; [exact E|].
      apply IH. reflexivity.
    + inversion H as [|? y ? r E E2]; subst. rewrite E. cbn [bind]. rewrite value_bind.
      apply IH in E2. rewrite E2. reflexivity.
Qed.

Lemma Forall2_perm {B C} (R : B -> C -> Prop) l l' :
  Permutation l l' -> forall r, Forall2 R l r -> exists r', Forall2 R l' r' /\ Permutation r r'.
Proof.
  induction 1 as [|x l l' H IH|x y l|l1 l2 l3 H1 IH1 H2 IH2]; intros r Hr.
  - inversion Hr. exists []. split; constructor.
  - inversion Hr as [|? b ? r0 E E2]; subst. destruct (IH r0 E2) as (r' & H1 & H2).
    exists (b :: r'). split; constructor; assumption.
  - inversion Hr as [|? b ? r0 E E2]; subst. inversion E2 as [|? b' ? r1 E3 E4]; subst.
    exists (b' :: b :: r1). split; [repeat constructor; assumption|]. apply perm_swap.
  - destruct (IH1 r Hr) as (r1 & F1 & P1). destruct (IH2 r1 F1) as (r2 & F2 & P2).
    exists r2. split; [exact F2|]. eapply perm_trans; eassumption.
Qed.

Lemma Forall2_length {B C} (R : B -> C -> Prop) l r : Forall2 R l r -> length l = length r.
Proof. induction 1; cbn [length]; congruence. Qed.

Section Sort.
  Context {A : Type} {NA : Num A}.
  Definition before (p q : nat * A) : Prop := (fst p < fst q)%nat.

  Lemma insert_perm p (l : list (nat * A)) : Permutation (p :: l) (insert_pair p l).
  Proof.
    induction l as [|q l IH]; cbn [insert_pair]; [reflexivity|].
    destruct (pair_leb p q); [reflexivity|].
    eapply perm_trans; [apply perm_swap|]. constructor. exact IH.
  Qed.
  Lemma sort_perm (l : list (nat * A)) : Permutation l (sort_pairs l).
  Proof.
    induction l as [|p l IH]; cbn [sort_pairs fold_right]; [reflexivity|].
    eapply perm_trans; [constructor; exact IH|apply insert_perm].
  Qed.
  Lemma insert_sorted p (l : list (nat * A)) :
    ~ In (fst p) (map fst l) -> StronglySorted before l -> StronglySorted before (insert_pair p l).
  Proof.
    intros Hn Hs. induction Hs as [|q l Hs IH Hq]; cbn [insert_pair].
    - constructor; constructor.
    - assert (Hnq : fst p <> fst q) by (intros E; apply Hn; left; symmetry; exact E).
      unfold pair_leb. destruct (Nat.eqb_spec (fst p) (fst q)) as [E|E]; [contradiction|].
      destruct (Nat.ltb_spec (fst p) (fst q)) as [H|H].
      + constructor.
        * constructor; assumption.
        * constructor; [exact H|]. rewrite Forall_forall in *. intros z Hz.
          specialize (Hq z Hz). unfold before in *. lia.
      + constructor.
        * apply IH. intros Hin. apply Hn. right. exact Hin.
        * assert (HP := insert_perm p l).
          rewrite Forall_forall in *. intros z Hz.
          apply (Permutation_in z (Permutation_sym HP)) in Hz.
          destruct Hz as [<-|Hz]; [unfold before; lia|apply Hq; exact Hz].
  Qed.
  Lemma sort_sorted (l : list (nat * A)) :
    NoDup (map fst l) -> StronglySorted before (sort_pairs l).
  Proof.
    induction l as [|p l IH]; intros H; cbn [sort_pairs fold_right]; [constructor|].
    inversion H; subst. apply insert_sorted; [|apply IH; assumption].
    intros Hin. apply (Permutation_in _ (Permutation_sym (Permutation_map fst (sort_perm l)))) in Hin.
    contradiction.
  Qed.
  Lemma sorted_unique (l l' : list (nat * A)) :
    StronglySorted before l -> StronglySorted before l' -> Permutation l l' -> l = l'.
  Proof.
    intros Hs. revert l'. induction Hs as [|p l Hs IH Hp]; intros l' Hs' HP.
    - apply Permutation_nil in HP. congruence.
    - destruct l' as [|q l']; [apply Permutation_sym, Permutation_nil in HP; discriminate|].
      inversion Hs' as [|? ? Hs2 Hq]; subst.
      assert (E : p = q).
      { assert (H1 : In p (q :: l')) by (apply (Permutation_in _ HP); left; reflexivity).
        assert (H2 : In q (p :: l)) by (apply (Permutation_in _ (Permutation_sym HP)); left; reflexivity).
        destruct H1 as [H1|H1]; [congruence|]. destruct H2 as [H2|H2]; [congruence|].
        rewrite Forall_forall in Hp, Hq. specialize (Hp q H2). specialize (Hq p H1).
        unfold before in *. lia. }
      subst q. f_equal. apply IH; [assumption|]. apply Permutation_cons_inv in HP. exact HP.
  Qed.
  Lemma sort_perm_eq (l l' : list (nat * A)) :
    NoDup (map fst l) -> Permutation l l' -> sort_pairs l = sort_pairs l'.
  Proof.
    intros Hn HP. apply sorted_unique.
    - apply sort_sorted. exact Hn.
    - apply sort_sorted. apply (Permutation_NoDup (Permutation_map fst HP)). exact Hn.
    - eapply perm_trans; [apply Permutation_sym, sort_perm|].
      eapply perm_trans; [exact HP|apply sort_perm].
  Qed.
  Lemma sort_id (l : list (nat * A)) : StronglySorted before l -> sort_pairs l = l.
  Proof.
    intros H. apply sorted_unique; [|exact H|apply Permutation_sym, sort_perm].
    apply sort_sorted. clear NA. induction H as [|p l Hs IH Hp]; cbn [map]; constructor; [|exact IH].
    intros Hin. apply in_map_iff in Hin. destruct Hin as (q & E & Hq).
    rewrite Forall_forall in Hp. specialize (Hp q Hq). unfold before in Hp. lia.
  Qed.
End Sort.

Section AnyNum.
  Context {A G X : Type} {NA : Num A} (L : cantera A G X).

  Lemma over_ratio_index x T P mech tT tV job r :
    value (over_ratio L x T P mech tT tV job) = Ok r -> fst r = fst job.
  Proof.
    intros H. unfold over_ratio in H.
    apply value_bind_ok in H. destruct H as (i & _ & H & _).
    apply value_bind_ok in H. destruct H as (w & _ & H & _).
    apply value_bind_ok in H. destruct H as ((g & v) & _ & H & _).
    rewrite value_ret in H. injection H as <-. reflexivity.
  Qed.

  Lemma jobs_fst n (l : list A) : length l = n -> map fst (combine (seq 0 n) l) = seq 0 n.
  Proof.
    intros <-. generalize 0%nat. induction l as [|a l IH]; intros k; [reflexivity|].
    cbn [length seq combine map fst]. rewrite IH. reflexivity.
  Qed.

  Lemma results_fst x T P mech tT tV jobs res :
    Forall2 (fun j r => value (over_ratio L x T P mech tT tV j) = Ok r) jobs res ->
    map fst res = map fst jobs.
  Proof.
    induction 1 as [|j r jobs res H H2 IH]; [reflexivity|].
    cbn [map]. rewrite (over_ratio_index _ _ _ _ _ _ _ _ H), IH. reflexivity.
  Qed.

  Lemma seq_sorted (res : list (nat * A)) k n :
    map fst res = seq k n -> StronglySorted before res.
  Proof.
    revert k n. induction res as [|p res IH]; intros k n H; [constructor|].
    destruct n as [|n]; [discriminate|]. cbn [seq map] in H. injection H as H1 H2.
    constructor; [eapply IH; exact H2|].
    rewrite Forall_forall. intros q Hq.
    assert (Hin : In (fst q) (seq (S k) n)) by (rewrite <- H2; apply in_map; exact Hq).
    apply in_seq in Hin. unfold before. lia.
  Qed.

  (** a round's sorted results do not depend on the pool *)
  Lemma run_jobs_workers x T P mech tT tV s k jobs res :
    reorders s -> NoDup (map fst jobs) ->
    value (run_jobs (Workers s) k (over_ratio L x T P mech tT tV) jobs) = Ok res ->
    exists res', value (run_jobs Serial k (over_ratio L x T P mech tT tV) jobs) = Ok res'
      /\ sort_pairs res = sort_pairs res'.
  Proof.
    intros Hs Hn H. cbn [run_jobs] in *. apply io_map_inv in H.
    destruct (Forall2_perm _ _ _ (Hs k jobs) _ H) as (res' & H' & HP).
    exists res'. split; [apply io_map_inv; exact H'|].
    apply sort_perm_eq; [|exact HP].
    rewrite (results_fst _ _ _ _ _ _ _ _ H).
    apply (Permutation_NoDup (Permutation_sym (Permutation_map fst (Hs k jobs)))). exact Hn.
  Qed.
  Lemma run_jobs_serial x T P mech tT tV s k jobs res :
    reorders s -> NoDup (map fst jobs) ->
    value (run_jobs Serial k (over_ratio L x T P mech tT tV) jobs) = Ok res ->
    exists res', value (run_jobs (Workers s) k (over_ratio L x T P mech tT tV) jobs) = Ok res'
      /\ sort_pairs res = sort_pairs res'.
  Proof.
    intros Hs Hn H. cbn [run_jobs] in *. apply io_map_inv in H.
    destruct (Forall2_perm _ _ _ (Permutation_sym (Hs k jobs)) _ H) as (res' & H' & HP).
    exists res'. split; [apply io_map_inv; exact H'|].
    apply sort_perm_eq; [|exact HP].
    rewrite (results_fst _ _ _ _ _ _ _ _ H). exact Hn.
  Qed.

  Lemma linspace_length (lo hi : A) : length (linspace21 lo hi) = 21%nat.
  Proof. reflexivity. Qed.
  Lemma jobs_nodup (ratios : list A) :
    NoDup (map fst (combine (seq 0 (length ratios)) ratios)).
  Proof. rewrite jobs_fst by reflexivity. apply seq_NoDup. Qed.

  Lemma speed_loop_workers fuel s : reorders s ->
    forall x T P mech tT tV k r2 dr lo hi acc out,
    value (speed_loop L fuel (Workers s) x T P mech tT tV k r2 dr lo hi acc) = Ok out
    <-> value (speed_loop L fuel Serial x T P mech tT tV k r2 dr lo hi acc) = Ok out.
  Proof.
    intros Hs. induction fuel as [|fuel IH]; intros; cbn [speed_loop];
      destruct (Nat.leb k 4 && (r2_lt r2 _ || nltb dr _))%bool; try reflexivity.
    rewrite !value_bind. set (jobs := combine _ _).
    assert (Hn : NoDup (map fst jobs)) by apply jobs_nodup.
    split; intros H.
    - destruct (value (run_jobs (Workers s) k _ jobs)) as [res|e] eqn:E; cbn [bind] in H; [|discriminate].
      destruct (run_jobs_workers _ _ _ _ _ _ _ _ _ _ Hs Hn E) as (res' & -> & Esort).
      cbn [bind]. rewrite <- Esort. rewrite value_bind in *.
      destruct (value (pure (cj_curve_fit _ _))) as [f|]; cbn [bind] in *; [|discriminate].
      rewrite value_bind in *.
      destruct (value (pure (npdiv _ _))) as [v|]; cbn [bind] in *; [|discriminate].
      apply IH. exact H.
    - destruct (value (run_jobs Serial k _ jobs)) as [res|e] eqn:E; cbn [bind] in H; [|discriminate].
      destruct (run_jobs_serial _ _ _ _ _ _ s _ _ _ Hs Hn E) as (res' & -> & Esort).
      cbn [bind]. rewrite <- Esort. rewrite value_bind in *.
      destruct (value (pure (cj_curve_fit _ _))) as [f|]; cbn [bind] in *; [|discriminate].
      rewrite value_bind in *.
      destruct (value (pure (npdiv _ _))) as [v|]; cbn [bind] in *; [|discriminate].
      apply IH. exact H.
  Qed.

  Lemma value_pool {B} (p : pool A) e (k : unit -> io A B) :
    value (io_bind (pool_step p e) k) = value (k tt).
  Proof. destruct p; reflexivity. Qed.
  Lemma trace_pool {B} (p : pool A) e (k : unit -> io A B) :
    trace (io_bind (pool_step p e) k) = trace (pool_step p e) ++ trace (k tt).
  Proof. destruct p; reflexivity. Qed.
  Lemma cj_speed_workers s P T x mech rr rs d : reorders s ->
    value (cj_speed L P T x mech (Workers s) rr rs) = Ok d
    <-> value (cj_speed L P T x mech Serial rr rs) = Ok d.
  Proof.
    intros Hs. unfold cj_speed, cj_speed_rounds. rewrite !value_bind.
    change (value (pool_step (Workers s) EvPoolOpen)) with (Ok tt).
    change (value (pool_step Serial EvPoolOpen)) with (Ok tt).
    cbn [bind].
    split; intros H.
    - destruct (value (speed_loop L 4 (Workers s) _ _ _ _ _ _ _ _ _ _ _ _)) as [out|e] eqn:E;
        cbn [bind] in H; [|discriminate]. rewrite value_pool in H.
      apply (speed_loop_workers 4 s Hs) in E. rewrite E. cbn [bind]. rewrite value_pool. exact H.
    - destruct (value (speed_loop L 4 Serial _ _ _ _ _ _ _ _ _ _ _ _)) as [out|e] eqn:E;
        cbn [bind] in H; [|discriminate]. rewrite value_pool in H.
      apply (speed_loop_workers 4 s Hs) in E. rewrite E. cbn [bind]. rewrite value_pool. exact H.
  Qed.

  (** C62 *)
  Lemma cj_speed_keys P T x mech p rr rs d :
    value (cj_speed L P T x mech p rr rs) = Ok d ->
    map fst d = ("cj speed" :: (if rr then ["R^2"] else []) ++ (if rs then ["cj state"] else []))%string.
  Proof.
    unfold cj_speed, cj_speed_rounds. intros H.
    apply value_bind_ok in H. destruct H as ((done & d') & H & H' & _).
    rewrite value_ret in H'. injection H' as ->. rewrite value_pool in H.
    apply value_bind_ok in H. destruct H as (done' & _ & H & _). rewrite value_pool in H.
    destruct (last_round done') as [[[[a b] c] v] r2].
    destruct rs.
    - do 5 (apply value_bind_ok in H; destruct H as (? & _ & H & _)).
      match type of H with context [let (_, _) := ?p in _] => destruct p end.
      destruct rr; rewrite value_ret in H; injection H as _ <-; reflexivity.
    - destruct rr; rewrite value_ret in H; injection H as _ <-; reflexivity.
  Qed.
End AnyNum.

(** ** Real arithmetic *)
Local Open Scope R_scope.

Lemma linspace_even lo hi : evenly_spaced lo hi (linspace21 lo hi).
Proof.
  split; [reflexivity|]. intros i Hi. unfold linspace21. rnum.
  assert (E20 : Q2R 20 = 20) by (unfold Q2R; simpl; lra). rewrite E20.
  destruct (Nat.eq_dec i 20) as [->|Hne].
  - rewrite app_nth2 by (rewrite map_length, seq_length; lia).
    rewrite map_length, seq_length. cbn [Nat.sub nth].
    replace (INR 20) with 20 by (simpl; ring). field.
  - rewrite app_nth1 by (rewrite map_length, seq_length; lia).
    rewrite (nth_indep _ 0 ((fun i => n_of_nat i * ((hi - lo) / 20) + lo) 0%nat))
      by (rewrite map_length, seq_length; lia).
    rewrite (map_nth (fun i => n_of_nat i * ((hi - lo) / 20) + lo)).
    rewrite seq_nth by lia. rewrite n_of_nat_R. cbn [Nat.add]. field.
Qed.

Lemma map_fst_combine {B C} (l : list B) : forall (r : list C),
  length l = length r -> map fst (combine l r) = l.
Proof. induction l; intros [|b r] H; try discriminate; [reflexivity|]. cbn. rewrite IHl; auto. Qed.
Lemma map_snd_combine {B C} (l : list B) : forall (r : list C),
  length l = length r -> map snd (combine l r) = r.
Proof. induction l; intros [|b r] H; try discriminate; [reflexivity|]. cbn. rewrite IHl; auto. Qed.

Section RealSpeed.
  Context {G X : Type} (L : cantera R G X) (P T : R) (x : X) (mech : string).

  Lemma over_ratio_inv job r :
    value (over_ratio L x T P mech (1/10000) (1/10000) job) = Ok r ->
    fst r = fst job /\ cj_velocity L P T x mech (snd job) (snd r).
  Proof.
    intros H. split; [exact (over_ratio_index L _ _ _ _ _ _ _ _ H)|].
    unfold over_ratio, fresh_gas in H.
    apply value_bind_ok in H. destruct H as (i & Hi & H & _).
    apply value_bind_ok in H. destruct H as (w & Hw & H & _).
    apply value_bind_ok in H. destruct H as ((g & v) & Hc & H & _).
    rewrite value_ret in H. injection H as <-. cbn [snd].
    exists g, i, w. repeat split; try exact Hc.
    - apply value_bind_ok in Hi. destruct Hi as (g0 & H0 & H1 & _). exists g0. split; assumption.
    - apply value_bind_ok in Hw. destruct Hw as (g0 & H0 & H1 & _). exists g0. split; assumption.
  Qed.
  Lemma over_ratio_ok job U :
    cj_velocity L P T x mech (snd job) U ->
    value (over_ratio L x T P mech (1/10000) (1/10000) job) = Ok (fst job, U).
  Proof.
    intros (g & i & w & (i0 & Hi0 & Hi) & (w0 & Hw0 & Hw) & Hc).
    assert (Ei : value (fresh_gas L mech T P x) = Ok i).
    { unfold fresh_gas. rewrite value_bind.
      change (value (new_solution L mech "")) with (ct_new L mech ""). rewrite Hi0. exact Hi. }
    assert (Ew : value (fresh_gas L mech T P x) = Ok w).
    { unfold fresh_gas. rewrite value_bind.
      change (value (new_solution L mech "")) with (ct_new L mech ""). rewrite Hw0. exact Hw. }
    unfold over_ratio. rewrite value_bind, Ei. cbn [bind].
    rewrite value_bind, Ew. cbn [bind].
    rewrite value_bind, Hc. reflexivity.
  Qed.

  (** results of one serial round *)
  Lemma serial_round (rs : list R) k res :
    value (run_jobs Serial k (over_ratio L x T P mech (1/10000) (1/10000))
                    (combine (seq 0 (length rs)) rs)) = Ok res ->
    length (map snd (sort_pairs res)) = length rs
    /\ Forall2 (cj_velocity L P T x mech) rs (map snd (sort_pairs res)).
  Proof.
    intros H. cbn [run_jobs] in H. apply io_map_inv in H.
    pose proof (results_fst L _ _ _ _ _ _ _ _ H) as Hf.
    rewrite jobs_fst in Hf by reflexivity.
    rewrite (sort_id res) by (eapply seq_sorted; exact Hf).
    assert (HF : Forall2 (cj_velocity L P T x mech) rs (map snd res)).
    { clear Hf. revert H. generalize 0%nat. revert res.
      induction rs as [|r rs IH]; intros res n H; cbn [length seq combine] in H.
      - inversion H. constructor.
      - inversion H as [|? b ? res' E E2]; subst. cbn [map]. constructor.
        + apply over_ratio_inv in E. exact (proj2 E).
        + eapply IH. exact E2. }
    split; [|exact HF]. symmetry. exact (Forall2_length _ _ _ HF).
  Qed.

  Lemma serial_round_ok (rs us : list R) k :
    Forall2 (cj_velocity L P T x mech) rs us ->
    exists res, value (run_jobs Serial k (over_ratio L x T P mech (1/10000) (1/10000))
                    (combine (seq 0 (length rs)) rs)) = Ok res
      /\ map snd (sort_pairs res) = us.
  Proof.
    intros H. exists (combine (seq 0 (length rs)) us). split.
    - cbn [run_jobs]. apply io_map_inv. generalize 0%nat.
      induction H as [|r u rs us E H IH]; intros n; cbn [length seq combine]; constructor.
      + apply (over_ratio_ok (n, r)). exact E.
      + apply IH.
    - pose proof (Forall2_length _ _ _ H) as Hl.
      rewrite sort_id.
      + apply map_snd_combine. rewrite seq_length. exact Hl.
      + eapply seq_sorted. apply jobs_fst. symmetry. exact Hl.
  Qed.

  Lemma fit_best (rs us : list R) f :
    length us = length rs -> cj_curve_fit rs us = Ok f ->
    best_parabola (combine rs us) (fit_a f) (fit_b f) (fit_c f).
  Proof.
    intros Hl H.
    rewrite <- (map_fst_combine rs us) in H at 1 by (symmetry; exact Hl).
    rewrite <- (map_snd_combine rs us) in H at 2 by (symmetry; exact Hl).
    destruct (fit_inv _ f H) as (Hn & Hd & Ht & ->). cbn [fit_a fit_b fit_c].
    intros a' b' c'. split; [apply fit_optimal; assumption|].
    apply fit_unique; assumption.
  Qed.

  Definition as_round (r : round R) : fit_round :=
    let '(rs, us, f, v) := r in mkRound rs us (fit_a f) (fit_b f) (fit_c f).

  Lemma loop_condition k r2 :
    (Nat.leb k 4 && (r2_lt r2 (Q2R 0.99999) || Rltb zero (Q2R 0.0000001)))%bool = Nat.leb k 4.
  Proof.
    assert (E : Rltb zero (Q2R 0.0000001) = true).
    { apply QLemmas.Rltb_true. rewrite zero_R. unfold Q2R; simpl; lra. }
    rewrite E, orb_true_r, andb_true_r. reflexivity.
  Qed.

  Lemma lit_999 : one - Q2R 0.001 = 999/1000.
  Proof. rewrite one_R. unfold Q2R; simpl; lra. Qed.
  Lemma lit_1001 : one + Q2R 0.001 = 1001/1000.
  Proof. rewrite one_R. unfold Q2R; simpl; lra. Qed.
  Lemma lit_2 : Q2R 2 = 2.
  Proof. unfold Q2R; simpl; lra. Qed.

  Lemma speed_loop_spec fuel : forall k r2 lo hi acc out,
    (fuel + k = 5)%nat ->
    value (speed_loop L fuel Serial x T P mech (1/10000) (1/10000) k r2 zero lo hi acc)
    = Ok out ->
    exists rs, out = (acc ++ rs)%list /\ length rs = fuel
      /\ refining L P T x mech lo hi (map as_round rs)
      /\ forall r, In r rs -> snd r = vertex (as_round r).
  Proof.
    induction fuel as [|fuel IH]; intros * Hk H; cbn [speed_loop] in H; rnum;
      rewrite loop_condition in H.
    - destruct (Nat.leb_spec k 4) as [Hc|Hc]; [lia|].
      rewrite value_ret in H. injection H as <-. exists []. rewrite app_nil_r.
      repeat split. intros r [].
    - destruct (Nat.leb_spec k 4) as [Hc|Hc]; [|lia].
      apply value_bind_ok in H. destruct H as (res & Hres & H & _).
      apply serial_round in Hres. destruct Hres as (Hl & HF).
      apply value_bind_ok in H. destruct H as (f & Hf & H & _). rewrite value_pure in Hf.
      apply value_bind_ok in H. destruct H as (v & Hv & H & _). rewrite value_pure in Hv.
      apply (div_inv npdiv) in Hv; [|right; reflexivity]. rewrite lit_2 in Hv.
      destruct Hv as (Ha & Ev).
      rewrite lit_999, lit_1001 in H.
      apply IH in H; [|lia]. destruct H as (rs & -> & Hlen & Href & Hin).
      set (r0 := (linspace21 lo hi, map snd (sort_pairs res), f, v) : round R).
      exists (r0 :: rs). rewrite <- app_assoc. split; [reflexivity|].
      split; [cbn [length]; lia|]. split.
      + cbn [map refining]. split.
        * unfold r0, round_over, as_round. cbn [ratios speeds ra rb rc].
          split; [apply linspace_even|]. split; [exact HF|]. split.
          -- apply fit_best; assumption.
          -- intros E. apply Ha. rewrite E. ring.
        * unfold vertex, r0, as_round. cbn [rb ra]. rewrite <- Ev. exact Href.
      + intros r [<-|Hr]; [unfold r0, vertex; cbn [snd as_round rb ra]; exact Ev|].
        apply Hin. exact Hr.
  Qed.

  (** ** Number of gas objects *)
  Lemma created_app {A} (t1 t2 : list (event A)) :
    gases_created (t1 ++ t2) = (gases_created t1 + gases_created t2)%nat.
  Proof. unfold gases_created. rewrite filter_app, app_length. reflexivity. Qed.
  Lemma created_none {B} (r : io R B) :
    all_events (fun e => match e with EvNew _ _ => False | _ => True end) r ->
    gases_created (trace r) = 0%nat.
  Proof.
    unfold all_events, gases_created. induction 1 as [|e t He Ht IH]; [reflexivity|].
    cbn [filter]. destruct e; try contradiction; exact IH.
  Qed.
  Lemma cj_state_creates_none fuel w i r mx :
    gases_created (trace (cj_state L fuel npdiv w i (1/10000) (1/10000) r mx)) = 0%nat.
  Proof. apply created_none. apply cj_state_all; try exact I; try (intros; exact I). right; reflexivity. Qed.

  Lemma fresh_gas_creates g :
    value (fresh_gas L mech T P x) = Ok g -> gases_created (trace (fresh_gas L mech T P x)) = 1%nat.
  Proof.
    intros H. unfold fresh_gas in *. apply value_bind_ok in H. destruct H as (g0 & _ & _ & ->).
    reflexivity.
  Qed.
  Lemma over_ratio_creates job r :
    value (over_ratio L x T P mech (1/10000) (1/10000) job) = Ok r ->
    gases_created (trace (over_ratio L x T P mech (1/10000) (1/10000) job)) = 2%nat.
  Proof.
    intros H. unfold over_ratio in *.
    apply value_bind_ok in H. destruct H as (i & Hi & H & ->). rewrite created_app.
    rewrite (fresh_gas_creates i Hi).
    apply value_bind_ok in H. destruct H as (w & Hw & H & ->). rewrite created_app.
    rewrite (fresh_gas_creates w Hw).
    apply value_bind_ok in H. destruct H as ((g & v) & Hc & H & ->). rewrite created_app.
    rewrite cj_state_creates_none. reflexivity.
  Qed.
  Lemma io_map_creates {B C} (f : B -> io R C) n :
    (forall b c, value (f b) = Ok c -> gases_created (trace (f b)) = n) ->
    forall l ys, value (io_map f l) = Ok ys ->
      gases_created (trace (io_map f l)) = (n * length l)%nat.
  Proof.
    intros Hn. induction l as [|b l IH]; intros ys H; cbn [io_map] in *.
    - cbn. lia.
    - apply value_bind_ok in H. destruct H as (y & Hy & H & ->). rewrite created_app.
      rewrite (Hn b y Hy).
      apply value_bind_ok in H. destruct H as (r & Hr & H & ->). rewrite created_app.
      rewrite (IH r Hr). cbn. lia.
  Qed.

  Lemma speed_loop_creates fuel p : forall k r2 lo hi acc out,
    (p = Serial \/ exists s, p = Workers s /\ reorders s) ->
    (fuel + k = 5)%nat ->
    value (speed_loop L fuel p x T P mech (1/10000) (1/10000) k r2 zero lo hi acc)
    = Ok out ->
    gases_created (trace (speed_loop L fuel p x T P mech (1/10000) (1/10000) k r2 zero lo hi acc))
    = (42 * fuel)%nat.
  Proof.
    induction fuel as [|fuel IH]; intros * Hp Hk H; cbn [speed_loop] in *; rnum;
      rewrite loop_condition in *.
    - destruct (Nat.leb_spec k 4) as [Hc|Hc]; [lia|]. reflexivity.
    - destruct (Nat.leb_spec k 4) as [Hc|Hc]; [|lia].
      apply value_bind_ok in H. destruct H as (res & Hres & H & ->). rewrite created_app.
      apply value_bind_ok in H. destruct H as (f & Hf & H & ->). rewrite created_app.
      apply value_bind_ok in H. destruct H as (v & Hv & H & ->). rewrite created_app.
      assert (Hk' : (fuel + (k + 1) = 5)%nat) by lia.
      rewrite (IH _ _ _ _ _ _ Hp Hk' H).
      assert (E : gases_created (trace (run_jobs p k
                   (over_ratio L x T P mech (1/10000) (1/10000))
                   (combine (seq 0 (length (linspace21 lo hi))) (linspace21 lo hi)))) = 42%nat).
      { destruct Hp as [->|(s & -> & Hs)]; cbn [run_jobs] in *.
        - rewrite (io_map_creates _ 2 over_ratio_creates _ _ Hres). reflexivity.
        - rewrite (io_map_creates _ 2 over_ratio_creates _ _ Hres).
          rewrite (Permutation_length (Hs k _)). reflexivity. }
      rewrite E. cbn [trace pure fst gases_created filter length]. lia.
  Qed.

  (** the loop on exact parabolas *)
  Lemma linspace_in lo hi r : lo <= hi -> In r (linspace21 lo hi) -> lo <= r <= hi.
  Proof.
    intros Hle Hin. destruct (In_nth _ _ 0 Hin) as (i & Hi & <-).
    rewrite linspace_length in Hi. destruct (linspace_even lo hi) as (_ & He).
    rewrite He by lia.
    assert (H0 : 0 <= INR i) by apply pos_INR.
    assert (H1 : INR i <= 20) by (replace 20 with (INR 20) by (simpl; ring); apply le_INR; lia).
    assert (0 <= INR i * (hi - lo)) by (apply Rmult_le_pos; lra).
    assert (INR i * (hi - lo) <= 20 * (hi - lo)) by (apply Rmult_le_compat_r; lra).
    split; lra.
  Qed.
  Lemma linspace_nth_in lo hi i : (i <= 20)%nat -> In (lo + INR i * (hi - lo) / 20) (linspace21 lo hi).
  Proof.
    intros Hi. destruct (linspace_even lo hi) as (Hl & He). rewrite <- He by exact Hi.
    apply nth_In. lia.
  Qed.
  Lemma linspace_three lo hi : lo < hi -> three_distinct (linspace21 lo hi).
  Proof.
    intros H. exists (lo + INR 0 * (hi - lo) / 20), (lo + INR 1 * (hi - lo) / 20),
      (lo + INR 2 * (hi - lo) / 20).
    split; [apply linspace_nth_in; lia|]. split; [apply linspace_nth_in; lia|].
    split; [apply linspace_nth_in; lia|]. simpl. repeat split; lra.
  Qed.

  Lemma Forall2_map {B C} (R0 : B -> C -> Prop) f l :
    (forall b, In b l -> R0 b (f b)) -> Forall2 R0 l (map f l).
  Proof.
    induction l as [|b l IH]; intros H; cbn [map]; constructor.
    - apply H. left. reflexivity.
    - apply IH. intros b' Hb. apply H. right. exact Hb.
  Qed.

  Lemma fit_on_parabola xs a b c :
    (forall x, In x xs -> 0 <= x) -> three_distinct xs -> a <> 0 ->
    exists f, cj_curve_fit xs (map (parabola a b c) xs) = Ok f
      /\ fit_a f = a /\ fit_b f = b /\ fit_c f = c /\ fit_r2 f = Ok 1.
  Proof.
    intros Hnn (x1 & x2 & x3 & H1 & H2 & H3 & N1 & N2 & N3) Ha.
    set (pts := map (fun x => (x, parabola a b c x)) xs).
    assert (E1 : map fst pts = xs) by (unfold pts; rewrite map_map; apply map_id).
    assert (E2 : map snd pts = map (parabola a b c) xs)
      by (unfold pts; rewrite map_map; reflexivity).
    assert (Hon : forall p, In p pts -> snd p = parabola a b c (fst p)).
    { intros p Hp. unfold pts in Hp. apply in_map_iff in Hp. destruct Hp as (z & <- & _). reflexivity. }
    assert (Hin : forall z, In z xs -> In (z, parabola a b c z) pts).
    { intros z Hz. unfold pts. apply in_map_iff. exists z. auto. }
    destruct (fit_defined pts _ _ _ ltac:(intros p Hp; apply Hnn; rewrite <- E1; apply in_map; exact Hp)
                (Hin _ H1) (Hin _ H2) (Hin _ H3) N1 N2 N3) as (Hn & Hd & Ht).
    exists (mkFit (a_of pts) (b_of pts) (c_of pts) (r2_of pts)).
    rewrite <- E1 at 1. rewrite <- E2.
    split; [apply fit_ok; assumption|]. cbn [fit_a fit_b fit_c fit_r2].
    destruct (fit_exact pts a b c Hn Hd Ht Hon) as (Ea & Eb & Ec).
    split; [exact Ea|]. split; [exact Eb|]. split; [exact Ec|].
    assert (Hne : exists p q, In p pts /\ In q pts /\ snd p <> snd q).
    { destruct (Req_EM_T (parabola a b c x1) (parabola a b c x2)) as [E|E].
      - destruct (Req_EM_T (parabola a b c x1) (parabola a b c x3)) as [E'|E'].
        + exfalso. unfold parabola in E, E'.
          assert (K1 : (x1 - x2) * (a * (x1 + x2) + b) = 0) by lra.
          assert (K2 : (x1 - x3) * (a * (x1 + x3) + b) = 0) by lra.
          apply Rmult_integral in K1. apply Rmult_integral in K2.
          destruct K1 as [K1|K1]; [lra|]. destruct K2 as [K2|K2]; [lra|].
          assert (K3 : a * (x2 - x3) = 0) by lra.
          apply Rmult_integral in K3. lra.
        + exists (x1, parabola a b c x1), (x3, parabola a b c x3). auto.
      - exists (x1, parabola a b c x1), (x2, parabola a b c x2). auto. }
    destruct (r2_of_spec pts Hne) as (Er & Hpos). rewrite Er, Ea, Eb, Ec.
    assert (Ez : squared_residuals pts a b c = 0).
    { unfold squared_residuals. rewrite (total_ext _ (fun _ => 0)).
      - rewrite total_const. ring.
      - intros p Hp. rewrite (Hon p Hp). ring. }
    rewrite Ez. f_equal. field. lra.
  Qed.

  Lemma speed_loop_parabola a b c fuel : a <> 0 -> 0 < - b / (2 * a) ->
    (forall r, 3/2 <= r <= 2 -> cj_velocity L P T x mech r (parabola a b c r)) ->
    (forall r, - b / (2 * a) * (999/1000) <= r <= - b / (2 * a) * (1001/1000) ->
       cj_velocity L P T x mech r (parabola a b c r)) ->
    forall k r2 lo hi acc,
    (fuel + k = 5)%nat ->
    0 <= lo < hi ->
    (forall r, lo <= r <= hi -> cj_velocity L P T x mech r (parabola a b c r)) ->
    exists rs, length rs = fuel
      /\ value (speed_loop L fuel Serial x T P mech (1/10000) (1/10000) k r2 zero lo hi acc)
         = Ok (acc ++ rs)%list
      /\ forall r, In r rs -> fit_a (snd (fst r)) = a /\ fit_b (snd (fst r)) = b
           /\ fit_c (snd (fst r)) = c /\ fit_r2 (snd (fst r)) = Ok 1 /\ snd r = - b / (2 * a).
  Proof.
    intros Ha Hv H1 H2. induction fuel as [|fuel IH]; intros * Hk Hlo Hr; cbn [speed_loop]; rnum;
      rewrite loop_condition.
    - destruct (Nat.leb_spec k 4) as [Hc|Hc]; [lia|]. exists []. rewrite app_nil_r.
      repeat split; destruct H.
    - destruct (Nat.leb_spec k 4) as [Hc|Hc]; [|lia].
      set (xs := linspace21 lo hi).
      assert (HF : Forall2 (cj_velocity L P T x mech) xs (map (parabola a b c) xs)).
      { apply Forall2_map. intros r Hin. apply Hr. apply linspace_in; [lra|exact Hin]. }
      destruct (serial_round_ok xs _ k HF) as (res & Hres & Es).
      rewrite value_bind, Hres. cbn [bind]. rewrite Es.
      destruct (fit_on_parabola xs a b c) as (f & Hf & Ea & Eb & Ec & Er).
      { intros z Hz. apply linspace_in in Hz; lra. }
      { apply linspace_three. lra. }
      { exact Ha. }
      rewrite Hf, bind_pure_ok, Ea, Eb, lit_2, npdiv_ok by lra. rewrite bind_pure_ok.
      rewrite lit_999, lit_1001.
      destruct (IH (k + 1)%nat (fit_r2 f) (- b / (2 * a) * (999/1000))
                   (- b / (2 * a) * (1001/1000))
                   (acc ++ [(xs, map (parabola a b c) xs, f, - b / (2 * a))])%list)
        as (rs & Hlen & Hval & Hin).
      { lia. } { lra. } { exact H2. }
      exists ((xs, map (parabola a b c) xs, f, - b / (2 * a)) :: rs).
      split; [cbn [length]; lia|]. split.
      + rewrite <- app_assoc in Hval. exact Hval.
      + intros r [<-|Hin']; [cbn [fst snd]; auto|apply Hin; exact Hin'].
  Qed.
End RealSpeed.
