(** * VectorTubeP: array calls of class Tube and class DDT against the scalar calls. *)
From Coq Require Import String List Bool Arith Lia QArith.
From Verif Require Import PyBase Pint UnitsM Csv Tables Interp TubeM DdtM WindowM BoltM VectorM
  VectorSpec VectorP VectorTubeM VectorTubeSpec.
Import ListNotations.
Local Open Scope string_scope.
Local Open Scope nat_scope.

Section Sim.
  Context {A : Type} {NA : Num A}.
  Context (n : nat) (Hn : 0 < n).
  Notation rrel := (rrel n). Notation vrel := (vrel n). Notation mrel := (mrel n).

  Ltac units := repeat match goal with
    | H : VectorP.vrel n ?v ?f, Hi : ?i < n |- context [q_unit (?f ?i)] =>
        rewrite (unit_of_rel n v f i H Hi)
    | H : VectorP.vrel n ?v ?f, Hi : ?i < n |- context [q_reg (?f ?i)] =>
        rewrite (reg_of_rel n v f i H Hi)
    end.
  Ltac guards :=
    repeat (apply (unit_step n Hn);
      [intros i Hi; unfold same_reg, v_same_reg, offset_free, v_offset_free; units; reflexivity|]).

  Lemma v_add_rel p q f h :
    vrel p f -> vrel q h -> rrel vrel (v_add p q) (fun i => q_add (f i) (h i)).
  Proof.
    intros Hp Hq. unfold v_add, q_add, q_addsub. guards.
    apply (rrel_ext n vrel _ (fun i => let* q' := q_to (h i) (v_unit p) in
             Ok (mkQ (nadd (q_mag (f i)) (q_mag q')) (v_unit p) (v_reg p)))).
    { intros i Hi. units. reflexivity. }
    apply (rrel_bind n vrel vrel); [apply (v_to_rel n Hn), Hq|].
    intros q' h' Hq'. eapply (wrap_step n);
      [apply (lift2_rel n Hn); [apply (mag_of_rel n), Hp|apply (mag_of_rel n), Hq']|].
    intros i Hi. reflexivity.
  Qed.
  Lemma v_to_str_rel q h s : vrel q h -> rrel vrel (v_to_str q s) (fun i => q_to_str (h i) s).
  Proof.
    intros Hq. unfold v_to_str, q_to_str. destruct (lookup_unit s) as [u|].
    - apply (v_to_rel n Hn), Hq.
    - exists 0. split; [exact Hn|]. eexists. reflexivity.
  Qed.

  (** an error in place of another *)
  Lemma rrel_errs {V S} (R : V -> (nat -> S) -> Prop) rv (rf rf' : nat -> result S) :
    (forall i, i < n -> match rf i with Ok z => rf' i = Ok z | Err _ => raises (rf' i) end) ->
    (forall i, i < n -> rf i <> Err neg_err) ->
    rrel R rv rf -> rrel R rv rf'.
  Proof.
    intros E N H. destruct rv as [v|e].
    - destruct H as (f & Rf & H). exists f. split; [exact Rf|]. intros i Hi.
      destruct (H i Hi) as [G|G]; [|exfalso; exact (N i Hi (proj2 G))].
      specialize (E i Hi). rewrite G in E. auto.
    - destruct H as (i & Hi & e' & H). exists i. split; [exact Hi|].
      specialize (E i Hi). now rewrite H in E.
  Qed.
  Lemma v_root4_rel q h : vrel q h -> rrel vrel (v_root4 q) (fun i => q_root4 (h i)).
  Proof.
    intros Hq. unfold v_root4, q_root4. guards.
    destruct (dim_root 4 (u_dim (v_unit q))) as [d|] eqn:E.
    - apply (rrel_errs vrel _ (fun i =>
        let* m := (fun x => if nltb x zero then Err NotFinite else Ok (nsqrt (nsqrt x))) (q_mag (h i)) in
        Ok (mkQ m (mult_unit d (nsqrt (nsqrt (u_scale (v_unit q))))) (v_reg q)))).
      + intros i Hi. units. rewrite E. destruct (nltb (q_mag (h i)) zero); cbn [bind];
          [eexists; reflexivity|reflexivity].
      + intros i Hi. destruct (nltb (q_mag (h i)) zero); discriminate.
      + eapply (wrap_step n); [apply (lift1_rel n Hn); apply (mag_of_rel n), Hq|].
        intros i Hi. reflexivity.
    - exists 0. split; [exact Hn|]. rewrite (unit_of_rel n q h 0 Hq Hn), E. eexists. reflexivity.
  Qed.

  Ltac op L := eapply (rrel_bind n); [eapply L; eassumption|]; intros ? ? ?.
  Lemma v_half_rel q h k :
    vrel q h -> rrel vrel (v_divn pydiv q (Sca k)) (fun i => q_divn pydiv (h i) k).
  Proof.
    intros Hq. apply (v_divn_rel n Hn pydiv q (Sca k) h (fun _ => k)); [apply pydiv_like|exact Hq|].
    apply const_mrel.
  Qed.
  Lemma v_scale_map_rel (g : A -> A) k kf q h :
    mrel k kf -> vrel q h ->
    rrel vrel (v_scale (v_map g k) q) (fun i => q_scale (g (kf i)) (h i)).
  Proof.
    intros Hk Hq. apply (v_scale_rel n Hn (v_map g k) q (fun i => g (kf i))); [|exact Hq].
    apply (map_rel n Hn). exact Hk.
  Qed.

  Lemma max_pressure_rel ti od s sf tif odf sF sff :
    vrel ti tif -> vrel od odf -> vrel s sF -> mrel sf sff ->
    rrel vrel (v_max_pressure ti od s sf)
      (fun i => calculate_max_pressure (tif i) (odf i) (sF i) (sff i)).
  Proof.
    intros Hti Hod Hs Hsf. unfold v_max_pressure, calculate_max_pressure.
    op v_add_rel. op v_half_rel. op (v_sub_rel n Hn). op v_half_rel.
    op (v_scale_const_rel n Hn). op (v_mul_rel n Hn). op (v_scale_rel n Hn).
    eapply (v_div_rel n Hn); [apply pydiv_like|eassumption|eassumption].
  Qed.

  Lemma blockage_diameter_rel p br pf reg :
    arel n p pf ->
    rrel vrel (v_blockage_diameter p br reg)
      (fun i => calculate_blockage_diameter (pf i) br reg).
  Proof.
    intros Hp. unfold v_blockage_diameter, calculate_blockage_diameter.
    apply (const_step n Hn); intros b. apply (const_step n Hn); intros _.
    eapply (rrel_bind n); [eapply (v_parse_rel n Hn); eassumption|]; intros q qf Hq.
    eapply (rrel_bind n); [eapply (v_check_rel n Hn); eassumption|]; intros ? ? _.
    eapply (rrel_bind n); [eapply v_half_rel; eassumption|]; intros h hf Hh.
    eapply (v_scale_const_rel n Hn). exact Hh.
  Qed.

  Lemma max_stress_rel t tf m w reg :
    arel n t tf ->
    rrel vrel (v_max_stress t m w reg) (fun i => calculate_max_stress (tf i) m w reg).
  Proof.
    intros Ht. unfold v_max_stress, calculate_max_stress.
    eapply (rrel_bind n); [eapply (v_parse_rel n Hn); eassumption|]; intros q qf Hq.
    apply (const_step n Hn); intros lim. apply (const_step n Hn); intros _.
    eapply (rrel_bind n); [eapply v_to_str_rel; eassumption|]; intros q1 q1f Hq1.
    eapply (rrel_bind n) with (R := mrel).
    { apply (lift1_rel n Hn (fun t => np_interp t lim)). apply (mag_of_rel n), Hq1. }
    intros s sf Hs. unfold quant. destruct (lookup_unit "ksi") as [u|].
    - apply (rrel_ret n vrel (mkV s u reg) (fun i => mkQ (sf i) u reg)).
      apply (vrel_mk n), Hs.
    - exists 0. split; [exact Hn|]. eexists. reflexivity.
  Qed.

  Lemma v_critical_rel ti od e d nu tif odf ef df nuf :
    vrel ti tif -> vrel od odf -> vrel e ef -> vrel d df -> mrel nu nuf ->
    rrel vrel (v_critical_velocity ti od e d nu)
      (fun i => critical_velocity (tif i) (odf i) (ef i) (df i) (nuf i)).
  Proof.
    intros Hti Hod He Hd Hnu. unfold v_critical_velocity, critical_velocity.
    op v_add_rel. op v_half_rel. op (v_sub_rel n Hn). op v_half_rel.
    op (v_sq_rel n Hn). op (v_sq_rel n Hn). op (v_mul_rel n Hn). op (v_sq_rel n Hn).
    op (v_scale_const_rel n Hn). op (v_sq_rel n Hn). op (v_mul_rel n Hn).
    eapply (rrel_bind n); [eapply (v_scale_map_rel (fun nu => one - sq nu)%num); eassumption|];
      intros ? ? ?.
    eapply (rrel_bind n).
    { eapply (v_div_rel n Hn); [apply pydiv_like|eassumption|eassumption]. }
    intros ? ? ?. apply v_root4_rel. assumption.
  Qed.

  (** the checks with no sign requirement *)
  Lemma v_check_any_rel q h d :
    vrel q h -> rrel anyrel (v_check q d false) (fun i => check_q (h i) d false).
  Proof.
    intros Hq.
    assert (X : v_check q d false = check_q (h 0) d false).
    { unfold v_check, check_q, check_pint_quantity, v_raw.
      destruct (mag_of_rel n _ _ Hq) as [L P]. specialize (P 0 Hn).
      rewrite (unit_of_rel n q h 0 Hq Hn). destruct (v_mag q) as [a|[|a l]].
      - cbn in P. injection P as ->. reflexivity.
      - discriminate.
      - replace (q_mag (h 0)) with a by (destruct l; cbn in P; congruence). reflexivity. }
    assert (Y : forall i, i < n -> check_q (h i) d false = check_q (h 0) d false).
    { intros i Hi. unfold check_q, check_pint_quantity. units. cbn [bind].
      destruct (supported_dimension d); reflexivity. }
    apply (rrel_ext n anyrel _ (fun _ => check_q (h 0) d false));
      [intros i Hi; symmetry; now apply Y|]. rewrite X.
    destruct (check_q (h 0) d false) as [b|e].
    - exists (fun _ => b). split; [exact I|]. auto.
    - exists 0. split; [exact Hn|]. eexists. reflexivity.
  Qed.
End Sim.

(** ** One element. *)
Section One.
  Context {A : Type} {NA : Num A}.
  Let one_pos : 0 < 1 := Nat.lt_0_succ 0.
  Notation rrel := (rrel 1). Notation vrel := (vrel 1). Notation mrel := (mrel 1).

  Lemma only_mrel {B} (m : vmag B) (f : nat -> B) : mrel m f -> only m (f 0).
  Proof.
    intros [L P]. specialize (P 0 one_pos). destruct m as [a|[|a [|b l]]]; cbn in P, L.
    - left. congruence.
    - discriminate.
    - right. congruence.
    - lia.
  Qed.
  Lemma mrel_only {B} (m : vmag B) a : only m a -> mrel m (fun _ => a).
  Proof. intros [-> | ->]; (split; [cbn; auto|reflexivity]). Qed.
  Lemma truth_only b c : only b c -> truth b = Ok c.
  Proof. intros [-> | ->]; reflexivity. Qed.
  Lemma lift2_only {B C D} (g : B -> C -> D) x y a b :
    only x a -> only y b -> exists z, lift2 (fun a b => Ok (g a b)) x y = Ok z /\ only z (g a b).
  Proof.
    intros [-> | ->] [-> | ->]; cbn; eexists; (split; [reflexivity|]); [left|right|right|right];
      reflexivity.
  Qed.
  Lemma m_lt_only x y a b : only x a -> only y b -> m_lt x y = Ok (nltb a b).
  Proof.
    intros Hx Hy. unfold m_lt. destruct (lift2_only nltb x y a b Hx Hy) as (z & E & Hz).
    cbv beta in E. rewrite E. cbn [bind]. now apply truth_only.
  Qed.

  (** a step that takes a decision *)
  Lemma crel_ok {B} (r : result B) (b : B) : r = Ok b -> rrel (crel 1) r (fun _ => Ok b).
  Proof. intros ->. apply (rrel_const 1 one_pos (Ok b)). Qed.

  Lemma load_factor_rel ti od cj e d nu pm tif odf cjf ef df nuf pmf :
    vrel ti tif -> vrel od odf -> vrel cj cjf -> vrel e ef -> vrel d df ->
    mrel nu nuf -> mrel pm pmf ->
    rrel (crel 1) (v_load_factor ti od cj e d nu pm)
      (fun i => dynamic_load_factor (tif i) (odf i) (cjf i) (ef i) (df i) (nuf i) (pmf i)).
  Proof.
    intros Hti Hod Hcj He Hd Hnu Hpm. unfold v_load_factor, dynamic_load_factor.
    eapply (rrel_bind 1); [eapply (v_check_rel 1 one_pos), Hti|]; intros ? ? _.
    eapply (rrel_bind 1); [eapply (v_check_rel 1 one_pos), Hod|]; intros ? ? _.
    eapply (rrel_bind 1); [eapply (v_check_any_rel 1 one_pos), Hcj|]; intros ? ? _.
    eapply (rrel_bind 1); [eapply (v_check_rel 1 one_pos), He|]; intros ? ? _.
    eapply (rrel_bind 1); [eapply (v_check_rel 1 one_pos), Hd|]; intros ? ? _.
    pose proof (only_mrel _ _ Hpm) as Opm.
    rewrite (m_lt_only (Sca zero) pm zero (pmf 0) (or_introl eq_refl) Opm). cbn [bind].
    replace (if nltb zero (pmf 0) then m_lt pm (Sca one) else Ok false)
      with (Ok (nltb zero (pmf 0) && nltb (pmf 0) one)).
    2:{ rewrite (m_lt_only pm (Sca one) (pmf 0) one Opm (or_introl eq_refl)).
        destruct (nltb zero (pmf 0)); reflexivity. }
    cbn [bind].
    eapply (rrel_bind 1) with (R := crel 1).
    { eapply rrel_ext; [|apply (rrel_const 1 one_pos)].
      intros i Hi. cbv beta. replace i with 0 by lia. reflexivity. }
    intros _ _ _.
    eapply (rrel_bind 1); [eapply (v_critical_rel 1 one_pos); eassumption|]; intros c cf Hc.
    eapply (rrel_bind 1);
      [eapply (v_scale_map_rel 1 one_pos (fun x => one + x)%num); eassumption|]; intros u uf Hu.
    eapply (rrel_bind 1); [eapply (v_to_str_rel 1 one_pos), Hu|]; intros u' uf' Hu'.
    eapply (rrel_bind 1);
      [eapply (v_scale_map_rel 1 one_pos (fun x => one - x)%num); eassumption|]; intros l lf Hl.
    eapply (rrel_bind 1); [eapply (v_to_str_rel 1 one_pos), Hl|]; intros l' lf' Hl'.
    eapply (rrel_bind 1); [eapply (v_to_str_rel 1 one_pos), Hcj|]; intros vv vf Hv.
    rewrite (m_lt_only _ _ _ _ (only_mrel _ _ (mag_of_rel 1 _ _ Hv))
               (only_mrel _ _ (mag_of_rel 1 _ _ Hl'))). cbn [bind].
    rewrite (m_lt_only _ _ _ _ (only_mrel _ _ (mag_of_rel 1 _ _ Hu'))
               (only_mrel _ _ (mag_of_rel 1 _ _ Hv))). cbn [bind].
    match goal with |- VectorP.rrel 1 _ ?r _ => set (r0 := r) end.
    assert (R : r0 = Ok (if nltb (q_mag (vf 0)) (q_mag (lf' 0)) then 1
                         else if nltb (q_mag (uf' 0)) (q_mag (vf 0)) then 2 else 4)).
    { unfold r0. destruct (nltb _ _); [reflexivity|]. destruct (nltb _ _); reflexivity. }
    eapply rrel_ext; [|apply crel_ok, R].
    intros i Hi. replace i with 0 by lia. reflexivity.
  Qed.

  Lemma v_ge_rel p q f h :
    vrel p f -> vrel q h -> rrel (crel 1) (v_ge p q) (fun i => q_ge (f i) (h i)).
  Proof.
    intros Hp Hq. unfold v_ge, q_ge, q_cmp.
    apply (unit_step 1 one_pos).
    { intros i Hi. unfold same_reg, v_same_reg.
      rewrite (reg_of_rel 1 p f i Hp Hi), (reg_of_rel 1 q h i Hq Hi). reflexivity. }
    destruct (dim_eqb (u_dim (v_unit p)) (u_dim (v_unit q))) eqn:E.
    - destruct (lift2_only (fun a b => nleb b a) _ _ _ _
        (only_mrel _ _ (v_base_mag_rel 1 one_pos p f Hp))
        (only_mrel _ _ (v_base_mag_rel 1 one_pos q h Hq))) as (z & Ez & Hz).
      cbv beta in Ez, Hz. rewrite Ez. cbn [bind]. rewrite (truth_only _ _ Hz).
      eapply rrel_ext; [|apply crel_ok; reflexivity].
      intros i Hi. rewrite (unit_of_rel 1 p f i Hp Hi), (unit_of_rel 1 q h i Hq Hi), E.
      replace i with 0 by lia. reflexivity.
    - exists 0. split; [exact one_pos|]. eexists.
      rewrite (unit_of_rel 1 p f 0 Hp one_pos), (unit_of_rel 1 q h 0 Hq one_pos), E. reflexivity.
  Qed.

  Lemma blockage_ratio_rel t b tf bf reg :
    arel 1 t tf -> arel 1 b bf ->
    rrel mrel (v_blockage_ratio t b reg) (fun i => calculate_blockage_ratio (tf i) (bf i) reg).
  Proof.
    intros Ht Hb. unfold v_blockage_ratio, calculate_blockage_ratio.
    eapply (rrel_bind 1); [eapply (v_parse_base_rel 1 one_pos), Ht|]; intros q qf Hq.
    eapply (rrel_bind 1); [eapply (v_parse_base_rel 1 one_pos), Hb|]; intros p pf Hp.
    eapply (rrel_bind 1); [eapply (v_check_rel 1 one_pos), Hq|]; intros ? ? _.
    eapply (rrel_bind 1); [eapply (v_check_rel 1 one_pos), Hp|]; intros ? ? _.
    pose proof (mag_of_rel 1 _ _ Hq) as Mq. pose proof (mag_of_rel 1 _ _ Hp) as Mp.
    pose proof (only_mrel _ _ Mq) as Oq.
    assert (Z : exists z, lift1 (fun a => Ok (neqb a zero)) (v_mag q) = Ok z
                          /\ truth z = Ok (neqb (q_mag (qf 0)) zero)).
    { destruct Oq as [-> | ->]; (eexists; split; reflexivity). }
    destruct Z as (z & Ez & Tz). rewrite Ez. cbn [bind]. rewrite Tz. cbn [bind].
    eapply (rrel_bind 1) with (R := crel 1).
    { eapply rrel_ext; [|apply (rrel_const 1 one_pos)].
      intros i Hi. cbv beta. replace i with 0 by lia. reflexivity. }
    intros _ _ _.
    eapply (rrel_bind 1); [apply v_ge_rel; eassumption|]; intros g gf Hg.
    eapply (rrel_bind 1) with (R := crel 1).
    { eapply rrel_ext; [|apply (rrel_const 1 one_pos)].
      intros i Hi. cbv beta. rewrite (Hg i Hi). reflexivity. }
    intros _ _ _.
    assert (B2 : exists b2, lift1 (fun b0 => Ok (lit 2 * b0)%num) (v_mag p) = Ok b2
                /\ mrel b2 (fun i => (lit 2 * q_mag (pf i))%num)).
    { destruct (only_mrel _ _ Mp) as [E|E]; rewrite E; (eexists; split; [reflexivity|]);
        (split; [cbn; auto|]; intros i Hi; replace i with 0 by lia; reflexivity). }
    destruct B2 as (b2 & E2 & H2). rewrite E2. cbn [bind].
    eapply (rrel_bind 1) with (R := mrel).
    { eapply (vdiv_rel 1 one_pos pydiv); [apply pydiv_like|exact H2|exact Mq]. }
    intros r rf Hr.
    apply (lift1_rel 1 one_pos (fun r => Ok (one - sq (one - r))%num) r rf Hr).
  Qed.
End One.

(** ** What the checks and decisions ask of the lengths. *)
Section Lengths.
  Context {A : Type} {NA : Num A}.
  Ltac unbind := repeat match goal with
    | H : bind _ _ = Ok _ |- _ => apply bind_ok in H; destruct H as (? & ? & H)
    end.
  Lemma v_add_back (p q r : vquantity A) k :
    v_add p q = Ok r -> shaped k r -> shaped k p /\ shaped k q.
  Proof.
    unfold v_add. intros H. unbind. injection H as <-. intros S.
    match goal with L : lift2 _ _ _ = Ok _ |- _ => destruct (lift2_back _ _ _ _ k L S) as [P Q] end.
    split; [exact P|]. eapply v_to_back; eassumption.
  Qed.
  Lemma v_root4_back (q r : vquantity A) k : v_root4 q = Ok r -> shaped k r -> shaped k q.
  Proof.
    unfold v_root4. intros H. unbind. destruct (dim_root _ _); [|discriminate]. unbind.
    injection H as <-. eapply lift1_back. eassumption.
  Qed.
  Lemma v_to_str_back (q r : vquantity A) s k : v_to_str q s = Ok r -> shaped k r -> shaped k q.
  Proof. unfold v_to_str. destruct (lookup_unit s); [apply v_to_back|discriminate]. Qed.
  Lemma m_lt_one (x y : vmag A) b :
    m_lt x y = Ok b -> x <> Arr [] -> y <> Arr [] -> of_length 1 x /\ of_length 1 y.
  Proof. unfold m_lt. intros H. unbind. eapply truth_lift2; eassumption. Qed.

  Ltac back := repeat match goal with
    | H : v_div _ ?p ?q = Ok ?r, L : shaped _ ?r |- _ =>
        destruct (v_div_back _ _ _ _ _ H L); clear H
    | H : v_mul ?p ?q = Ok ?r, L : shaped _ ?r |- _ =>
        destruct (v_mul_back _ _ _ _ H L); clear H
    | H : v_scale _ ?q = Ok ?r, L : shaped _ ?r |- _ =>
        destruct (v_scale_back _ _ _ _ H L); clear H
    | H : v_divn _ _ _ = Ok ?r, L : shaped _ ?r |- _ =>
        destruct (v_divn_back _ _ _ _ _ H L); clear H
    | H : v_sub ?p ?q = Ok ?r, L : shaped _ ?r |- _ =>
        destruct (v_sub_back _ _ _ _ H L); clear H
    | H : v_add ?p ?q = Ok ?r, L : shaped _ ?r |- _ =>
        destruct (v_add_back _ _ _ _ H L); clear H
    | H : v_sq _ = Ok ?r, L : shaped _ ?r |- _ => pose proof (v_sq_back _ _ _ H L); clear H
    | H : v_root4 _ = Ok ?r, L : shaped _ ?r |- _ => pose proof (v_root4_back _ _ _ H L); clear H
    | H : v_to_str _ _ = Ok ?r, L : shaped _ ?r |- _ =>
        pose proof (v_to_str_back _ _ _ _ H L); clear H
    end.

  Lemma max_pressure_lengths (ti od s r : vquantity A) sf :
    v_max_pressure ti od s sf = Ok r ->
    v_mag ti <> Arr [] -> v_mag od <> Arr [] -> v_mag s <> Arr [] -> sf <> Arr [] ->
    exists k, 0 < k /\ of_length k (v_mag ti) /\ of_length k (v_mag od)
              /\ of_length k (v_mag s) /\ of_length k sf.
  Proof.
    unfold v_max_pressure. intros H Nt No Ns Nf. unbind.
    assert (L : shaped (len_of (v_mag r)) r) by apply of_len_of.
    set (k := len_of (v_mag r)) in *. clearbody k.
    apply (common_length _ k).
    - back. repeat split; assumption.
    - intros (? & ? & ? & ?). repeat split; apply of_length_0_1; assumption.
  Qed.

  Lemma critical_back (ti od e d r : vquantity A) nu k :
    v_critical_velocity ti od e d nu = Ok r -> shaped k r ->
    shaped k ti /\ shaped k od /\ shaped k e /\ shaped k d /\ of_length k nu.
  Proof.
    unfold v_critical_velocity. intros H L. unbind. back.
    repeat match goal with H : of_length _ (v_map _ _) |- _ => apply v_map_back in H end.
    repeat split; assumption.
  Qed.

  Lemma load_factor_lengths (ti od cj e d : vquantity A) nu pm k :
    v_load_factor ti od cj e d nu pm = Ok k -> nu <> Arr [] ->
    of_length 1 (v_mag ti) /\ of_length 1 (v_mag od) /\ of_length 1 (v_mag cj)
    /\ of_length 1 (v_mag e) /\ of_length 1 (v_mag d) /\ of_length 1 nu /\ of_length 1 pm.
  Proof.
    unfold v_load_factor. intros H Nnu. unbind.
    repeat match goal with C : v_check _ _ _ = Ok _ |- _ => apply v_check_nonempty in C end.
    match goal with P : m_lt (Sca zero) pm = Ok ?b |- _ => rename b into pos; rename P into Hpos end.
    assert (Npm : pm <> Arr []).
    { intros ->. cbn in Hpos. injection Hpos as <-.
      match goal with P : Ok false = Ok ?x, Q : raise_if (negb ?x) _ = Ok _ |- _ =>
        injection P as <-; discriminate Q end. }
    destruct (m_lt_one _ _ _ Hpos ltac:(discriminate) Npm) as [_ Lpm].
    match goal with P : m_lt (v_mag ?v) (v_mag ?l) = Ok _ |- _ =>
      rename v into cj'; rename l into lower; rename P into Hb end.
    match goal with P : v_to_str cj _ = Ok cj' |- _ => rename P into Hcj' end.
    assert (Ncj' : v_mag cj' <> Arr []).
    { intros E. unfold v_to_str in Hcj'. destruct (lookup_unit _); [|discriminate].
      unfold v_to in Hcj'. destruct (dim_eqb _ _); [|discriminate]. injection Hcj' as <-.
      cbn [v_mag] in E. unfold v_map in E. destruct (v_mag cj) as [a|[|a l]]; [discriminate|congruence|discriminate]. }
    assert (X : exists j, j <= 1 /\ shaped j lower /\ shaped j cj').
    { destruct (v_mag lower) as [a|[|a l]] eqn:El.
      - exists 1. split; [lia|]. split; [unfold shaped; rewrite El; exact I|].
        destruct (m_lt_one _ _ _ Hb Ncj' ltac:(discriminate)) as [L _]. exact L.
      - exists 0. split; [lia|]. split; [unfold shaped; rewrite El; left; reflexivity|].
        unfold m_lt in Hb. apply bind_ok in Hb. destruct Hb as (mask & Hm & Ht).
        unfold shaped. destruct (v_mag cj') as [c|[|c [|c' l]]]; cbn; auto.
        cbn in Hm. discriminate Hm.
      - exists 1. split; [lia|].
        destruct (m_lt_one _ _ _ Hb Ncj' ltac:(discriminate)) as [L1 L2].
        split; [unfold shaped; rewrite El; exact L2|exact L1]. }
    destruct X as (j & Hj & Ll & Lc).
    apply (v_to_str_back _ _ _ _ Hcj') in Lc.
    match goal with P : v_to_str ?l0 _ = Ok lower |- _ => apply (v_to_str_back _ _ _ _ P) in Ll end.
    match goal with P : v_scale _ ?c = Ok ?l0, L : shaped _ ?l0 |- _ =>
      destruct (v_scale_back _ _ _ _ P L) as [_ Lcrit] end.
    match goal with P : v_critical_velocity _ _ _ _ _ = Ok _ |- _ =>
      destruct (critical_back _ _ _ _ _ _ _ P Lcrit) as (L1 & L2 & L3 & L4 & L5) end.
    assert (Y : forall m : vmag A, m <> Arr [] -> of_length j m -> of_length 1 m).
    { intros m N Lm. destruct j as [|[|j]]; [now apply of_length_0_1|exact Lm|lia]. }
    repeat split; first [assumption | apply Y; assumption].
  Qed.

  Lemma blockage_ratio_lengths (t b : vpyin A) reg r :
    v_blockage_ratio t b reg = Ok r ->
    of_length 1 (arg_mag t) /\ of_length 1 (arg_mag b).
  Proof.
    unfold v_blockage_ratio. intros H. unbind.
    repeat match goal with C : v_check _ _ _ = Ok _ |- _ => apply v_check_nonempty in C end.
    match goal with P : v_ge _ _ = Ok _ |- _ => unfold v_ge in P; apply bind_ok in P;
      destruct P as (? & _ & P); destruct (dim_eqb _ _); [|discriminate P];
      apply bind_ok in P; destruct P as (mask & M & T) end.
    match goal with N1 : v_mag ?x <> Arr [], N2 : v_mag ?y <> Arr [],
      M : lift2 _ (v_base_mag ?y) (v_base_mag ?x) = Ok _ |- _ =>
      destruct (truth_lift2 _ _ _ _ _ M T (v_base_mag_nonempty _ N2) (v_base_mag_nonempty _ N1))
        as [L1 L2]; apply v_map_back in L1; apply v_map_back in L2 end.
    split; eapply v_parse_base_back; eassumption.
  Qed.
End Lengths.

(** ** No sign check, no exception of that kind. *)
Section NoSign.
  Context {A : Type} {NA : Num A}.
  Lemma mapM_errs {B C} (f : B -> result C) l e :
    mapM f l = Err e -> exists b, f b = Err e.
  Proof.
    induction l as [|x l IH]; cbn [mapM]; [discriminate|].
    destruct (f x) as [y|e'] eqn:E; cbn [bind].
    - destruct (mapM f l) as [ys|e'']; cbn [bind]; [discriminate|exact IH].
    - intros [= ->]. eauto.
  Qed.
  Definition unsigned {B} (r : result B) : Prop := r <> Err neg_err.
  Lemma unsigned_bind {B C} (r : result B) (k : B -> result C) :
    unsigned r -> (forall b, unsigned (k b)) -> unsigned (bind r k).
  Proof.
    unfold unsigned. intros H K. destruct r as [b|e]; cbn [bind]; [apply K|].
    intros [= ->]. now apply H.
  Qed.
  Ltac flat := unfold unsigned; repeat match goal with
    | |- context [if ?b then _ else _] => destruct b
    | |- context [match ?b with Some _ => _ | None => _ end] => destruct b
    end; discriminate.
  Lemma u_reg (p q : quantity A) : unsigned (same_reg p q). Proof. unfold same_reg. flat. Qed.
  Lemma u_off (p : quantity A) : unsigned (offset_free p).
  Proof. unfold offset_free. flat. Qed.
  Lemma u_div (x y : A) : unsigned (pydiv x y). Proof. unfold pydiv. flat. Qed.
  Lemma u_to (q : quantity A) u : unsigned (q_to q u). Proof. unfold q_to. flat. Qed.
  Lemma u_to_str (q : quantity A) s : unsigned (q_to_str q s).
  Proof. unfold q_to_str. destruct (lookup_unit s); [apply u_to|discriminate]. Qed.
  Lemma u_ok {B} (b : B) : unsigned (Ok b). Proof. discriminate. Qed.
  Ltac steps := repeat first
    [ apply u_reg | apply u_off | apply u_div | apply u_to | apply u_to_str | apply u_ok
    | (apply unsigned_bind; [|intros ?]) ].
  Lemma u_addsub op (p q : quantity A) : unsigned (q_addsub op p q).
  Proof. unfold q_addsub. steps. Qed.
  Lemma u_divn (p : quantity A) k : unsigned (q_divn pydiv p k).
  Proof. unfold q_divn. steps. Qed.
  Lemma u_qdiv (p q : quantity A) : unsigned (q_div pydiv p q).
  Proof. unfold q_div. steps. Qed.
  Lemma u_mul (p q : quantity A) : unsigned (q_mul p q).
  Proof. unfold q_mul. steps. Qed.
  Lemma u_scale k (q : quantity A) : unsigned (q_scale k q).
  Proof. unfold q_scale. steps. Qed.
  Lemma max_pressure_unsigned (ti od s : quantity A) sf :
    unsigned (calculate_max_pressure ti od s sf).
  Proof.
    unfold calculate_max_pressure, q_add, q_sub.
    repeat first [apply u_addsub | apply u_divn | apply u_qdiv | apply u_mul | apply u_scale
                 | (apply unsigned_bind; [|intros ?])].
  Qed.
  Lemma u_quant reg (m : A) s : unsigned (quant reg m s). Proof. unfold quant. flat. Qed.
  Lemma u_parse (i : pyin A) reg : unsigned (parse_quant_input i reg).
  Proof.
    destruct i as [q|l|]; cbn; [discriminate| |discriminate].
    destruct l as [|x [|y [|z l]]]; try discriminate.
    destruct x, y; cbn; try discriminate. apply u_quant.
  Qed.
  Lemma max_stress_unsigned (t : pyin A) m w reg : unsigned (calculate_max_stress t m w reg).
  Proof.
    unfold calculate_max_stress.
    apply unsigned_bind; [apply u_parse|intros q].
    apply unsigned_bind; [|intros lim].
    { unfold get_pipe_stress_limits. apply unsigned_bind.
      - unfold raise_if. flat.
      - intros _ E. apply mapM_errs in E. destruct E as (r & E).
        destruct (num_cell _ _ _); [|discriminate]. destruct (num_cell _ _ _); discriminate. }
    apply unsigned_bind; [unfold raise_if; flat|intros _].
    apply unsigned_bind; [apply u_to_str|intros t'].
    apply unsigned_bind; [|intros s; apply u_quant].
    unfold np_interp. destruct lim; discriminate.
  Qed.
End NoSign.
