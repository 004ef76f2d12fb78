(** * RoundWindowP: windows and blockages under rounding. *)
From Coq Require Import String ZArith QArith Reals Qreals List Bool Lra Lia Psatz.
From Verif Require Import PyBase Pint UnitsM Spec QLemmas WindowM WindowP RoundM RoundSpec RoundP.
Import ListNotations.
Local Open Scope R_scope.

Section RW.
  Variables (u : R) (rnd : R -> R).
  Hypothesis Hr : rounding u rnd.
  Notation N := (Num_rounded rnd).
  Let Hu : 0 <= u <= 1/1024. Proof. exact (proj1 Hr). Qed.
  Notation approx := (approx u).

  Definition arg_approx (k : nat) (i : pyin R) (d : dim) (x : R) : Prop :=
    forall reg, exists q, @parse_quant_input R N i reg = Ok q /\ approx k q d x reg.
  Lemma arg_denotes i d x : d <> d_temperature -> denotes i d x -> arg_approx 10 i d x.
  Proof. intros Nd H reg. exact (parse_approx u rnd Hr i d x reg Nd H). Qed.
  Lemma arg_quantity k q d x reg : approx k q d x reg -> arg_approx k (PQuant q) d x.
  Proof.
    intros (a & b & c & e & f) reg'. cbn [parse_quant_input]. eexists. split; [reflexivity|].
    repeat split; assumption.
  Qed.
  Lemma arg_base k i d x reg : arg_approx k i d x ->
    exists q, @parse_base R N i reg = Ok q /\ approx (S k) q d x reg /\ u_scale (q_unit q) = 1.
  Proof.
    intros H. destruct (H reg) as (q & E & A). unfold parse_base. rewrite E. cbn [bind].
    eexists. split; [reflexivity|]. split; [now apply (to_base_approx u rnd Hr)|].
    cbn [q_unit u_scale to_base_units mult_unit]. apply (one_rnd u rnd Hr).
  Qed.

  Lemma two_near : near u 0 2 (@nofQ R N 2).
  Proof.
    cbn [nofQ Num_rounded]. replace (Q2R 2) with 2 by (q2r; lra).
    rewrite (rnd_int u rnd Hr 2) by lia. apply near_refl. exact Hu.
  Qed.
  Lemma wk_near : near u 1 (3/4) (@window_k R N).
  Proof.
    unfold window_k. pose proof (lit_near u rnd Hr 0.75) as H.
    replace (Q2R 0.75) with (3/4) in H by (q2r; lra). exact H.
  Qed.
  Lemma one_near0 : near u 0 1 (@one R N).
  Proof. rewrite (one_rnd u rnd Hr). apply near_refl. exact Hu. Qed.

  Lemma sf_rounded kl kw kt kp km il iw it ip im L W t P M reg :
    arg_approx kl il d_length L -> arg_approx kw iw d_length W -> arg_approx kt it d_length t ->
    arg_approx kp ip d_pressure P -> arg_approx km im d_pressure M ->
    0 < L -> 0 < W -> 0 < P -> 0 <= M -> 0 <= t ->
    exists y, @safety_factor R N il iw it ip im reg = Ok y
      /\ near u (40 + 4 * kl + 2 * kw + 2 * kt + kp + km) (sf_formula L W t P M) y.
  Proof.
    intros Al Aw At Ap Am L0 W0 P0 M0 t0. unfold safety_factor.
    destruct (arg_base _ _ _ _ reg Al) as (ql & -> & Bl & _). cbn [bind].
    destruct (arg_base _ _ _ _ reg Aw) as (qw & -> & Bw & _). cbn [bind].
    destruct (arg_base _ _ _ _ reg At) as (qt & -> & Bt & _). cbn [bind].
    destruct (arg_base _ _ _ _ reg Ap) as (qp & -> & Bp & _). cbn [bind].
    destruct (arg_base _ _ _ _ reg Am) as (qm & -> & Bm & _). cbn [bind].
    rewrite (check_approx u rnd Hr _ ql d_length L reg "length" true eq_refl Bl) by lra. cbn [bind].
    rewrite (check_approx u rnd Hr _ qw d_length W reg "length" true eq_refl Bw) by lra. cbn [bind].
    rewrite (check_approx u rnd Hr _ qt d_length t reg "length" true eq_refl Bt) by lra. cbn [bind].
    rewrite (check_approx u rnd Hr _ qp d_pressure P reg "pressure" true eq_refl Bp) by lra. cbn [bind].
    rewrite (check_approx u rnd Hr _ qm d_pressure M reg "pressure" true eq_refl Bm) by lra. cbn [bind].
    destruct (div_approx u rnd Hr _ _ _ _ _ _ _ _ _ Bl Bw) as (r & -> & Br); [lra|]. cbn [bind].
    destruct (div_approx u rnd Hr _ _ _ _ _ _ _ _ _ Bt Bl) as (tl & -> & Btl); [lra|]. cbn [bind].
    destruct (sq_approx u rnd Hr _ _ _ _ _ Btl) as (tl2 & -> & Btl2). cbn [bind].
    destruct (scale_approx u rnd Hr _ _ _ _ _ _ _ _ two_near Bm) as (m2 & -> & Bm2). cbn [bind].
    destruct (sq_approx u rnd Hr _ _ _ _ _ Br) as (r2 & -> & Br2). cbn [bind].
    destruct (addn_approx u rnd Hr _ _ 1 _ r2 _ reg Rle_0_1 (Rle_0_sqr (L / W)) one_near0 Br2)
      as (o & -> & Bo). cbn [bind].
    destruct (mul_approx u rnd Hr _ _ _ _ _ _ _ _ _ Bm2 Bo) as (mt & -> & Bmt). cbn [bind].
    destruct (mul_approx u rnd Hr _ _ _ _ _ _ _ _ _ Btl2 Bmt) as (nu & -> & Bnu). cbn [bind].
    destruct (scale_approx u rnd Hr _ _ _ _ _ _ _ _ wk_near Bp) as (de & -> & Bde). cbn [bind].
    destruct (div_approx u rnd Hr _ _ _ _ _ _ _ _ _ Bnu Bde) as (sf & -> & Bsf); [lra|]. cbn [bind].
    destruct (plain_approx u rnd Hr _ _ _ _ Bsf) as (y & -> & Hy).
    exists y. split; [reflexivity|].
    eapply near_weaken; [exact Hu| |exact Hy]. lia.
  Qed.
  Lemma mt_rounded kl kw kp km il iw ip im L W P M s reg :
    arg_approx kl il d_length L -> arg_approx kw iw d_length W ->
    arg_approx kp ip d_pressure P -> arg_approx km im d_pressure M ->
    0 < L -> 0 < W -> 0 < P -> 0 < M -> 1 <= s ->
    exists q, @minimum_thickness R N il iw (SfNum s) ip im reg = Ok q
      /\ approx (40 + 3 * kl + 2 * kw + kp + km) q d_length (thickness_formula L W P M s) reg
      /\ u_scale (q_unit q) = 1.
  Proof.
    intros Al Aw Ap Am L0 W0 P0 M0 s1. unfold minimum_thickness.
    destruct (arg_base _ _ _ _ reg Al) as (ql & -> & Bl & _). cbn [bind].
    destruct (arg_base _ _ _ _ reg Aw) as (qw & -> & Bw & Sw). cbn [bind].
    destruct (arg_base _ _ _ _ reg Ap) as (qp & -> & Bp & _). cbn [bind].
    destruct (arg_base _ _ _ _ reg Am) as (qm & -> & Bm & _). cbn [bind].
    rewrite (check_approx u rnd Hr _ ql d_length L reg "length" true eq_refl Bl) by lra. cbn [bind].
    rewrite (check_approx u rnd Hr _ qw d_length W reg "length" true eq_refl Bw) by lra. cbn [bind].
    rewrite (check_approx u rnd Hr _ qp d_pressure P reg "pressure" true eq_refl Bp) by lra. cbn [bind].
    rewrite (check_approx u rnd Hr _ qm d_pressure M reg "pressure" true eq_refl Bm) by lra. cbn [bind].
    rewrite (one_rnd u rnd Hr). cbn [nltb Num_rounded]. rewrite Rltb_false by lra. cbn [bind].
    destruct (div_approx u rnd Hr _ _ _ _ _ _ _ _ _ Bl Bw) as (r & -> & Br); [lra|]. cbn [bind].
    assert (Hs : near u 3 (s * (3/4) / 2) (@ndiv R N (@nmul R N s (@window_k R N)) (@nofQ R N 2))).
    { apply (ndiv_near u rnd Hr 2 0); [|apply two_near].
      apply (nmul_near u rnd Hr 0 1); [apply near_refl; exact Hu|apply wk_near]. }
    unfold npsqrt. cbn [nltb Num_rounded].
    rewrite (zero_rnd u rnd Hr), Rltb_false by (eapply near_nonneg; [exact Hu|exact Hs|lra]). cbn [bind].
    assert (Hq : near u 4 (sqrt (s * (3/4) / 2))
              (@nsqrt R N (@ndiv R N (@nmul R N s (@window_k R N)) (@nofQ R N 2)))).
    { apply (nsqrt_near u rnd Hr 3); [lra|exact Hs]. }
    destruct (scale_approx u rnd Hr _ _ _ _ _ _ _ _ Hq Bl) as (ls & -> & Bls). cbn [bind].
    destruct (sq_approx u rnd Hr _ _ _ _ _ Br) as (r2 & -> & Br2). cbn [bind].
    pose proof (Rle_0_sqr (L / W)) as Sq; unfold Rsqr in Sq.
    destruct (addn_approx u rnd Hr _ _ 1 _ r2 _ reg Rle_0_1 (Rle_0_sqr (L / W)) (near_refl u Hu 0 1) Br2)
      as (o & E & Bo). rewrite E. cbn [bind].
    destruct (mul_approx u rnd Hr _ _ _ _ _ _ _ _ _ Bm Bo) as (mt & -> & Bmt). cbn [bind].
    assert (Mp : 0 < M * (1 + L / W * (L / W))) by nra.
    destruct (div_approx u rnd Hr _ _ _ _ _ _ _ _ _ Bp Bmt) as (pm & -> & Bpm); [unfold Rsqr; lra|]. cbn [bind].
    destruct (sqrt_approx u rnd Hr _ pm (dim_div d_pressure (dim_mul d_pressure d_none)) d_none _ reg eq_refl (Rlt_le _ _ (Rdiv_lt_0_compat _ _ P0 Mp)) Bpm)
      as (rp & -> & Brp). cbn [bind].
    destruct (mul_approx u rnd Hr _ _ _ _ _ _ _ _ _ Bls Brp) as (th & -> & Bth). cbn [bind].
    destruct Bw as (Dw & Ow & _).
    edestruct (to_approx u rnd Hr _ th _ _ reg (q_unit qw) Bth) as (t & -> & Bt & Ut);
      [rewrite Dw; reflexivity|exact Ow|lra|].
    exists t. split; [reflexivity|]. split; [|rewrite Ut; exact Sw].
    eapply approx_weaken; [apply Hr| |exact Bt]. lia.
  Qed.

  (** Bad arguments are refused all the same. *)
  Lemma lookup_dim s v : @lookup_unit R Num_R s = Some v ->
    exists v', @lookup_unit R N s = Some v' /\ u_dim v' = u_dim v.
  Proof.
    unfold lookup_unit. intros L. revert L.
    assert (T : Forall2 (fun a b => fst a = fst b /\ u_dim (snd a) = u_dim (snd b))
                        (@unit_table R Num_R) (@unit_table R N)).
    { unfold unit_table. repeat (apply Forall2_cons || apply Forall2_nil); split; reflexivity. }
    induction T as [|(k & a) (k' & b) l l' (E1 & E2) F IH]; cbn [assoc]; [discriminate|].
    cbn [fst snd] in *. subst k'. destruct (String.eqb k s).
    - intros [= ->]. exists b. auto.
    - exact IH.
  Qed.
  Lemma parse_base_dim i d x reg : denotes i d x ->
    exists q, @parse_base R N i reg = Ok q /\ u_dim (q_unit q) = d
      /\ (d <> d_temperature -> approx 11 q d x reg).
  Proof.
    intros H.
    assert (E : exists q, @parse_base R N i reg = Ok q /\ u_dim (q_unit q) = d).
    { destruct H as [q d x W D Wo|m s v d x L D W].
      - unfold parse_base. cbn [parse_quant_input bind]. eexists. split; [reflexivity|]. exact D.
      - unfold parse_base. cbn [parse_quant_input quantity_of_items]. unfold quant.
        destruct (lookup_dim s v L) as (v' & -> & E). cbn [bind]. eexists. split; [reflexivity|].
        cbn. congruence. }
    destruct E as (q & E & D). exists q. split; [exact E|]. split; [exact D|]. intros Nd.
    destruct (parse_base_approx u rnd Hr i d x reg Nd H) as (q' & E' & A & _). congruence.
  Qed.
  (** One check: passes, or raises ValueError exactly for a wrong dimension or sign. *)
  Lemma check_outcome q d x reg name d' :
    supported_dimension name = Some d' -> d' <> d_temperature ->
    u_dim (q_unit q) = d -> (d <> d_temperature -> approx 11 q d x reg) ->
    (d = d' /\ 0 <= x /\ @check_q R N q name true = Ok true)
    \/ ((d <> d' \/ x < 0) /\ is_value_error (@check_q R N q name true)).
  Proof.
    intros Sd Nt D A. destruct (dim_eqb d d') eqn:E.
    - apply dim_eqb_eq in E. subst d'. specialize (A Nt).
      destruct (Rle_or_lt 0 x) as [X|X].
      + left. split; [reflexivity|]. split; [exact X|]. now apply (check_approx u rnd Hr 11 q d x reg).
      + right. split; [right; exact X|]. apply (check_approx_bad u rnd Hr 11 q d x reg name d Sd A). now right.
    - assert (Nd : d <> d') by (intros X; apply dim_eqb_eq in X; congruence).
      right. split; [left; exact Nd|].
      unfold check_q, check_pint_quantity. cbn [bind]. rewrite Sd.
      destruct (true && _)%bool; cbn [raise_if bind]; [eexists; reflexivity|].
      rewrite D, E. cbn [negb raise_if bind]. eexists; reflexivity.
  Qed.
  Lemma value_error_bind {A B} (r : result A) (f : A -> result B) :
    is_value_error r -> is_value_error (bind r f).
  Proof. intros (m & ->). exists m. reflexivity. Qed.

  Lemma sf_rejects_rounded il iw it ip im dl dw dt dp dm L W t P M reg :
    denotes il dl L -> denotes iw dw W -> denotes it dt t -> denotes ip dp P -> denotes im dm M ->
    (dl <> d_length \/ L < 0 \/ dw <> d_length \/ W < 0 \/ dt <> d_length \/ t < 0
     \/ dp <> d_pressure \/ P < 0 \/ dm <> d_pressure \/ M < 0) ->
    is_value_error (@safety_factor R N il iw it ip im reg).
  Proof.
    intros Hl Hw Ht Hp Hm Bad. unfold safety_factor.
    destruct (parse_base_dim _ _ _ reg Hl) as (ql & -> & Dl & Al). cbn [bind].
    destruct (parse_base_dim _ _ _ reg Hw) as (qw & -> & Dw & Aw). cbn [bind].
    destruct (parse_base_dim _ _ _ reg Ht) as (qt & -> & Dt & At). cbn [bind].
    destruct (parse_base_dim _ _ _ reg Hp) as (qp & -> & Dp & Ap). cbn [bind].
    destruct (parse_base_dim _ _ _ reg Hm) as (qm & -> & Dm & Am). cbn [bind].
    destruct (check_outcome ql dl L reg "length" d_length eq_refl ltac:(discriminate) Dl Al)
      as [(Y1 & Y2 & ->)|(_ & V)]; [cbn [bind]|now apply value_error_bind].
    destruct (check_outcome qw dw W reg "length" d_length eq_refl ltac:(discriminate) Dw Aw)
      as [(Y3 & Y4 & ->)|(_ & V)]; [cbn [bind]|now apply value_error_bind].
    destruct (check_outcome qt dt t reg "length" d_length eq_refl ltac:(discriminate) Dt At)
      as [(Y5 & Y6 & ->)|(_ & V)]; [cbn [bind]|now apply value_error_bind].
    destruct (check_outcome qp dp P reg "pressure" d_pressure eq_refl ltac:(discriminate) Dp Ap)
      as [(Y7 & Y8 & ->)|(_ & V)]; [cbn [bind]|now apply value_error_bind].
    destruct (check_outcome qm dm M reg "pressure" d_pressure eq_refl ltac:(discriminate) Dm Am)
      as [(Y9 & Y10 & ->)|(_ & V)]; [cbn [bind]|now apply value_error_bind].
    exfalso. decompose [or] Bad; try contradiction; lra.
  Qed.
  Lemma mt_rejects_rounded il iw ip im dl dw dp dm L W P M s reg :
    denotes il dl L -> denotes iw dw W -> denotes ip dp P -> denotes im dm M ->
    (dl <> d_length \/ L < 0 \/ dw <> d_length \/ W < 0
     \/ dp <> d_pressure \/ P < 0 \/ dm <> d_pressure \/ M < 0 \/ s < 1) ->
    is_value_error (@minimum_thickness R N il iw (SfNum s) ip im reg).
  Proof.
    intros Hl Hw Hp Hm Bad. unfold minimum_thickness.
    destruct (parse_base_dim _ _ _ reg Hl) as (ql & -> & Dl & Al). cbn [bind].
    destruct (parse_base_dim _ _ _ reg Hw) as (qw & -> & Dw & Aw). cbn [bind].
    destruct (parse_base_dim _ _ _ reg Hp) as (qp & -> & Dp & Ap). cbn [bind].
    destruct (parse_base_dim _ _ _ reg Hm) as (qm & -> & Dm & Am). cbn [bind].
    destruct (check_outcome ql dl L reg "length" d_length eq_refl ltac:(discriminate) Dl Al)
      as [(Y1 & Y2 & ->)|(_ & V)]; [cbn [bind]|now apply value_error_bind].
    destruct (check_outcome qw dw W reg "length" d_length eq_refl ltac:(discriminate) Dw Aw)
      as [(Y3 & Y4 & ->)|(_ & V)]; [cbn [bind]|now apply value_error_bind].
    destruct (check_outcome qp dp P reg "pressure" d_pressure eq_refl ltac:(discriminate) Dp Ap)
      as [(Y7 & Y8 & ->)|(_ & V)]; [cbn [bind]|now apply value_error_bind].
    destruct (check_outcome qm dm M reg "pressure" d_pressure eq_refl ltac:(discriminate) Dm Am)
      as [(Y9 & Y10 & ->)|(_ & V)]; [cbn [bind]|now apply value_error_bind].
    assert (S : s < 1) by (decompose [or] Bad; try contradiction; lra).
    cbn [nltb Num_rounded]. rewrite (one_rnd u rnd Hr), Rltb_true by exact S. cbn [bind].
    eexists; reflexivity.
  Qed.
End RW.
