(** * ThermoP: lemmas about the model of thermochem.py over the reals. *)
From Coq Require Import String ZArith QArith Reals Qreals List Bool Lra Lia Psatz.
From Verif Require Import PyBase Pint UnitsM Spec Gas GasP QLemmas FitM SdM SdSpec SdP FitP
  FitSpec SpeedSpec SpeedP ThermoM ThermoSpec.
Import ListNotations.
Local Open Scope R_scope.

Lemma in_unit_K q T reg : parsed q d_temperature T reg -> in_unit q "K" = Ok T.
Proof.
  intros H. pose proof (parsed_base_mag _ _ _ _ H) as B. destruct H as (_ & D & _ & _).
  unfold in_unit, q_to_str. change (@lookup_unit R _ "K") with (Some (mult_unit d_temperature (@one R _))).
  cbn [bind]. unfold q_to. rewrite D, dim_eqb_refl. cbn [bind mult_unit u_off u_scale q_mag].
  rewrite B. rnum. rewrite one_R. f_equal. field.
Qed.
Lemma in_unit_Pa q P reg : parsed q d_pressure P reg -> in_unit q "Pa" = Ok P.
Proof.
  intros H. pose proof (parsed_base_mag _ _ _ _ H) as B. destruct H as (_ & D & _ & _).
  unfold in_unit, q_to_str. change (@lookup_unit R _ "Pa") with (Some (mult_unit d_pressure (@one R _))).
  cbn [bind]. unfold q_to. rewrite D, dim_eqb_refl. cbn [bind mult_unit u_off u_scale q_mag].
  rewrite B. rnum. rewrite one_R. f_equal. field.
Qed.
Lemma quant_ms reg (v : R) : exists q, quant reg v "m/s" = Ok q /\ is_in q v "m/s" reg.
Proof. eexists. split; [reflexivity|]. repeat split. Qed.
Lemma quant_ms_inv reg (v : R) q : quant reg v "m/s" = Ok q -> is_in q v "m/s" reg.
Proof. intros H. destruct (quant_ms reg v) as (q' & E & Hq). congruence. Qed.

Lemma check_parsed q s d v reg : supported_dimension s = Some d ->
  parsed q d v reg -> 0 <= v -> check_q q s true = Ok true.
Proof.
  intros Hs H Hv. eapply check_q_base; [exact Hs|apply H|]. intros _.
  rewrite (parsed_base_mag _ _ _ _ H). exact Hv.
Qed.
Lemma check_wrong q s d d' v reg : supported_dimension s = Some d ->
  parsed q d' v reg -> d' <> d \/ v < 0 -> is_value_error (check_q q s true).
Proof.
  intros Hs H Hb. destruct H as (_ & D & W & _).
  destruct (check_cases q d' v s d true D W Hs) as [(E & Hp & _)|(_ & He)]; [|exact He].
  specialize (Hp eq_refl). destruct Hb as [Hb|Hb]; [contradiction|lra].
Qed.

Section Thermo.
  Context {G X : Type} (L : cantera R G X).

  (** what the two functions do once the arguments are understood *)
  Definition flame_run (T P : R) (x : X) (mech phase : string) (reg : nat) : io R (quantity R) :=
    do gas <- new_solution L mech phase;
    do gas <- set_TPX L gas T P x;
    do u <- flame_speed L gas;
    pure (quant reg u "m/s").
  Definition sound_run (T P : R) (x : X) (mech phase : string) (reg : nat) : io R (quantity R) :=
    do gas <- new_solution L mech phase;
    do gas <- set_TPX L gas T P x;
    do gas <- equilibrate L gas "TP";
    do gas1 <- set_SP L gas (ct_entropy L gas) (10001/10000 * ct_P L gas);
    do gas1 <- equilibrate L gas1 "SP";
    do slope <- pure (npdiv (10001/10000 * ct_P L gas - ct_P L gas)
                            (ct_density L gas1 - ct_density L gas));
    do c <- pure (npsqrt slope);
    pure (quant reg c "m/s").

  Lemma io_bind_ext {A B C} (m : io A B) (f g : B -> io A C) :
    (forall b, f b = g b) -> io_bind m f = io_bind m g.
  Proof. intros H. unfold io_bind. destruct (snd m); [rewrite H; reflexivity|reflexivity]. Qed.

  Lemma flame_run_eq iT iP T P x mech phase reg :
    denotes iT d_temperature T -> denotes iP d_pressure P -> 0 <= T -> 0 <= P ->
    calculate_laminar_flame_speed L iT iP x mech phase reg = flame_run T P x mech phase reg.
  Proof.
    intros HT HP H0 H1. unfold calculate_laminar_flame_speed, flame_run.
    destruct (parse_denotes _ _ _ reg HT) as (qT & ET & PT).
    destruct (parse_denotes _ _ _ reg HP) as (qP & EP & PP).
    rewrite ET, EP. apply io_bind_ext. intros g. rewrite !bind_pure_ok.
    rewrite (check_parsed qP "pressure" d_pressure P reg eq_refl PP H1), bind_pure_ok.
    rewrite (check_parsed qT "temperature" d_temperature T reg eq_refl PT H0), bind_pure_ok.
    rewrite (in_unit_K qT T reg PT), bind_pure_ok, (in_unit_Pa qP P reg PP), bind_pure_ok.
    reflexivity.
  Qed.

  Lemma sound_run_eq iT iP T P x mech phase reg :
    denotes iT d_temperature T -> denotes iP d_pressure P -> 0 <= T -> 0 <= P ->
    get_eq_sound_speed L iT iP x mech phase reg = sound_run T P x mech phase reg.
  Proof.
    intros HT HP H0 H1. unfold get_eq_sound_speed, sound_run.
    destruct (parse_denotes _ _ _ reg HT) as (qT & ET & PT).
    destruct (parse_denotes _ _ _ reg HP) as (qP & EP & PP).
    rewrite ET, EP. rewrite !bind_pure_ok.
    rewrite (check_parsed qP "pressure" d_pressure P reg eq_refl PP H1), bind_pure_ok.
    rewrite (check_parsed qT "temperature" d_temperature T reg eq_refl PT H0), bind_pure_ok.
    apply io_bind_ext. intros g.
    rewrite (in_unit_K qT T reg PT), bind_pure_ok, (in_unit_Pa qP P reg PP), bind_pure_ok.
    apply io_bind_ext. intros g1. apply io_bind_ext. intros g2. rnum.
    assert (E : Q2R 1.0001 = 10001/10000) by (unfold Q2R; simpl; lra).
    rewrite E. reflexivity.
  Qed.

  Lemma sound_run_inv T P x mech phase reg q :
    value (sound_run T P x mech phase reg) = Ok q ->
    exists g0 g1 c,
      isentropic_pair L x mech phase T P g0 g1
      /\ ct_density L g1 <> ct_density L g0
      /\ 0 <= c /\ c^2 * (ct_density L g1 - ct_density L g0) = 1/10000 * ct_P L g0
      /\ is_in q c "m/s" reg.
  Proof.
    intros H. unfold sound_run in H.
    apply value_bind_ok in H. destruct H as (a & Ha & H & _).
    apply value_bind_ok in H. destruct H as (b & Hb & H & _).
    apply value_bind_ok in H. destruct H as (g0 & Hg0 & H & _).
    apply value_bind_ok in H. destruct H as (h & Hh & H & _).
    apply value_bind_ok in H. destruct H as (g1 & Hg1 & H & _).
    apply value_bind_ok in H. destruct H as (s & Hs & H & _). rewrite value_pure in Hs.
    apply (div_inv npdiv) in Hs; [|right; reflexivity]. destruct Hs as (Hn & ->).
    apply value_bind_ok in H. destruct H as (c & Hc & H & _). rewrite value_pure in Hc. rewrite value_pure in H.
    unfold npsqrt in Hc. rnum. rewrite zero_R in Hc.
    destruct (QLemmas.Rltb_spec ((10001 / 10000 * ct_P L g0 - ct_P L g0) / (ct_density L g1 - ct_density L g0)) 0)
      as [Hneg|Hpos]; [discriminate|]. injection Hc as <-.
    exists g0, g1. eexists. split.
    { exists b, h. split; [exists a; split; [exact Ha|exact Hb]|]. split; [exact Hg0|]. split; [exact Hh|exact Hg1]. }
    split; [lra|]. split; [apply sqrt_pos|]. split; [|apply quant_ms_inv; exact H].
    rewrite pow2_sqrt by lra. field. exact Hn.
  Qed.

  Lemma sound_run_ok T P x mech phase reg g0 g1 :
    isentropic_pair L x mech phase T P g0 g1 ->
    ct_density L g0 < ct_density L g1 -> 0 <= ct_P L g0 ->
    exists q, value (sound_run T P x mech phase reg) = Ok q.
  Proof.
    intros (b & h & (a & Ha & Hb) & H0 & Hh & H1) Hd HP.
    unfold sound_run, new_solution, set_TPX, equilibrate, set_SP.
    rewrite value_bind. change (value (act (EvNew mech phase) (ct_new L mech phase))) with (ct_new L mech phase).
    rewrite Ha. cbn [bind]. rewrite value_bind. unfold act, value at 1. cbn [snd]. rewrite Hb. cbn [bind].
    rewrite value_bind. unfold value at 1. cbn [snd]. rewrite H0. cbn [bind].
    rewrite value_bind. unfold value at 1. cbn [snd]. rewrite Hh. cbn [bind].
    rewrite value_bind. unfold value at 1. cbn [snd]. rewrite H1. cbn [bind].
    rewrite npdiv_ok by lra. rewrite bind_pure_ok.
    unfold npsqrt. rnum. rewrite zero_R. rewrite QLemmas.Rltb_false.
    - rewrite bind_pure_ok. eexists. reflexivity.
    - apply Rmult_le_pos; [lra|]. left. apply Rinv_0_lt_compat. lra.
  Qed.
End Thermo.

Lemma substring_prefix t b : substring 0%nat (String.length t) (t ++ b)%string = t.
Proof.
  induction t as [|d t IH].
  { destruct b; reflexivity. }
  cbn [append String.length substring].
  f_equal. exact IH.
Qed.
Lemma substring_middle a t b :
  substring (String.length a) (String.length t) (a ++ t ++ b)%string = t.
Proof.
  induction a as [|d a IH]; [exact (substring_prefix t b)|]. cbn [append String.length substring]. exact IH.
Qed.
Lemma contains_spec sub s : contains sub s = true <-> exists a b, s = (a ++ sub ++ b)%string.
Proof.
  unfold contains. split.
  - destruct (index 0 sub s) as [n|] eqn:E; [|discriminate]. intros _.
    apply index_correct1 in E.
    exists (substring 0 n s), (substring (n + String.length sub) (String.length s - (n + String.length sub)) s).
    revert n E. induction s as [|c s IH]; intros n E.
    + destruct n; simpl in *.
      * destruct sub; [reflexivity|discriminate].
      * subst sub. reflexivity.
    + destruct n as [|n].
      * cbn [substring Nat.add append]. clear IH. revert c s E.
        induction sub as [|d sub IHs]; intros c s E.
        -- cbn [String.length append Nat.sub]. cbn [substring].
           f_equal. clear. induction s as [|e s IH]; [reflexivity|]. cbn [String.length substring]. f_equal. exact IH.
        -- cbn [String.length substring] in E. injection E as <- E. cbn [String.length append].
           f_equal. destruct s as [|e s].
           ++ destruct sub; [reflexivity|discriminate].
           ++ specialize (IHs e s E). cbn [String.length substring Nat.sub] in *. exact IHs.
      * cbn [substring] in E. specialize (IH n E). cbn [substring Nat.add String.length Nat.sub append].
        f_equal. exact IH.
  - intros (a & b & ->). destruct (index 0 sub (a ++ sub ++ b)) as [n|] eqn:E; [reflexivity|].
    exfalso. destruct sub as [|c sub].
    + destruct (a ++ "" ++ b)%string; discriminate.
    + apply (index_correct3 0 (String.length a) (String c sub)) in E.
      * apply E. apply substring_middle.
      * discriminate.
      * lia.
Qed.
