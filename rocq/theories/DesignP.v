(** * DesignP: the design chain get_dimensions -> calculate_max_stress ->
    calculate_max_pressure, and flange round trips. *)
From Coq Require Import String ZArith QArith Reals Qreals List Lra Bool.
From Verif Require Import PyBase Pint UnitsM Spec QLemmas Csv TableSpec Tables Interp
  TubeM TubeP StressP PipeP.
Import ListNotations.
Local Open Scope R_scope.

(** One inch in metres, one ksi in pascal. *)
Definition inch : R := 254/10000.
Lemma inch_stands q m reg : is_in q m "in" reg -> stands_for q d_length (m * inch) reg.
Proof.
  intros (L & M & G). cbn in L. injection L as L. subst m. unfold stands_for. rewrite <- L. cbn.
  repeat split; auto; rnum; unfold s_inch; rnum; q2r; unfold inch; lra.
Qed.
Lemma ksi_stands q m reg : is_in q m "ksi" reg ->
  exists k, 0 < k /\ stands_for q d_pressure (m * k) reg
    /\ forall q' m', is_in q' m' "ksi" reg -> stands_for q' d_pressure (m' * k) reg.
Proof.
  intros (L & M & G). exists (u_scale (q_unit q)).
  assert (U : u_dim (q_unit q) = d_pressure /\ u_off (q_unit q) = None /\ 0 < u_scale (q_unit q)).
  { cbn in L. injection L as L. rewrite <- L. cbn. repeat split; rnum; unfold s_psi, s_inch; rnum; q2r; lra. }
  destruct U as (U1 & U2 & U3). split; [exact U3|]. split.
  - unfold stands_for. subst m. auto.
  - intros q' m' (L' & M' & G'). rewrite L in L'. injection L' as L'. subst m'.
    unfold stands_for. rewrite <- L'. auto.
Qed.

(** A call of calculate_max_stress at any temperature. *)
Lemma stress_any m w temp t reg :
  In m available_materials -> denotes temp d_temperature (fahrenheit t) ->
  exists q, calculate_max_stress temp m w reg = Ok q /\ is_in q (q_mag q) "ksi" reg
            /\ 0 <= q_mag q.
Proof.
  intros I D.
  assert (X : exists q, calculate_max_stress temp m w reg = Ok q).
  { destruct (Rle_dec t (-20)) as [a|a].
    - destruct (max_stress_clamped m w temp t reg I D (or_introl a)) as (? & q & ? & _ & E & _). eauto.
    - destruct (Rle_dec 1200 t) as [b|b].
      + destruct (max_stress_clamped m w temp t reg I D (or_intror b)) as (? & q & ? & _ & E & _). eauto.
      + destruct (max_stress_defined m w temp t reg I D ltac:(lra)) as (? & ? & ? & ? & _ & _ & _ & _ & E).
        exact E. }
  destruct X as (q & E). exists q. split; [exact E|]. split.
  - exact (proj2 (max_stress_inv temp t m w reg q I D E)).
  - exact (proj1 (proj1 (max_stress_falls m w temp temp t t reg q q I D D (Rle_refl t) E E))).
Qed.

(** The user's script: look the pipe up, look the allowable stress up, rate the pipe. *)
Definition pipe_limit (size schedule : string) (temp : pyin R) (material : string)
    (welded : bool) (safety_factor : R) (reg : nat) : result (quantity R) :=
  let* dims := get_dimensions size schedule reg in
  let* stress := calculate_max_stress temp material welded reg in
  calculate_max_pressure (inner_diameter dims) (outer_diameter dims) stress safety_factor.

Definition offered_pipe (size schedule : string) : Prop :=
  exists w, entry PIPE_SCHEDULES size schedule w
            /\ schedule <> "Size"%string /\ schedule <> "OD"%string.

Lemma pipe_limit_closed size schedule temp t m w sf reg :
  offered_pipe size schedule -> In m available_materials ->
  denotes temp d_temperature (fahrenheit t) -> 0 < sf ->
  exists dims od wall stress S,
    get_dimensions size schedule reg = Ok dims
    /\ entry PIPE_SCHEDULES size "OD" od /\ entry PIPE_SCHEDULES size schedule wall
    /\ 0 < Q2R wall /\ 0 < Q2R od
    /\ ((size, schedule) <> ("28"%string, "10"%string) -> 2 * Q2R wall < Q2R od)
    /\ calculate_max_stress temp m w reg = Ok stress
    /\ is_in stress (q_mag stress) "ksi" reg
    /\ 0 <= q_mag stress /\ stands_for stress d_pressure S reg
    /\ (Q2R od <> Q2R wall ->
        returns (pipe_limit size schedule temp m w sf reg) d_pressure
                (S * (2 * Q2R wall) / (sf * (Q2R od - Q2R wall))) reg).
Proof.
  intros O I D F.
  destruct (proj1 (get_dimensions_exact size schedule reg) O)
    as (dims & od & wall & G & Eo & Ew & Io & Iw & Ii & Pw & Po).
  destruct (stress_any m w temp t reg I D) as (stress & Es & Is & Ps).
  destruct (ksi_stands _ _ _ Is) as (k & K & St & _).
  exists dims, od, wall, stress, (q_mag stress * k).
  repeat (split; [assumption|]). split.
  { intros N. destruct (bores size schedule reg dims G N) as (ID & OD & Hi & Ho & B).
    destruct Hi as (_ & Hi & _), Ho as (_ & Ho & _), Ii as (_ & Ii & _), Io as (_ & Io & _). lra. }
  repeat (split; [assumption|]).
  intros NZ. unfold pipe_limit. rewrite G; cbn [bind]. rewrite Es; cbn [bind].
  pose proof (inch_stands _ _ _ Ii) as Si. pose proof (inch_stands _ _ _ Io) as So.
  assert (P : 0 < inch) by (unfold inch; lra).
  assert (N2 : Q2R od * inch + (Q2R od - 2 * Q2R wall) * inch <> 0).
  { intros X. apply NZ. replace (Q2R od * inch + (Q2R od - 2 * Q2R wall) * inch)
      with (2 * inch * (Q2R od - Q2R wall)) in X by ring.
    apply Rmult_integral in X as [X|X]; lra. }
  pose proof (mp_closed _ _ _ _ _ _ sf reg Si So St N2 ltac:(lra)) as Cl.
  unfold mp_formula in Cl.
  replace (q_mag stress * k * (2 * Q2R wall) / (sf * (Q2R od - Q2R wall)))
    with (q_mag stress * k * (2 * ((Q2R od * inch - (Q2R od - 2 * Q2R wall) * inch) / 2)) /
          (sf * ((Q2R od * inch + (Q2R od - 2 * Q2R wall) * inch) / 2))); [exact Cl|].
  field. repeat split; lra.
Qed.
