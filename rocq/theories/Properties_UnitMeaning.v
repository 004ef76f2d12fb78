(** * Properties_UnitMeaning: the names of units mean what they are defined to mean. *)
From Coq Require Import String ZArith QArith Reals Qreals List Bool Lra.
From Verif Require Import PyBase Pint UnitsM Spec QLemmas UnitSpec.
Import ListNotations.
Local Open Scope string_scope.
Local Open Scope R_scope.

Definition agrees (e : string * (dim * (R -> R))) : Prop :=
  exists u, @lookup_unit R Num_R (fst e) = Some u /\ u_dim u = fst (snd e) /\ 0 < u_scale u
    /\ forall m, snd (snd e) m = match Pint.u_off u with None => m * u_scale u | Some o => m * u_scale u + o end.

Lemma all_agree : Forall agrees meanings.
Proof.
  unfold meanings.
  repeat (apply Forall_cons || apply Forall_nil).
  all: unfold agrees; cbn [fst snd].
  all: unfold lookup_unit, unit_table; cbn [assoc String.eqb Ascii.eqb Bool.eqb].
  all: eexists; split; [reflexivity|]; cbn [u_dim u_scale Pint.u_off mult_unit].
  all: split; [reflexivity|]; split; [|intros m].
  all: unfold s_psi, s_inch, one; rnum; q2r.
  all: unfold mile, foot, pounds_per_square_inch, pound_force, pound, gravity, inch, atmosphere, bar.
  all: first [lra | field | solve [repeat (apply Rdiv_lt_0_compat || apply Rmult_lt_0_compat); lra]].
Qed.

Lemma worth_agrees name d f u : agrees (name, (d, f)) -> @lookup_unit R Num_R name = Some u ->
  u_dim u = d /\ forall m x, worth m u x <-> x = f m.
Proof.
  intros (u' & L & D & _ & V) L'. cbn [fst snd] in *. assert (u' = u) by congruence. subst u'.
  split; [exact D|]. intros m x. unfold worth. rewrite V.
  destruct (Pint.u_off u); [tauto|]. rewrite Rplus_0_r. tauto.
Qed.

(** C146: every unit name listed, given with any magnitude, is read as what the legal
    definition of the unit says, and a result converted to the unit is the number that
    means the same value. *)
Theorem C146_units_read :
  forall (name : string) (d : dim) (value : R -> R), In (name, (d, value)) meanings ->
  forall (m : R) (reg : nat),
    exists q, @parse_quant_input R Num_R (PSeq [ENum m; EStr name]) reg = Ok q
              /\ u_dim (q_unit q) = d /\ q_mag (to_base_units q) = value m /\ q_reg q = reg
              /\ (forall d' x, denotes (PSeq [ENum m; EStr name]) d' x <-> d' = d /\ x = value m).
Proof.
  intros name d f I m reg. pose proof (proj1 (Forall_forall _ _) all_agree _ I) as A.
  destruct A as (u & L & D & P & V). cbn [fst snd] in *.
  exists (mkQ m u reg). cbn [parse_quant_input quantity_of_items]. unfold quant. rewrite L.
  split; [reflexivity|]. split; [exact D|]. split.
  { rewrite V. unfold to_base_units, base_mag. cbn [q_mag q_unit]. destruct (Pint.u_off u); reflexivity. }
  split; [reflexivity|]. intros d' x.
  destruct (worth_agrees name d f u (ex_intro _ u (conj L (conj D (conj P V)))) L) as (_ & W). split.
  - intros H. inversion H as [|m' s u' d'' x' L' D' Wo]. assert (Eu : u' = u) by congruence. rewrite Eu in *.
    split; [congruence|]. apply W. congruence.
  - intros (-> & ->). apply (denotes_pair m name u d); [exact L|exact D|]. now apply W.
Qed.
Print Assumptions C146_units_read.

Theorem C146_units_written :
  forall (name : string) (d : dim) (value : R -> R), In (name, (d, value)) meanings ->
  forall (q : quantity R), u_dim (q_unit q) = d ->
    exists q', @q_to_str R Num_R q name = Ok q' /\ u_dim (q_unit q') = d /\ q_reg q' = q_reg q
               /\ value (q_mag q') = q_mag (to_base_units q).
Proof.
  intros name d f I q Dq. pose proof (proj1 (Forall_forall _ _) all_agree _ I) as A.
  destruct A as (u & L & D & P & V). cbn [fst snd] in *.
  unfold q_to_str. rewrite L. unfold q_to. rewrite Dq, <- D, dim_eqb_refl.
  eexists. split; [reflexivity|]. cbn [q_unit q_reg q_mag]. split; [reflexivity|]. split; [reflexivity|].
  rewrite V. unfold to_base_units. cbn [q_mag].
  destruct (Pint.u_off u); rnum; field; lra.
Qed.
Print Assumptions C146_units_written.

(** The list is all the units of the model, each once. *)
Theorem C146_all_units :
  (forall name u, @lookup_unit R Num_R name = Some u -> exists d value, In (name, (d, value)) meanings)
  /\ NoDup (map fst meanings).
Proof.
  split.
  - intros name u. unfold lookup_unit. intros H.
    assert (I : In name (map fst (@unit_table R Num_R))).
    { revert H. generalize (@unit_table R Num_R). intros l. induction l as [|(k & v) l IH]; cbn [assoc map fst]; [discriminate|].
      destruct (String.eqb_spec k name); [now left|]. intros H. right. now apply IH. }
    assert (C : forallb (fun n => existsb (String.eqb n) (map fst meanings)) (map fst (@unit_table R Num_R)) = true)
      by reflexivity.
    rewrite forallb_forall in C. specialize (C _ I). apply existsb_exists in C. destruct C as (n' & J' & E').
    apply String.eqb_eq in E'. subst n'. clear I. rename J' into I.
    apply in_map_iff in I. destruct I as ((n & (d & f)) & E & J). cbn [fst] in E. subst n. now exists d, f.
  - cbn [map fst meanings]. repeat (apply NoDup_cons; [cbn [In]; intuition discriminate|]). apply NoDup_nil.
Qed.

Print Assumptions C146_all_units.

(** Beside the theorems: 212 degF is the boiling point, 373.15 K; 1 atm is 14.6959 psi to
    within 0.0001. *)
Example C146_case :
  denotes (PSeq [ENum 212; EStr "degF"]) d_temperature 373.15
  /\ (exists q, @q_to_str R Num_R (mkQ 1 (mult_unit d_pressure 101325) 3) "psi" = Ok q
                /\ 14.6958 < q_mag q < 14.6960).
Proof.
  split.
  - destruct (C146_units_read "degF" d_temperature (fun f => (f - 32) * 5 / 9 + 273.15) ltac:(cbn [meanings In]; tauto) 212 0)
      as (q & _ & _ & _ & _ & W). apply W. split; [reflexivity|lra].
  - destruct (C146_units_written "psi" d_pressure (fun m => m * pounds_per_square_inch) ltac:(cbn [meanings In]; tauto)
      (mkQ 1 (mult_unit d_pressure 101325) 3) eq_refl) as (q & E & _ & _ & V).
    exists q. split; [exact E|].
    unfold to_base_units, base_mag in V. cbn [q_mag q_unit mult_unit Pint.u_off u_scale] in V. revert V. rnum. intros V.
    assert (K' : 6894.757 < pounds_per_square_inch < 6894.758).
    { unfold pounds_per_square_inch, pound_force, pound, gravity, inch. lra. }
    assert (K : 0 < pounds_per_square_inch) by lra. revert V K K'. generalize pounds_per_square_inch. intros p V K K'.
    split; apply (Rmult_lt_reg_r p); lra.
Qed.
