(** * GasP: reasoning about [io]. *)
From Coq Require Import String ZArith QArith Reals List Bool Lia.
From Verif Require Import PyBase Gas.
Import ListNotations.

Lemma value_bind_ok {A B C} (m : io A B) (f : B -> io A C) c :
  value (io_bind m f) = Ok c ->
  exists b, value m = Ok b /\ value (f b) = Ok c
    /\ trace (io_bind m f) = (trace m ++ trace (f b))%list.
Proof.
  unfold value, trace, io_bind. destruct (snd m) as [b|e]; simpl; intros H; [|discriminate].
  exists b. auto.
Qed.

Definition all_events {A B} (P : event A -> Prop) (r : io A B) : Prop := Forall P (trace r).

Lemma all_bind {A B C} (P : event A -> Prop) (m : io A B) (f : B -> io A C) :
  all_events P m -> (forall b, value m = Ok b -> all_events P (f b)) ->
  all_events P (io_bind m f).
Proof.
  unfold all_events, value, trace, io_bind. destruct (snd m) as [b|e]; simpl; intros H1 H2; auto.
  apply Forall_app. auto.
Qed.
Lemma all_pure {A B} P (r : result B) : all_events (A:=A) P (pure r).
Proof. constructor. Qed.
Lemma all_ret {A B} P (b : B) : all_events (A:=A) P (ret b).
Proof. constructor. Qed.
Lemma all_act {A B} (P : event A -> Prop) e (r : result B) : P e -> all_events P (act e r).
Proof. intros H. constructor; auto. Qed.
Lemma all_emit {A} (P : event A -> Prop) e : P e -> all_events P (emit e).
Proof. intros H. constructor; auto. Qed.

Lemma all_impl {A B} (P Q : event A -> Prop) (r : io A B) :
  (forall e, P e -> Q e) -> all_events P r -> all_events Q r.
Proof. intros H. apply Forall_impl. exact H. Qed.

Lemma all_map {A B C} P (f : B -> io A C) l :
  (forall b, In b l -> all_events P (f b)) -> all_events P (io_map f l).
Proof.
  induction l as [|x l IH]; simpl; intros H; [apply all_ret|].
  apply all_bind; [apply H; auto|]. intros y _.
  apply all_bind; [apply IH; auto|]. intros. apply all_ret.
Qed.

Lemma value_pure {A B} (r : result B) : value (A:=A) (pure r) = r.
Proof. reflexivity. Qed.
Lemma value_ret {A B} (b : B) : value (A:=A) (ret b) = Ok b.
Proof. reflexivity. Qed.

(** Inverts [value (do ...) = Ok _] hypotheses step by step. *)
Ltac io_inv H :=
  let b := fresh "b" in let E := fresh "E" in let H' := fresh "H" in let T := fresh "T" in
  apply value_bind_ok in H; destruct H as (b & E & H' & T).

Lemma bind_pure_ok {A B C} (b : B) (f : B -> io A C) : io_bind (pure (Ok b)) f = f b.
Proof. unfold io_bind, pure; cbn [fst snd app]. destruct (f b); reflexivity. Qed.
Lemma bind_pure_err {A B C} e (f : B -> io A C) : io_bind (pure (Err e)) f = pure (Err e).
Proof. reflexivity. Qed.
Lemma bind_ret {A B C} (b : B) (f : B -> io A C) : io_bind (ret b) f = f b.
Proof. unfold io_bind, ret; cbn [fst snd app]. destruct (f b); reflexivity. Qed.
Lemma value_bind {A B C} (m : io A B) (f : B -> io A C) :
  value (io_bind m f) = bind (value m) (fun b => value (f b)).
Proof. unfold value, io_bind, bind. destruct (snd m); reflexivity. Qed.

Definition after {A B} (tr : list (event A)) (r : io A B) : io A B := (tr ++ fst r, snd r).
Lemma bind_some {A B C} tr (b : B) (f : B -> io A C) :
  io_bind (tr, Ok b) f = after tr (f b).
Proof. reflexivity. Qed.
Lemma value_after {A B} tr (r : io A B) : value (after tr r) = value r.
Proof. reflexivity. Qed.
Lemma trace_after {A B} tr (r : io A B) : trace (after tr r) = (tr ++ trace r)%list.
Proof. reflexivity. Qed.
