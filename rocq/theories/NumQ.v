(** * NumQ: the rational instance of the arithmetic interface, used to compute facts
    about the shipped tables, and its relation to the real instance. *)
From Coq Require Import String ZArith QArith Reals Qreals List Bool Lra.
From Verif Require Import PyBase QLemmas Interp.
Import ListNotations.

Definition Qltb (x y : Q) : bool := (Qle_bool x y && negb (Qeq_bool x y))%bool.
(** nsqrt and npi are not used on tables. *)
Definition Num_Q : Num Q := {|
  nadd := fun x y => Qred (Qplus x y); nsub := fun x y => Qred (Qminus x y);
  nmul := fun x y => Qred (Qmult x y);
  ndiv := fun x y => Qred (Qdiv x y); nopp := Qopp; nabs := Qabs.Qabs;
  nsqrt := fun x => x; nltb := Qltb; nleb := Qle_bool; neqb := Qeq_bool;
  nofQ := fun q => q; npi := 0 |}.

Lemma Qle_bool_R x y : Qle_bool x y = Rleb (Q2R x) (Q2R y).
Proof.
  destruct (Qle_bool x y) eqn:E.
  - apply Qle_bool_iff, Qle_Rle in E. now rewrite Rleb_true.
  - destruct (Rleb_spec (Q2R x) (Q2R y)) as [H|H]; auto.
    apply Rle_Qle in H. apply Qle_bool_iff in H. congruence.
Qed.
Lemma Qeq_bool_R x y : Qeq_bool x y = Reqb (Q2R x) (Q2R y).
Proof.
  destruct (Qeq_bool x y) eqn:E.
  - apply Qeq_bool_iff, Qeq_eqR in E. now rewrite Reqb_true.
  - destruct (Reqb_spec (Q2R x) (Q2R y)) as [H|H]; auto.
    apply eqR_Qeq in H. apply Qeq_bool_iff in H. congruence.
Qed.
Lemma Qltb_R x y : Qltb x y = Rltb (Q2R x) (Q2R y).
Proof.
  unfold Qltb. rewrite Qle_bool_R, Qeq_bool_R.
  destruct (Rleb_spec (Q2R x) (Q2R y)), (Reqb_spec (Q2R x) (Q2R y)),
    (Rltb_spec (Q2R x) (Q2R y)); cbn; auto; lra.
Qed.
Lemma Qltb_lt x y : Qltb x y = true -> (Q2R x < Q2R y)%R.
Proof. rewrite Qltb_R. destruct (Rltb_spec (Q2R x) (Q2R y)); easy. Qed.
Lemma Qle_bool_le x y : Qle_bool x y = true -> (Q2R x <= Q2R y)%R.
Proof. rewrite Qle_bool_R. destruct (Rleb_spec (Q2R x) (Q2R y)); easy. Qed.

Lemma Q2R_red x : Q2R (Qred x) = Q2R x.
Proof. apply Qeq_eqR, Qred_correct. Qed.

(** Sorting commutes with the embedding. *)
Definition pt2R (p : Q * Q) : R * R := (Q2R (fst p), Q2R (snd p)).
Lemma insert_R p l :
  map pt2R (@insert_pt Q Num_Q p l) = insert_pt (pt2R p) (map pt2R l).
Proof.
  induction l as [|q l IH]; [reflexivity|]. cbn [insert_pt map].
  change (@nleb Q Num_Q) with Qle_bool.
  change (@nleb R Num_R) with Rleb.
  rewrite Qle_bool_R. cbn [pt2R fst]. destruct (Rleb _ _); cbn [map]; congruence.
Qed.
Lemma sort_R l : map pt2R (@sort_pts Q Num_Q l) = sort_pts (map pt2R l).
Proof. induction l; [reflexivity|]. cbn [sort_pts map]. now rewrite insert_R, IHl. Qed.
Lemma has_duplicates_R l :
  @has_duplicates Q Num_Q l = has_duplicates (map pt2R l).
Proof.
  induction l as [|p [|q l] IH]; try reflexivity.
  cbn [has_duplicates map] in *. cbn [map] in IH. rewrite IH.
  change (@neqb Q Num_Q) with Qeq_bool. change (@neqb R Num_R) with Reqb.
  now rewrite Qeq_bool_R.
Qed.
