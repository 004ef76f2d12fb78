(** * ObjectSpec: what a caller sees of gas objects. *)
From Coq Require Import List Arith.
From Verif Require Import PyBase Gas HeapM.
Import ListNotations.

(** every object but [w] is as it was before, and no object was made *)
Definition only_changes {G} (w : nat) (before after : heap G) : Prop :=
  next after = next before /\ forall r, r <> w -> obj after r = obj before r.

(** the objects that existed before are as they were; there may be new ones *)
Definition old_objects_untouched {G} (before after : heap G) : Prop :=
  next before <= next after /\ forall r, r < next before -> obj after r = obj before r.

(** made during the call *)
Definition new_object {G} (before after : heap G) (r : nat) : Prop :=
  next before <= r < next after.
