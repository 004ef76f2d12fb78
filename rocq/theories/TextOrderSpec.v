(** * TextOrderSpec: how Python compares strings, and [max] over a list of them.
    (docs/example.ipynb takes [.max()] of a column of Flange.get_class results.) *)
From Coq Require Import String Ascii List Arith.
Import ListNotations.

(** Character by character by code point; a proper beginning comes first. *)
Inductive text_before : string -> string -> Prop :=
| before_end c s : text_before "" (String c s)
| before_char c d s t : (nat_of_ascii c < nat_of_ascii d)%nat ->
    text_before (String c s) (String d t)
| before_rest c s t : text_before s t -> text_before (String c s) (String c t).

(** [max(l)]. *)
Definition text_max (l : list string) (m : string) : Prop :=
  In m l /\ forall x, In x l -> ~ text_before m x.
