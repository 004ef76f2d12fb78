(** * TextSpec: what reading text means, without the parser. *)
From Coq Require Import String Ascii ZArith QArith List.
Import ListNotations.
Local Open Scope string_scope.

(** ** Decimal numbers *)
Definition digit_is (c : ascii) (d : nat) : Prop := String.get d "0123456789" = Some c.

(** [s] is [k] digits that spell the number [n] *)
Inductive digits : string -> Z -> nat -> Prop :=
| no_digits : digits "" 0 0
| more_digits c d s n k : digit_is c d -> digits s n k ->
    digits (String c s) (Z.of_nat d * 10 ^ Z.of_nat k + n) (S k).

(** digits, perhaps with one decimal point somewhere *)
Definition unsigned_decimal (s : string) (q : Q) : Prop :=
  exists whole fraction n k m j,
    digits whole n k /\ digits fraction m j /\ (0 < k + j)%nat
    /\ ((s = whole /\ j = 0%nat) \/ s = whole ++ "." ++ fraction)
    /\ q == inject_Z n + inject_Z m / inject_Z (10 ^ Z.of_nat j).
Definition decimal (s : string) (q : Q) : Prop :=
  unsigned_decimal s q \/ exists r p, s = "-" ++ r /\ unsigned_decimal r p /\ q == - p.

(** ** Lines and fields *)
Definition free_of (c : ascii) (s : string) : Prop :=
  forall before after, s <> before ++ String c after.
(** [s] is the [parts] with [c] between them *)
Definition fields (c : ascii) (s : string) (parts : list string) : Prop :=
  parts <> [] /\ s = String.concat (String c "") parts /\ Forall (free_of c) parts.

(** ** White space *)
Definition white (a : ascii) : Prop :=
  a = " "%char \/ a = "009"%char \/ a = "010"%char \/ a = "013"%char.
Fixpoint all_white (s : string) : Prop :=
  match s with "" => True | String a r => white a /\ all_white r end.
(** [t] is [s] without the white space at its ends *)
Definition trimmed (s t : string) : Prop :=
  exists l r, s = l ++ t ++ r /\ all_white l /\ all_white r
    /\ (forall a u, t = String a u -> ~ white a)
    /\ (forall u a, t = u ++ String a "" -> ~ white a).

(** ** Upper and lower case *)
Definition small_letter_of (a b : ascii) : Prop :=
  exists n, String.get n "ABCDEFGHIJKLMNOPQRSTUVWXYZ" = Some a
            /\ String.get n "abcdefghijklmnopqrstuvwxyz" = Some b.
(** [s] is [t], a text in small letters, perhaps with capitals *)
Fixpoint same_but_for_case (s t : string) : Prop :=
  match s, t with
  | "", "" => True
  | String a s', String b t' => (a = b \/ small_letter_of a b) /\ same_but_for_case s' t'
  | _, _ => False
  end.
Definition mentions (file word : string) : Prop :=
  exists before part after, file = before ++ part ++ after /\ same_but_for_case part word.

(** ** Replacing a character *)
Definition replaced (a b : ascii) (s t : string) : Prop :=
  String.length s = String.length t
  /\ forall i c, String.get i s = Some c ->
       String.get i t = Some (if ascii_dec c a then b else c).

(** ** CSV: a header line and rows, separated by commas; empty lines do not count. *)
Inductive without_empty : list string -> list string -> Prop :=
| we_nil : without_empty [] []
| we_skip l k : without_empty l k -> without_empty ("" :: l) k
| we_keep x l k : x <> "" -> without_empty l k -> without_empty (x :: l) (x :: k).
Definition csv (text : string) (columns : list string) (rows : list (list string)) : Prop :=
  exists lines header rest, fields "010" text lines /\ without_empty lines (header :: rest)
    /\ fields "," header columns /\ Forall2 (fields ",") rest rows.
(** Entry of a row in the first column with this name. *)
Definition entry_in (columns row : list string) (c s : string) : Prop :=
  exists j, nth_error columns j = Some c /\ nth_error row j = Some s
    /\ forall i, (i < j)%nat -> nth_error columns i <> Some c.
