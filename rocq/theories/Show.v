(** * Show: Python's [str] of an int, as [str.format] inserts it (sd.py:164-166, 783-784). *)
From Coq Require Import String Ascii ZArith.
Local Open Scope string_scope.
Local Open Scope Z_scope.

Definition digit_char (d : Z) : ascii :=
  match String.get (Z.to_nat d) "0123456789" with Some c => c | None => "?"%char end.
(** the digits of [n >= 0] in front of [rest]; [fuel] bounds their number *)
Fixpoint show_digits (fuel : nat) (n : Z) (rest : string) : string :=
  match fuel with
  | O => rest
  | S fuel =>
    let text := String (digit_char (n mod 10)) rest in
    if n / 10 =? 0 then text else show_digits fuel (n / 10) text
  end.
Definition show_int (n : Z) : string :=
  if n <? 0 then "-" ++ show_digits (S (Z.to_nat (- n))) (- n) ""
  else show_digits (S (Z.to_nat n)) n "".
