(** * Csv: the part of pandas.read_csv and of Python's str that the tables need. *)
From Coq Require Import String Ascii ZArith QArith List Bool.
From Verif Require Import PyBase.
Import ListNotations.
Local Open Scope string_scope.

Definition newline : ascii := ascii_of_nat 10.
Definition comma : ascii := ","%char.

(** Python [s.split(c)] for a one-character separator. *)
Fixpoint split_on (c : ascii) (s : string) : list string :=
  match s with
  | EmptyString => [""]
  | String a r =>
    if Ascii.eqb a c then "" :: split_on c r
    else match split_on c r with
         | [] => [String a ""]            (* not reached *)
         | w :: ws => String a w :: ws
         end
  end.

Definition is_blank (a : ascii) : bool :=
  Ascii.eqb a " " || Ascii.eqb a newline || Ascii.eqb a (ascii_of_nat 13)
  || Ascii.eqb a (ascii_of_nat 9).

Fixpoint lstrip (s : string) : string :=
  match s with
  | String a r => if is_blank a then lstrip r else s
  | EmptyString => s
  end.
Fixpoint rstrip (s : string) : string :=
  match s with
  | EmptyString => ""
  | String a r => match rstrip r with
                  | EmptyString => if is_blank a then "" else String a ""
                  | t => String a t
                  end
  end.
(** Python [s.strip()] *)
Definition strip (s : string) : string := rstrip (lstrip s).

Definition lower_ascii (a : ascii) : ascii :=
  let n := nat_of_ascii a in
  if (Nat.leb 65 n && Nat.leb n 90)%bool then ascii_of_nat (n + 32) else a.
(** Python [s.lower()] (ASCII) *)
Fixpoint lower (s : string) : string :=
  match s with
  | EmptyString => ""
  | String a r => String (lower_ascii a) (lower r)
  end.

(** Python [pat in s] *)
Definition contains (pat s : string) : bool :=
  match String.index 0 pat s with Some _ => true | None => false end.

(** Python [s.replace(a, b)] for single characters *)
Fixpoint replace_char (a b : ascii) (s : string) : string :=
  match s with
  | EmptyString => ""
  | String x r => String (if Ascii.eqb x a then b else x) (replace_char a b r)
  end.

(** Python [x in l] for strings *)
Definition str_mem (s : string) (l : list string) : bool :=
  existsb (String.eqb s) l.

(** ** Numbers: optional sign, digits, optional point and digits.  This covers every
    numeric cell of the shipped files; exponents, "nan", "inf" and blanks around
    numbers are not modelled. *)
Definition digit (a : ascii) : option Z :=
  let n := nat_of_ascii a in
  if (Nat.leb 48 n && Nat.leb n 57)%bool then Some (Z.of_nat (n - 48)) else None.

(** [seen]: at least one digit so far; [frac]: denominator if after the point. *)
Fixpoint parse_digits (s : string) (acc : Z) (den : positive) (in_frac seen : bool)
  : option Q :=
  match s with
  | EmptyString => if seen then Some (acc # den) else None
  | String a r =>
    match digit a with
    | Some d => parse_digits r (10 * acc + d)%Z
                             (if in_frac then (10 * den)%positive else den)
                             in_frac true
    | None => if (Ascii.eqb a "." && negb in_frac)%bool
              then parse_digits r acc den true seen
              else None
    end
  end.

Definition parse_number (s : string) : option Q :=
  match s with
  | String "-"%char r => option_map Qopp (parse_digits r 0 1 false false)
  | _ => parse_digits s 0 1 false false
  end.

(** ** Data frames: header and rows of cells (text). *)
Record frame : Type := mkFrame { f_cols : list string; f_rows : list (list string) }.

(** pandas.read_csv: first line is the header, empty lines are skipped. *)
Definition read_csv (text : string) : frame :=
  match filter (fun l => negb (String.eqb l "")) (split_on newline text) with
  | [] => mkFrame [] []
  | h :: rows => mkFrame (split_on comma h) (map (split_on comma) rows)
  end.

(** Cell of a row in the column called [c]. *)
Fixpoint cell (cols : list string) (row : list string) (c : string)
  : option string :=
  match cols, row with
  | k :: cols', x :: row' => if String.eqb k c then Some x else cell cols' row' c
  | _, _ => None
  end.

(** A numeric cell; [None] is NaN (empty or unreadable). *)
Definition num_cell (cols row : list string) (c : string) : option Q :=
  match cell cols row c with
  | Some s => parse_number s
  | None => None
  end.
