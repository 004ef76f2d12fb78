(** * UnitsM: model of /repo/pypbomb/units.py *)
From Coq Require Import String ZArith QArith List Bool.
From Verif Require Import PyBase Pint.
Import ListNotations.
Local Open Scope num_scope.
Local Open Scope string_scope.

(** ** Python objects handed to the two functions. *)
Section Objects.
  Context (A : Type).

  (** The magnitude of a pint quantity: a number, a one-dimensional ndarray, or
      something on which [float()] raises ValueError (e.g. a word). *)
  Inductive rawmag : Type :=
  | MNum (a : A)
  | MArr (l : list A)
  | MNonNum.

  (** The argument of check_pint_quantity: a pint quantity or anything without a
      [dimensionality] attribute. *)
  Inductive pyobj : Type :=
  | OQuant (m : rawmag) (u : unit_ A)
  | OOther.

  (** Items of an iterable, and the argument of parse_quant_input: a quantity with
      a scalar magnitude, a sized iterable (tuple, list, string = list of
      one-character strings), or something else without [__iter__]. *)
  Inductive elem : Type :=
  | ENum (a : A)
  | EStr (s : string).
  Inductive pyin : Type :=
  | PQuant (q : quantity A)
  | PSeq (l : list elem)
  | PNoIter.
End Objects.
Arguments MNum {A}. Arguments MArr {A}. Arguments MNonNum {A}.
Arguments OQuant {A}. Arguments OOther {A}.
Arguments ENum {A}. Arguments EStr {A}.
Arguments PQuant {A}. Arguments PSeq {A}. Arguments PNoIter {A}.

(** units.py:46-55: the table of supported dimension types.  The code compares
    dimensionality strings; the model compares dimensions. *)
Definition supported_dimension (s : string) : option dim :=
  if s =? "length" then Some d_length
  else if s =? "area" then Some d_area
  else if s =? "volume" then Some d_volume
  else if s =? "temperature" then Some d_temperature
  else if s =? "pressure" then Some d_pressure
  else if s =? "velocity" then Some d_velocity
  else if s =? "density" then Some d_density
  else None.

Section Units.
  Context {A : Type} {NA : Num A}.

  (** units.py:10-81 check_pint_quantity.
      Order of the checks is the order of the code: first element of an ndarray
      (42-44), supported dimension type (57-58), is a quantity (60-63), is numeric
      (65-68), sign in base units (70-72), dimension (74-79).
      Simplified: the text of the last message. *)
  Definition check_pint_quantity (o : pyobj A) (dimension_type : string)
      (ensure_positive : bool) : result bool :=
    let* o := match o with
              | OQuant (MArr l) u =>
                match l with
                | [] => Err IndexError
                | a :: _ => Ok (OQuant (MNum a) u)
                end
              | _ => Ok o
              end in
    match supported_dimension dimension_type with
    | None => Err (ValueError (dimension_type ++ " not a supported dimension type"))
    | Some d =>
      match o with
      | OOther => Err (ValueError "Non-pint quantity")
      | OQuant (MNum a) u =>
        let q := mkQ a u 0 in
        let* _ := raise_if (ensure_positive && (base_mag q <? zero)%num)
                           (ValueError "Input value < 0") in
        let* _ := raise_if (negb (dim_eqb (u_dim u) d))
                           (ValueError "wrong dimension") in
        Ok true
      | OQuant MNonNum _ => Err (ValueError "Non-numeric pint quantity")
      | OQuant (MArr _) _ => Err Unmodelled (* not reached *)
      end
    end.

  (** The same on a scalar quantity (how tube.py and thermochem.py call it). *)
  Definition check_q (q : quantity A) (dimension_type : string) (pos : bool)
    : result bool :=
    check_pint_quantity (OQuant (MNum (q_mag q)) (q_unit q)) dimension_type pos.

  (** [unit_registry.Quantity(x, y)] for x, y items of an iterable. *)
  Definition quantity_of_items (x y : elem A) (reg : nat) : result (quantity A) :=
    match x, y with
    | ENum m, EStr s => quant reg m s
    | ENum _, ENum _ => Err (TypeError "units must be of type str")
    | EStr _, _ => Err Unmodelled
    end.

  (** units.py:84-114 parse_quant_input.  [q.units.format_babel()] is assumed to
      name the same unit in the new registry. *)
  Definition parse_quant_input (i : pyin A) (reg : nat) : result (quantity A) :=
    match i with
    | PQuant q => Ok (mkQ (q_mag q) (q_unit q) reg)
    | PSeq [x; y] => quantity_of_items x y reg
    | _ => Err (ValueError "Bad quantity input")
    end.

  (** parse, then [.to_base_units()] *)
  Definition parse_base (i : pyin A) (reg : nat) : result (quantity A) :=
    let* q := parse_quant_input i reg in Ok (to_base_units q).
End Units.
