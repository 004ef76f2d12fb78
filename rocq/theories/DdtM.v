(** * DdtM: model of the blockage functions of class DDT,
    /repo/pypbomb/tube.py:690-801 *)
From Coq Require Import String ZArith QArith List Bool.
From Verif Require Import PyBase Pint UnitsM.
Local Open Scope string_scope.
Local Open Scope num_scope.

(** The blockage_ratio argument: a number, a string (with the number [float()] reads
    from it, if any), or another object on which [float()] raises TypeError. *)
Inductive br_arg (A : Type) : Type :=
| BrNum (a : A)
| BrStr (parsed : option A)
| BrOther.
Arguments BrNum {A}. Arguments BrStr {A}. Arguments BrOther {A}.

Section DDT.
  Context {A : Type} {NA : Num A}.

  (** [float(blockage_ratio)], tube.py:723-727 *)
  Definition br_float (b : br_arg A) : result A :=
    match b with
    | BrNum a => Ok a
    | BrStr (Some a) => Ok a
    | BrStr None => Err (ValueError "Non-numeric blockage ratio.")
    | BrOther => Err (TypeError "float() argument")
    end.

  (** tube.py:694-742 DDT.calculate_blockage_diameter *)
  Definition calculate_blockage_diameter (pipe_id : pyin A) (blockage_ratio : br_arg A)
      (reg : nat) : result (quantity A) :=
    let* br := br_float blockage_ratio in
    let* _ := raise_if (negb ((zero <? br) && (br <? one)))
                       (ValueError "Blockage ratio outside of 0<BR<1") in
    let* pipe_id := parse_quant_input pipe_id reg in
    let* _ := check_q pipe_id "length" true in
    let* half := q_divn pydiv pipe_id (lit 2) in
    q_scale (one - nsqrt (one - br)) half.

  (** tube.py:744-801 DDT.calculate_blockage_ratio *)
  Definition calculate_blockage_ratio (tube_inner_diameter blockage_diameter : pyin A)
      (reg : nat) : result A :=
    let* tube_inner_diameter := parse_base tube_inner_diameter reg in
    let* blockage_diameter := parse_base blockage_diameter reg in
    let* _ := check_q tube_inner_diameter "length" true in
    let* _ := check_q blockage_diameter "length" true in
    let* _ := raise_if (q_mag tube_inner_diameter =? zero)
                       (ValueError "tube ID cannot be 0") in
    let* ge := q_ge blockage_diameter tube_inner_diameter in
    let* _ := raise_if ge (ValueError "blockage diameter >= tube diameter") in
    let* ratio := pydiv (lit 2 * q_mag blockage_diameter)
                        (q_mag tube_inner_diameter) in
    Ok (one - sq (one - ratio)).
End DDT.
