(** * RoundPipeSpec: rating a catalogue pipe, in any arithmetic. *)
From Coq Require Import String List.
From Verif Require Import PyBase Pint UnitsM Spec TubeM.
Local Open Scope string_scope.

(** What a user does to rate a pipe of the catalogue: look its dimensions up, get the stress
    limit of its material at the temperature, and ask for the maximum pressure. *)
Definition rated_pipe {A} {N : Num A} (size schedule : string) (temp : pyin A)
    (material : string) (welded : bool) (safety_factor : A) (reg : nat) : result (quantity A) :=
  let* dims := get_dimensions size schedule reg in
  let* stress := calculate_max_stress temp material welded reg in
  calculate_max_pressure (inner_diameter dims) (outer_diameter dims) stress safety_factor.
