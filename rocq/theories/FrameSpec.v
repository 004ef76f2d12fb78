(** * FrameSpec: the answer of a call on its own, that is of the functions of FlangeM.v and
    TubeM.v, which read the tables as constants (what those return is the subject of C23-C26,
    C36-C42, C112, C113). *)
From Coq Require Import String ZArith List.
From Verif Require Import PyBase Pint UnitsM Csv Tables TubeM FlangeM HeapM FrameM.

Definition alone {A} {NA : Num A} (strict : bool) (c : call A) : answer A :=
  match c with
  | CMaxStress t m w reg => AQuantity (calculate_max_stress t m w reg)
  | CClass p t m reg => AClass (get_class strict p t m reg)
  | CMaxPressure c t m => AQuantity (get_max_pressure strict c t m)
  | CMaxTemperature c p m => AQuantity (get_max_temperature strict c p m)
  end.
