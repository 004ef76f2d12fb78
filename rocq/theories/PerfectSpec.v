(** * PerfectSpec: calorically perfect burnt gas, and the wave that belongs to a density ratio. *)
From Coq Require Import String Reals List.
From Verif Require Import PyBase Gas SdSpec.
Local Open Scope R_scope.

Section Spec.
  Context {G X : Type} (L : cantera R G X).

  (** At density [D] the burnt gas obeys p = D Rs T and h = cp T + q, whatever the gas
      object was before, and setting it never fails. *)
  Definition perfect_when_burnt (D Rs cp q : R) : Prop :=
    forall g T, 0 < T -> exists g', settles L g T D g'
      /\ ct_density L g' = D /\ ct_P L g' = D * Rs * T /\ ct_enthalpy L g' = cp * T + q.

  (** A wave at speed [U] into [initial] leaves burnt gas of temperature [T] and density
      [D] behind and conserves mass, momentum and energy. *)
  Definition burnt_by_wave (initial : G) (D T U : R) : Prop :=
    exists g0 g w, settles L g0 T D g /\ wave_conserves L initial g U w.
End Spec.
