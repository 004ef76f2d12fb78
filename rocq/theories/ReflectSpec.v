(** * ReflectSpec: reflection of a shock in a calorically perfect gas (C137, C138). *)
From Coq Require Import String Reals List.
From Verif Require Import PyBase Gas SdSpec.
Local Open Scope R_scope.

Section Spec.
  Context {G X : Type} (L : cantera R G X).

  (** p = rho Rs T and h = cp T + q *)
  Definition perfect_state (Rs cp q : R) (g : G) : Prop :=
    ct_P L g = ct_density L g * Rs * ct_T L g /\ ct_enthalpy L g = cp * ct_T L g + q.

  (** Setting temperature and density and equilibrating never fails and leaves a gas at
      that temperature and density that obeys these laws, whatever the gas object was
      before. *)
  Definition perfect_gas (Rs cp q : R) : Prop :=
    forall g T D, 0 < T -> 0 < D ->
      exists g', settles L g T D g' /\ ct_T L g' = T /\ ct_density L g' = D
                 /\ perfect_state Rs cp q g'.

  (** [g] is the gas behind the reflected shock: the shock runs at [W] into the gas [g2]
      that comes towards it at [u], stops it, and mass, momentum and energy are conserved
      across it; and it compresses the gas. *)
  Definition reflected_state (Rs cp q : R) (g2 : G) (u : R) (g : G) (W : R) : Prop :=
    0 < ct_T L g /\ ct_density L g2 < ct_density L g /\ perfect_state Rs cp q g
    /\ wave_conserves L g2 g (u + W) W.
End Spec.
