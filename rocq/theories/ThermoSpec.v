(** * ThermoSpec: vocabulary for the properties of thermochem.py. *)
From Coq Require Import String ZArith QArith Reals List Bool.
From Verif Require Import PyBase Pint UnitsM Gas Spec.
Import ListNotations.
Local Open Scope R_scope.

Section Spec.
  Context {G X : Type} (L : cantera R G X) (x : X) (mech phase : string).

  (** [g]: a new gas object of the mixture set to temperature [T], pressure [P] *)
  Definition gas_at_state (T P : R) (g : G) : Prop :=
    exists g0, ct_new L mech phase = Ok g0 /\ ct_set_TPX L g0 T P x = Ok g.

  (** [g0]: the mixture equilibrated at [T], [P]; [g1]: the same gas after a pressure
      rise of 0.01 % at constant entropy, equilibrated again *)
  Definition isentropic_pair (T P : R) (g0 g1 : G) : Prop :=
    exists g h,
      gas_at_state T P g /\ ct_equilibrate L g "TP" = Ok g0
      /\ ct_set_SP L g0 (ct_entropy L g0) (10001/10000 * ct_P L g0) = Ok h
      /\ ct_equilibrate L h "SP" = Ok g1.
End Spec.

(** an argument that is not the right kind of quantity, or is below zero *)
Definition wrong_or_negative (i : pyin R) (d : dim) : Prop :=
  exists d' v, denotes i d' v /\ (d' <> d \/ v < 0).

(** how often the state of a gas object was set *)
Definition states_set {A} (t : list (event A)) : nat :=
  length (filter (fun e => match e with
                           | EvTPX _ _ | EvTD _ _ | EvSP _ _ => true | _ => false end) t).

(** file names that contain .cti or .xml *)
Definition mechanism_name (s : string) : Prop :=
  exists before after, s = (before ++ ".cti" ++ after)%string \/ s = (before ++ ".xml" ++ after)%string.
