(** * NanSdSpec: nan in the properties of a gas, and what was asked of cantera.  Written
    without the functions of pypbomb. *)
From Coq Require Import String List Reals.
From Verif Require Import PyBase Gas NanM.
Import ListNotations.

Definition ordinary (x : fl) : Prop := x <> NaN.

(** One of the properties the Rankine-Hugoniot balances use is nan. *)
Definition nan_gas {G X} (L : cantera fl G X) (g : G) : Prop :=
  ct_P L g = NaN \/ ct_enthalpy L g = NaN \/ ct_density L g = NaN.

(** The temperatures and densities a gas was set to ([gas.TD = T, D]), in order *)
Definition asked {A} (tr : list (event A)) : list (A * A) :=
  flat_map (fun e => match e with EvTD T D => [(T, D)] | _ => [] end) tr.
Definition warned {A} (tr : list (event A)) : Prop := exists m, In (EvWarn m) tr.

(** ** The search for an initial pressure *)
From Verif Require Import Pint ThermoM.
(** One evaluation of the chemistry: the pressure it was made at, what came out, the load
    factor *)
Definition evaluation (G : Type) : Type := (quantity fl * shock_states fl G * fl)%type.
Definition at_pressure {G} (e : evaluation G) : quantity fl := fst (fst e).
Definition result_of {G} (e : evaluation G) : shock_states fl G := snd (fst e).
Definition with_factor {G} (e : evaluation G) : fl := snd e.
(** The state that was asked for *)
Inductive chosen {G} (s : shock_states fl G) : string -> G -> Prop :=
| chosen_reflected : chosen s "reflected" (reflected_state s)
| chosen_cj : chosen s "cj" (cj_gas_state s).
(** its pressure, times the load factor, is ordinary and within, or not within, the relative
    tolerance of the limit [m] *)
Definition within {G X} (L : cantera fl G X) name (m tol : R) (e : evaluation G) : Prop :=
  exists g p k, chosen (result_of e) name g /\ ct_P L g = Fin p /\ with_factor e = Fin k
    /\ (Rabs ((p * k - m) / m) <= tol)%R.
Definition outside {G X} (L : cantera fl G X) name (m tol : R) (e : evaluation G) : Prop :=
  exists g p k, chosen (result_of e) name g /\ ct_P L g = Fin p /\ with_factor e = Fin k
    /\ (tol < Rabs ((p * k - m) / m))%R.
