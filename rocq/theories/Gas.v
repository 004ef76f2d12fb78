(** * Gas: the part of the cantera library pypbomb uses, and effects.

    cantera is not in /repo; it is a parameter of the model.  [cantera A G X] holds
    arbitrary functions: the state [G] of a [ct.Solution] object is abstract, every
    setter may raise, and equilibration may depend on the whole state of the object
    (so on its history).  Nothing is assumed about them unless a theorem says so.

    Model functions that drive cantera live in the monad [io]: they return the list
    of things they did, in order, next to the value or the exception. *)
From Coq Require Import String ZArith QArith List Bool.
From Verif Require Import PyBase.
Import ListNotations.
Local Open Scope num_scope.

(** What a caller (or cantera) can observe a function doing. *)
Inductive event (A : Type) : Type :=
| EvNew (mechanism phase : string)      (* ct.Solution(mechanism, phase) *)
| EvTPX (T P : A)                       (* gas.TPX = T, P, ... *)
| EvTD (T D : A)                        (* gas.TD = T, D *)
| EvSP (S P : A)                        (* gas.SP = S, P *)
| EvEquilibrate (XY : string)           (* gas.equilibrate(XY) *)
| EvFlame                               (* ct.FreeFlame(gas) ... solve *)
| EvWarn (msg : string)                 (* warnings.warn(msg) *)
| EvPoolOpen                            (* mp.Pool() *)
| EvPoolClose                           (* pool.close() *)
| EvStuck.                              (* not an event: the model's loop counter ran
                                           out before the Python loop ended *)
Arguments EvNew {A} mechanism phase.
Arguments EvTPX {A} T P.
Arguments EvTD {A} T D.
Arguments EvSP {A} S P.
Arguments EvEquilibrate {A} XY.
Arguments EvFlame {A}.
Arguments EvWarn {A} msg.
Arguments EvPoolOpen {A}.
Arguments EvPoolClose {A}.
Arguments EvStuck {A}.

Definition io (A B : Type) : Type := (list (event A) * result B)%type.
Definition trace {A B} (r : io A B) : list (event A) := fst r.
Definition value {A B} (r : io A B) : result B := snd r.

Definition ret {A B} (b : B) : io A B := ([], Ok b).
(** a computation without effects *)
Definition pure {A B} (r : result B) : io A B := ([], r).
Definition act {A B} (e : event A) (r : result B) : io A B := ([e], r).
Definition emit {A} (e : event A) : io A unit := ([e], Ok tt).
Definition io_bind {A B C} (m : io A B) (f : B -> io A C) : io A C :=
  match snd m with
  | Ok b => (fst m ++ fst (f b), snd (f b))
  | Err e => (fst m, Err e)
  end.

Notation "'do' x <- e ; k" := (io_bind e (fun x => k))
  (at level 200, x pattern, e at level 100, k at level 200, right associativity).

(** Python [list(map(f, l))] *)
Fixpoint io_map {A B C} (f : B -> io A C) (l : list B) : io A (list C) :=
  match l with
  | [] => ret []
  | x :: r => do y <- f x; do ys <- io_map f r; ret (y :: ys)
  end.

(** cantera.Solution and cantera.FreeFlame, as far as pypbomb uses them. *)
Record cantera (A G X : Type) : Type := mkCantera {
  ct_new : string -> string -> result G;         (* ct.Solution(mech, phase) *)
  ct_set_TPX : G -> A -> A -> X -> result G;     (* gas.TPX = T, P, X *)
  ct_set_TD : G -> A -> A -> result G;           (* gas.TD = T, D *)
  ct_set_SP : G -> A -> A -> result G;           (* gas.SP = s, P *)
  ct_equilibrate : G -> string -> result G;      (* gas.equilibrate(XY) *)
  ct_T : G -> A;                                 (* gas.T *)
  ct_P : G -> A;                                 (* gas.P *)
  ct_density : G -> A;                           (* gas.density, gas.density_mass *)
  ct_enthalpy : G -> A;                          (* gas.enthalpy_mass *)
  ct_entropy : G -> A;                           (* gas.s *)
  ct_X : G -> X;                                 (* gas.X *)
  ct_viscosity : G -> result A;                  (* gas.viscosity; may raise *)
  ct_flame_speed : G -> result A                 (* FreeFlame(gas) ... u[0] *)
}.
Arguments ct_new {A G X}.
Arguments ct_set_TPX {A G X}.
Arguments ct_set_TD {A G X}.
Arguments ct_set_SP {A G X}.
Arguments ct_equilibrate {A G X}.
Arguments ct_T {A G X}.
Arguments ct_P {A G X}.
Arguments ct_density {A G X}.
Arguments ct_enthalpy {A G X}.
Arguments ct_entropy {A G X}.
Arguments ct_X {A G X}.
Arguments ct_viscosity {A G X}.
Arguments ct_flame_speed {A G X}.

Section Ops.
  Context {A G X : Type} {NA : Num A} (L : cantera A G X).

  (** the cantera calls, recorded *)
  Definition new_solution (mech phase : string) : io A G :=
    act (EvNew mech phase) (ct_new L mech phase).
  Definition set_TPX (g : G) (T P : A) (x : X) : io A G :=
    act (EvTPX T P) (ct_set_TPX L g T P x).
  Definition set_TD (g : G) (T D : A) : io A G :=
    act (EvTD T D) (ct_set_TD L g T D).
  Definition set_SP (g : G) (S P : A) : io A G :=
    act (EvSP S P) (ct_set_SP L g S P).
  Definition equilibrate (g : G) (XY : string) : io A G :=
    act (EvEquilibrate XY) (ct_equilibrate L g XY).
  Definition flame_speed (g : G) : io A A :=
    act EvFlame (ct_flame_speed L g).
End Ops.
