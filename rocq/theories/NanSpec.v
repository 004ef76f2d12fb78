(** * NanSpec: what it means for an argument to be nan, and for an answer not to be an
    ordinary number.  Written without the model's functions. *)
From Coq Require Import String ZArith QArith Reals List Bool.
From Verif Require Import PyBase Pint UnitsM Gas BoltM WindowM DdtM FitM SdM ThermoM InitPressureM NanM.
Import ListNotations.

(** A quantity argument whose number is nan: a pint quantity, or a pair such as
    [(nan, "inch")]. *)
Inductive nan_arg : pyin fl -> Prop :=
| nan_quantity u reg : nan_arg (PQuant (mkQ NaN u reg))
| nan_pair unit : nan_arg (PSeq [ENum NaN; EStr unit]).

Definition nan_quant (q : quantity fl) : Prop := q_mag q = NaN.

(** The answer is not an ordinary number: an exception (or numpy's inf/nan, which the
    model also shows as [Err NotFinite]), or nan. *)
Definition no_number (r : result fl) : Prop := forall v, r = Ok v -> v = NaN.
Definition no_quantity (r : result (quantity fl)) : Prop :=
  forall q, r = Ok q -> q_mag q = NaN.

(** The same number, quantity, argument, or nan in its place *)
Definition or_nan (x x' : fl) : Prop := x' = x \/ x' = NaN.
Definition q_or_nan (q q' : quantity fl) : Prop :=
  q_unit q' = q_unit q /\ q_reg q' = q_reg q /\ or_nan (q_mag q) (q_mag q').
(** Whenever the first run gives an answer so does the second, and the answers are
    related by [P]. *)
Definition follows {B} (P : B -> B -> Prop) (x x' : result B) : Prop :=
  forall a, x = Ok a -> exists a', x' = Ok a' /\ P a a'.
(** The same argument, with nan for its number *)
Inductive arg_or_nan : pyin fl -> pyin fl -> Prop :=
| an_same i : arg_or_nan i i
| an_quant m u r r' : arg_or_nan (PQuant (mkQ m u r)) (PQuant (mkQ NaN u r'))
| an_pair m s : arg_or_nan (PSeq [ENum m; EStr s]) (PSeq [ENum NaN; EStr s]).

(** The same numbers, seen as the numbers of the nan-free model. *)
Definition fin_unit (u : unit_ R) : unit_ fl :=
  mkUnit (u_dim u) (Fin (u_scale u)) (option_map Fin (u_off u)).
Definition fin_quant (q : quantity R) : quantity fl :=
  mkQ (Fin (q_mag q)) (fin_unit (q_unit q)) (q_reg q).
Definition fin_elem (e : elem R) : elem fl :=
  match e with ENum x => ENum (Fin x) | EStr s => EStr s end.
Definition fin_arg (i : pyin R) : pyin fl :=
  match i with
  | PQuant q => PQuant (fin_quant q)
  | PSeq l => PSeq (map fin_elem l)
  | PNoIter => PNoIter
  end.
Definition fin_result {A B} (f : A -> B) (r : result A) : result B :=
  match r with Ok a => Ok (f a) | Err e => Err e end.
Definition fin_sf (s : sf_arg R) : sf_arg fl :=
  match s with SfNum x => SfNum (Fin x) | SfNonNumeric => SfNonNumeric end.
Definition fin_br (b : br_arg R) : br_arg fl :=
  match b with
  | BrNum x => BrNum (Fin x)
  | BrStr o => BrStr (option_map Fin o)
  | BrOther => BrOther
  end.
Definition fin_factors (f : bolt_factors R) : bolt_factors fl :=
  mkFactors (Fin (sf_bolt f)) (Fin (sf_plate f)) (sf_warning f).
Definition fin_areas (t : thread_areas R) : thread_areas fl :=
  mkThread (fin_quant (screw_area t)) (fin_quant (plate_area t))
           (fin_quant (minimum_engagement t)) (shear_warning t).

(** ** Cantera, on ordinary numbers *)
Definition fin_event (e : event R) : event fl :=
  match e with
  | EvNew m p => EvNew m p
  | EvTPX T P => EvTPX (Fin T) (Fin P)
  | EvTD T D => EvTD (Fin T) (Fin D)
  | EvSP s P => EvSP (Fin s) (Fin P)
  | EvEquilibrate m => EvEquilibrate m
  | EvFlame => EvFlame
  | EvWarn m => EvWarn m
  | EvPoolOpen => EvPoolOpen
  | EvPoolClose => EvPoolClose
  | EvStuck => EvStuck
  end.
(** what a call did and gave *)
Definition fin_io {A B} (f : A -> B) (r : io R A) : io fl B :=
  (map fin_event (trace r), fin_result f (value r)).

(** The second library does with ordinary numbers what the first does, and its gases have
    the same, ordinary, properties. *)
Record same_gas {G X} (L : cantera R G X) (L' : cantera fl G X) : Prop := {
  sg_new : forall m p, ct_new L' m p = ct_new L m p;
  sg_TPX : forall g T P x, ct_set_TPX L' g (Fin T) (Fin P) x = ct_set_TPX L g T P x;
  sg_TD : forall g T D, ct_set_TD L' g (Fin T) (Fin D) = ct_set_TD L g T D;
  sg_SP : forall g S P, ct_set_SP L' g (Fin S) (Fin P) = ct_set_SP L g S P;
  sg_eq : forall g m, ct_equilibrate L' g m = ct_equilibrate L g m;
  sg_T : forall g, ct_T L' g = Fin (ct_T L g);
  sg_P : forall g, ct_P L' g = Fin (ct_P L g);
  sg_density : forall g, ct_density L' g = Fin (ct_density L g);
  sg_enthalpy : forall g, ct_enthalpy L' g = Fin (ct_enthalpy L g);
  sg_entropy : forall g, ct_entropy L' g = Fin (ct_entropy L g);
  sg_X : forall g, ct_X L' g = ct_X L g;
  sg_viscosity : forall g, ct_viscosity L' g = fin_result Fin (ct_viscosity L g);
  sg_flame : forall g, ct_flame_speed L' g = fin_result Fin (ct_flame_speed L g)
}.
(** The same workers *)
Definition fin_job (j : nat * R) : nat * fl := (fst j, Fin (snd j)).
Inductive same_pool : pool R -> pool fl -> Prop :=
| sp_serial : same_pool Serial Serial
| sp_workers s s' :
    (forall n l, s' n (map fin_job l) = map fin_job (s n l)) -> same_pool (Workers s) (Workers s').

Definition fin_answer (a : answer R) : answer fl :=
  match a with
  | Pressure p => Pressure (fin_quant p)
  | PressureAndFactor p d => PressureAndFactor (fin_quant p) (Fin d)
  end.
Definition fin_shock {G} (s : shock_states R G) : shock_states fl G :=
  mkShock (fin_quant (reflected_speed s)) (reflected_state s)
          (fin_quant (cj_wave_speed s)) (cj_gas_state s).

(** Such a library exists: whatever it does with nan. *)
Definition with_nan {G X} (L : cantera R G X) : cantera fl G X :=
  let two {B} (f : R -> R -> result B) (a b : fl) :=
    match a, b with Fin x, Fin y => f x y | _, _ => Err (ValueError "nan") end in
  mkCantera fl G X (ct_new L)
    (fun g T P x => two (fun T P => ct_set_TPX L g T P x) T P)
    (fun g T D => two (ct_set_TD L g) T D)
    (fun g S P => two (ct_set_SP L g) S P)
    (ct_equilibrate L)
    (fun g => Fin (ct_T L g)) (fun g => Fin (ct_P L g)) (fun g => Fin (ct_density L g))
    (fun g => Fin (ct_enthalpy L g)) (fun g => Fin (ct_entropy L g)) (ct_X L)
    (fun g => fin_result Fin (ct_viscosity L g)) (fun g => fin_result Fin (ct_flame_speed L g)).

(** 1 atm *)
Definition one_atmosphere (q : quantity fl) (reg : nat) : Prop :=
  lookup_unit "atm" = Some (q_unit q) /\ q_mag q = Fin 1 /\ q_reg q = reg.
