(** * Pint: the part of the pint library pypbomb uses.

    pint itself is not in /repo; this file is the assumed contract (see DESIGN.md,
    trusted base).  A unit is represented by its meaning: a dimension, a scale to
    base units and, for temperatures, an offset.  A quantity carries the identity of
    the registry that made it, because pint refuses to combine quantities of
    different registries.  Only length, mass, time and temperature occur. *)
From Coq Require Import String ZArith QArith List Bool.
From Verif Require Import PyBase.
Import ListNotations.
Local Open Scope num_scope.

(** ** Dimensions: exponents of length, mass, time, temperature. *)
Record dim : Type := mkDim { dL : Z; dM : Z; dT : Z; dK : Z }.

Definition dim_eqb (a b : dim) : bool :=
  Z.eqb (dL a) (dL b) && Z.eqb (dM a) (dM b) && Z.eqb (dT a) (dT b)
  && Z.eqb (dK a) (dK b).
Definition dim_mul (a b : dim) : dim :=
  mkDim (dL a + dL b)%Z (dM a + dM b)%Z (dT a + dT b)%Z (dK a + dK b)%Z.
Definition dim_div (a b : dim) : dim :=
  mkDim (dL a - dL b)%Z (dM a - dM b)%Z (dT a - dT b)%Z (dK a - dK b)%Z.
(** [n]-th root of a dimension; pint allows fractional exponents, the model only
    integral ones (the code never needs others: theorems show [Unmodelled] is not
    reached). *)
Definition dim_root (n : Z) (a : dim) : option dim :=
  if (Z.eqb (dL a mod n) 0 && Z.eqb (dM a mod n) 0
      && Z.eqb (dT a mod n) 0 && Z.eqb (dK a mod n) 0)%bool
  then Some (mkDim (dL a / n)%Z (dM a / n)%Z (dT a / n)%Z (dK a / n)%Z)
  else None.

Definition d_none : dim := mkDim 0 0 0 0.
Definition d_length : dim := mkDim 1 0 0 0.
Definition d_area : dim := mkDim 2 0 0 0.
Definition d_volume : dim := mkDim 3 0 0 0.
Definition d_invlength : dim := mkDim (-1) 0 0 0.
Definition d_temperature : dim := mkDim 0 0 0 1.
Definition d_pressure : dim := mkDim (-1) 1 (-2) 0.
Definition d_velocity : dim := mkDim 1 0 (-1) 0.
Definition d_density : dim := mkDim (-3) 1 0 0.
Definition d_viscosity : dim := mkDim (-1) 1 (-1) 0.

Section Pint.
  Context {A : Type} {NA : Num A}.

  (** base value = magnitude * scale (+ offset). *)
  Record unit_ : Type := mkUnit { u_dim : dim; u_scale : A; u_off : option A }.
  Record quantity : Type := mkQ { q_mag : A; q_unit : unit_; q_reg : nat }.

  Definition mult_unit (d : dim) (s : A) : unit_ := mkUnit d s None.

  (** ** Named units (the strings pypbomb and its tests hand to pint). *)
  Definition s_inch : A := lit 0.0254.
  Definition s_psi : A :=     (* pound-force per square inch *)
    lit 0.45359237 * lit 9.80665 / (s_inch * s_inch).

  Definition unit_table : list (string * unit_) :=
    [ (""%string, mult_unit d_none one);
      ("dimensionless"%string, mult_unit d_none one);
      ("m"%string, mult_unit d_length one);
      ("meter"%string, mult_unit d_length one);
      ("mm"%string, mult_unit d_length (lit 0.001));
      ("millimeter"%string, mult_unit d_length (lit 0.001));
      ("cm"%string, mult_unit d_length (lit 0.01));
      ("in"%string, mult_unit d_length s_inch);
      ("inch"%string, mult_unit d_length s_inch);
      ("ft"%string, mult_unit d_length (lit 0.3048));
      ("mile"%string, mult_unit d_length (lit 1609.344));
      ("m^2"%string, mult_unit d_area one);
      ("in^2"%string, mult_unit d_area (s_inch * s_inch));
      ("m^3"%string, mult_unit d_volume one);
      ("1/in"%string, mult_unit d_invlength (one / s_inch));
      ("Pa"%string, mult_unit d_pressure one);
      ("kPa"%string, mult_unit d_pressure (lit 1000));
      ("MPa"%string, mult_unit d_pressure (lit 1000000));
      ("GPa"%string, mult_unit d_pressure (lit 1000000000));
      ("bar"%string, mult_unit d_pressure (lit 100000));
      ("atm"%string, mult_unit d_pressure (lit 101325));
      ("psi"%string, mult_unit d_pressure s_psi);
      ("ksi"%string, mult_unit d_pressure (lit 1000 * s_psi));
      ("K"%string, mult_unit d_temperature one);
      ("kelvin"%string, mult_unit d_temperature one);
      ("degC"%string, mkUnit d_temperature one (Some (lit 273.15)));
      ("degree_Celsius"%string, mkUnit d_temperature one (Some (lit 273.15)));
      ("degF"%string,
        mkUnit d_temperature (lit (5 # 9)) (Some (lit (45967 # 180))));
      ("degree_Fahrenheit"%string,
        mkUnit d_temperature (lit (5 # 9)) (Some (lit (45967 # 180))));
      ("m/s"%string, mult_unit d_velocity one);
      ("kg/m^3"%string, mult_unit d_density one);
      ("g/cm^3"%string, mult_unit d_density (lit 1000));
      ("g/cm**3"%string, mult_unit d_density (lit 1000));
      ("Pa*s"%string, mult_unit d_viscosity one) ].

  Fixpoint assoc {B} (s : string) (l : list (string * B)) : option B :=
    match l with
    | [] => None
    | (k, v) :: r => if String.eqb k s then Some v else assoc s r
    end.

  Definition lookup_unit (s : string) : option unit_ := assoc s unit_table.

  (** [Quantity(m, "unit")] *)
  Definition quant (reg : nat) (m : A) (s : string) : result quantity :=
    match lookup_unit s with
    | Some u => Ok (mkQ m u reg)
    | None => Err UndefinedUnitError
    end.

  (** ** Conversions. *)
  Definition base_mag (q : quantity) : A :=
    match u_off (q_unit q) with
    | None => q_mag q * u_scale (q_unit q)
    | Some o => q_mag q * u_scale (q_unit q) + o
    end.

  (** [q.to_base_units()] *)
  Definition to_base_units (q : quantity) : quantity :=
    mkQ (base_mag q) (mult_unit (u_dim (q_unit q)) one) (q_reg q).

  (** [q.to(u)] *)
  Definition q_to (q : quantity) (u : unit_) : result quantity :=
    if dim_eqb (u_dim (q_unit q)) (u_dim u) then
      let b := base_mag q in
      Ok (mkQ (match u_off u with
               | None => b / u_scale u
               | Some o => (b - o) / u_scale u
               end) u (q_reg q))
    else Err DimensionalityError.

  Definition q_to_str (q : quantity) (s : string) : result quantity :=
    match lookup_unit s with
    | Some u => q_to q u
    | None => Err UndefinedUnitError
    end.

  Definition offset_free (q : quantity) : result unit :=
    match u_off (q_unit q) with
    | None => Ok tt
    | Some _ => Err OffsetUnitCalculusError
    end.

  Definition same_reg (p q : quantity) : result unit :=
    if Nat.eqb (q_reg p) (q_reg q) then Ok tt
    else Err (ValueError
      "Cannot operate with Quantity and Quantity of different registries.").

  (** ** Arithmetic. *)
  Definition q_mul (p q : quantity) : result quantity :=
    let* _ := same_reg p q in
    let* _ := offset_free p in
    let* _ := offset_free q in
    Ok (mkQ (q_mag p * q_mag q)
            (mult_unit (dim_mul (u_dim (q_unit p)) (u_dim (q_unit q)))
                       (u_scale (q_unit p) * u_scale (q_unit q)))
            (q_reg p)).

  (** [div] is [pydiv] for Python numbers, [npdiv] for numpy numbers. *)
  Definition q_div (div : A -> A -> result A) (p q : quantity) : result quantity :=
    let* _ := same_reg p q in
    let* _ := offset_free p in
    let* _ := offset_free q in
    let* m := div (q_mag p) (q_mag q) in
    Ok (mkQ m (mult_unit (dim_div (u_dim (q_unit p)) (u_dim (q_unit q)))
                         (u_scale (q_unit p) / u_scale (q_unit q)))
            (q_reg p)).

  (** number * quantity *)
  Definition q_scale (k : A) (q : quantity) : result quantity :=
    let* _ := offset_free q in
    Ok (mkQ (k * q_mag q) (q_unit q) (q_reg q)).

  (** quantity / number *)
  Definition q_divn (div : A -> A -> result A) (q : quantity) (k : A)
    : result quantity :=
    let* _ := offset_free q in
    let* m := div (q_mag q) k in
    Ok (mkQ m (q_unit q) (q_reg q)).

  (** number / quantity *)
  Definition n_divq (div : A -> A -> result A) (k : A) (q : quantity)
    : result quantity :=
    let* _ := offset_free q in
    let* m := div k (q_mag q) in
    Ok (mkQ m (mult_unit (dim_div d_none (u_dim (q_unit q)))
                         (one / u_scale (q_unit q))) (q_reg q)).

  (** quantity +- quantity: the second operand is converted to the unit of the
      first. *)
  Definition q_addsub (op : A -> A -> A) (p q : quantity) : result quantity :=
    let* _ := same_reg p q in
    let* _ := offset_free p in
    let* _ := offset_free q in
    let* q' := q_to q (q_unit p) in
    Ok (mkQ (op (q_mag p) (q_mag q')) (q_unit p) (q_reg p)).
  Definition q_add := q_addsub nadd.
  Definition q_sub := q_addsub nsub.

  (** number + quantity: only for dimensionless quantities *)
  Definition n_addq (k : A) (q : quantity) : result quantity :=
    if dim_eqb (u_dim (q_unit q)) d_none then
      Ok (mkQ (k + base_mag q) (mult_unit d_none one) (q_reg q))
    else Err DimensionalityError.

  (** [q ** 2] *)
  Definition q_sq (q : quantity) : result quantity :=
    let* _ := offset_free q in
    Ok (mkQ (sq (q_mag q))
            (mult_unit (dim_mul (u_dim (q_unit q)) (u_dim (q_unit q)))
                       (sq (u_scale (q_unit q)))) (q_reg q)).

  (** [np.sqrt(q)] *)
  Definition q_sqrt (q : quantity) : result quantity :=
    let* _ := offset_free q in
    match dim_root 2 (u_dim (q_unit q)) with
    | None => Err Unmodelled
    | Some d =>
      let* m := npsqrt (q_mag q) in
      Ok (mkQ m (mult_unit d (nsqrt (u_scale (q_unit q)))) (q_reg q))
    end.

  (** [q ** (1./4)] on Python numbers: a negative base gives a complex number,
      which the model does not represent. *)
  Definition q_root4 (q : quantity) : result quantity :=
    let* _ := offset_free q in
    match dim_root 4 (u_dim (q_unit q)) with
    | None => Err Unmodelled
    | Some d =>
      if q_mag q <? zero then Err Unmodelled else
      Ok (mkQ (nsqrt (nsqrt (q_mag q)))
              (mult_unit d (nsqrt (nsqrt (u_scale (q_unit q))))) (q_reg q))
    end.

  (** [p < q], [p > q], [p >= q] : compared in base units *)
  Definition q_cmp (c : A -> A -> bool) (p q : quantity) : result bool :=
    let* _ := same_reg p q in
    if dim_eqb (u_dim (q_unit p)) (u_dim (q_unit q))
    then Ok (c (base_mag p) (base_mag q))
    else Err DimensionalityError.
  Definition q_lt := q_cmp nltb.
  Definition q_gt := q_cmp (fun a b => nltb b a).
  Definition q_ge := q_cmp (fun a b => nleb b a).

  (** [q.to("").magnitude] *)
  Definition q_plain (q : quantity) : result A :=
    let* q' := q_to q (mult_unit d_none one) in Ok (q_mag q').
End Pint.
Arguments unit_ A : clear implicits.
Arguments quantity A : clear implicits.
Arguments s_inch {A NA} : simpl never.
Arguments s_psi {A NA} : simpl never.
