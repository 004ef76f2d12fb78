(** * VectorTubeM: the functions of class Tube and class DDT called with arrays.

    Tube.calculate_max_stress, Tube.dynamic_load_factor, Tube.calculate_max_pressure
    (/repo/pypbomb/tube.py:1218-1456) and DDT.calculate_blockage_diameter,
    DDT.calculate_blockage_ratio (tube.py:694-801).  Quantities and broadcasting are those
    of VectorM.v; every other line is read as in TubeM.v and DdtM.v.

    Simplification (as in VectorM.v): where one element of an array becomes inf or nan the
    model gives [NotFinite] for the whole call. *)
From Coq Require Import String ZArith QArith List Bool.
From Verif Require Import PyBase Pint UnitsM Csv Tables Interp TubeM DdtM VectorM.
Import ListNotations.
Local Open Scope string_scope.
Local Open Scope num_scope.

Section VectorTube.
  Context {A : Type} {NA : Num A}.

  (** [p + q] *)
  Definition v_add (p q : vquantity A) : result (vquantity A) :=
    let* _ := v_same_reg p q in
    let* _ := v_offset_free p in
    let* _ := v_offset_free q in
    let* q' := v_to q (v_unit p) in
    let* m := lift2 (fun a b => Ok (a + b)) (v_mag p) (v_mag q') in
    Ok (mkV m (v_unit p) (v_reg p)).
  (** [q ** (1/4)]: nan for a negative element *)
  Definition v_root4 (q : vquantity A) : result (vquantity A) :=
    let* _ := v_offset_free q in
    match dim_root 4 (u_dim (v_unit q)) with
    | None => Err Unmodelled
    | Some d =>
      let* m := lift1 (fun x => if x <? zero then Err NotFinite else Ok (nsqrt (nsqrt x)))
                      (v_mag q) in
      Ok (mkV m (mult_unit d (nsqrt (nsqrt (u_scale (v_unit q))))) (v_reg q))
    end.
  Definition v_to_str (q : vquantity A) (s : string) : result (vquantity A) :=
    match lookup_unit s with
    | Some u => v_to q u
    | None => Err UndefinedUnitError
    end.
  (** [if p >= q:] on quantities *)
  Definition v_ge (p q : vquantity A) : result bool :=
    let* _ := v_same_reg p q in
    if dim_eqb (u_dim (v_unit p)) (u_dim (v_unit q)) then
      let* mask := lift2 (fun a b => Ok (b <=? a)) (v_base_mag p) (v_base_mag q) in
      truth mask
    else Err DimensionalityError.
  (** [if x < y:] on magnitudes *)
  Definition m_lt (x y : vmag A) : result bool :=
    let* mask := lift2 (fun a b => Ok (a <? b)) x y in truth mask.

  (** tube.py:694-742 DDT.calculate_blockage_diameter *)
  Definition v_blockage_diameter (pipe_id : vpyin A) (blockage_ratio : br_arg A) (reg : nat)
    : result (vquantity A) :=
    let* br := br_float blockage_ratio in
    let* _ := raise_if (negb ((zero <? br) && (br <? one)))
                       (ValueError "Blockage ratio outside of 0<BR<1") in
    let* pipe_id := v_parse pipe_id reg in
    let* _ := v_check pipe_id "length" true in
    let* half := v_divn pydiv pipe_id (Sca (lit 2)) in
    v_scale (Sca (one - nsqrt (one - br))) half.

  (** tube.py:744-801 DDT.calculate_blockage_ratio *)
  Definition v_blockage_ratio (tube_inner_diameter blockage_diameter : vpyin A) (reg : nat)
    : result (vmag A) :=
    let* tube_inner_diameter := v_parse_base tube_inner_diameter reg in
    let* blockage_diameter := v_parse_base blockage_diameter reg in
    let* _ := v_check tube_inner_diameter "length" true in
    let* _ := v_check blockage_diameter "length" true in
    let* mask := lift1 (fun a => Ok (a =? zero)) (v_mag tube_inner_diameter) in
    let* is_zero := truth mask in
    let* _ := raise_if is_zero (ValueError "tube ID cannot be 0") in
    let* ge := v_ge blockage_diameter tube_inner_diameter in
    let* _ := raise_if ge (ValueError "blockage diameter >= tube diameter") in
    let* b2 := lift1 (fun b => Ok (lit 2 * b)) (v_mag blockage_diameter) in
    let* ratio := vdiv pydiv b2 (v_mag tube_inner_diameter) in
    lift1 (fun r => Ok (one - sq (one - r))) ratio.

  (** tube.py:1218-1289 Tube.calculate_max_stress *)
  Definition v_max_stress (initial_temperature : vpyin A) (material : string)
      (welded : bool) (reg : nat) : result (vquantity A) :=
    let* initial_temperature := v_parse initial_temperature reg in
    let* limits := get_pipe_stress_limits material welded in
    let* _ := raise_if (negb (strictly_increasing (map fst limits)))
                (ValueError ("Stress limits require temperatures to be "
                             ++ "monotonically increasing")) in
    let* t := v_to_str initial_temperature "degF" in
    let* s := lift1 (fun t => np_interp t limits) (v_mag t) in
    match lookup_unit "ksi" with
    | Some u => Ok (mkV s u reg)
    | None => Err UndefinedUnitError
    end.

  (** tube.py:1391-1403 *)
  Definition v_critical_velocity (tube_id tube_od elastic_modulus density : vquantity A)
      (poisson_ratio : vmag A) : result (vquantity A) :=
    let* s := v_add tube_od tube_id in
    let* radius := v_divn pydiv s (Sca (lit 4)) in
    let* d := v_sub tube_od tube_id in
    let* tube_thickness := v_divn pydiv d (Sca (lit 2)) in
    let* e2 := v_sq elastic_modulus in
    let* t2 := v_sq tube_thickness in
    let* num := v_mul e2 t2 in
    let* rho2 := v_sq density in
    let* den := v_scale (Sca (lit 3)) rho2 in
    let* r2 := v_sq radius in
    let* den := v_mul den r2 in
    let* den := v_scale (v_map (fun nu => one - sq nu) poisson_ratio) den in
    let* ratio := v_div pydiv num den in
    v_root4 ratio.

  (** tube.py:1333-1419 Tube.dynamic_load_factor.  [0 < x < 1] is [0 < x and x < 1]: the
      truth of the first comparison decides whether the second one is made. *)
  Definition v_load_factor (tube_id tube_od cj_velocity elastic_modulus density
      : vquantity A) (poisson_ratio plus_or_minus : vmag A) : result nat :=
    let* _ := v_check tube_id "length" true in
    let* _ := v_check tube_od "length" true in
    let* _ := v_check cj_velocity "velocity" false in
    let* _ := v_check elastic_modulus "pressure" true in
    let* _ := v_check density "density" true in
    let* positive := m_lt (Sca zero) plus_or_minus in
    let* inside := if positive then m_lt plus_or_minus (Sca one) else Ok false in
    let* _ := raise_if (negb inside)
                       (ValueError "plus_or_minus factor not between 0 and 1") in
    let* crit := v_critical_velocity tube_id tube_od elastic_modulus density
                   poisson_ratio in
    let* upper := v_scale (v_map (fun d => one + d) plus_or_minus) crit in
    let* upper := v_to_str upper "m/s" in
    let* lower := v_scale (v_map (fun d => one - d) plus_or_minus) crit in
    let* lower := v_to_str lower "m/s" in
    let* v := v_to_str cj_velocity "m/s" in
    let* below := m_lt (v_mag v) (v_mag lower) in
    if below then Ok 1%nat
    else let* above := m_lt (v_mag upper) (v_mag v) in
         if above then Ok 2%nat else Ok 4%nat.

  (** tube.py:1421-1456 Tube.calculate_max_pressure *)
  Definition v_max_pressure (tube_id tube_od max_stress : vquantity A)
      (safety_factor : vmag A) : result (vquantity A) :=
    let* s := v_add tube_od tube_id in
    let* mean_diameter := v_divn pydiv s (Sca (lit 2)) in
    let* d := v_sub tube_od tube_id in
    let* wall_thickness := v_divn pydiv d (Sca (lit 2)) in
    let* w2 := v_scale (Sca (lit 2)) wall_thickness in
    let* num := v_mul max_stress w2 in
    let* den := v_scale safety_factor mean_diameter in
    v_div pydiv num den.
End VectorTube.
