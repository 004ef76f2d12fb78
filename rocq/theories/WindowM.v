(** * WindowM: model of class Window, /repo/pypbomb/tube.py:1020-1207 *)
From Coq Require Import String ZArith QArith List Bool.
From Verif Require Import PyBase Pint UnitsM.
Local Open Scope string_scope.
Local Open Scope num_scope.

(** The safety_factor argument of minimum_thickness: a number, or something that
    cannot be compared with 1. *)
Inductive sf_arg (A : Type) : Type := SfNum (a : A) | SfNonNumeric.
Arguments SfNum {A}. Arguments SfNonNumeric {A}.

Section Window.
  Context {A : Type} {NA : Num A}.

  (** tube.py:1109, 1199: clamped window constant *)
  Definition window_k : A := lit 0.75.

  (** tube.py:1024-1116 Window.safety_factor *)
  Definition safety_factor (length width thickness pressure rupture_modulus : pyin A)
      (reg : nat) : result A :=
    let* length := parse_base length reg in
    let* width := parse_base width reg in
    let* thickness := parse_base thickness reg in
    let* pressure := parse_base pressure reg in
    let* rupture_modulus := parse_base rupture_modulus reg in
    let* _ := check_q length "length" true in
    let* _ := check_q width "length" true in
    let* _ := check_q thickness "length" true in
    let* _ := check_q pressure "pressure" true in
    let* _ := check_q rupture_modulus "pressure" true in
    let* r := q_div pydiv length width in
    let* t_over_l := q_div pydiv thickness length in
    let* t_over_l_2 := q_sq t_over_l in
    let* m2 := q_scale (lit 2) rupture_modulus in
    let* r2 := q_sq r in
    let* one_r2 := n_addq one r2 in
    let* m_term := q_mul m2 one_r2 in
    let* numerator := q_mul t_over_l_2 m_term in
    let* denominator := q_scale window_k pressure in
    let* sf := q_div pydiv numerator denominator in
    q_plain sf.

  (** tube.py:1118-1207 Window.minimum_thickness *)
  Definition minimum_thickness (length width : pyin A) (safety_factor : sf_arg A)
      (pressure rupture_modulus : pyin A) (reg : nat) : result (quantity A) :=
    let* length := parse_base length reg in
    let* width := parse_base width reg in
    let* pressure := parse_base pressure reg in
    let* rupture_modulus := parse_base rupture_modulus reg in
    let* _ := check_q length "length" true in
    let* _ := check_q width "length" true in
    let* _ := check_q pressure "pressure" true in
    let* _ := check_q rupture_modulus "pressure" true in
    let* sf := match safety_factor with
               | SfNonNumeric => Err (TypeError "Non-numeric window safety factor")
               | SfNum s => if s <? one
                            then Err (ValueError "Window safety factor < 1")
                            else Ok s
               end in
    let* r := q_div pydiv length width in
    let* root_sf := npsqrt (sf * window_k / lit 2) in
    let* l_sf := q_scale root_sf length in
    let* r2 := q_sq r in
    let* one_r2 := n_addq one r2 in
    let* m_term := q_mul rupture_modulus one_r2 in
    let* p_over_m := q_div pydiv pressure m_term in
    let* root_p := q_sqrt p_over_m in
    let* thickness := q_mul l_sf root_p in
    q_to thickness (q_unit width).
End Window.
