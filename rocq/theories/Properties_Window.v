(** * Properties_Window: C14-C17 (class Window). *)
From Coq Require Import String Reals List.
From Verif Require Import PyBase Pint UnitsM Spec QLemmas WindowM WindowP.
Import ListNotations.
Local Open Scope R_scope.

(** C14: the safety factor of the minimum thickness for [s] is [s]. *)
Theorem C14_window_roundtrip :
  forall (length width pressure modulus : pyin R) (L W P M s : R) (reg reg' : nat),
    denotes length d_length L -> denotes width d_length W ->
    denotes pressure d_pressure P -> denotes modulus d_pressure M ->
    0 < L -> 0 < W -> 0 < P -> 0 < M -> 1 <= s ->
    exists t,
      minimum_thickness length width (SfNum s) pressure modulus reg = Ok t
      /\ safety_factor length width (PQuant t) pressure modulus reg' = Ok s.
Proof. exact window_roundtrip. Qed.
Print Assumptions C14_window_roundtrip.

(** C15: a window of thickness [t] reaches [s] iff [t] is at least the minimum. *)
Theorem C15_minimum_thickness_is_minimum :
  forall (length width thickness pressure modulus : pyin R)
         (L W t P M s : R) (reg : nat),
    denotes length d_length L -> denotes width d_length W ->
    denotes thickness d_length t ->
    denotes pressure d_pressure P -> denotes modulus d_pressure M ->
    0 < L -> 0 < W -> 0 < P -> 0 < M -> 0 <= t -> 1 <= s ->
    exists q tmin f,
      minimum_thickness length width (SfNum s) pressure modulus reg = Ok q
      /\ stands_for q d_length tmin reg
      /\ safety_factor length width thickness pressure modulus reg = Ok f
      /\ (s <= f <-> tmin <= t).
Proof. exact window_minimum. Qed.
Print Assumptions C15_minimum_thickness_is_minimum.

(** C16: formula, symmetry in length and width, scaling laws. *)
Theorem C16_window_laws :
  forall (length width thickness pressure modulus : pyin R)
         (L W t P M : R) (reg : nat),
    denotes length d_length L -> denotes width d_length W ->
    denotes thickness d_length t ->
    denotes pressure d_pressure P -> denotes modulus d_pressure M ->
    0 < L -> 0 < W -> 0 < P -> 0 <= M -> 0 <= t ->
    let f := (t / L)^2 * (2 * M * (1 + (L / W)^2)) / (0.75 * P) in
    safety_factor length width thickness pressure modulus reg = Ok f
    /\ safety_factor width length thickness pressure modulus reg = Ok f
    /\ (forall k i', 0 < k -> denotes i' d_length (k * t) ->
          safety_factor length width i' pressure modulus reg = Ok (k^2 * f))
    /\ (forall k i', 0 < k -> denotes i' d_pressure (k * M) ->
          safety_factor length width thickness pressure i' reg = Ok (k * f))
    /\ (forall k i', 0 < k -> denotes i' d_pressure (k * P) ->
          safety_factor length width thickness i' modulus reg = Ok (f / k)).
Proof. exact window_laws. Qed.
Print Assumptions C16_window_laws.

(** C17: bad safety factors, signs and dimensions. *)
Theorem C17_safety_factor_argument :
  forall (length width pressure modulus : pyin R) (L W P M : R) (reg : nat),
    denotes length d_length L -> denotes width d_length W ->
    denotes pressure d_pressure P -> denotes modulus d_pressure M ->
    0 <= L -> 0 <= W -> 0 <= P -> 0 <= M ->
    (forall s, s < 1 ->
       is_value_error (minimum_thickness length width (SfNum s) pressure modulus reg))
    /\ is_type_error
         (minimum_thickness length width SfNonNumeric pressure modulus reg).
Proof. exact mt_rejects_sf. Qed.
Print Assumptions C17_safety_factor_argument.

Theorem C17_minimum_thickness_rejects :
  forall (length width pressure modulus : pyin R) (dl dw dp dm : dim)
         (L W P M : R) (s : sf_arg R) (reg : nat),
    denotes length dl L -> denotes width dw W ->
    denotes pressure dp P -> denotes modulus dm M ->
    (dl <> d_length \/ L < 0 \/ dw <> d_length \/ W < 0
     \/ dp <> d_pressure \/ P < 0 \/ dm <> d_pressure \/ M < 0) ->
    is_value_error (minimum_thickness length width s pressure modulus reg).
Proof. exact mt_rejects. Qed.
Print Assumptions C17_minimum_thickness_rejects.

Theorem C17_safety_factor_rejects :
  forall (length width thickness pressure modulus : pyin R) (dl dw dt dp dm : dim)
         (L W t P M : R) (reg : nat),
    denotes length dl L -> denotes width dw W -> denotes thickness dt t ->
    denotes pressure dp P -> denotes modulus dm M ->
    (dl <> d_length \/ L < 0 \/ dw <> d_length \/ W < 0 \/ dt <> d_length \/ t < 0
     \/ dp <> d_pressure \/ P < 0 \/ dm <> d_pressure \/ M < 0) ->
    is_value_error (safety_factor length width thickness pressure modulus reg).
Proof. exact sf_rejects. Qed.
Print Assumptions C17_safety_factor_rejects.

(** A 5.75 in x 2.5 in window, 10 MPa, 197.9 MPa: meets the hypotheses of C14-C17. *)
Example window_case :
  denotes (PSeq [ENum 5.75; EStr "in"]) d_length (5.75 * (254/10000))
  /\ denotes (PSeq [ENum 2.5; EStr "in"]) d_length (2.5 * (254/10000))
  /\ denotes (PSeq [ENum 10; EStr "MPa"]) d_pressure (10 * 1000000)
  /\ denotes (PSeq [ENum 197.9; EStr "MPa"]) d_pressure (197.9 * 1000000)
  /\ 0 < 5.75 * (254/10000) /\ 0 < 2.5 * (254/10000)
  /\ 0 < 10 * 1000000 /\ 0 < 197.9 * 1000000 /\ 1 <= 4.
Proof.
  repeat split; try apply denotes_inch; try apply denotes_MPa; Lra.lra.
Qed.
(** A pressure given as a length, or a negative length, meets those of the last two. *)
Example window_bad_case :
  denotes (PSeq [ENum 10; EStr "m"]) d_length 10 /\ d_length <> d_pressure
  /\ denotes (PSeq [ENum (-1); EStr "m"]) d_length (-1) /\ -1 < 0.
Proof. repeat split; try apply denotes_m; try discriminate; Lra.lra. Qed.
