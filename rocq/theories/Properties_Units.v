(** * Properties_Units: C01-C03 (units.py). *)
From Coq Require Import String Reals List.
From Verif Require Import PyBase Pint UnitsM Spec QLemmas UnitsP.
Import ListNotations.
Local Open Scope string_scope.
Local Open Scope R_scope.

(** C01: True exactly on quantities of the named dimension (and, if asked, of
    non-negative value); ValueError otherwise. *)
Theorem C01_check_scalar :
  forall (name : string) (d : dim) (a : R) (u : unit_ R) (x : R) (pos : bool),
    In (name, d) documented_dimensions -> worth a u x ->
    let r := check_pint_quantity (OQuant (MNum a) u) name pos in
    (r = Ok true <-> u_dim u = d /\ (pos = true -> 0 <= x))
    /\ (r = Ok true \/ is_value_error r).
Proof. exact check_scalar. Qed.
Print Assumptions C01_check_scalar.
Example C01_case :   (* -40 degF is a positive absolute temperature *)
  In ("temperature", d_temperature) documented_dimensions
  /\ worth (-40) (mkUnit d_temperature (5/9) (Some (45967/180))) (23315/100).
Proof. split; [cbn; tauto | unfold worth; cbn; Lra.lra]. Qed.

Theorem C01_check_unknown_dimension :
  forall (name : string) (o : pyobj R) (pos : bool),
    ~ In name (map fst documented_dimensions) ->
    (forall u, o <> OQuant (MArr []) u) ->
    is_value_error (check_pint_quantity o name pos).
Proof. exact check_unknown. Qed.
Print Assumptions C01_check_unknown_dimension.
Example C01_unknown_case :
  ~ In "current" (map fst documented_dimensions)
  /\ (forall u, OQuant (MNum 1) u <> OQuant (A:=R) (MArr []) u).
Proof. split; [cbn; intuition discriminate | discriminate]. Qed.

Theorem C01_check_not_a_quantity :
  forall (name : string) (pos : bool),
    is_value_error (check_pint_quantity (A:=R) OOther name pos)
    /\ forall u, is_value_error (check_pint_quantity (A:=R) (OQuant MNonNum u) name pos).
Proof. exact check_not_quantity. Qed.
Print Assumptions C01_check_not_a_quantity.

(** C02: full statement, false of the code. *)
Theorem C02_refuted :
  ~ (forall (l : list R) (u : unit_ R) (a : R) (name : string),
       wf_unit u -> u_off u = None -> In a l -> a < 0 ->
       raises (check_pint_quantity (OQuant (MArr l) u) name true)).
Proof.
  intros H.
  destruct (H [1; -1] (mult_unit d_length 1) (-1) "length") as (e & E).
  - split; cbn; [Lra.lra | congruence].
  - reflexivity.
  - cbn; tauto.
  - Lra.lra.
  - rewrite check_array_unsound in E; discriminate.
Qed.
Print Assumptions C02_refuted.

(** What does hold: the first element is checked as a scalar; missing: the others. *)
Theorem C02_array_first_element_partial :
  forall (name : string) (a : R) (l : list R) (u : unit_ R) (pos : bool),
    check_pint_quantity (OQuant (MArr (a :: l)) u) name pos
    = check_pint_quantity (OQuant (MNum a) u) name pos.
Proof. exact check_array_first. Qed.
Print Assumptions C02_array_first_element_partial.

(** C03: same physical value, same unit, requested registry; idempotent. *)
Theorem C03_parse_preserves :
  forall (i : pyin R) (d : dim) (x : R) (reg : nat),
    denotes i d x ->
    exists q, parse_quant_input i reg = Ok q
      /\ q_reg q = reg /\ denotes (PQuant q) d x
      /\ (forall u, expressed_in i u -> q_unit q = u)
      /\ (forall reg', parse_quant_input (PQuant q) reg' = parse_quant_input i reg').
Proof. exact parse_preserves. Qed.
Print Assumptions C03_parse_preserves.
Example C03_case : denotes (PSeq [ENum 3; EStr "in"]) d_length (3 * (254/10000)).
Proof. apply denotes_inch. Qed.

Theorem C03_parse_magnitude_and_unit :
  forall reg : nat,
    (forall q, exists q', parse_quant_input (A:=R) (PQuant q) reg = Ok q'
       /\ q_mag q' = q_mag q /\ q_unit q' = q_unit q /\ q_reg q' = reg)
    /\ (forall m s u, lookup_unit s = Some u ->
          exists q', parse_quant_input (A:=R) (PSeq [ENum m; EStr s]) reg = Ok q'
            /\ q_mag q' = m /\ q_unit q' = u /\ q_reg q' = reg).
Proof. exact parse_magnitude_unit. Qed.
Print Assumptions C03_parse_magnitude_and_unit.

Theorem C03_parse_rejects :
  forall reg : nat,
    (forall l, length l <> 2%nat ->
       is_value_error (parse_quant_input (A:=R) (PSeq l) reg))
    /\ is_value_error (parse_quant_input (A:=R) PNoIter reg)
    /\ (forall m s, lookup_unit (A:=R) s = None ->
          raises (parse_quant_input (A:=R) (PSeq [ENum m; EStr s]) reg)).
Proof. exact parse_rejects. Qed.
Print Assumptions C03_parse_rejects.
Example C03_reject_case : lookup_unit (A:=R) "furlong-ish" = None.
Proof. reflexivity. Qed.
