(** * DimTextM: check_pint_quantity with its dimensionality strings, units.py:46-79.

    UnitsM.check_pint_quantity compares dimensions and leaves out the text of the last
    message; here both are as in the code.  pint's [str] of a dimensionality (an assumed
    contract, formatter "D"): names in alphabetical order, positive exponents joined by
    " * ", each negative one after " / ", an exponent other than 1 as " ** n". *)
From Coq Require Import String Ascii ZArith List Bool.
From Verif Require Import PyBase Pint Show UnitsM.
Import ListNotations.
Local Open Scope string_scope.

(** [power_fmt.format(key, abs(value))], or the key alone *)
Definition power_str (key : string) (n : Z) : string :=
  if Z.eqb n 1 then key else key ++ " ** " ++ show_int n.
Definition dimension_items (d : dim) : list (string * Z) :=
  [("[length]", dL d); ("[mass]", dM d); ("[temperature]", dK d); ("[time]", dT d)].
Definition pos_terms (l : list (string * Z)) : list string :=
  map (fun kn => power_str (fst kn) (snd kn)) (filter (fun kn => Z.ltb 0 (snd kn)) l).
Definition neg_terms (l : list (string * Z)) : list string :=
  map (fun kn => power_str (fst kn) (- snd kn)) (filter (fun kn => Z.ltb (snd kn) 0) l).
(** [dimensionality.__str__()] *)
Definition dimensionality_str (d : dim) : string :=
  match pos_terms (dimension_items d), neg_terms (dimension_items d) with
  | [], [] => "dimensionless"
  | pos, [] => String.concat " * " pos
  | [], neg => "1 / " ++ String.concat " / " neg
  | pos, neg => String.concat " * " pos ++ " / " ++ String.concat " / " neg
  end.

(** [s.replace("[", "").replace("]", "")] *)
Fixpoint remove_char (c : ascii) (s : string) : string :=
  match s with
  | "" => ""
  | String a r => if Ascii.eqb a c then remove_char c r else String a (remove_char c r)
  end.
Definition without_brackets (s : string) : string := remove_char "]" (remove_char "[" s).

(** units.py:46-55 *)
Definition dimension_names : list (string * dim) :=
  [("length", d_length); ("area", d_area); ("volume", d_volume);
   ("temperature", d_temperature); ("pressure", d_pressure); ("velocity", d_velocity);
   ("density", d_density)].
Definition units_entry (dimension_type : string) : option string :=
  option_map (fun nd => dimensionality_str (snd nd))
    (find (fun nd => String.eqb (fst nd) dimension_type) dimension_names).

Section Check.
  Context {A : Type} {NA : Num A}.
  (** units.py:42-81 *)
  Definition check_with_texts (o : pyobj A) (dimension_type : string)
      (ensure_positive : bool) : result bool :=
    let* o := match o with
              | OQuant (MArr l) u =>
                match l with
                | [] => Err IndexError
                | a :: _ => Ok (OQuant (MNum a) u)
                end
              | _ => Ok o
              end in
    match units_entry dimension_type with
    | None => Err (ValueError (dimension_type ++ " not a supported dimension type"))
    | Some expected =>
      match o with
      | OOther => Err (ValueError "Non-pint quantity")
      | OQuant m u =>
        let actual_dimension_type := dimensionality_str (u_dim u) in
        match m with
        | MNum a =>
          let* _ := raise_if (ensure_positive && nltb (base_mag (mkQ a u 0)) zero)
                             (ValueError "Input value < 0") in
          let* _ := raise_if (negb (String.eqb expected actual_dimension_type))
                             (ValueError (without_brackets actual_dimension_type
                                          ++ " is not " ++ without_brackets expected)) in
          Ok true
        | MNonNum => Err (ValueError "Non-numeric pint quantity")
        | MArr _ => Err Unmodelled (* not reached *)
        end
      end
    end.
End Check.
