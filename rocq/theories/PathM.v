(** * PathM: the paths that importing /repo/pypbomb/tube.py opens, and the directory that
    thermochem.find_mechanisms lists.

    os.path is posixpath (CPython's Lib/posixpath.py, not in /repo); [cwd] is what
    os.getcwd() returns and [file] is the module's [__file__].  Windows paths are not
    modelled. *)
From Coq Require Import String Ascii ZArith List Bool Arith.
From Verif Require Import PyBase Csv.
Import ListNotations.
Local Open Scope string_scope.

Definition slash : ascii := "/"%char.

(** ** posixpath *)
Definition starts_with_slash (p : string) : bool :=
  match p with String c _ => Ascii.eqb c slash | "" => false end.
Fixpoint ends_with_slash (p : string) : bool :=
  match p with
  | "" => false
  | String c "" => Ascii.eqb c slash
  | String _ r => ends_with_slash r
  end.

(** posixpath.join(a, b) *)
Definition path_join (a b : string) : string :=
  if starts_with_slash b then b
  else if (String.eqb a "" || ends_with_slash a)%bool then a ++ b
  else a ++ String slash b.
(** posixpath.join(a, *p) *)
Definition path_joins (a : string) (p : list string) : string := fold_left path_join p a.

(** [p[:p.rfind("/") + 1]] *)
Fixpoint through_last_slash (p : string) : string :=
  match p with
  | "" => ""
  | String c r => match through_last_slash r with
                  | "" => if Ascii.eqb c slash then String c "" else ""
                  | h => String c h
                  end
  end.
(** [s.rstrip("/")] *)
Fixpoint strip_slashes (p : string) : string :=
  match p with
  | "" => ""
  | String c r => match strip_slashes r with
                  | "" => if Ascii.eqb c slash then "" else String c ""
                  | t => String c t
                  end
  end.
(** posixpath.dirname, and the first item of posixpath.split.
    [strip_slashes head = ""] is Python's [head == "/" * len(head)]. *)
Definition dirname (p : string) : string :=
  let head := through_last_slash p in
  if String.eqb (strip_slashes head) "" then head else strip_slashes head.

(** posixpath.normpath: the loop over the components; [acc] is new_comps *)
Definition norm_step (initial_slashes : nat) (acc : list string) (comp : string) : list string :=
  if (String.eqb comp "" || String.eqb comp ".")%bool then acc
  else if (negb (String.eqb comp "..")
           || (Nat.eqb initial_slashes 0 && match acc with [] => true | _ => false end)
           || match rev acc with last :: _ => String.eqb last ".." | [] => false end)%bool
  then (acc ++ [comp])%list
  else removelast acc.
Definition initial_slashes (p : string) : nat :=
  if String.prefix "//" p && negb (String.prefix "///" p) then 2
  else if starts_with_slash p then 1 else 0.
Fixpoint slashes (n : nat) : string := match n with O => "" | S n => String slash (slashes n) end.
Definition normpath (p : string) : string :=
  if String.eqb p "" then "."
  else
    let n := initial_slashes p in
    let comps := fold_left (norm_step n) (split_on slash p) [] in
    let q := slashes n ++ String.concat "/" comps in
    if String.eqb q "" then "." else q.

(** posixpath.abspath *)
Definition abspath (cwd p : string) : string :=
  normpath (if starts_with_slash p then p else path_join cwd p).

(** len(commonprefix([a, b])) *)
Fixpoint common (a b : list string) : nat :=
  match a, b with
  | x :: a, y :: b => if String.eqb x y then S (common a b) else O
  | _, _ => O
  end.
(** posixpath.relpath(p) *)
Definition components (p : string) : list string :=
  filter (fun c => negb (String.eqb c "")) (split_on slash p).
Definition relpath (cwd p : string) : result string :=
  if String.eqb p "" then Err (ValueError "no path specified")
  else
    let start_list := components (abspath cwd ".") in
    let path_list := components (abspath cwd p) in
    let i := common start_list path_list in
    match (repeat ".." (length start_list - i) ++ skipn i path_list)%list with
    | [] => Ok "."
    | c :: cs => Ok (path_joins c cs)
    end.

(** ** The paths of tube.py *)
(** tube.py:24-27 _DIR_LOOKUP_DATA; the same expression at 66-71, 120-125, 215-217 and
    286-291 (file_directory) *)
Definition lookup_directory (cwd file : string) : result string :=
  let* r := relpath cwd file in
  Ok (path_join (dirname r) "lookup_data").

(** tube.py:30-33 and 37-40 (the stress limits), 153-156 (_check_materials_list): joined
    to the directory *)
Definition joined_location (cwd file name : string) : result string :=
  let* d := lookup_directory cwd file in
  Ok (path_join d name).

(** tube.py:45-50 (pipe schedules), 73-78 (materials list), 220-222 (flange ratings),
    296-303 (threads): joined, and made relative again *)
Definition relative_location (cwd file name : string) : result string :=
  let* p := joined_location cwd file name in
  relpath cwd p.

(** The data files import opens by name, with the function that makes the path. *)
Definition data_locations (cwd file : string) : list (string * result string) :=
  (map (fun name => (name, joined_location cwd file name))
      ["ASME_B31_1_stress_limits_welded.csv"; "ASME_B31_1_stress_limits_seamless.csv"]
  ++ map (fun name => (name, relative_location cwd file name))
      ["pipe_schedules.csv"; "materials_list.csv";
       "ASME_B16_5_flange_ratings_group_2_1.csv"; "ASME_B16_5_flange_ratings_group_2_2.csv";
       "ASME_B16_5_flange_ratings_group_2_3.csv";
       "ANSI_inch_internal_thread.csv"; "ANSI_inch_external_thread.csv"])%list.

(** thermochem.py:288-291: the directory find_mechanisms lists; [file] is cantera's
    [__file__] *)
Definition mechanism_path (cwd file : string) : string :=
  path_join (dirname (abspath cwd file)) "data".
