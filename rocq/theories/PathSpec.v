(** * PathSpec: what place on the disk a POSIX path names.  No model functions.

    A place is the list of directory names from the root.  Symbolic links are left out:
    ".." always leads to the directory above. *)
From Coq Require Import String Ascii List.
From Verif Require Import TextSpec.
Import ListNotations.
Local Open Scope string_scope.

(** one component: nothing and "." stay, ".." goes up, anything else goes down *)
Definition go (at_ : list string) (c : string) : list string :=
  if string_dec c "" then at_
  else if string_dec c "." then at_
  else if string_dec c ".." then removelast at_
  else (at_ ++ [c])%list.

Definition absolute (p : string) : Prop := exists r, p = "/" ++ r.

(** [p], an absolute path, is [place] *)
Definition absolute_place (p : string) (place : list string) : Prop :=
  absolute p /\ exists parts, fields "/" p parts /\ place = fold_left go parts [].

(** in the current directory [cwd], the path [p] is [place] *)
Definition place_of (cwd p : string) (place : list string) : Prop :=
  absolute_place p place
  \/ (~ absolute p /\ p <> ""
      /\ exists here parts, absolute_place cwd here /\ fields "/" p parts
                            /\ place = fold_left go parts here).

(** a file name *)
Definition file_name (n : string) : Prop :=
  n <> "" /\ n <> "." /\ n <> ".." /\ free_of "/" n.

(** [a] is [b] or a directory above it *)
Definition above (a b : list string) : Prop := exists r, b = (a ++ r)%list.
