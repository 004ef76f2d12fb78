(** * Properties_Path: C130, the files that are read do not depend on the current directory.

    [place_of cwd p place]: in the directory [cwd] the path [p] names [place], a list of
    names from the root (PathSpec.v).  [lookup_directory], [data_locations],
    [mechanism_path]: the paths of tube.py and thermochem.py (PathM.v), where the first
    argument is the current directory and the second the module's __file__. *)
From Coq Require Import String Ascii ZArith List Bool Lia.
From Verif Require Import PyBase Csv StrLemmas TextSpec TextP PathM PathSpec PathP.
Import ListNotations.
Local Open Scope string_scope.
Local Open Scope list_scope.

Lemma free_check f : (match String.index 0 "/" f with None => True | Some _ => False end) -> free_of slash f.
Proof.
  intros H b r ->. assert (C : Csv.contains "/" (b ++ String slash r)%string = true).
  { apply contains_iff. exists b, r. reflexivity. }
  unfold Csv.contains in C. destruct (String.index 0 "/" _); [contradiction|discriminate].
Qed.
Lemma lookup_nm : nm "lookup_data".
Proof. repeat split; try discriminate. apply free_check. vm_compute. exact I. Qed.
Lemma nm_file f : file_name f <-> nm f.
Proof. unfold file_name, nm, okc, slash. tauto. Qed.

(** Whatever the current directory: the paths that import opens are the files of the
    directory lookup_data beside the module, and the directory it lists is that one.
    (The module is a file, so the current directory is not in or below it.) *)
Theorem C130_reads_its_own_files :
  forall cwd file dir module here,
    absolute_place cwd here -> place_of cwd file (dir ++ [module]) -> ~ above (dir ++ [module]) here ->
    (exists d, lookup_directory cwd file = Ok d /\ place_of cwd d (dir ++ ["lookup_data"]))
    /\ (forall name, file_name name ->
          (exists p, joined_location cwd file name = Ok p /\ place_of cwd p (dir ++ ["lookup_data"; name]))
          /\ (exists p, relative_location cwd file name = Ok p /\ place_of cwd p (dir ++ ["lookup_data"; name])))
    /\ Forall (fun e => exists p, snd e = Ok p /\ place_of cwd p (dir ++ ["lookup_data"; fst e]))
              (data_locations cwd file).
Proof.
  intros cwd file dir module here Hc Hf Ha.
  apply abs_iff in Hc as (Hc & ->).
  assert (Hn : file <> "").
  { intros ->. destruct Hf as [((r & H) & _)|(_ & H & _)]; [discriminate H|congruence]. }
  apply (wp_iff cwd file _ Hc Hn) in Hf.
  destruct (lookup_place cwd file dir module Hc Hn (eq_sym Hf) Ha) as (n & l & E & -> & F & W).
  cbn [slashes append] in E.
  assert (HN : forall name, nm name -> okc name) by (intros ? [? _]; assumption).
  assert (NE : forall ys, ys <> [] -> Forall okc ys -> String.concat "/" (l ++ ys) <> "").
  { intros ys N G. apply concat_nonempty; [apply Forall_app; split; assumption|].
    intros Q. apply app_eq_nil in Q. tauto. }
  assert (J : forall name, nm name ->
     joined_location cwd file name = Ok (String.concat "/" (l ++ ["lookup_data"; name]))
     /\ place_of cwd (String.concat "/" (l ++ ["lookup_data"; name])) (dir ++ ["lookup_data"; name])).
  { intros name Hm. unfold joined_location. rewrite E. cbn [bind]. split.
    - f_equal. pose proof (join_concat 0 (l ++ ["lookup_data"]) name) as Q. cbn [slashes append] in Q.
      rewrite Q, <- app_assoc; [reflexivity| |apply HN; exact Hm].
      apply Forall_app. split; [exact F|]. constructor; [apply HN, lookup_nm|constructor].
    - apply wp_iff; [exact Hc|apply NE; [discriminate|repeat constructor; try apply HN; try apply lookup_nm; apply Hm]|].
      destruct (W ["lookup_data"; name]) as [Q|Q]; [|symmetry; exact Q|discriminate Q].
      constructor; [apply lookup_nm|constructor; [exact Hm|constructor]]. }
  assert (K : forall name, nm name -> exists p, relative_location cwd file name = Ok p
                                              /\ place_of cwd p (dir ++ ["lookup_data"; name])).
  { intros name Hm. destruct (J name Hm) as (J1 & J2). unfold relative_location. rewrite J1. cbn [bind].
    assert (N0 : String.concat "/" (l ++ ["lookup_data"; name]) <> "").
    { apply NE; [discriminate|repeat constructor; try apply HN; try apply lookup_nm; apply Hm]. }
    destruct (relpath_place cwd _ Hc N0) as (q & -> & Nq & Wq). exists q. split; [reflexivity|].
    apply wp_iff; [exact Hc|exact Nq|]. rewrite Wq. apply (wp_iff cwd _ _ Hc N0). exact J2. }
  split; [|split].
  - eexists. split; [exact E|]. apply wp_iff; [exact Hc|apply NE; [discriminate|]|].
    + constructor; [apply HN, lookup_nm|constructor].
    + destruct (W ["lookup_data"]) as [Q|Q]; [constructor; [apply lookup_nm|constructor]|symmetry; exact Q|discriminate Q].
  - intros name Hm. apply nm_file in Hm. split; [|apply K; exact Hm].
    eexists. split; apply J; exact Hm.
  - assert (B : forall f, (match String.index 0 "/" f with None => True | Some _ => False end) ->
                f <> "" -> f <> "." -> f <> ".." -> nm f).
    { intros f H1 H2 H3 H4. repeat split; try assumption. apply free_check. exact H1. }
    unfold data_locations. apply Forall_app. split; apply Forall_map; repeat apply Forall_cons; try apply Forall_nil;
      cbn [fst snd];
      ((eexists; split; apply J) || apply K); (apply B; [vm_compute; exact I|discriminate|discriminate|discriminate]).
Qed.
Print Assumptions C130_reads_its_own_files.

(** With an absolute __file__ (Python gives imported modules one), two current directories
    lead to the same files. *)
Theorem C130_any_directory :
  forall cwd1 cwd2 here1 here2 file dir module,
    absolute_place cwd1 here1 -> absolute_place cwd2 here2 -> absolute_place file (dir ++ [module]) ->
    ~ above (dir ++ [module]) here1 -> ~ above (dir ++ [module]) here2 ->
    Forall2 (fun e1 e2 => fst e1 = fst e2
               /\ exists p1 p2 place, snd e1 = Ok p1 /\ snd e2 = Ok p2
                                      /\ place_of cwd1 p1 place /\ place_of cwd2 p2 place)
            (data_locations cwd1 file) (data_locations cwd2 file).
Proof.
  intros * H1 H2 Hf A1 A2.
  destruct (C130_reads_its_own_files _ _ _ _ _ H1 (or_introl Hf) A1) as (_ & _ & F1).
  destruct (C130_reads_its_own_files _ _ _ _ _ H2 (or_introl Hf) A2) as (_ & _ & F2).
  unfold data_locations in *. cbn [map app] in *.
  repeat match goal with H : Forall _ (_ :: _) |- _ => apply Forall_cons_iff in H as ((? & ? & ?) & H) end.
  cbn [fst snd] in *.
  repeat (apply Forall2_cons; [cbn [fst snd]; split; [reflexivity|]; do 3 eexists; repeat split; eassumption|]).
  constructor.
Qed.
Print Assumptions C130_any_directory.

(** find_mechanisms lists the directory data beside cantera's module, and the path it
    returns is absolute: it names the same place from every directory. *)
Theorem C130_mechanisms :
  forall cwd file dir module here,
    absolute_place cwd here -> place_of cwd file (dir ++ [module]) ->
    absolute_place (mechanism_path cwd file) (dir ++ ["data"]).
Proof.
  intros cwd file dir module here Hc Hf. apply abs_iff in Hc as (Hc & _).
  assert (Hn : file <> "").
  { intros ->. destruct Hf as [((r & H) & _)|(_ & H & _)]; [discriminate H|congruence]. }
  apply (wp_iff cwd file _ Hc Hn) in Hf. unfold mechanism_path.
  destruct (abspath_text cwd file Hc) as (n & Hpos & ->). rewrite <- Hf.
  pose proof (wp_nm cwd file) as F. rewrite <- Hf in F. apply Forall_app in F as (F & Fm).
  inversion Fm as [|? ? [Hm _] _]; subst.
  assert (D : nm "data") by (repeat split; try discriminate; apply free_check; vm_compute; exact I).
  rewrite dirname_concat by (apply nm_okc in F; assumption). rewrite join_concat by (apply nm_okc in F; assumption || apply D).
  apply abs_iff. split.
  - destruct n; [lia|]. eexists. reflexivity.
  - unfold wa. rewrite split_slashes, fold_left_app, split_concat.
    + replace (fold_left go (repeat "" n) []) with (@nil string) by (clear; induction n; [reflexivity|exact IHn]).
      rewrite go_nms; [reflexivity|]. apply Forall_app. split; [exact F|]. constructor; [exact D|constructor].
    + apply Forall_app. split; [apply nm_okc; exact F|]. constructor; [apply D|constructor].
    + destruct dir; discriminate.
Qed.
Print Assumptions C130_mechanisms.

(** A working directory elsewhere in the tree: the text is relative, the place is right. *)
Example C130_case :
  relative_location "/home/me/work" "/usr/lib/python3/pypbomb/tube.py" "pipe_schedules.csv"
    = Ok "../../../usr/lib/python3/pypbomb/lookup_data/pipe_schedules.csv"
  /\ relative_location "/usr/lib/python3/pypbomb" "/usr/lib/python3/pypbomb/tube.py" "pipe_schedules.csv"
    = Ok "lookup_data/pipe_schedules.csv"
  /\ place_of "/home/me/work" "/usr/lib/python3/pypbomb/tube.py" ["usr"; "lib"; "python3"; "pypbomb"; "tube.py"]
  /\ ~ above ["usr"; "lib"; "python3"; "pypbomb"; "tube.py"] ["home"; "me"; "work"]
  /\ mechanism_path "/home" "/x/cantera/__init__.py" = "/x/cantera/data".
Proof.
  split; [vm_compute; reflexivity|]. split; [vm_compute; reflexivity|]. split; [|split].
  - left. apply abs_iff. split; [eexists; reflexivity|vm_compute; reflexivity].
  - intros (r & H). discriminate H.
  - vm_compute. reflexivity.
Qed.

(** Why the paths must be used at once: with a relative __file__, or with a path kept while
    the directory changes, the place changes. *)
Example C130_kept_path :
  exists p q, lookup_directory "/home/me" "/home/me/pypbomb/tube.py" = Ok p
    /\ place_of "/home/me" p ["home"; "me"; "pypbomb"; "lookup_data"]
    /\ place_of "/tmp" p q /\ q <> ["home"; "me"; "pypbomb"; "lookup_data"].
Proof.
  exists "pypbomb/lookup_data", ["tmp"; "pypbomb"; "lookup_data"].
  split; [vm_compute; reflexivity|].
  split; [|split; [|discriminate]]; apply wp_iff; try (eexists; reflexivity); try discriminate; vm_compute; reflexivity.
Qed.
