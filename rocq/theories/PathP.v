(** * PathP: lemmas about PathM. *)
From Coq Require Import String Ascii ZArith List Bool Arith Lia.
From Verif Require Import PyBase Csv StrLemmas TextSpec TextP PathM PathSpec.
Import ListNotations.
Local Open Scope string_scope.

(** components that are real names, or ".." *)
Definition okc (c : string) : Prop := c <> "" /\ free_of slash c.
Definition nm (c : string) : Prop := okc c /\ c <> "." /\ c <> "..".

Lemma fields_split p parts : fields "/" p parts <-> split_on slash p = parts.
Proof. symmetry. apply split_iff. Qed.

Lemma starts_iff p : starts_with_slash p = true <-> absolute p.
Proof.
  unfold absolute. destruct p as [|c p]; cbn.
  - split; [discriminate|intros (r & H); discriminate].
  - rewrite Ascii.eqb_eq. split.
    + intros ->. exists p. reflexivity.
    + intros (r & H). injection H as -> _. reflexivity.
Qed.
Lemma starts_false p : starts_with_slash p = false <-> ~ absolute p.
Proof. rewrite <- starts_iff. destruct (starts_with_slash p); split; congruence. Qed.

Lemma free_starts w : free_of slash w -> starts_with_slash w = false.
Proof.
  destruct w as [|a w]; [reflexivity|]. intros F. apply free_cons in F as (N & _).
  cbn. apply Ascii.eqb_neq. exact N.
Qed.
Lemma free_ends w : free_of slash w -> ends_with_slash w = false.
Proof.
  induction w as [|a w IH]; [reflexivity|]. intros F. apply free_cons in F as (N & F).
  cbn. destruct w; [apply Ascii.eqb_neq; exact N|exact (IH F)].
Qed.
Lemma ends_app a b : b <> "" -> ends_with_slash (a ++ b) = ends_with_slash b.
Proof.
  intros N. induction a as [|c a IH]; [reflexivity|]. cbn [append ends_with_slash].
  destruct (a ++ b) eqn:E; [|exact IH]. destruct a, b; cbn in E; congruence.
Qed.

Lemma concat2 w w2 ws : String.concat "/" (w :: w2 :: ws) = w ++ String slash (String.concat "/" (w2 :: ws)).
Proof. reflexivity. Qed.
Lemma sapp_assoc (a b c : string) : (a ++ b) ++ c = a ++ (b ++ c).
Proof. induction a; cbn; congruence. Qed.
Lemma sapp_nil (a : string) : a ++ "" = a.
Proof. induction a; cbn; congruence. Qed.
Lemma concat_snoc l x : l <> [] -> String.concat "/" (l ++ [x])%list = String.concat "/" l ++ String slash x.
Proof.
  induction l as [|a l IH]; [congruence|]. intros _. destruct l as [|b l]; [reflexivity|].
  change (String.concat "/" ((a :: b :: l) ++ [x])%list)
    with (a ++ String slash (String.concat "/" ((b :: l) ++ [x])%list)).
  rewrite IH by congruence. rewrite concat2, sapp_assoc. reflexivity.
Qed.
Lemma concat_nonempty l : Forall okc l -> l <> [] -> String.concat "/" l <> "".
Proof.
  destruct l as [|a l]; [congruence|]. intros F _. inversion F as [|? ? [N _] _]; subst.
  destruct a; [congruence|]. destruct l; discriminate.
Qed.
Lemma concat_ends l : Forall okc l -> l <> [] -> ends_with_slash (String.concat "/" l) = false.
Proof.
  intros F N. destruct (exists_last N) as (r & x & ->). apply Forall_app in F as (F & Fx).
  inversion Fx as [|? ? [Nx Sx] _]; subst. destruct r as [|a r].
  - cbn. apply free_ends. exact Sx.
  - rewrite concat_snoc by congruence. rewrite ends_app by discriminate.
    cbn. destruct x; [congruence|]. apply free_ends. exact Sx.
Qed.

(** ** split_on and components *)
Lemma split_slashes n s : split_on slash (slashes n ++ s) = (repeat "" n ++ split_on slash s)%list.
Proof.
  induction n as [|n IH]; [reflexivity|]. cbn [slashes append split_on repeat app].
  rewrite Ascii.eqb_refl, IH. reflexivity.
Qed.
Lemma split_concat l : Forall okc l -> l <> [] -> split_on slash (String.concat "/" l) = l.
Proof.
  intros F N. apply split_iff. split; [exact N|]. split; [reflexivity|].
  eapply Forall_impl; [|exact F]. intros a [_ H]. exact H.
Qed.
Lemma filter_all l : Forall okc l -> filter (fun c => negb (String.eqb c "")) l = l.
Proof.
  intros F. induction F as [|x r [Hx _] _ IH]; [reflexivity|].
  cbn. apply String.eqb_neq in Hx. rewrite Hx. cbn. f_equal. exact IH.
Qed.
Lemma components_concat n l : Forall okc l -> components (slashes n ++ String.concat "/" l) = l.
Proof.
  intros F. unfold components. rewrite split_slashes, filter_app.
  replace (filter (fun c => negb (c =? "")) (repeat "" n)) with (@nil string)
    by (induction n; [reflexivity|exact IHn]).
  destruct l as [|a l]; [reflexivity|]. rewrite split_concat by (assumption || congruence).
  cbn [app]. apply filter_all. exact F.
Qed.

(** ** dirname and join *)
Lemma through_free w : free_of slash w -> through_last_slash w = "".
Proof.
  induction w as [|a w IH]; [reflexivity|]. intros F. apply free_cons in F as (N & F).
  cbn. rewrite (IH F). apply Ascii.eqb_neq in N. rewrite N. reflexivity.
Qed.
Lemma through_app a w : free_of slash w -> through_last_slash (a ++ String slash w) = a ++ String slash "".
Proof.
  intros F. induction a as [|c a IH].
  - cbn. rewrite (through_free w F). reflexivity.
  - cbn [append through_last_slash]. rewrite IH.
    destruct (a ++ String slash "") eqn:E; [destruct a; discriminate E|]. reflexivity.
Qed.
Lemma strip_slash a : strip_slashes (a ++ String slash "") = strip_slashes a.
Proof. induction a as [|c a IH]; [reflexivity|]. cbn [append strip_slashes]. rewrite IH. reflexivity. Qed.
Lemma strip_fix a : ends_with_slash a = false -> strip_slashes a = a.
Proof.
  induction a as [|c a IH]; [reflexivity|]. cbn [ends_with_slash strip_slashes].
  destruct a as [|d a]; intros E.
  - cbn. rewrite E. reflexivity.
  - rewrite (IH E). reflexivity.
Qed.
Lemma strip_all n : strip_slashes (slashes n) = "".
Proof. induction n as [|n IH]; [reflexivity|]. cbn. rewrite IH. reflexivity. Qed.
Lemma slashes_snoc n : slashes (S n) = slashes n ++ String slash "".
Proof. induction n as [|n IH]; [reflexivity|]. cbn [slashes append]. f_equal. exact IH. Qed.
Lemma slashes_ends n : ends_with_slash (slashes (S n)) = true.
Proof. induction n as [|n IH]; [reflexivity|]. exact IH. Qed.

Lemma dirname_concat n l x : Forall okc l -> okc x ->
  dirname (slashes n ++ String.concat "/" (l ++ [x])%list)
  = slashes n ++ String.concat "/" l.
Proof.
  intros F [Nx Fx]. unfold dirname. destruct l as [|a l].
  - cbn [app String.concat]. rewrite sapp_nil. destruct n as [|n].
    + cbn [slashes append]. rewrite (through_free x Fx). reflexivity.
    + replace (slashes (S n) ++ x) with (slashes n ++ String slash x)
        by (rewrite slashes_snoc, sapp_assoc; reflexivity).
      rewrite (through_app _ _ Fx), <- slashes_snoc, strip_all. reflexivity.
  - rewrite concat_snoc by congruence. rewrite <- sapp_assoc.
    rewrite (through_app _ _ Fx), strip_slash, strip_fix.
    + destruct (String.eqb_spec (slashes n ++ String.concat "/" (a :: l)) "") as [E|E]; [|reflexivity].
      exfalso. apply (concat_nonempty (a :: l) F); [congruence|].
      destruct n; [exact E|discriminate E].
    + rewrite ends_app by (apply concat_nonempty; [exact F|congruence]).
      apply concat_ends; [exact F|congruence].
Qed.
Lemma join_concat n l y : Forall okc l -> okc y ->
  path_join (slashes n ++ String.concat "/" l) y = slashes n ++ String.concat "/" (l ++ [y])%list.
Proof.
  intros F [Ny Fy]. unfold path_join. rewrite (free_starts y Fy). destruct l as [|a l].
  - cbn [app String.concat]. rewrite sapp_nil. destruct n as [|n]; [reflexivity|].
    rewrite slashes_ends, orb_true_r. reflexivity.
  - rewrite ends_app by (apply concat_nonempty; [exact F|congruence]).
    rewrite concat_ends by (exact F || congruence).
    destruct (String.eqb_spec (slashes n ++ String.concat "/" (a :: l)) "") as [E|E].
    + exfalso. apply (concat_nonempty (a :: l) F); [congruence|]. destruct n; [exact E|discriminate E].
    + cbn [orb]. rewrite concat_snoc by congruence. rewrite sapp_assoc. reflexivity.
Qed.
Lemma joins_concat c cs : Forall okc (c :: cs) -> path_joins c cs = String.concat "/" (c :: cs).
Proof.
  intros F. unfold path_joins.
  assert (H : forall l r, Forall okc l -> Forall okc r -> l <> [] ->
             fold_left path_join r (String.concat "/" l) = String.concat "/" (l ++ r)%list).
  { clear. intros l r. revert l. induction r as [|y r IH]; intros l Fl Fr N.
    - rewrite app_nil_r. reflexivity.
    - inversion Fr; subst. cbn [fold_left].
      pose proof (join_concat 0 l y Fl H1) as E. cbn [slashes append] in E. rewrite E.
      rewrite IH.
      + rewrite <- app_assoc. reflexivity.
      + apply Forall_app. split; [exact Fl|constructor; [exact H1|constructor]].
      + assumption.
      + destruct l; discriminate. }
  inversion F; subst. apply (H [c] cs); [constructor; [assumption|constructor]|assumption|congruence].
Qed.

(** ** Walking *)
Lemma go_nm at_ c : nm c -> go at_ c = (at_ ++ [c])%list.
Proof. intros [[N _] [N1 N2]]. unfold go. repeat destruct string_dec; congruence. Qed.
Lemma go_nms at_ l : Forall nm l -> fold_left go l at_ = (at_ ++ l)%list.
Proof.
  intros F. revert at_. induction F as [|c l H _ IH]; intros at_; cbn [fold_left].
  - rewrite app_nil_r. reflexivity.
  - rewrite (go_nm _ _ H), IH, <- app_assoc. reflexivity.
Qed.
Lemma go_up n at_ up : length up = n -> fold_left go (repeat ".." n) (at_ ++ up)%list = at_.
Proof.
  revert up. induction n as [|n IH]; intros up H; cbn [repeat fold_left].
  - destruct up; [apply app_nil_r|discriminate H].
  - destruct (@exists_last _ up) as (u & x & ->); [intros ->; discriminate H|].
    change (go (at_ ++ u ++ [x])%list "..") with (removelast (at_ ++ u ++ [x])%list).
    rewrite app_assoc, removelast_last. apply IH. rewrite app_length in H. cbn in H. lia.
Qed.
Lemma removelast_Forall {B} (Pr : B -> Prop) l : Forall Pr l -> Forall Pr (removelast l).
Proof.
  intros F. destruct l as [|a l]; [constructor|]. destruct (@exists_last _ (a :: l)) as (r & x & E); [congruence|].
  rewrite E in F |- *. rewrite removelast_last. apply Forall_app in F. tauto.
Qed.
Lemma go_Forall at_ c : Forall nm at_ -> free_of slash c -> Forall nm (go at_ c).
Proof.
  intros F S. unfold go. destruct (string_dec c ""); [exact F|].
  destruct (string_dec c "."); [exact F|]. destruct (string_dec c "..").
  - apply removelast_Forall. exact F.
  - apply Forall_app. split; [exact F|]. constructor; [|constructor]. repeat split; assumption.
Qed.
Lemma walk_Forall l at_ : Forall nm at_ -> Forall (free_of slash) l -> Forall nm (fold_left go l at_).
Proof.
  intros F G. revert at_ F. induction G as [|c l S _ IH]; intros at_ F; [exact F|].
  cbn. apply IH. apply go_Forall; assumption.
Qed.
Lemma norm_step_go n acc c : (0 < n)%nat -> Forall nm acc -> norm_step n acc c = go acc c.
Proof.
  intros Hn F. unfold norm_step, go.
  destruct (String.eqb_spec c "") as [ -> |N0]; [reflexivity|].
  destruct (String.eqb_spec c ".") as [ -> |N1]; [reflexivity|]. cbn [orb].
  destruct (String.eqb_spec c "..") as [ -> |N2].
  - cbn [negb orb]. destruct (Nat.eqb_spec n 0); [lia|]. cbn [andb orb].
    destruct (rev acc) as [|y r] eqn:E; [reflexivity|].
    assert (Hy : nm y).
    { rewrite <- (rev_involutive acc), E in F. apply Forall_rev in F. rewrite rev_involutive in F.
      inversion F; assumption. }
    destruct Hy as (_ & _ & Hy). apply String.eqb_neq in Hy. rewrite Hy. reflexivity.
  - cbn [negb orb]. destruct (string_dec c ""), (string_dec c "."), (string_dec c ".."); congruence.
Qed.
Lemma norm_fold n l acc : (0 < n)%nat -> Forall nm acc -> Forall (free_of slash) l ->
  fold_left (norm_step n) l acc = fold_left go l acc.
Proof.
  intros Hn F G. revert acc F. induction G as [|c l S _ IH]; intros acc F; [reflexivity|].
  cbn. rewrite norm_step_go by assumption. apply IH. apply go_Forall; assumption.
Qed.

(** ** abspath *)
Lemma initial_pos p : absolute p -> (0 < initial_slashes p)%nat.
Proof.
  intros H. unfold initial_slashes. destruct (String.prefix "//" p && _); [lia|].
  apply starts_iff in H. rewrite H. lia.
Qed.
Lemma split_cons_slash r : split_on slash (String slash r) = "" :: split_on slash r.
Proof. reflexivity. Qed.

(** where an absolute path leads *)
Definition wa (p : string) : list string := fold_left go (split_on slash p) [].
Lemma wa_nm p : Forall nm (wa p).
Proof. apply walk_Forall; [constructor|apply split_free]. Qed.
Lemma nm_okc l : Forall nm l -> Forall okc l.
Proof. apply Forall_impl. intros a [H _]. exact H. Qed.
Lemma abs_iff p pl : absolute_place p pl <-> absolute p /\ pl = wa p.
Proof.
  unfold absolute_place, wa. split.
  - intros (Ha & parts & Hf & ->). apply fields_split in Hf. subst parts. split; [exact Ha|reflexivity].
  - intros (Ha & ->). split; [exact Ha|]. eexists. split; [apply fields_split; reflexivity|reflexivity].
Qed.
Lemma normpath_abs p : absolute p -> normpath p = slashes (initial_slashes p) ++ String.concat "/" (wa p).
Proof.
  intros Ha. pose proof (initial_pos p Ha) as Hn. unfold normpath.
  destruct (String.eqb_spec p "") as [ -> |_]; [destruct Ha as (r & H); discriminate H|].
  rewrite norm_fold by (exact Hn || constructor || apply split_free). fold (wa p).
  destruct (initial_slashes p); [lia|]. reflexivity.
Qed.

(** where a path leads from [cwd] *)
Definition wp (cwd p : string) : list string :=
  if starts_with_slash p then wa p else fold_left go (split_on slash p) (wa cwd).
Lemma wp_iff cwd p pl : absolute cwd -> p <> "" -> (place_of cwd p pl <-> pl = wp cwd p).
Proof.
  intros Hc Hp. unfold place_of, wp. destruct (starts_with_slash p) eqn:E.
  - apply starts_iff in E. rewrite abs_iff. split; [intros [(_ & H)|(H & _)]; [exact H|contradiction]|].
    intros H. left. split; [exact E|exact H].
  - apply starts_false in E. split.
    + intros [(H & _)|(_ & _ & here & parts & H1 & H2 & ->)]; [contradiction|].
      apply abs_iff in H1 as (_ & ->). apply fields_split in H2. subst. reflexivity.
    + intros ->. right. split; [exact E|]. split; [exact Hp|].
      exists (wa cwd), (split_on slash p). split; [apply abs_iff; auto|].
      split; [apply fields_split; reflexivity|reflexivity].
Qed.
Lemma wp_nm cwd p : Forall nm (wp cwd p).
Proof.
  unfold wp. destruct (starts_with_slash p); [apply wa_nm|].
  apply walk_Forall; [apply wa_nm|apply split_free].
Qed.

Lemma split_join_path a b : a <> "" -> starts_with_slash b = false ->
  fold_left go (split_on slash (path_join a b)) [] = fold_left go (split_on slash b) (wa a).
Proof.
  intros Ha Hb. unfold path_join. rewrite Hb. apply String.eqb_neq in Ha. rewrite Ha. cbn [orb].
  assert (H : forall u l, split_on slash (u ++ String slash l) = (split_on slash u ++ split_on slash l)%list).
  { clear. intros u l. induction u as [|c u IH].
    - cbn. rewrite ?Ascii.eqb_refl. reflexivity.
    - cbn [append split_on]. rewrite IH. destruct (Ascii.eqb c slash); [reflexivity|].
      pose proof (split_nonempty slash u). destruct (split_on slash u); [congruence|]. reflexivity. }
  destruct (ends_with_slash a) eqn:E.
  - assert (Hs : exists u, a = u ++ String slash "").
    { clear -E. induction a as [|c a IH]; [discriminate|]. cbn in E. destruct a as [|d a].
      - apply Ascii.eqb_eq in E. subst. exists "". reflexivity.
      - destruct (IH E) as (u & ->). exists (String c u). reflexivity. }
    destruct Hs as (u & ->). unfold wa. rewrite sapp_assoc. cbn [append]. rewrite !H, !fold_left_app.
    reflexivity.
  - rewrite H, fold_left_app. reflexivity.
Qed.
Lemma path_join_absolute a b : absolute a -> starts_with_slash b = false -> absolute (path_join a b).
Proof.
  intros (r & ->) Hb. unfold path_join. rewrite Hb. destruct (_ || _).
  - exists (r ++ b). reflexivity.
  - exists (r ++ String slash b). reflexivity.
Qed.
Lemma abspath_text cwd p : absolute cwd ->
  exists n, (0 < n)%nat /\ abspath cwd p = slashes n ++ String.concat "/" (wp cwd p).
Proof.
  intros Hc. unfold abspath, wp. destruct (starts_with_slash p) eqn:E.
  - apply starts_iff in E. exists (initial_slashes p). split; [apply initial_pos; exact E|].
    apply normpath_abs. exact E.
  - pose proof (path_join_absolute cwd p Hc E) as Ha.
    exists (initial_slashes (path_join cwd p)). split; [apply initial_pos; exact Ha|].
    rewrite (normpath_abs _ Ha). unfold wa at 1. rewrite split_join_path; [reflexivity| |exact E].
    destruct Hc as (r & ->). discriminate.
Qed.
Lemma components_abspath cwd p : absolute cwd -> components (abspath cwd p) = wp cwd p.
Proof.
  intros Hc. destruct (abspath_text cwd p Hc) as (n & _ & ->). apply components_concat.
  apply nm_okc, wp_nm.
Qed.
Lemma wp_dot cwd : wp cwd "." = wa cwd.
Proof. reflexivity. Qed.

(** ** relpath *)
Lemma common_spec a b : exists pre a' b', a = (pre ++ a')%list /\ b = (pre ++ b')%list /\ common a b = length pre
  /\ (forall x y u v, a' = x :: u -> b' = y :: v -> x <> y).
Proof.
  revert b. induction a as [|x a IH]; intros [|y b]; cbn.
  - exists [], [], []. repeat split. intros; discriminate.
  - exists [], [], (y :: b). repeat split. intros; discriminate.
  - exists [], (x :: a), []. repeat split. intros; discriminate.
  - destruct (String.eqb_spec x y) as [ -> |N].
    + destruct (IH b) as (pre & a' & b' & -> & -> & -> & H). exists (y :: pre), a', b'. repeat split. exact H.
    + exists [], (x :: a), (y :: b). repeat split. intros x' y' u v E E'. congruence.
Qed.
Lemma rel_okc k l : Forall nm l -> Forall okc (repeat ".." k ++ l)%list.
Proof.
  intros F. apply Forall_app. split; [|apply nm_okc; exact F].
  apply Forall_forall. intros x H. apply repeat_spec in H. subst. split; [discriminate|].
  unfold slash. intros b r E. destruct b as [|? [|? [|? b]]]; discriminate E.
Qed.
Lemma relpath_text cwd p : absolute cwd -> p <> "" ->
  exists pre up down, wa cwd = (pre ++ up)%list /\ wp cwd p = (pre ++ down)%list
    /\ let rel := (repeat ".." (length up) ++ down)%list in
       Forall nm down /\ relpath cwd p = Ok (if rel then "." else String.concat "/" rel).
Proof.
  intros Hc Hp. unfold relpath. apply String.eqb_neq in Hp. rewrite Hp.
  rewrite !components_abspath by exact Hc. rewrite wp_dot.
  destruct (common_spec (wa cwd) (wp cwd p)) as (pre & up & down & E1 & E2 & -> & _).
  pose proof (wp_nm cwd p) as F. rewrite E2 in F. apply Forall_app in F as (_ & F).
  exists pre, up, down. split; [exact E1|]. split; [exact E2|]. cbn zeta. split; [exact F|].
  rewrite E1, E2, app_length, skipn_app, skipn_all, Nat.sub_diag. cbn [skipn app].
  replace (length pre + length up - length pre)%nat with (length up) by lia.
  pose proof (rel_okc (length up) down F) as G.
  destruct (repeat ".." (length up) ++ down)%list as [|c cs] eqn:E; [reflexivity|].
  rewrite joins_concat by exact G. reflexivity.
Qed.
Lemma wp_rel cwd pre up down : absolute cwd -> wa cwd = (pre ++ up)%list -> Forall nm down ->
  (repeat ".." (length up) ++ down)%list <> [] ->
  wp cwd (String.concat "/" (repeat ".." (length up) ++ down)%list) = (pre ++ down)%list.
Proof.
  intros Hc Hw F N. pose proof (rel_okc (length up) down F) as G.
  unfold wp. replace (starts_with_slash _) with false.
  - rewrite split_concat by assumption. rewrite Hw, fold_left_app, go_up by reflexivity.
    apply go_nms. exact F.
  - symmetry. destruct (repeat ".." (length up) ++ down)%list as [|c cs]; [congruence|].
    inversion G as [|? ? [N1 N2] _]; subst. apply free_starts in N2.
    destruct c as [|a c]; [congruence|]. destruct cs; exact N2.
Qed.
(** relpath keeps the place *)
Lemma relpath_place cwd p : absolute cwd -> p <> "" ->
  exists q, relpath cwd p = Ok q /\ q <> "" /\ wp cwd q = wp cwd p.
Proof.
  intros Hc Hp. destruct (relpath_text cwd p Hc Hp) as (pre & up & down & E1 & E2 & F & ->).
  eexists. split; [reflexivity|].
  destruct (repeat ".." (length up) ++ down)%list as [|c cs] eqn:E.
  - split; [discriminate|]. rewrite wp_dot, E1, E2. destruct up; [|discriminate E].
    cbn in E. subst down. reflexivity.
  - rewrite <- E. split.
    + apply concat_nonempty; [apply rel_okc; exact F|congruence].
    + rewrite E2. apply wp_rel; [exact Hc|exact E1|exact F|congruence].
Qed.

(** ** the data directory *)
Lemma lookup_place cwd file dir name :
  absolute cwd -> file <> "" -> wp cwd file = (dir ++ [name])%list ->
  ~ above (dir ++ [name])%list (wa cwd) ->
  exists n l, lookup_directory cwd file = Ok (slashes n ++ String.concat "/" (l ++ ["lookup_data"])%list)
    /\ n = 0%nat /\ Forall okc l
    /\ forall ys, Forall nm ys -> wp cwd (String.concat "/" (l ++ ys)%list) = (dir ++ ys)%list \/ ys = [].
Proof.
  intros Hc Hf Hw Hn. unfold lookup_directory.
  destruct (relpath_text cwd file Hc Hf) as (pre & up & down & E1 & E2 & F & ->).
  cbn [bind]. destruct (@exists_last _ down) as (d & x & Ed).
  { intros ->. apply Hn. exists up. rewrite <- Hw, E2, E1, app_nil_r. reflexivity. }
  subst down. rewrite E2, app_assoc in Hw. apply app_inj_tail in Hw as (Hw & ->).
  apply Forall_app in F as (Fd & Fx). inversion Fx as [|? ? Hx _]; subst.
  exists 0%nat, (repeat ".." (length up) ++ d)%list.
  pose proof (rel_okc (length up) d Fd) as G.
  split; [|split; [reflexivity|split; [exact G|]]].
  - destruct (repeat ".." (length up) ++ d ++ [name])%list as [|c cs] eqn:E.
    { destruct up; [destruct d; discriminate E|discriminate E]. }
    rewrite <- E, app_assoc. f_equal.
    pose proof (dirname_concat 0 _ name G (proj1 Hx)) as D. cbn [slashes append] in D |- *. rewrite D.
    apply (join_concat 0); [exact G|]. split; [discriminate|].
    intros b r Q. unfold slash in Q. repeat (destruct b as [|? b]; [discriminate Q|injection Q as _ Q]).
    destruct b; discriminate Q.
  - intros ys Fy. destruct ys as [|y ys]; [right; reflexivity|left].
    rewrite <- app_assoc. rewrite (wp_rel cwd pre up (d ++ y :: ys)%list Hc E1).
    + rewrite app_assoc. reflexivity.
    + apply Forall_app. split; assumption.
    + intros Q. apply app_eq_nil in Q as (_ & Q). destruct d; discriminate Q.
Qed.
