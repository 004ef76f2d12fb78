(** * StrLemmas: the string functions of Csv.v mean what their names say. *)
From Coq Require Import String Ascii ZArith QArith List Bool Lia.
From Verif Require Import PyBase Csv BoltSpec.
Import ListNotations.
Local Open Scope string_scope.

Lemma prefix_iff p s : String.prefix p s = true <-> exists b, s = p ++ b.
Proof.
  revert s; induction p as [|a p IH]; intros s.
  - cbn. split; [exists s; reflexivity | destruct s; reflexivity].
  - destruct s as [|b s]; cbn.
    + split; [discriminate | intros (r & H); discriminate].
    + destruct (ascii_dec a b) as [->|N].
      * rewrite IH. split; intros (r & H); exists r; congruence.
      * split; [discriminate | intros (r & H); congruence].
Qed.

Lemma contains_iff p s : contains p s = true <-> occurs_in p s.
Proof.
  unfold contains, occurs_in. induction s as [|c s IH].
  - cbn. destruct p as [|a p]; split; try discriminate; try reflexivity.
    + intros _. exists "", "". reflexivity.
    + intros (b & r & H). destruct b; discriminate.
  - cbn [String.index].
    destruct (String.prefix p (String c s)) eqn:E.
    + split; [intros _|reflexivity]. apply prefix_iff in E as (b & E).
      exists "", b. exact E.
    + split.
      * destruct (String.index 0 p s); [|discriminate]. intros _.
        destruct (proj1 IH eq_refl) as (b & r & ->). exists (String c b), r. reflexivity.
      * intros (b & r & H). destruct b as [|c' b].
        { assert (String.prefix p (String c s) = true) by (apply prefix_iff; exists r; exact H).
          congruence. }
        cbn in H; injection H as -> H.
        assert (X : match String.index 0 p s with Some _ => true | None => false end = true)
          by (apply IH; exists b, r; exact H).
        destruct (String.index 0 p s); [reflexivity|discriminate].
Qed.
Lemma contains_false p s : contains p s = false <-> ~ occurs_in p s.
Proof. rewrite <- contains_iff. destruct (contains p s); split; congruence. Qed.

Lemma split_none c s : ~ occurs_in (String c "") s -> split_on c s = [s].
Proof.
  induction s as [|a s IH]; intros N; [reflexivity|].
  cbn. destruct (Ascii.eqb_spec a c) as [->|D].
  - exfalso; apply N. exists "", s. reflexivity.
  - rewrite IH; [reflexivity|]. intros (b & r & ->). apply N. exists (String a b), r. reflexivity.
Qed.
Lemma split_nonempty c s : split_on c s <> [].
Proof.
  destruct s as [|a s]; cbn; [discriminate|].
  destruct (Ascii.eqb a c); [discriminate|]. destruct (split_on c s); discriminate.
Qed.
Lemma split_last c b d :
  ~ occurs_in (String c "") d -> last (split_on c (b ++ String c "" ++ d)) "" = d.
Proof.
  intros N. induction b as [|a b IH].
  - cbn [append]. cbn [split_on]. rewrite Ascii.eqb_refl, (split_none c d N). reflexivity.
  - change (String a b ++ String c "" ++ d) with (String a (b ++ String c "" ++ d)).
    cbn [split_on]. destruct (Ascii.eqb a c).
    + pose proof (split_nonempty c (b ++ String c "" ++ d)).
      destruct (split_on c (b ++ String c "" ++ d)); [congruence|exact IH].
    + pose proof (split_nonempty c (b ++ String c "" ++ d)).
      destruct (split_on c (b ++ String c "" ++ d)) as [|w ws] eqn:E; [congruence|].
      destruct ws as [|w2 ws]; [|exact IH].
      (* a single word: impossible, there is a separator *)
      exfalso. clear -E. revert w E; induction b as [|x b IHb]; intros w E.
      * cbn [append split_on] in E. rewrite Ascii.eqb_refl in E.
        pose proof (split_nonempty c d). destruct (split_on c d); [congruence|discriminate].
      * change (String x b ++ String c "" ++ d) with (String x (b ++ String c "" ++ d)) in E.
        cbn [split_on] in E. destruct (Ascii.eqb x c).
        { pose proof (split_nonempty c (b ++ String c "" ++ d)).
          destruct (split_on c (b ++ String c "" ++ d)); [congruence|discriminate]. }
        destruct (split_on c (b ++ String c "" ++ d)) as [|v [|v2 vs]] eqn:E'.
        { exact (split_nonempty _ _ E'). }
        { exact (IHb _ eq_refl). }
        { discriminate. }
Qed.
