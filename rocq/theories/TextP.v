(** * TextP: the string functions of Csv.v against TextSpec.v. *)
From Coq Require Import String Ascii ZArith QArith List Bool Lia.
From Verif Require Import PyBase Csv BoltSpec StrLemmas TextSpec.
Import ListNotations.
Local Open Scope string_scope.

(** ** Numbers *)
Lemma digit_iff c d : digit c = Some d <-> exists n, d = Z.of_nat n /\ digit_is c n.
Proof.
  split.
  - intros H. exists (Z.to_nat d).
    destruct c as [[] [] [] [] [] [] [] []]; cbn in H; try discriminate H;
      injection H as <-; split; reflexivity.
  - intros (n & -> & H). unfold digit_is in H.
    do 10 (destruct n as [|n]; [cbn in H; injection H as <-; reflexivity|]).
    cbn in H. destruct n; discriminate H.
Qed.
Lemma digit_dot : digit "." = None. Proof. reflexivity. Qed.

(** the digits after the point *)
Lemma parse_frac s : forall acc den seen q,
  parse_digits s acc den true seen = Some q <->
  exists m j, digits s m j /\ (seen = true \/ (0 < j)%nat)
    /\ Qnum q = (acc * 10 ^ Z.of_nat j + m)%Z /\ Z.pos (Qden q) = (Z.pos den * 10 ^ Z.of_nat j)%Z.
Proof.
  induction s as [|a s IH]; intros acc den seen q; cbn [parse_digits].
  - split.
    + destruct seen; [|discriminate]. intros H. injection H as <-. exists 0%Z, 0%nat.
      split; [constructor|]. split; [auto|]. cbn. lia.
    + intros (m & j & D & Hs & H1 & H2). inversion D; subst. destruct Hs as [ -> |Hs]; [|lia].
      cbn in H1, H2. destruct q as [qn qd]. cbn in *. f_equal. f_equal; [lia|]. injection H2. lia.
  - destruct (digit a) as [d|] eqn:E.
    + rewrite IH. apply digit_iff in E as (n & -> & Hd). split.
      * intros (m & j & D & _ & H1 & H2).
        exists (Z.of_nat n * 10 ^ Z.of_nat j + m)%Z, (S j).
        split; [constructor; assumption|]. split; [right; lia|].
        rewrite Nat2Z.inj_succ, Z.pow_succ_r by lia. split; [rewrite H1; ring|]. lia.
      * intros (m & j & D & _ & H1 & H2). inversion D as [|c' d' s' m' j' Hd' D']; subst.
        assert (n = d').
        { assert (X : digit a = Some (Z.of_nat d')) by (apply digit_iff; eauto).
          assert (Y : digit a = Some (Z.of_nat n)) by (apply digit_iff; eauto).
          rewrite X in Y. injection Y. lia. }
        subst d'. exists m', j'. split; [exact D'|]. split; [auto|].
        rewrite Nat2Z.inj_succ, Z.pow_succ_r in H1, H2 by lia.
        split; [rewrite H1; ring|]. lia.
    + rewrite andb_false_r. split; [discriminate|].
      intros (m & j & D & _). inversion D as [|c' d' s' m' j' Hd' D']; subst.
      assert (X : digit a = Some (Z.of_nat d')) by (apply digit_iff; eauto). congruence.
Qed.

Lemma parse_whole s : forall acc seen q,
  parse_digits s acc 1 false seen = Some q <->
  exists whole fraction n k m j,
    digits whole n k /\ digits fraction m j /\ (seen = true \/ (0 < k + j)%nat)
    /\ ((s = whole /\ j = 0%nat) \/ s = whole ++ "." ++ fraction)
    /\ Qnum q = ((acc * 10 ^ Z.of_nat k + n) * 10 ^ Z.of_nat j + m)%Z
    /\ Z.pos (Qden q) = (10 ^ Z.of_nat j)%Z.
Proof.
  induction s as [|a s IH]; intros acc seen q; cbn [parse_digits].
  - split.
    + destruct seen; [|discriminate]. intros H. injection H as <-.
      exists "", "", 0%Z, 0%nat, 0%Z, 0%nat. repeat split; try constructor; auto. cbn. lia.
    + intros (w & f & n & k & m & j & D1 & D2 & Hs & Hp & H1 & H2).
      destruct Hp as [(<- & -> )|Hp]; [|destruct w; discriminate Hp].
      inversion D1; subst. inversion D2; subst.
      destruct Hs as [ -> |Hs]; [|lia]. destruct q as [qn qd]. cbn in *.
      f_equal. f_equal; [lia|]. injection H2. lia.
  - destruct (digit a) as [d|] eqn:E.
    + rewrite IH. apply digit_iff in E as (d0 & -> & Hd). split.
      * intros (w & f & n & k & m & j & D1 & D2 & _ & Hp & H1 & H2).
        exists (String a w), f, (Z.of_nat d0 * 10 ^ Z.of_nat k + n)%Z, (S k), m, j.
        split; [constructor; assumption|]. split; [exact D2|]. split; [right; lia|].
        split; [destruct Hp as [(-> & ->)| -> ]; [left; auto|right; reflexivity]|].
        split; [|exact H2]. rewrite H1, Nat2Z.inj_succ, Z.pow_succ_r by lia. ring.
      * intros (w & f & n & k & m & j & D1 & D2 & _ & Hp & H1 & H2).
        destruct w as [|a' w].
        { exfalso. destruct Hp as [(Hp & _)|Hp]; [discriminate Hp|].
          injection Hp as -> ->. destruct d0 as [|d0]; [discriminate Hd|].
          assert (X : digit "." = Some (Z.of_nat (S d0))) by (apply digit_iff; eauto).
          discriminate X. }
        inversion D1 as [|c' d' s' n' k' Hd' D']; subst.
        assert (a = a' /\ ((s = w /\ j = 0%nat) \/ s = w ++ "." ++ f)) as (<- & Hp').
        { destruct Hp as [(Hp & ->)|Hp]; injection Hp as -> ->; auto. }
        assert (d0 = d').
        { assert (X : digit a = Some (Z.of_nat d')) by (apply digit_iff; eauto).
          assert (Y : digit a = Some (Z.of_nat d0)) by (apply digit_iff; eauto).
          rewrite X in Y. injection Y. lia. }
        subst d'. exists w, f, n', k', m, j.
        split; [exact D'|]. split; [exact D2|]. split; [auto|]. split; [exact Hp'|].
        split; [|exact H2]. rewrite H1, Nat2Z.inj_succ, Z.pow_succ_r by lia. ring.
    + rewrite andb_true_r. destruct (Ascii.eqb_spec a ".") as [ -> |N].
      * rewrite parse_frac. split.
        { intros (m & j & D & Hs & H1 & H2). exists "", s, 0%Z, 0%nat, m, j.
          split; [constructor|]. split; [exact D|]. split; [exact Hs|].
          split; [right; reflexivity|]. split; [rewrite H1; cbn; ring|]. lia. }
        { intros (w & f & n & k & m & j & D1 & D2 & Hs & Hp & H1 & H2).
          destruct w as [|a' w].
          - inversion D1; subst. destruct Hp as [(Hp & _)|Hp]; [discriminate Hp|].
            injection Hp as ->. exists m, j. split; [exact D2|]. split; [exact Hs|].
            cbn in H1. split; [rewrite H1; ring|]. lia.
          - exfalso. inversion D1 as [|c' d' s' n' k' Hd' D']; subst.
            assert (a' = "."%char) as ->.
            { destruct Hp as [(Hp & _)|Hp]; injection Hp as <- _; reflexivity. }
            assert (X : digit "." = Some (Z.of_nat d')) by (apply digit_iff; eauto).
            discriminate X. }
      * split; [discriminate|].
        intros (w & f & n & k & m & j & D1 & D2 & Hs & Hp & H1 & H2). exfalso.
        destruct w as [|a' w].
        { destruct Hp as [(Hp & _)|Hp]; [discriminate Hp|]. injection Hp as -> _. congruence. }
        inversion D1 as [|c' d' s' n' k' Hd' D']; subst.
        assert (a' = a) as ->.
        { destruct Hp as [(Hp & _)|Hp]; injection Hp as <- _; reflexivity. }
        assert (X : digit a = Some (Z.of_nat d')) by (apply digit_iff; eauto). congruence.
Qed.

Lemma parse_unsigned_iff s q :
  (exists p, parse_digits s 0 1 false false = Some p /\ p == q) <-> unsigned_decimal s q.
Proof.
  assert (V : forall n m j (p : Q), Qnum p = (n * 10 ^ Z.of_nat j + m)%Z ->
    Z.pos (Qden p) = (10 ^ Z.of_nat j)%Z ->
    p == inject_Z n + inject_Z m / inject_Z (10 ^ Z.of_nat j)).
  { intros n m j p H1 H2. rewrite <- H2.
    assert (E : p == inject_Z (Qnum p) / inject_Z (Z.pos (Qden p))).
    { destruct p as [a b]. cbn [Qnum Qden]. rewrite Qmake_Qdiv. reflexivity. }
    apply (Qeq_trans _ _ _ E). rewrite H1, <- H2, inject_Z_plus, inject_Z_mult. field.
    intros C. unfold Qeq in C. cbn in C. lia. }
  split.
  - intros (p & Hp & E). apply parse_whole in Hp.
    destruct Hp as (w & f & n & k & m & j & D1 & D2 & Hs & Hp & H1 & H2).
    exists w, f, n, k, m, j. split; [exact D1|]. split; [exact D2|].
    split; [destruct Hs; [discriminate|assumption]|]. split; [exact Hp|].
    rewrite <- E. apply V; [rewrite H1; ring|exact H2].
  - intros (w & f & n & k & m & j & D1 & D2 & Hs & Hp & E).
    assert (Hpos : (0 < 10 ^ Z.of_nat j)%Z) by (apply Z.pow_pos_nonneg; lia).
    set (p := Qmake (n * 10 ^ Z.of_nat j + m)%Z (Z.to_pos (10 ^ Z.of_nat j))).
    exists p. split.
    + apply parse_whole. exists w, f, n, k, m, j. split; [exact D1|]. split; [exact D2|].
      split; [right; exact Hs|]. split; [exact Hp|]. unfold p; cbn [Qnum Qden].
      split; [ring|]. apply Z2Pos.id. exact Hpos.
    + rewrite E. apply V; unfold p; cbn [Qnum Qden]; [ring|]. apply Z2Pos.id. exact Hpos.
Qed.

Lemma unsigned_no_minus r q : ~ unsigned_decimal (String "-" r) q.
Proof.
  intros H. apply parse_unsigned_iff in H. destruct H as (p & Hp & _). discriminate Hp.
Qed.

Lemma parse_number_iff s q :
  (exists p, parse_number s = Some p /\ p == q) <-> decimal s q.
Proof.
  assert (Hcase : (exists r, s = String "-" r)
    \/ (parse_number s = parse_digits s 0 1 false false /\ forall r, s <> String "-" r)).
  { destruct s as [|[[] [] [] [] [] [] [] []] r];
      try (right; split; [reflexivity|intros ? H; discriminate H]).
    left. exists r. reflexivity. }
  destruct Hcase as [(r & ->)|(E & N)].
  - change (parse_number (String "-" r)) with (option_map Qopp (parse_digits r 0 1 false false)).
    split.
    + intros (p & Hp & Hq). destruct (parse_digits r 0 1 false false) as [p'|] eqn:E; [|discriminate].
      cbn in Hp. injection Hp as <-. right. exists r, p'. split; [reflexivity|].
      split; [|symmetry; exact Hq]. apply parse_unsigned_iff. exists p'. split; [exact E|reflexivity].
    + intros [H|(r' & p & H & Hu & Hq)]; [exfalso; apply unsigned_no_minus in H; exact H|].
      cbn in H. injection H as <-. apply parse_unsigned_iff in Hu as (p' & -> & Hp').
      exists (- p')%Q. split; [reflexivity|]. rewrite Hq, Hp'. reflexivity.
  - rewrite E, parse_unsigned_iff. split; [intros H; left; exact H|].
    intros [H|(r' & p & H & _)]; [exact H|]. exfalso. exact (N r' H).
Qed.

(** ** Lines and fields *)
Lemma concat_cons c a w ws :
  String.concat (String c "") (String a w :: ws) = String a (String.concat (String c "") (w :: ws)).
Proof. destruct ws; reflexivity. Qed.
Lemma split_join c s : String.concat (String c "") (split_on c s) = s.
Proof.
  induction s as [|a s IH]; [reflexivity|]. cbn [split_on].
  destruct (Ascii.eqb_spec a c) as [ -> |N].
  - pose proof (split_nonempty c s) as Hn. destruct (split_on c s) as [|w ws] eqn:E; [congruence|].
    change (String.concat (String c "") ("" :: w :: ws))
      with ("" ++ String c "" ++ String.concat (String c "") (w :: ws)). rewrite IH. reflexivity.
  - pose proof (split_nonempty c s) as Hn. destruct (split_on c s) as [|w ws] eqn:E; [congruence|].
    rewrite concat_cons, IH. reflexivity.
Qed.
Lemma free_nil c : free_of c "".
Proof. intros [|? ?] ? H; discriminate H. Qed.
Lemma free_cons c a s : free_of c (String a s) <-> a <> c /\ free_of c s.
Proof.
  split.
  - intros H. split.
    + intros ->. exact (H "" s eq_refl).
    + intros b r ->. exact (H (String a b) r eq_refl).
  - intros (N & H) [|b0 b] r E; cbn in E; injection E as -> ->; [congruence|]. exact (H b r eq_refl).
Qed.
Lemma split_free c s : Forall (free_of c) (split_on c s).
Proof.
  induction s as [|a s IH]; cbn [split_on].
  - constructor; [apply free_nil|constructor].
  - destruct (Ascii.eqb_spec a c) as [ -> |N].
    + constructor; [apply free_nil|exact IH].
    + pose proof (split_nonempty c s) as Hn. destruct (split_on c s) as [|w ws] eqn:E; [congruence|].
      inversion IH; subst. constructor; [apply free_cons; auto|assumption].
Qed.
Lemma split_app c w s : free_of c w -> split_on c (w ++ String c s) = w :: split_on c s.
Proof.
  induction w as [|a w IH]; intros F.
  - cbn. rewrite Ascii.eqb_refl. reflexivity.
  - apply free_cons in F as (N & F). cbn [append split_on].
    destruct (Ascii.eqb_spec a c); [congruence|]. rewrite (IH F). reflexivity.
Qed.
Lemma split_free_one c w : free_of c w -> split_on c w = [w].
Proof.
  induction w as [|a w IH]; intros F; [reflexivity|].
  apply free_cons in F as (N & F). cbn [split_on].
  destruct (Ascii.eqb_spec a c); [congruence|]. rewrite (IH F). reflexivity.
Qed.
Lemma split_iff c s parts : split_on c s = parts <-> fields c s parts.
Proof.
  split.
  - intros <-. split; [apply split_nonempty|]. split; [symmetry; apply split_join|apply split_free].
  - intros (N & -> & F). induction parts as [|w ws IH]; [congruence|].
    inversion F; subst. destruct ws as [|w2 ws].
    + apply split_free_one. assumption.
    + change (String.concat (String c "") (w :: w2 :: ws))
        with (w ++ String c (String.concat (String c "") (w2 :: ws))).
      rewrite split_app by assumption. rewrite IH; [reflexivity|congruence|assumption].
Qed.

(** ** White space *)
Lemma is_blank_iff a : is_blank a = true <-> white a.
Proof.
  unfold is_blank, white, newline. rewrite !orb_true_iff, !Ascii.eqb_eq.
  change (ascii_of_nat 10) with "010"%char. change (ascii_of_nat 13) with "013"%char.
  change (ascii_of_nat 9) with "009"%char. tauto.
Qed.
Lemma is_blank_false a : is_blank a = false <-> ~ white a.
Proof. rewrite <- is_blank_iff. destruct (is_blank a); split; congruence. Qed.

Lemma app_nil s : s ++ "" = s.
Proof. induction s as [|a s IH]; [reflexivity|]. cbn. rewrite IH. reflexivity. Qed.
Lemma app_assoc' a b c : (a ++ b) ++ c = a ++ b ++ c.
Proof. induction a as [|x a IH]; [reflexivity|]. cbn. rewrite IH. reflexivity. Qed.
Lemma lstrip_spec s : exists l, s = l ++ lstrip s /\ all_white l
  /\ (forall a u, lstrip s = String a u -> ~ white a).
Proof.
  induction s as [|a s (l & E & W & H)].
  - exists "". repeat split. intros a u X; discriminate X.
  - cbn [lstrip]. destruct (is_blank a) eqn:B.
    + exists (String a l). split; [cbn; rewrite <- E; reflexivity|].
      split; [split; [apply is_blank_iff; exact B|exact W]|exact H].
    + exists "". repeat split. intros a' u X. injection X as <- _. apply is_blank_false. exact B.
Qed.
Lemma rstrip_spec s : exists r, s = rstrip s ++ r /\ all_white r
  /\ (forall u a, rstrip s = u ++ String a "" -> ~ white a).
Proof.
  induction s as [|a s (r & E & W & H)].
  - exists "". repeat split. intros [|? ?] a' X; discriminate X.
  - cbn [rstrip]. destruct (rstrip s) as [|b t] eqn:R.
    + destruct (is_blank a) eqn:B.
      * exists (String a r). split; [cbn in *; rewrite <- E; reflexivity|].
        split; [split; [apply is_blank_iff; exact B|exact W]|]. intros [|? ?] ? X; discriminate X.
      * exists r. split; [cbn in *; rewrite <- E; reflexivity|]. split; [exact W|].
        intros u a' X. destruct u as [|? [|? ?]]; cbn in X; try discriminate X.
        injection X as <-. apply is_blank_false. exact B.
    + exists r. split; [cbn in *; rewrite E at 1; reflexivity|]. split; [exact W|].
      intros u a' X. destruct u as [|c u]; cbn in X; [discriminate X|].
      injection X as <- X. apply (H u a'). exact X.
Qed.
Lemma rstrip_head a t u : rstrip (String a t) = u -> ~ white a -> exists v, u = String a v.
Proof.
  cbn [rstrip]. intros <- N. destruct (rstrip t) as [|b v].
  - rewrite (proj2 (is_blank_false a) N). eexists. reflexivity.
  - eexists. reflexivity.
Qed.
Lemma strip_trimmed s : trimmed s (strip s).
Proof.
  unfold strip. destruct (lstrip_spec s) as (l & E & W & H).
  destruct (rstrip_spec (lstrip s)) as (r & E' & W' & H').
  exists l, r. split; [rewrite <- E'; exact E|]. split; [exact W|]. split; [exact W'|].
  split; [|exact H']. intros a u X.
  destruct (lstrip s) as [|b t] eqn:L; [discriminate X|].
  destruct (rstrip_head b t _ eq_refl (H b t eq_refl)) as (v & Ev).
  rewrite Ev in X. injection X as <- _. exact (H b t eq_refl).
Qed.
Lemma lstrip_app l s : all_white l -> lstrip (l ++ s) = lstrip s.
Proof.
  induction l as [|a l IH]; [reflexivity|]. intros (Wa & W). cbn.
  rewrite (proj2 (is_blank_iff a) Wa). apply IH. exact W.
Qed.
Lemma rstrip_white r : all_white r -> rstrip r = "".
Proof.
  induction r as [|a r IH]; [reflexivity|]. intros (Wa & W). cbn.
  rewrite (IH W), (proj2 (is_blank_iff a) Wa). reflexivity.
Qed.
Lemma rstrip_app t r : all_white r -> rstrip (t ++ r) = rstrip t.
Proof.
  intros W. induction t as [|a t IH]; [apply rstrip_white; exact W|]. cbn. rewrite IH. reflexivity.
Qed.
Lemma rstrip_fix t : (forall u a, t = u ++ String a "" -> ~ white a) -> rstrip t = t.
Proof.
  induction t as [|a t IH]; intros H; [reflexivity|]. cbn.
  destruct t as [|b t].
  - cbn. rewrite (proj2 (is_blank_false a)); [reflexivity|]. apply (H "" a). reflexivity.
  - rewrite IH; [reflexivity|]. intros u c E. apply (H (String a u) c). cbn. rewrite E. reflexivity.
Qed.
Lemma strip_iff s t : strip s = t <-> trimmed s t.
Proof.
  split; [intros <-; apply strip_trimmed|].
  intros (l & r & -> & Wl & Wr & Hh & Ht). unfold strip. rewrite lstrip_app by exact Wl.
  destruct t as [|a t].
  - cbn [append]. rewrite <- (app_nil r), lstrip_app by exact Wr. reflexivity.
  - cbn [append lstrip]. rewrite (proj2 (is_blank_false a)) by (apply (Hh a t); reflexivity).
    change (String a (t ++ r)) with (String a t ++ r). rewrite rstrip_app by exact Wr.
    apply rstrip_fix. exact Ht.
Qed.

(** ** Case *)
Lemma lower_ascii_iff a b : (forall c, ~ small_letter_of b c) ->
  lower_ascii a = b <-> a = b \/ small_letter_of a b.
Proof.
  intros Hb. split.
  - intros <-. destruct a as [[] [] [] [] [] [] [] []]; cbn; try (left; reflexivity); right;
      unfold small_letter_of;
      first [ exists 0%nat; split; reflexivity | exists 1%nat; split; reflexivity
            | exists 2%nat; split; reflexivity | exists 3%nat; split; reflexivity
            | exists 4%nat; split; reflexivity | exists 5%nat; split; reflexivity
            | exists 6%nat; split; reflexivity | exists 7%nat; split; reflexivity
            | exists 8%nat; split; reflexivity | exists 9%nat; split; reflexivity
            | exists 10%nat; split; reflexivity | exists 11%nat; split; reflexivity
            | exists 12%nat; split; reflexivity | exists 13%nat; split; reflexivity
            | exists 14%nat; split; reflexivity | exists 15%nat; split; reflexivity
            | exists 16%nat; split; reflexivity | exists 17%nat; split; reflexivity
            | exists 18%nat; split; reflexivity | exists 19%nat; split; reflexivity
            | exists 20%nat; split; reflexivity | exists 21%nat; split; reflexivity
            | exists 22%nat; split; reflexivity | exists 23%nat; split; reflexivity
            | exists 24%nat; split; reflexivity | exists 25%nat; split; reflexivity ].
  - intros [ -> |(n & H1 & H2)].
    + destruct b as [[] [] [] [] [] [] [] []]; try reflexivity; exfalso;
      (eapply Hb;
      first [ exists 0%nat; split; reflexivity | exists 1%nat; split; reflexivity
            | exists 2%nat; split; reflexivity | exists 3%nat; split; reflexivity
            | exists 4%nat; split; reflexivity | exists 5%nat; split; reflexivity
            | exists 6%nat; split; reflexivity | exists 7%nat; split; reflexivity
            | exists 8%nat; split; reflexivity | exists 9%nat; split; reflexivity
            | exists 10%nat; split; reflexivity | exists 11%nat; split; reflexivity
            | exists 12%nat; split; reflexivity | exists 13%nat; split; reflexivity
            | exists 14%nat; split; reflexivity | exists 15%nat; split; reflexivity
            | exists 16%nat; split; reflexivity | exists 17%nat; split; reflexivity
            | exists 18%nat; split; reflexivity | exists 19%nat; split; reflexivity
            | exists 20%nat; split; reflexivity | exists 21%nat; split; reflexivity
            | exists 22%nat; split; reflexivity | exists 23%nat; split; reflexivity
            | exists 24%nat; split; reflexivity | exists 25%nat; split; reflexivity ]).
    + do 26 (destruct n as [|n]; [cbn in H1, H2; injection H1 as <-; injection H2 as <-; reflexivity|]).
      cbn in H1. destruct n; discriminate H1.
Qed.

(** words without capital letters *)
Fixpoint small (w : string) : Prop :=
  match w with "" => True | String b r => (forall c, ~ small_letter_of b c) /\ small r end.
Lemma small_char b : (forall n, String.get n "ABCDEFGHIJKLMNOPQRSTUVWXYZ" <> Some b) ->
  forall c, ~ small_letter_of b c.
Proof. intros H c (n & E & _). exact (H n E). Qed.
Lemma lower_app a b : lower (a ++ b) = lower a ++ lower b.
Proof. induction a as [|x a IH]; [reflexivity|]. cbn. rewrite IH. reflexivity. Qed.
Lemma same_case_iff s t : small t -> lower s = t <-> same_but_for_case s t.
Proof.
  revert t; induction s as [|a s IH]; intros [|b t] Ht; cbn; try (split; [discriminate|tauto]).
  - tauto.
  - destruct Ht as (Hb & Ht). rewrite <- (IH t Ht), <- (lower_ascii_iff a b Hb).
    split; [intros E; injection E; auto|intros (-> & ->); reflexivity].
Qed.
Lemma lower_split s b w c : lower s = b ++ w ++ c ->
  exists b' w' c', s = b' ++ w' ++ c' /\ lower w' = w.
Proof.
  revert b; induction s as [|a s IH]; intros b E.
  - destruct b; [|discriminate E]. destruct w; [|discriminate E]. exists "", "", "". split; reflexivity.
  - destruct b as [|x b].
    + clear IH. cbn [append] in E. revert w E.
      enough (K : forall q w, lower q = w ++ c -> exists w' c', q = w' ++ c' /\ lower w' = w).
      { intros w E. destruct (K _ _ E) as (w' & c' & E1 & E2). exists "", w', c'. auto. }
      intros q; induction q as [|y q IHq]; intros w E.
      * destruct w; [|discriminate E]. exists "", "". auto.
      * destruct w as [|z w]; [exists "", (String y q); auto|].
        cbn in E. injection E as E0 E. destruct (IHq w E) as (w' & c' & -> & E2).
        exists (String y w'), c'. split; [reflexivity|]. cbn. rewrite E0, E2. reflexivity.
    + cbn in E. injection E as _ E. destruct (IH b E) as (b' & w' & c' & -> & E2).
      exists (String a b'), w', c'. auto.
Qed.
Lemma mentions_iff file w : small w -> occurs_in w (lower file) <-> mentions file w.
Proof.
  intros Hw. split.
  - intros (b & c & E). destruct (lower_split file b w c E) as (b' & w' & c' & -> & E2).
    exists b', w', c'. split; [reflexivity|]. apply same_case_iff; assumption.
  - intros (b & p & c & -> & E). apply same_case_iff in E; [|exact Hw].
    exists (lower b), (lower c). rewrite !lower_app, E. reflexivity.
Qed.
Ltac small_word :=
  repeat (split; [apply small_char; intros n Hn;
                  do 26 (destruct n as [|n]; [discriminate Hn|]); cbn in Hn; destruct n; discriminate Hn|]);
  exact I.
Lemma small_flange : small "flange". Proof. small_word. Qed.
Lemma small_stress : small "stress". Proof. small_word. Qed.
Lemma small_welded : small "welded". Proof. small_word. Qed.
Lemma small_seamless : small "seamless". Proof. small_word. Qed.

(** ** Replacing *)
Lemma get_ext s t : String.length s = String.length t ->
  (forall i, String.get i s = String.get i t) -> s = t.
Proof.
  revert t; induction s as [|a s IH]; intros [|b t] L H; try discriminate; [reflexivity|].
  pose proof (H 0%nat) as H0. cbn in H0. injection H0 as ->. f_equal. apply IH.
  - cbn in L. injection L as L. exact L.
  - intros i. exact (H (S i)).
Qed.
Lemma get_none s i : String.get i s = None <-> (String.length s <= i)%nat.
Proof.
  revert i; induction s as [|a s IH]; intros [|i]; cbn; split; intros H; try reflexivity; try lia; try discriminate.
  - apply IH in H. lia.
  - apply IH. lia.
Qed.
Lemma replace_replaced a b s : replaced a b s (replace_char a b s).
Proof.
  split.
  - induction s as [|x s IH]; [reflexivity|]. cbn. rewrite <- IH. reflexivity.
  - induction s as [|x s IH]; intros [|i] c H; cbn in H; try discriminate H.
    + injection H as ->. cbn. destruct (ascii_dec c a) as [->|N].
      * rewrite Ascii.eqb_refl. reflexivity.
      * destruct (Ascii.eqb_spec c a); [congruence|reflexivity].
    + cbn. apply IH. exact H.
Qed.
Lemma replace_iff a b s t : replace_char a b s = t <-> replaced a b s t.
Proof.
  split; [intros <-; apply replace_replaced|]. intros (L & H).
  destruct (replace_replaced a b s) as (L' & H'). apply get_ext; [congruence|].
  intros i. destruct (String.get i s) as [c|] eqn:E.
  - rewrite (H' _ _ E), (H _ _ E). reflexivity.
  - apply get_none in E. transitivity (@None ascii); [|symmetry]; apply get_none; lia.
Qed.

(** ** CSV *)
Lemma without_iff l k : filter (fun s => negb (String.eqb s "")) l = k <-> without_empty l k.
Proof.
  split.
  - intros <-. induction l as [|x l IH]; [constructor|]. cbn [filter].
    destruct (String.eqb_spec x "") as [->|N]; cbn [negb]; constructor; assumption.
  - induction 1 as [|l k _ IH|x l k N _ IH]; [reflexivity|exact IH|]. cbn [filter].
    destruct (String.eqb_spec x ""); [congruence|]. cbn [negb]. rewrite IH. reflexivity.
Qed.
Lemma map_split_iff c rest rows : map (split_on c) rest = rows <-> Forall2 (fields c) rest rows.
Proof.
  split.
  - intros <-. induction rest as [|x r IH]; constructor; [|exact IH]. apply split_iff. reflexivity.
  - induction 1 as [|x y r l H _ IH]; [reflexivity|]. cbn. rewrite IH. f_equal. apply split_iff. exact H.
Qed.
Lemma csv_read text cols rows : csv text cols rows -> read_csv text = mkFrame cols rows.
Proof.
  intros (lines & h & rest & F & W & Fh & Fr). unfold read_csv.
  rewrite (proj2 (split_iff newline text lines)) by exact F.
  rewrite (proj2 (without_iff lines _)) by exact W. cbv beta iota.
  rewrite (proj2 (split_iff comma h cols)) by exact Fh.
  rewrite (proj2 (map_split_iff comma rest rows)) by exact Fr. reflexivity.
Qed.
Lemma read_csv_iff text : forall cols rows,
  cols <> [] -> (read_csv text = mkFrame cols rows <-> csv text cols rows).
Proof.
  intros cols rows N. split; [|apply csv_read].
  unfold read_csv. destruct (filter _ (split_on newline text)) as [|h rest] eqn:E.
  - intros H. injection H as <- <-. congruence.
  - intros H. injection H as <- <-. apply without_iff in E.
    exists (split_on newline text), h, rest. split; [apply split_iff; reflexivity|].
    split; [exact E|]. split; [apply split_iff; reflexivity|]. apply map_split_iff. reflexivity.
Qed.
Lemma cell_iff cols : forall row c s, cell cols row c = Some s <-> entry_in cols row c s.
Proof.
  induction cols as [|k cols IH]; intros row c s; cbn [cell].
  - split; [discriminate|]. intros ([|j] & H & _); discriminate H.
  - destruct row as [|x row].
    + split; [discriminate|]. intros ([|j] & _ & H & _); discriminate H.
    + destruct (String.eqb_spec k c) as [->|N].
      * split.
        { intros H. injection H as ->. exists 0%nat. split; [reflexivity|]. split; [reflexivity|]. lia. }
        { intros ([|j] & H1 & H2 & H3); [exact H2|]. exfalso. apply (H3 0%nat); [lia|reflexivity]. }
      * rewrite IH. split.
        { intros (j & H1 & H2 & H3). exists (S j). split; [exact H1|]. split; [exact H2|].
          intros [|i] L; cbn; [congruence|]. apply H3. lia. }
        { intros ([|j] & H1 & H2 & H3); cbn in H1, H2; [congruence|]. exists j.
          split; [exact H1|]. split; [exact H2|]. intros i L. apply (H3 (S i)). lia. }
Qed.
