(** * InterpP: lemmas about np.interp and the order-1 spline. *)
From Coq Require Import String ZArith QArith Reals Qreals List Bool Lra Psatz Permutation.
From Verif Require Import PyBase Interp Spec QLemmas.
Import ListNotations.
Local Open Scope R_scope.

Lemma consecutive_cons {A} (a : A) l p q : consecutive l p q -> consecutive (a :: l) p q.
Proof. intros (b & c & ->). now exists (a :: b), c. Qed.
Lemma consecutive_hd {A} (a b : A) l : consecutive (a :: b :: l) a b.
Proof. now exists [], l. Qed.
Lemma consecutive_inv {A} (a b : A) l p q :
  consecutive (a :: b :: l) p q -> (p = a /\ q = b) \/ consecutive (b :: l) p q.
Proof.
  intros ([|x pre] & post & E); cbn in E.
  - injection E as -> -> ->; auto.
  - injection E as -> E. right. now exists pre, post.
Qed.
Lemma consecutive_nil {A} (p q : A) : ~ consecutive [] p q.
Proof. intros ([|x [|y pre]] & post & E); discriminate. Qed.
Lemma consecutive_one {A} (a p q : A) : ~ consecutive [a] p q.
Proof. intros ([|x [|y pre]] & post & E); discriminate. Qed.
Lemma consecutive_map {A B} (f : A -> B) l p q :
  consecutive l p q -> consecutive (map f l) (f p) (f q).
Proof.
  intros (b & c & ->). exists (map f b), (map f c). now rewrite map_app.
Qed.
Lemma consecutive_map_inv {A B} (f : A -> B) l p q :
  consecutive (map f l) p q -> exists p' q', consecutive l p' q' /\ p = f p' /\ q = f q'.
Proof.
  induction l as [|a [|b l] IH]; cbn [map].
  - intros H; now apply consecutive_nil in H.
  - intros H; now apply consecutive_one in H.
  - intros H; apply consecutive_inv in H as [[-> ->]|H].
    + exists a, b; auto using consecutive_hd.
    + destruct (IH H) as (p' & q' & H' & ? & ?). exists p', q'; auto using consecutive_cons.
Qed.

Lemma increasing_tl p l : increasing (p :: l) -> increasing l.
Proof. intros H a b C; apply H; now apply consecutive_cons. Qed.
Lemma falling_tl p l : falling (p :: l) -> falling l.
Proof. intros H a b C; apply H; now apply consecutive_cons. Qed.
Lemma increasing_hd p q l : increasing (p :: q :: l) -> fst p < fst q.
Proof. intros H; apply H, consecutive_hd. Qed.
Lemma falling_hd p q l : falling (p :: q :: l) -> snd q <= snd p.
Proof. intros H; apply H, consecutive_hd. Qed.
Lemma increasing_all p l : increasing (p :: l) -> forall q, In q l -> fst p < fst q.
Proof.
  revert p; induction l as [|a l IH]; intros p H q; [easy|].
  pose proof (increasing_hd _ _ _ H). intros [<-|I]; auto.
  pose proof (IH a (increasing_tl _ _ H) q I). lra.
Qed.
Lemma falling_all p l : falling (p :: l) -> forall q, In q l -> snd q <= snd p.
Proof.
  revert p; induction l as [|a l IH]; intros p H q; [easy|].
  pose proof (falling_hd _ _ _ H). intros [<-|I]; auto.
  pose proof (IH a (falling_tl _ _ H) q I). lra.
Qed.

Lemma strictly_increasing_spec l :
  increasing l -> strictly_increasing (map fst l) = true.
Proof.
  induction l as [|p [|q l] IH]; intros H; try reflexivity.
  cbn [map strictly_increasing]. rnum.
  rewrite Rltb_true by apply (increasing_hd _ _ _ H).
  apply (IH (increasing_tl _ _ H)).
Qed.

(** ** Lines *)
Lemma line_between p q x : fst p < fst q -> fst p <= x <= fst q -> snd q <= snd p ->
  snd q <= line p q x <= snd p.
Proof.
  intros L [A B] F. unfold line.
  assert (0 <= (x - fst p) / (fst q - fst p) <= 1).
  { split.
    - apply Rmult_le_pos; [lra|]. left; apply Rinv_0_lt_compat; lra.
    - apply Rmult_le_reg_r with (fst q - fst p); [lra|].
      unfold Rdiv; rewrite Rmult_assoc, Rinv_l; lra. }
  nra.
Qed.
Lemma line_falling p q x y : fst p < fst q -> x <= y -> snd q <= snd p ->
  line p q y <= line p q x.
Proof.
  intros L H F. unfold line.
  assert ((x - fst p) / (fst q - fst p) <= (y - fst p) / (fst q - fst p)).
  { unfold Rdiv. apply Rmult_le_compat_r; [|lra]. left; apply Rinv_0_lt_compat; lra. }
  nra.
Qed.
Lemma line_left p q : line p q (fst p) = snd p.
Proof. unfold line; unfold Rdiv; ring. Qed.
Lemma line_right p q : fst p < fst q -> line p q (fst q) = snd q.
Proof. intros; unfold line; field; lra. Qed.
Lemma line_convex p q x : fst p < fst q -> fst p <= x <= fst q ->
  exists t, 0 <= t <= 1 /\ line p q x = (1 - t) * snd p + t * snd q
            /\ t = (x - fst p) / (fst q - fst p).
Proof.
  intros L [A B]. exists ((x - fst p) / (fst q - fst p)). split; [|split; [|reflexivity]].
  - split.
    + apply Rmult_le_pos; [lra|]. left; apply Rinv_0_lt_compat; lra.
    + apply Rmult_le_reg_r with (fst q - fst p); [lra|].
      unfold Rdiv; rewrite Rmult_assoc, Rinv_l; lra.
  - unfold line; ring.
Qed.

(** ** np.interp *)
Lemma np_from_unfold x p q rest :
  fst p < fst q ->
  np_interp_from (A:=R) x p (q :: rest) =
  if Rltb x (fst q) then line p q x else np_interp_from x q rest.
Proof.
  intros L; cbn [np_interp_from]; rnum. destruct (Rltb x (fst q)); auto.
  unfold line. field. lra.
Qed.

Lemma np_from_line pts : forall a x p q,
  increasing (a :: pts) -> consecutive (a :: pts) p q -> fst p <= x <= fst q ->
  np_interp_from x a pts = line p q x.
Proof.
  induction pts as [|b pts IH]; intros a x p q I C X.
  - now apply consecutive_one in C.
  - pose proof (increasing_hd _ _ _ I) as L. rewrite np_from_unfold by assumption.
    apply consecutive_inv in C as [[-> ->]|C].
    + destruct (Rltb_spec x (fst b)) as [B|B]; [reflexivity|].
      assert (x = fst b) by lra. subst x. rewrite line_right by assumption.
      destruct pts as [|c pts]; [reflexivity|].
      pose proof (increasing_hd _ _ _ (increasing_tl _ _ I)).
      rewrite np_from_unfold by assumption. rewrite Rltb_true by assumption.
      now rewrite line_left.
    + assert (fst b <= fst p).
      { destruct C as ([|b' pre] & post & E); cbn in E; injection E as E1 E2.
        - subst; lra.
        - subst b'. left. apply (increasing_all _ _ (increasing_tl _ _ I)).
          rewrite E2. apply in_or_app; right; left; reflexivity. }
      rewrite Rltb_false by lra. apply IH; auto. now apply increasing_tl in I.
Qed.

Lemma np_interp_line pts x p q :
  increasing pts -> consecutive pts p q -> fst p <= x <= fst q ->
  np_interp x pts = Ok (line p q x).
Proof.
  intros I C X; destruct pts as [|a pts]; [now apply consecutive_nil in C|].
  cbn [np_interp]; rnum; rewrite !(Reqb_true _ _ eq_refl); cbn [negb].
  assert (fst a <= fst p).
  { destruct C as ([|b' pre] & post & E); cbn in E; injection E as E1 E2.
    - subst; lra.
    - subst b'. left. apply (increasing_all _ _ I). rewrite E2.
      apply in_or_app; right; left; reflexivity. }
  rewrite Rltb_false by lra. f_equal. now apply np_from_line.
Qed.

Lemma np_interp_low p pts x : x <= fst p -> increasing (p :: pts) ->
  np_interp x (p :: pts) = Ok (snd p).
Proof.
  intros X I; cbn [np_interp]; rnum; rewrite !(Reqb_true _ _ eq_refl); cbn [negb]. destruct (Rltb_spec x (fst p)); auto.
  assert (x = fst p) by lra; subst x.
  destruct pts as [|q pts]; [reflexivity|].
  pose proof (increasing_hd _ _ _ I).
  rewrite np_from_unfold, Rltb_true, line_left; auto.
Qed.

Lemma np_interp_high pts p x : increasing (pts ++ [p]) -> fst p <= x ->
  np_interp x (pts ++ [p]) = Ok (snd p).
Proof.
  intros I X; destruct pts as [|a pts]; cbn [app np_interp]; rnum; rewrite !(Reqb_true _ _ eq_refl); cbn [negb].
  - rewrite Rltb_false by assumption; reflexivity.
  - assert (fst a < fst p).
    { apply (increasing_all _ _ I). apply in_or_app; right; left; reflexivity. }
    rewrite Rltb_false by lra. f_equal.
    clear H. revert a I; induction pts as [|b pts IH]; intros a I; cbn [app].
    + pose proof (increasing_hd _ _ _ I).
      rewrite np_from_unfold, Rltb_false by assumption. reflexivity.
    + pose proof (increasing_hd _ _ _ I).
      assert (fst b < fst p).
      { apply (increasing_all _ _ (increasing_tl _ _ I)).
        apply in_or_app; right; left; reflexivity. }
      rewrite np_from_unfold, Rltb_false by (assumption || lra).
      apply IH. now apply increasing_tl in I.
Qed.

Lemma np_from_upper pts : forall p x,
  increasing (p :: pts) -> falling (p :: pts) -> fst p <= x ->
  np_interp_from x p pts <= snd p.
Proof.
  induction pts as [|q pts IH]; intros p x I F X; [cbn; lra|].
  pose proof (increasing_hd _ _ _ I); pose proof (falling_hd _ _ _ F).
  rewrite np_from_unfold by assumption.
  destruct (Rltb_spec x (fst q)).
  - apply line_between; lra.
  - apply Rle_trans with (snd q); [apply IH; eauto using increasing_tl, falling_tl; lra | lra].
Qed.

Lemma np_from_falling pts : forall p x y,
  increasing (p :: pts) -> falling (p :: pts) -> fst p <= x -> x <= y ->
  np_interp_from y p pts <= np_interp_from x p pts.
Proof.
  induction pts as [|q pts IH]; intros p x y I F X Y; [cbn; lra|].
  pose proof (increasing_hd _ _ _ I); pose proof (falling_hd _ _ _ F).
  rewrite !np_from_unfold by assumption.
  destruct (Rltb_spec x (fst q)), (Rltb_spec y (fst q)).
  - now apply line_falling.
  - apply Rle_trans with (snd q).
    + apply np_from_upper; eauto using increasing_tl, falling_tl; lra.
    + apply line_between; lra.
  - lra.
  - apply IH; eauto using increasing_tl, falling_tl; lra.
Qed.

Lemma np_interp_falling pts x y vx vy :
  increasing pts -> falling pts -> x <= y ->
  np_interp x pts = Ok vx -> np_interp y pts = Ok vy -> vy <= vx.
Proof.
  intros I F Y; destruct pts as [|p pts]; [discriminate|].
  cbn [np_interp]; rnum; rewrite !(Reqb_true _ _ eq_refl); cbn [negb]. intros [= <-] [= <-].
  destruct (Rltb_spec x (fst p)), (Rltb_spec y (fst p)); try lra.
  - apply np_from_upper; auto; lra.
  - apply np_from_falling; auto; lra.
Qed.

Lemma np_from_lower pts lo : forall p x,
  increasing (p :: pts) -> (forall q, In q (p :: pts) -> lo <= snd q) -> fst p <= x ->
  lo <= np_interp_from x p pts.
Proof.
  induction pts as [|q pts IH]; intros p x I B X; [cbn; apply B; now left|].
  pose proof (increasing_hd _ _ _ I). rewrite np_from_unfold by assumption.
  destruct (Rltb_spec x (fst q)).
  - destruct (line_convex p q x) as (t & T & -> & _); [assumption | lra |].
    pose proof (B p (or_introl eq_refl)); pose proof (B q (or_intror (or_introl eq_refl))).
    nra.
  - apply IH; eauto using increasing_tl; [|lra]. intros r Hr; apply B; now right.
Qed.
Lemma np_interp_lower pts lo x v :
  increasing pts -> (forall q, In q pts -> lo <= snd q) ->
  np_interp x pts = Ok v -> lo <= v.
Proof.
  intros I B; destruct pts as [|p pts]; [discriminate|].
  cbn [np_interp]; rnum; rewrite !(Reqb_true _ _ eq_refl); cbn [negb]. intros [= <-].
  destruct (Rltb_spec x (fst p)); [apply B; now left|].
  apply np_from_lower; auto; lra.
Qed.

(** Two tables over the same abscissae, one below the other. *)
Definition below (l1 l2 : list (R * R)) : Prop :=
  Forall2 (fun p q => fst p = fst q /\ snd p <= snd q) l1 l2.

Lemma np_from_below l1 : forall l2 p1 p2 x,
  below l1 l2 -> fst p1 = fst p2 -> snd p1 <= snd p2 ->
  increasing (p1 :: l1) -> increasing (p2 :: l2) -> fst p1 <= x ->
  np_interp_from x p1 l1 <= np_interp_from x p2 l2.
Proof.
  induction l1 as [|q1 l1 IH]; intros l2 p1 p2 x B E L I1 I2 X.
  - inversion B; subst; cbn; lra.
  - inversion B as [|? q2 ? l2' [E' L'] B']; subst.
    pose proof (increasing_hd _ _ _ I1); pose proof (increasing_hd _ _ _ I2).
    rewrite !np_from_unfold, <- E' by assumption.
    destruct (Rltb_spec x (fst q1)).
    + destruct (line_convex p1 q1 x) as (t & T & -> & ->); [assumption | lra |].
      destruct (line_convex p2 q2 x) as (t' & T' & -> & ->);
        [rewrite <- E'; lra | rewrite <- E', <- E; lra |].
      rewrite <- E, <- E' in *. nra.
    + apply IH; eauto using increasing_tl; lra.
Qed.
Lemma np_interp_below l1 l2 x v1 v2 :
  below l1 l2 -> increasing l1 -> increasing l2 ->
  np_interp x l1 = Ok v1 -> np_interp x l2 = Ok v2 -> v1 <= v2.
Proof.
  intros B I1 I2; destruct B as [|p1 p2 l1 l2 [E L] B]; [discriminate|].
  cbn [np_interp]; rnum; rewrite !(Reqb_true _ _ eq_refl); cbn [negb]. rewrite <- E. intros [= <-] [= <-].
  destruct (Rltb_spec x (fst p1)); [assumption|].
  apply np_from_below; auto; lra.
Qed.

(** ** The order-1 spline on increasing abscissae *)
Lemma insert_first p l :
  (forall q, In q l -> fst p < fst q) -> insert_pt (A:=R) p l = p :: l.
Proof.
  destruct l as [|q l]; intros H; [reflexivity|]. cbn; rnum.
  rewrite Rleb_true; [reflexivity|]. left; apply H; now left.
Qed.
Lemma sort_increasing l : increasing l -> sort_pts l = l.
Proof.
  induction l as [|p l IH]; intros I; [reflexivity|]. cbn [sort_pts].
  rewrite IH by now apply increasing_tl in I. apply insert_first.
  now apply increasing_all.
Qed.
Lemma no_duplicates l : increasing l -> has_duplicates l = false.
Proof.
  induction l as [|p [|q l] IH]; intros I; try reflexivity.
  cbn [has_duplicates]; rnum. pose proof (increasing_hd _ _ _ I).
  rewrite Reqb_false by lra. apply (IH (increasing_tl _ _ I)).
Qed.

Lemma spline1_np rest : forall p x,
  increasing (p :: rest) -> rest <> [] -> fst p <= x -> x <= fst (last rest p) ->
  spline1 x p rest = np_interp_from x p rest.
Proof.
  induction rest as [|q rest IH]; intros p x I N X Y; [contradiction|].
  pose proof (increasing_hd _ _ _ I) as L.
  rewrite np_from_unfold by assumption. cbn [spline1].
  destruct rest as [|r rest].
  - cbn in Y. rnum. rewrite Reqb_false by lra.
    destruct (Rltb_spec x (fst q)).
    + unfold line; field; lra.
    + assert (x = fst q) by lra; subst x. cbn. field; lra.
  - rnum. destruct (Rleb_spec (fst q) x), (Rltb_spec x (fst q)); try lra.
    + apply IH; auto; [now apply increasing_tl in I | discriminate |].
      change (last (q :: r :: rest) p) with (last (r :: rest) p) in Y.
      revert Y. clear. intros Y.
      assert (E : forall (d d' : R * R) l a, last (a :: l) d = last (a :: l) d').
      { intros d d' l; induction l as [|b l IHl]; intros a; [reflexivity|].
        change (last (b :: l) d = last (b :: l) d'). apply IHl. }
      now rewrite (E q p).
    + unfold line; field; lra.
Qed.

Lemma slinear_np strict pts x :
  increasing pts -> (2 <= length pts)%nat ->
  (forall p, hd_error pts = Some p -> fst p <= x) ->
  (forall p d, pts <> [] -> p = last pts d -> x <= fst p) ->
  slinear strict pts x = np_interp x pts.
Proof.
  intros I L Lo Hi; unfold slinear.
  rewrite sort_increasing, no_duplicates, andb_false_r by assumption.
  destruct pts as [|p [|q pts]]; cbn in L; try (exfalso; Lia.lia).
  specialize (Lo p eq_refl). specialize (Hi (last (p :: q :: pts) p) p ltac:(discriminate) eq_refl).
  change (last (p :: q :: pts) p) with (last (q :: pts) p) in Hi.
  rnum. rewrite !Rltb_false by assumption. cbn [orb np_interp]; rnum; rewrite !(Reqb_true _ _ eq_refl); cbn [negb].
  rewrite Rltb_false by assumption. f_equal. apply spline1_np; auto. discriminate.
Qed.
Lemma slinear_out strict pts p0 pn x :
  increasing pts -> (2 <= length pts)%nat ->
  hd_error pts = Some p0 -> last pts p0 = pn -> (x < fst p0 \/ fst pn < x) ->
  slinear strict pts x = Err NotFinite.
Proof.
  intros I L Lo Hi H; unfold slinear.
  rewrite sort_increasing, no_duplicates, andb_false_r by assumption.
  destruct pts as [|p [|q pts]]; cbn in L; try (exfalso; Lia.lia).
  injection Lo as ->.
  change (last (p0 :: q :: pts) p0) with (last (q :: pts) p0) in Hi.
  rnum. rewrite Hi. destruct H as [H|H].
  - rewrite (Rltb_true x) by assumption. reflexivity.
  - rewrite (Rltb_true (fst pn)) by assumption. now rewrite orb_true_r.
Qed.
