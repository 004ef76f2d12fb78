(** * StressP: lemmas about Tube.calculate_max_stress. *)
From Coq Require Import String ZArith QArith Reals Qreals List Bool Lra Psatz.
From Verif Require Import PyBase Pint UnitsM Spec QLemmas Csv Tables Interp InterpP NumQ TubeM.
Import ListNotations.
Local Open Scope R_scope.

Lemma str_mem_In s l : str_mem s l = true <-> In s l.
Proof.
  unfold str_mem; rewrite existsb_exists; split.
  - intros (x & I & E). apply String.eqb_eq in E; now subst.
  - intros I. exists s; split; auto. apply String.eqb_refl.
Qed.
Lemma str_mem_false s l : str_mem s l = false <-> ~ In s l.
Proof.
  rewrite <- str_mem_In. destruct (str_mem s l); split; intros; congruence.
Qed.

(** Number of a cell known to be filled. *)
Definition numc (cols row : list string) (c : string) : Q :=
  match num_cell cols row c with Some q => q | None => 0 end.

Definition limitsQ (material : string) (welded : bool) : list (Q * Q) :=
  let f := MATERIAL_LIMITS welded in
  map (fun r => (numc (f_cols f) r "Temp", numc (f_cols f) r material)) (f_rows f).
Definition limits (material : string) (welded : bool) : list (R * R) :=
  map pt2R (limitsQ material welded).

Definition filled (c : string) (f : frame) : bool :=
  forallb (fun r => match num_cell (f_cols f) r c with Some _ => true | None => false end)
          (f_rows f).

Fixpoint incQ (l : list (Q * Q)) : bool :=
  match l with
  | p :: ((q :: _) as r) => (Qltb (fst p) (fst q) && incQ r)%bool
  | _ => true
  end.
Fixpoint fallQ (l : list (Q * Q)) : bool :=
  match l with
  | p :: ((q :: _) as r) => (Qle_bool (snd q) (snd p) && fallQ r)%bool
  | _ => true
  end.
Lemma incQ_R l : incQ l = true -> increasing (map pt2R l).
Proof.
  induction l as [|p [|q l] IH]; intros H.
  - intros ? ? C; now apply consecutive_nil in C.
  - intros ? ? C; now apply consecutive_one in C.
  - cbn [incQ] in H. apply andb_true_iff in H as [H1 H2].
    intros a b C. cbn [map] in C. apply consecutive_inv in C as [[-> ->]|C].
    + now apply Qltb_lt.
    + now apply (IH H2).
Qed.
Lemma fallQ_R l : fallQ l = true -> falling (map pt2R l).
Proof.
  induction l as [|p [|q l] IH]; intros H.
  - intros ? ? C; now apply consecutive_nil in C.
  - intros ? ? C; now apply consecutive_one in C.
  - cbn [fallQ] in H. apply andb_true_iff in H as [H1 H2].
    intros a b C. cbn [map] in C. apply consecutive_inv in C as [[-> ->]|C].
    + now apply Qle_bool_le.
    + now apply (IH H2).
Qed.
Definition belowQ (l1 l2 : list (Q * Q)) : bool :=
  (Nat.eqb (length l1) (length l2)
   && forallb (fun pq => Qeq_bool (fst (fst pq)) (fst (snd pq))
                         && Qle_bool (snd (fst pq)) (snd (snd pq))) (combine l1 l2))%bool.
Lemma belowQ_R l1 l2 : belowQ l1 l2 = true -> below (map pt2R l1) (map pt2R l2).
Proof.
  unfold belowQ; intros H; apply andb_true_iff in H as [H1 H2].
  apply Nat.eqb_eq in H1. revert l2 H1 H2.
  induction l1 as [|p l1 IH]; intros [|q l2] H1 H2; try discriminate; constructor.
  - cbn in H2. apply andb_true_iff in H2 as [H2 _]. apply andb_true_iff in H2 as [A B].
    split; [now apply Qeq_eqR, Qeq_bool_iff | now apply Qle_bool_le].
  - cbn in H2. apply andb_true_iff in H2 as [_ H2]. apply IH; auto.
Qed.

(** Facts about the two shipped tables: every column filled, temperatures strictly
    increasing from -20 to 1200, stresses falling and non-negative, welded below
    seamless.  Finite, by computation. *)
Definition stress_facts (m : string) (w : bool) : bool :=
  (str_mem m (f_cols (MATERIAL_LIMITS w))
   && filled "Temp" (MATERIAL_LIMITS w) && filled m (MATERIAL_LIMITS w)
   && incQ (limitsQ m w) && fallQ (limitsQ m w)
   && forallb (fun p => Qle_bool 0 (snd p)) (limitsQ m w)
   && belowQ (limitsQ m true) (limitsQ m false)
   && match hd_error (limitsQ m w), hd_error (rev (limitsQ m w)) with
      | Some p, Some q => Qeq_bool (fst p) (-20) && Qeq_bool (fst q) 1200
      | _, _ => false
      end)%bool.
Lemma stress_facts_hold :
  forallb (fun m => stress_facts m true && stress_facts m false)%bool available_materials
  = true.
Proof. vm_compute. reflexivity. Qed.
Lemma stress_facts_of m w : In m available_materials -> stress_facts m w = true.
Proof.
  intros I. pose proof stress_facts_hold as H. rewrite forallb_forall in H.
  specialize (H m I). apply andb_true_iff in H as [H1 H2]. now destruct w.
Qed.

Record stress_ok (m : string) (w : bool) : Prop := {
  so_col : str_mem m (f_cols (MATERIAL_LIMITS w)) = true;
  so_temp : filled "Temp" (MATERIAL_LIMITS w) = true;
  so_fill : filled m (MATERIAL_LIMITS w) = true;
  so_inc : increasing (limits m w);
  so_fall : falling (limits m w);
  so_pos : forall q, In q (limits m w) -> 0 <= snd q;
  so_below : below (limits m true) (limits m false);
  so_ends : exists first last mid, limits m w = first :: mid ++ [last]
              /\ fst first = -20 /\ fst last = 1200 }.
Lemma stress_ok_of m w : In m available_materials -> stress_ok m w.
Proof.
  intros I. pose proof (stress_facts_of m w I) as H. unfold stress_facts in H.
  repeat (apply andb_true_iff in H; destruct H as [H ?]).
  constructor; auto.
  - now apply incQ_R.
  - now apply fallQ_R.
  - intros q Hq. apply in_map_iff in Hq as (p & <- & Hp).
    match goal with X : forallb _ _ = true |- _ => rewrite forallb_forall in X;
      specialize (X p Hp); apply Qle_bool_le in X end.
    cbn. replace (Q2R 0) with 0 in * by (q2r; lra). assumption.
  - now apply belowQ_R.
  - match goal with X : match _ with _ => _ end = true |- _ => revert X end.
    unfold limits. destruct (limitsQ m w) as [|p l]; [discriminate|]. cbn [hd_error].
    destruct (rev (p :: l)) as [|q r] eqn:E; [discriminate|]. cbn [hd_error].
    intros X. apply andb_true_iff in X as [X1 X2].
    apply Qeq_bool_iff, Qeq_eqR in X1, X2.
    assert (E' : p :: l = rev r ++ [q]).
    { now rewrite <- (rev_involutive (p :: l)), E. }
    destruct (rev r) as [|p' r'] eqn:Er; cbn in E'.
    + injection E' as -> ->. rewrite X1 in X2. exfalso. revert X2. q2r. lra.
    + injection E' as -> ->. exists (pt2R p'), (pt2R q), (map pt2R r').
      rewrite map_cons, map_app. cbn [map]. repeat split; cbn [pt2R fst].
      * rewrite X1; q2r; lra.
      * rewrite X2; q2r; lra.
Qed.

Lemma mapM_ok {A B} (f : A -> result B) (g : A -> B) l :
  (forall x, In x l -> f x = Ok (g x)) -> mapM f l = Ok (map g l).
Proof.
  induction l as [|x l IH]; intros H; [reflexivity|].
  cbn. rewrite H by now left. cbn. rewrite IH; [reflexivity|]. intros; apply H; now right.
Qed.

Lemma limits_ok m w : In m available_materials ->
  get_pipe_stress_limits m w = Ok (limits m w).
Proof.
  intros I. destruct (stress_ok_of m w I).
  unfold get_pipe_stress_limits. rewrite so_col0. cbn [negb raise_if bind].
  unfold limits, limitsQ. rewrite map_map.
  apply mapM_ok. intros r Hr. unfold numc. unfold filled in *.
  rewrite forallb_forall in so_temp0, so_fill0.
  specialize (so_temp0 r Hr); specialize (so_fill0 r Hr).
  destruct (num_cell _ r "Temp"); [|discriminate].
  destruct (num_cell _ r m); [|discriminate]. reflexivity.
Qed.

Lemma to_degF q t reg : parsed q d_temperature (fahrenheit t) reg ->
  exists q', q_to_str q "degF" = Ok q' /\ q_mag q' = t.
Proof.
  intros P. pose proof (parsed_base_mag _ _ _ _ P) as B.
  destruct P as (_ & D & _ & _).
  unfold q_to_str. cbn [lookup_unit unit_table assoc String.eqb Ascii.eqb Bool.eqb].
  unfold lookup_unit; cbn. unfold q_to; cbn [u_dim]. rewrite D, dim_eqb_refl.
  eexists; split; [reflexivity|]. cbn. rnum. rewrite B. unfold fahrenheit; q2r. lra.
Qed.

Lemma max_stress_closed temp t m w reg :
  In m available_materials -> denotes temp d_temperature (fahrenheit t) ->
  calculate_max_stress temp m w reg
  = let* s := np_interp t (limits m w) in quant reg s "ksi".
Proof.
  intros I D; unfold calculate_max_stress.
  destruct (parse_denotes _ _ _ reg D) as (q & -> & P); cbn [bind].
  rewrite limits_ok by assumption; cbn [bind].
  destruct (stress_ok_of m w I).
  rewrite strictly_increasing_spec by assumption; cbn [negb raise_if bind].
  destruct (to_degF _ _ _ P) as (q' & -> & M'); cbn [bind]; rewrite M'. reflexivity.
Qed.

Lemma max_stress_value temp t m w reg v :
  In m available_materials -> denotes temp d_temperature (fahrenheit t) ->
  np_interp t (limits m w) = Ok v ->
  exists q, calculate_max_stress temp m w reg = Ok q /\ is_in q v "ksi" reg.
Proof.
  intros I D E; rewrite (max_stress_closed temp t) by assumption. rewrite E; cbn [bind].
  eexists; split; [reflexivity|]. repeat split; reflexivity.
Qed.
Lemma max_stress_inv temp t m w reg q :
  In m available_materials -> denotes temp d_temperature (fahrenheit t) ->
  calculate_max_stress temp m w reg = Ok q ->
  np_interp t (limits m w) = Ok (q_mag q) /\ is_in q (q_mag q) "ksi" reg.
Proof.
  intros I D. rewrite (max_stress_closed temp t) by assumption.
  destruct (np_interp t (limits m w)) as [v|]; [|discriminate].
  cbn [bind]. cbn. intros [= <-]. repeat split; reflexivity.
Qed.

Lemma entry_limits w m r T S :
  In m available_materials ->
  num_cell (f_cols (MATERIAL_LIMITS w)) r "Temp" = Some T ->
  num_cell (f_cols (MATERIAL_LIMITS w)) r m = Some S ->
  pt2R (numc (f_cols (MATERIAL_LIMITS w)) r "Temp", numc (f_cols (MATERIAL_LIMITS w)) r m)
  = (Q2R T, Q2R S).
Proof. intros _ E1 E2. unfold numc; now rewrite E1, E2. Qed.

(** ** C23 *)
Lemma max_stress_line :
  forall (material : string) (welded : bool) (temp : pyin R) (t : R) (reg : nat)
         (row1 row2 : list string) (T1 S1 T2 S2 : Q),
    let f := MATERIAL_LIMITS welded in
    In material available_materials ->
    consecutive (f_rows f) row1 row2 ->
    num_cell (f_cols f) row1 "Temp" = Some T1 -> num_cell (f_cols f) row1 material = Some S1 ->
    num_cell (f_cols f) row2 "Temp" = Some T2 -> num_cell (f_cols f) row2 material = Some S2 ->
    denotes temp d_temperature (fahrenheit t) -> Q2R T1 <= t <= Q2R T2 ->
    exists q, calculate_max_stress temp material welded reg = Ok q
              /\ is_in q (line (Q2R T1, Q2R S1) (Q2R T2, Q2R S2) t) "ksi" reg.
Proof.
  intros m w temp t reg r1 r2 T1 S1 T2 S2 f I C E1 E2 E3 E4 D X.
  apply (max_stress_value temp t); auto. apply np_interp_line.
  - apply (stress_ok_of m w I).
  - rewrite <- (entry_limits w m r1 T1 S1), <- (entry_limits w m r2 T2 S2) by assumption.
    unfold limits, limitsQ. rewrite map_map. fold f.
    exact (consecutive_map
             (fun r => pt2R (numc (f_cols f) r "Temp", numc (f_cols f) r m)) _ _ _ C).
  - exact X.
Qed.

Lemma table_total material welded row :
  In material available_materials -> In row (f_rows (MATERIAL_LIMITS welded)) ->
  exists T S, num_cell (f_cols (MATERIAL_LIMITS welded)) row "Temp" = Some T
              /\ num_cell (f_cols (MATERIAL_LIMITS welded)) row material = Some S.
Proof.
  intros I Hr. destruct (stress_ok_of material welded I). unfold filled in *.
  rewrite forallb_forall in so_temp0, so_fill0.
  specialize (so_temp0 row Hr); specialize (so_fill0 row Hr).
  destruct (num_cell _ row "Temp"); [|discriminate].
  destruct (num_cell _ row material); [|discriminate]. eauto.
Qed.

(** Exactly the tabulated range: the first row is -20 degF, the last 1200 degF. *)
Lemma between_consecutive l : forall p q mid x,
  l = p :: mid ++ [q] -> increasing l -> fst p <= x <= fst q ->
  exists a b, consecutive l a b /\ fst a <= x <= fst b.
Proof.
  induction l as [|a l IH]; intros p q mid x E I X; [discriminate|].
  injection E as -> E. destruct mid as [|b mid]; cbn in E; subst l.
  - exists p, q; split; [apply consecutive_hd | lra].
  - destruct (Rle_or_lt x (fst b)).
    + exists p, b; split; [apply consecutive_hd | lra].
    + destruct (IH b q mid x eq_refl (increasing_tl _ _ I) ltac:(lra)) as (u & v & C & Y).
      exists u, v; split; auto. now apply consecutive_cons.
Qed.

Lemma max_stress_defined m w temp t reg :
  In m available_materials -> denotes temp d_temperature (fahrenheit t) ->
  -20 <= t <= 1200 ->
  exists row1 row2 T1 T2, consecutive (f_rows (MATERIAL_LIMITS w)) row1 row2
    /\ num_cell (f_cols (MATERIAL_LIMITS w)) row1 "Temp" = Some T1
    /\ num_cell (f_cols (MATERIAL_LIMITS w)) row2 "Temp" = Some T2
    /\ Q2R T1 <= t <= Q2R T2
    /\ exists q, calculate_max_stress temp m w reg = Ok q.
Proof.
  intros I D X. destruct (stress_ok_of m w I).
  destruct so_ends0 as (p & q & mid & E & F1 & F2).
  destruct (between_consecutive _ p q mid t E so_inc0 ltac:(lra)) as (a & b & C & Y).
  pose proof C as C'. unfold limits, limitsQ in C. rewrite map_map in C.
  apply consecutive_map_inv in C as (r1 & r2 & C & -> & ->).
  assert (I1 : In r1 (f_rows (MATERIAL_LIMITS w)) /\ In r2 (f_rows (MATERIAL_LIMITS w))).
  { destruct C as (u & v & ->). split; apply in_or_app; right; [now left | now right; left]. }
  destruct I1 as [I1 I2].
  destruct (table_total m w r1 I I1) as (T1 & S1 & A1 & A2).
  destruct (table_total m w r2 I I2) as (T2 & S2 & B1 & B2).
  exists r1, r2, T1, T2. repeat split; auto.
  - destruct Y as [Y _]. cbn in Y. unfold numc in Y. rewrite A1 in Y. exact Y.
  - destruct Y as [_ Y]. cbn in Y. unfold numc in Y. rewrite B1 in Y. exact Y.
  - rewrite (max_stress_closed temp t) by assumption.
    rewrite (np_interp_line _ _ _ _ so_inc0 C' Y). cbn. eauto.
Qed.

(** ** C24 *)
Lemma max_stress_falls m w temp1 temp2 t1 t2 reg q1 q2 :
  In m available_materials ->
  denotes temp1 d_temperature (fahrenheit t1) -> denotes temp2 d_temperature (fahrenheit t2) ->
  t1 <= t2 ->
  calculate_max_stress temp1 m w reg = Ok q1 -> calculate_max_stress temp2 m w reg = Ok q2 ->
  0 <= q_mag q2 <= q_mag q1 /\ q_unit q1 = q_unit q2.
Proof.
  intros I D1 D2 L E1 E2. destruct (stress_ok_of m w I).
  apply (max_stress_inv temp1 t1) in E1 as [E1 U1]; auto.
  apply (max_stress_inv temp2 t2) in E2 as [E2 U2]; auto.
  split; [split|].
  - exact (np_interp_lower _ 0 t2 _ so_inc0 so_pos0 E2).
  - exact (np_interp_falling _ t1 t2 _ _ so_inc0 so_fall0 L E1 E2).
  - destruct U1 as [U1 _], U2 as [U2 _]. congruence.
Qed.

Lemma welded_below_seamless m temp t reg q1 q2 :
  In m available_materials -> denotes temp d_temperature (fahrenheit t) ->
  calculate_max_stress temp m true reg = Ok q1 ->
  calculate_max_stress temp m false reg = Ok q2 ->
  q_mag q1 <= q_mag q2 /\ q_unit q1 = q_unit q2.
Proof.
  intros I D E1 E2.
  apply (max_stress_inv temp t) in E1 as [E1 U1]; auto.
  apply (max_stress_inv temp t) in E2 as [E2 U2]; auto.
  split.
  - exact (np_interp_below _ _ t _ _ (so_below _ _ (stress_ok_of m true I))
             (so_inc _ _ (stress_ok_of m true I)) (so_inc _ _ (stress_ok_of m false I)) E1 E2).
  - destruct U1 as [U1 _], U2 as [U2 _]. congruence.
Qed.

(** ** C25: clamping *)
Lemma max_stress_clamped m w temp t reg :
  In m available_materials -> denotes temp d_temperature (fahrenheit t) ->
  (t <= -20 \/ 1200 <= t) ->
  exists temp' q q', denotes temp' d_temperature (fahrenheit (if Rle_dec t (-20) then -20 else 1200))
    /\ calculate_max_stress temp m w reg = Ok q
    /\ calculate_max_stress temp' m w reg = Ok q' /\ q = q'.
Proof.
  intros I D X. destruct (stress_ok_of m w I).
  destruct so_ends0 as (p & q & mid & E & F1 & F2).
  set (t' := if Rle_dec t (-20) then -20 else 1200).
  assert (D' : denotes (PSeq [ENum t'; EStr "degF"]) d_temperature (fahrenheit t')).
  { eapply denotes_pair; [reflexivity|reflexivity|]. unfold worth, fahrenheit; cbn; rnum; q2r; lra. }
  exists (PSeq [ENum t'; EStr "degF"]).
  assert (N : np_interp t (limits m w) = np_interp t' (limits m w)
              /\ exists v, np_interp t' (limits m w) = Ok v).
  { subst t'; destruct (Rle_dec t (-20)).
    - rewrite E in so_inc0 |- *.
      rewrite (np_interp_low p _ t), (np_interp_low p _ (-20)) by (exact so_inc0 || lra). eauto.
    - assert (1200 <= t) by (destruct X; lra).
      rewrite E in so_inc0 |- *. change (p :: mid ++ [q]) with ((p :: mid) ++ [q]) in *.
      rewrite (np_interp_high _ q t), (np_interp_high _ q 1200) by (exact so_inc0 || lra).
      eauto. }
  destruct N as [N (v & V)].
  rewrite (max_stress_closed temp t), (max_stress_closed _ t') by assumption.
  rewrite N, V. cbn. eexists _, _. split; [exact D'|]. split; [reflexivity|]. split; reflexivity.
Qed.

(** ** C26 *)
Lemma stress_unknown temp d x m w reg :
  denotes temp d x -> ~ In m available_materials -> m <> "Temp"%string ->
  is_key_error (calculate_max_stress temp m w reg).
Proof.
  intros D N NT; unfold calculate_max_stress.
  destruct (parse_denotes _ _ _ reg D) as (q & -> & P); cbn [bind].
  unfold get_pipe_stress_limits.
  assert (C : str_mem m (f_cols (MATERIAL_LIMITS w)) = false).
  { apply str_mem_false. intros I. apply N.
    assert (H : forall c, In c (f_cols (MATERIAL_LIMITS w)) ->
                c = "Temp"%string \/ In c available_materials).
    { assert (B : forallb (fun c => String.eqb c "Temp" || str_mem c available_materials)%bool
                   (f_cols (MATERIAL_LIMITS w)) = true) by (destruct w; vm_compute; reflexivity).
      rewrite forallb_forall in B. intros c Hc. specialize (B c Hc).
      apply orb_true_iff in B as [B|B].
      - left; now apply String.eqb_eq.
      - right; now apply str_mem_In. }
    destruct (H m I); [contradiction|assumption]. }
  rewrite C. cbn. unfold is_key_error; eauto.
Qed.

Lemma stress_temp_accepted w reg :
  exists q, calculate_max_stress (PSeq [ENum 100; EStr "degF"]) "Temp" w reg = Ok q
            /\ is_in q 100 "ksi" reg.
Proof.
  assert (D : denotes (PSeq [ENum 100; EStr "degF"]) d_temperature (fahrenheit 100)).
  { eapply denotes_pair; [reflexivity|reflexivity|]. unfold worth, fahrenheit; cbn; rnum; q2r; lra. }
  unfold calculate_max_stress.
  destruct (parse_denotes _ _ _ reg D) as (q & -> & P); cbn [bind].
  assert (L : get_pipe_stress_limits "Temp" w = Ok (limits "Temp" w)).
  { unfold get_pipe_stress_limits.
    replace (str_mem "Temp" (f_cols (MATERIAL_LIMITS w))) with true
      by (destruct w; vm_compute; reflexivity).
    cbn [negb raise_if bind]. unfold limits, limitsQ. rewrite map_map.
    apply mapM_ok. intros r Hr. unfold numc.
    assert (F : filled "Temp" (MATERIAL_LIMITS w) = true) by (destruct w; vm_compute; reflexivity).
    unfold filled in F; rewrite forallb_forall in F. specialize (F r Hr).
    destruct (num_cell _ r "Temp"); [|discriminate]. reflexivity. }
  rewrite L; cbn [bind].
  assert (Inc : increasing (limits "Temp" w)).
  { apply incQ_R. destruct w; vm_compute; reflexivity. }
  rewrite strictly_increasing_spec by exact Inc. cbn [negb raise_if bind].
  destruct (to_degF _ _ _ P) as (q' & -> & M'); cbn [bind]; rewrite M'.
  assert (C : consecutive (limits "Temp" w) (pt2R (100#1, 100#1)) (pt2R (200#1, 200#1))).
  { unfold limits. apply consecutive_map.
    exists [((-20)#1, (-20)#1)%Q]. destruct w; vm_compute; eexists; reflexivity. }
  rewrite (np_interp_line _ 100 _ _ Inc C) by (cbn; q2r; lra). cbn [bind].
  eexists; split; [reflexivity|]. repeat split; cbn. unfold line; cbn; q2r; lra.
Qed.
