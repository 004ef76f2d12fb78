(** * FlangeT: lemmas about Flange.get_max_temperature. *)
From Coq Require Import String ZArith QArith Reals Qreals List Bool Lra Lia Psatz.
From Verif Require Import PyBase Pint UnitsM Spec QLemmas Csv TableSpec Tables Interp InterpP
  NumQ StressP PipeP FlangeM FlangeP.
Import ListNotations.
Local Open Scope R_scope.
Local Opaque TUBE_MATERIALS FLANGE_LIMITS.

(** ** get_max_temperature *)
Lemma spline1_find rest : forall (p : R * R) x,
  rest <> [] -> fst p <= x -> x < fst (last rest p) ->
  exists u v, consecutive (p :: rest) u v /\ fst u <= x < fst v /\ spline1 x p rest = line u v x.
Proof.
  induction rest as [|q rest IH]; intros p x N A B; [contradiction|].
  destruct rest as [|r rest].
  - cbn in B. exists p, q. split; [apply consecutive_hd|]. split; [lra|].
    cbn [spline1]; rnum. rewrite Reqb_false by lra. unfold line; field; lra.
  - cbn [spline1]; rnum. destruct (Rleb_spec (fst q) x) as [L|L].
    + destruct (IH q x) as (u & v & C & X & E); [discriminate|assumption| |].
      * change (last (q :: r :: rest) p) with (last (r :: rest) p) in B.
        assert (Z : forall (d d' : R * R) l a, last (a :: l) d = last (a :: l) d').
        { intros d d' l; induction l as [|b l IHl]; intros a; [reflexivity|].
          change (last (b :: l) d = last (b :: l) d'). apply IHl. }
        now rewrite (Z q p).
      * exists u, v. split; [now apply consecutive_cons|]. split; [lra|]. exact E.
    + exists p, q. split; [apply consecutive_hd|]. split; [lra|]. unfold line; field; lra.
Qed.

(** The pressure/temperature points, sorted by pressure, over the rationals. *)
Definition swapQ (p : Q * Q) : Q * Q := (snd p, fst p).
Definition sortedQ (tab : flange_table) (c : string) : list (Q * Q) :=
  @sort_pts Q Num_Q (map swapQ (rawpts tab c)).
(** As the code sees them. *)
Definition ptK (p : Q * Q) : R * R := (Q2R (fst p) * 100000, celsius (Q2R (snd p))).

Lemma leb_scale a b : Rleb (a * 100000) (b * 100000) = Rleb a b.
Proof. destruct (Rleb_spec (a*100000) (b*100000)), (Rleb_spec a b); auto; lra. Qed.
Lemma eqb_scale a b : Reqb (a * 100000) (b * 100000) = Reqb a b.
Proof. destruct (Reqb_spec (a*100000) (b*100000)), (Reqb_spec a b); auto; lra. Qed.
Lemma insert_K p l : map ptK (@insert_pt Q Num_Q p l) = insert_pt (ptK p) (map ptK l).
Proof.
  induction l as [|q l IH]; [reflexivity|]. cbn [insert_pt map].
  change (@nleb Q Num_Q) with Qle_bool. change (@nleb R Num_R) with Rleb.
  rewrite Qle_bool_R. cbn [ptK fst]. rewrite leb_scale. destruct (Rleb _ _); cbn [map]; congruence.
Qed.
Lemma sort_K l : map ptK (@sort_pts Q Num_Q l) = sort_pts (map ptK l).
Proof. induction l; [reflexivity|]. cbn [sort_pts map]. now rewrite insert_K, IHl. Qed.
Lemma dup_K l : has_duplicates (map ptK l) = @has_duplicates Q Num_Q l.
Proof.
  induction l as [|p [|q l] IH]; try reflexivity.
  cbn [has_duplicates map] in *. rewrite IH.
  change (@neqb Q Num_Q) with Qeq_bool. change (@neqb R Num_R) with Reqb.
  rewrite Qeq_bool_R. cbn [ptK fst]. now rewrite eqb_scale.
Qed.
Lemma sorted_pts tab c : flange_ok tab -> In c class_names ->
  sort_pts (combine (press_column tab c) (temps_base tab)) = map ptK (sortedQ tab c).
Proof.
  intros F Ic. rewrite pts_PT by (apply F; assumption). unfold sortedQ.
  rewrite sort_K, map_map. reflexivity.
Qed.

(** Facts about the sorted points of the shipped tables. *)
Definition Qpos (x : Q) : bool := Qltb 0 x.
Fixpoint pairs {A} (l : list A) : list (A * A) :=
  match l with a :: ((b :: _) as r) => (a, b) :: pairs r | _ => [] end.
Lemma pairs_consecutive {A} (l : list A) a b : In (a, b) (pairs l) <-> consecutive l a b.
Proof.
  split.
  - induction l as [|x [|y l] IH]; cbn [pairs]; intros H; [destruct H|destruct H|].
    destruct H as [[= <- <-]|H]; [apply consecutive_hd|apply consecutive_cons; auto].
  - induction l as [|x [|y l] IH]; intros C.
    + now apply consecutive_nil in C.
    + now apply consecutive_one in C.
    + apply consecutive_inv in C as [[-> ->]|C]; [now left | right; auto].
Qed.
(** Sorted neighbours (u, v) with 0 < u < v come from neighbouring rows, the lower
    temperature possibly replaced by a still lower one. *)
Definition inverse_facts (tab : flange_table) (c : string) (top : Q) : bool :=
  forallb (fun uv => let '(u, v) := uv in
    if (Qpos (fst u) && Qltb (fst u) (fst v))%bool then
      existsb (fun ab => let '(a, b) := ab in
        (Qeq_bool (fst b) (snd u) && Qeq_bool (snd b) (fst u) && Qeq_bool (snd a) (fst v)
         && Qle_bool (snd v) (fst a)
         && (Qeq_bool (snd v) (fst a) || Qeq_bool (fst v) top))%bool)
        (pairs (rawpts tab c))
    else true) (pairs (sortedQ tab c)).
Definition maxQ (l : list Q) : Q := fold_left (fun m y => if Qltb m y then y else m) l 0%Q.
Definition topQ tab c : Q := maxQ (map snd (rawpts tab c)).
Definition temperature_facts (tab : flange_table) : bool :=
  forallb (fun c =>
    let s := sortedQ tab c in
    (inverse_facts tab c (topQ tab c)
     && Qpos (topQ tab c)
     && @has_duplicates Q Num_Q s
     && Nat.leb 3 (length s)
     && Qeq_bool (fst (last s (0,0)%Q)) (topQ tab c)
     && Qeq_bool (fst (nth (length s - 2) s (0,0)%Q)) (topQ tab c)
     && forallb (fun p => Qle_bool (fst p) (topQ tab c)) s
     && existsb (fun p => Qeq_bool (snd p) (topQ tab c)) (rawpts tab c)
     && forallb (fun p => Qle_bool (fst (hd (0,0)%Q s)) (fst p)) s
     && forallb (fun ab => let '(a, b) := ab in
                 if (Qpos (snd a) && Qltb (snd a) (topQ tab c))%bool
                 then Qltb (snd b) (snd a) else true) (pairs (rawpts tab c))
     && forallb (fun p => existsb (fun r => (Qeq_bool (snd p) (fst r)
                                             && Qeq_bool (fst p) (snd r))%bool) (rawpts tab c)) s
     && forallb (fun r => existsb (fun p => (Qeq_bool (snd p) (fst r)
                                             && Qeq_bool (fst p) (snd r))%bool) s) (rawpts tab c)
     && forallb (fun uv => forallb (fun r => (Qle_bool (snd r) (fst (fst uv))
                                    || Qle_bool (fst (snd uv)) (snd r))%bool) (rawpts tab c))
                (pairs s))%bool)
    class_names.
Definition group_facts2 (m : string) : bool :=
  match group_of m with
  | Ok g => match FLANGE_LIMITS g with
            | Ok tab => temperature_facts tab
            | Err _ => false
            end
  | Err _ => false
  end.
Lemma group_facts2_hold : forallb group_facts2 available_materials = true.
Proof. vm_compute. reflexivity. Qed.

Local Opaque check_material group_of available_materials grades lookup_unit.

(** The facts as propositions over the reals. *)
Record temp_ok (tab : flange_table) (c : string) : Prop := {
  to_inv : forall u v, consecutive (map ptK (sortedQ tab c)) u v -> 0 < fst u < fst v ->
    exists a b, consecutive (curve tab c) a b /\ fst b = snd u /\ snd b = fst u
      /\ snd a = fst v /\ snd v <= fst a
      /\ (snd v = fst a \/ fst v = Q2R (topQ tab c) * 100000);
  to_pos : 0 < Q2R (topQ tab c);
  to_dup : @has_duplicates Q Num_Q (sortedQ tab c) = true;
  to_split : exists s u v, sortedQ tab c = s ++ [u; v] /\ s <> []
    /\ Q2R (fst u) = Q2R (topQ tab c) /\ Q2R (fst v) = Q2R (topQ tab c);
  to_top : forall p, In p (curve tab c) -> snd p <= Q2R (topQ tab c) * 100000;
  to_top_in : exists p, In p (curve tab c) /\ snd p = Q2R (topQ tab c) * 100000;
  to_first : forall p, In p (curve tab c) ->
    fst (ptK (hd (0,0)%Q (sortedQ tab c))) <= snd p;
  to_strict : forall a b, consecutive (curve tab c) a b ->
    0 < snd a < Q2R (topQ tab c) * 100000 -> snd b < snd a;
  to_mem : forall p, In p (map ptK (sortedQ tab c)) ->
    exists r, In r (curve tab c) /\ fst r = snd p /\ snd r = fst p;
  to_gap : forall u v r, consecutive (map ptK (sortedQ tab c)) u v -> In r (curve tab c) ->
    snd r <= fst u \/ fst v <= snd r }.

Lemma Qeq_R x y : Qeq_bool x y = true -> Q2R x = Q2R y.
Proof. intros H. now apply Qeq_eqR, Qeq_bool_iff. Qed.
Lemma Q0 : Q2R 0 = 0. Proof. q2r; lra. Qed.

Lemma temp_ok_of m g tab c : In m available_materials -> In c class_names ->
  group_of m = Ok g -> FLANGE_LIMITS g = Ok tab -> temp_ok tab c.
Proof.
  intros I Ic G L. pose proof group_facts2_hold as H. rewrite forallb_forall in H.
  specialize (H m I). unfold group_facts2 in H. rewrite G, L in H.
  unfold temperature_facts in H. rewrite forallb_forall in H. specialize (H c Ic).
  cbv zeta in H.
  apply andb_true_iff in H as [H H12].
  apply andb_true_iff in H as [H H11]. apply andb_true_iff in H as [H H10].
  apply andb_true_iff in H as [H H9]. apply andb_true_iff in H as [H H8].
  apply andb_true_iff in H as [H H7]. apply andb_true_iff in H as [H H6].
  apply andb_true_iff in H as [H H5]. apply andb_true_iff in H as [H H4].
  apply andb_true_iff in H as [H H3]. apply andb_true_iff in H as [H H2].
  apply andb_true_iff in H as [H H1].
  rewrite forallb_forall in H6, H8, H9, H10, H11, H12.
  rewrite existsb_exists in H7.
  set (s := sortedQ tab c) in *. set (t := topQ tab c) in *.
  assert (Mem : forall p, In p s -> exists r, In r (rawpts tab c)
            /\ Q2R (snd p) = Q2R (fst r) /\ Q2R (fst p) = Q2R (snd r)).
  { intros p Hp. specialize (H10 p Hp). apply existsb_exists in H10 as (r & Hr & Er).
    apply andb_true_iff in Er as [E1 E2]. apply Qeq_R in E1, E2. exists r. auto. }
  assert (Mem' : forall r, In r (rawpts tab c) -> exists p, In p s
            /\ Q2R (snd p) = Q2R (fst r) /\ Q2R (fst p) = Q2R (snd r)).
  { intros r Hr. specialize (H11 r Hr). apply existsb_exists in H11 as (p & Hp & Er).
    apply andb_true_iff in Er as [E1 E2]. apply Qeq_R in E1, E2. exists p. auto. }
  subst s t. constructor.
  - intros u v C X. apply consecutive_map_inv in C as (u' & v' & C & -> & ->).
    unfold inverse_facts in H. rewrite forallb_forall in H.
    specialize (H (u', v')). rewrite pairs_consecutive in H. specialize (H C). cbv iota beta in H.
    cbn [ptK fst snd] in X.
    assert (Qpos (fst u') = true) as Ep.
    { unfold Qpos. rewrite Qltb_R, Q0. apply Rltb_true. lra. }
    assert (Qltb (fst u') (fst v') = true) as El.
    { rewrite Qltb_R. apply Rltb_true. lra. }
    rewrite Ep, El in H. cbn [andb] in H.
    apply existsb_exists in H as ((a & b) & Hab & Eab). cbv iota beta in Eab.
    apply pairs_consecutive in Hab.
    apply andb_true_iff in Eab as [Eab E5]. apply andb_true_iff in Eab as [Eab E4].
    apply andb_true_iff in Eab as [Eab E3]. apply andb_true_iff in Eab as [E1' E2'].
    apply Qeq_R in E1', E2', E3. apply Qle_bool_le in E4.
    exists (ptTP a), (ptTP b). split; [exact (consecutive_map ptTP _ _ _ Hab)|].
    cbn [ptTP ptK fst snd]. rewrite E1', E2', E3.
    repeat split; try reflexivity.
    + unfold celsius; lra.
    + apply orb_true_iff in E5 as [E5|E5]; apply Qeq_R in E5; rewrite E5; auto.
  - unfold Qpos in H1. apply Qltb_lt in H1. rewrite Q0 in H1. exact H1.
  - exact H2.
  - apply Nat.leb_le in H3. clear -H3 H4 H5.
    destruct (exists_last (l := sortedQ tab c)) as (s1 & v & E1); [intros Z; rewrite Z in H3; cbn in H3; lia|].
    rewrite E1, app_length in H3. cbn in H3.
    destruct (exists_last (l := s1)) as (s2 & u & E2); [intros Z; rewrite Z in H3; cbn in H3; lia|].
    rewrite E2, app_length in H3. cbn in H3.
    exists s2, u, v. rewrite E1, E2, <- app_assoc. split; [reflexivity|]. split.
    { intros Z; rewrite Z in H3; cbn in H3; lia. }
    apply Qeq_R in H4, H5. rewrite E1, last_last in H4. split; [|exact H4].
    rewrite E1, E2 in H5. rewrite !app_length in H5. cbn [length] in H5.
    replace (length s2 + 1 + 1 - 2)%nat with (length s2) in H5 by lia.
    rewrite <- app_assoc in H5. cbn [app] in H5. now rewrite nth_middle in H5.
  - intros p Hp. apply in_map_iff in Hp as (r & <- & Hr).
    destruct (Mem' r Hr) as (q & Hq & _ & Eq). specialize (H6 q Hq).
    apply Qle_bool_le in H6. cbn. lra.
  - destruct H7 as (r & Hr & Er). apply Qeq_R in Er.
    exists (ptTP r). split; [now apply in_map|]. cbn. now rewrite Er.
  - intros p Hp. apply in_map_iff in Hp as (r & <- & Hr).
    destruct (Mem' r Hr) as (q & Hq & _ & Eq). specialize (H8 q Hq).
    apply Qle_bool_le in H8. cbn. lra.
  - intros a b C X. apply consecutive_map_inv in C as (a' & b' & C & -> & ->).
    specialize (H9 (a', b')). rewrite pairs_consecutive in H9. specialize (H9 C).
    cbv iota beta in H9. cbn [ptTP snd] in *.
    assert (Qpos (snd a') = true) as Ep.
    { unfold Qpos. rewrite Qltb_R, Q0. apply Rltb_true. lra. }
    assert (Qltb (snd a') (topQ tab c) = true) as El.
    { rewrite Qltb_R. apply Rltb_true. lra. }
    rewrite Ep, El in H9. cbn [andb] in H9. apply Qltb_lt in H9. lra.
  - intros p Hp. apply in_map_iff in Hp as (p' & <- & Hp).
    destruct (Mem p' Hp) as (r & Hr & E1 & E2). exists (ptTP r).
    split; [now apply in_map|]. cbn. rewrite E1, E2. auto.
  - intros u v r C Hr. apply consecutive_map_inv in C as (u' & v' & C & -> & ->).
    apply in_map_iff in Hr as (r' & <- & Hr).
    specialize (H12 (u', v')). rewrite pairs_consecutive in H12. specialize (H12 C).
    rewrite forallb_forall in H12. specialize (H12 r' Hr). cbn [fst snd] in H12.
    apply orb_true_iff in H12 as [E|E]; apply Qle_bool_le in E; cbn; [left|right]; lra.
Qed.

Definition lowP tab c : R := fst (ptK (hd (0,0)%Q (sortedQ tab c))).
Definition topP tab c : R := Q2R (topQ tab c) * 100000.

Lemma sorted_nonempty tab c : temp_ok tab c ->
  exists p rest, map ptK (sortedQ tab c) = p :: rest /\ rest <> []
    /\ fst p = lowP tab c /\ fst (last rest p) = topP tab c.
Proof.
  intros T. destruct (to_split _ _ T) as (s & u & v & E & N & Eu & Ev).
  unfold lowP, topP. rewrite E. destruct s as [|w s]; [contradiction|].
  exists (ptK w), (map ptK (s ++ [u; v])). split; [reflexivity|].
  split; [destruct s; discriminate|]. split; [reflexivity|].
  rewrite map_app. cbn [map].
  change (map ptK s ++ [ptK u; ptK v]) with (map ptK s ++ [ptK u] ++ [ptK v]).
  rewrite app_assoc, last_last. cbn. now rewrite Ev.
Qed.

Lemma max_temp_closed strict c p x m f tab :
  rates m f tab -> In c class_names -> temp_ok tab c -> denotes p d_pressure x ->
  get_max_temperature strict c p (NStr m) =
  if (Rltb x (lowP tab c) || Rltb (topP tab c) x)%bool
  then Err (ValueError "Pressure out of range.")
  else if strict then Err (ValueError "Expect x to not have duplicates")
  else match map ptK (sortedQ tab c) with
       | q :: rest => quant (out_reg p) (spline1 x q rest) "K"
       | [] => Err Unmodelled
       end.
Proof.
  intros H Ic T D. pose proof (ra_ok _ _ _ H) as F.
  destruct (ra_group _ _ _ H) as (g & G & L).
  destruct (table_for_ok m c (ra_in _ _ _ H) Ic) as (g' & tab' & G' & L' & _ & Tf).
  rewrite G in G'; injection G' as <-. rewrite L in L'; injection L' as <-.
  unfold get_max_temperature. rewrite Tf; cbn [bind].
  destruct (parse_denotes _ _ _ module_reg D) as (q & -> & P); cbn [bind].
  rewrite class_not_temp by assumption. cbn [raise_if bind].
  destruct (curve_split _ _ _ _ H Ic) as (p0 & l & E & _).
  destruct (sorted_nonempty _ _ T) as (w & rest & Es & Ns & Ew & El).
  rewrite (check_range_spec q d_pressure (press_column tab c) _ (lowP tab c) (topP tab c) x).
  - destruct (_ || _)%bool eqn:Rg; [reflexivity|]. cbn [raise_if bind].
    unfold slinear. rewrite (sorted_pts tab c F Ic), dup_K, (to_dup _ _ T).
    destruct strict; [reflexivity|]. cbn [andb].
    rewrite Es. destruct rest as [|w' rest]; [contradiction|].
    rewrite (parsed_base_mag _ _ _ _ P). rewrite Ew, El. rnum.
    rewrite Rg. reflexivity.
  - rewrite (press_eq tab c) by (apply F; assumption). fold (curve tab c). rewrite E.
    destruct (list_min_spec (snd p0) (map snd l)) as (mn & Emn & Imn & Mmn).
    cbn [map]. rewrite Emn. f_equal.
    change (snd p0 :: map snd l) with (map snd (p0 :: l)) in *. rewrite <- E in *.
    apply Rle_antisym.
    + destruct (to_mem _ _ T w) as (r & Ir & _ & Er); [rewrite Es; now left|].
      rewrite <- Ew, <- Er. apply Mmn. now apply in_map.
    + apply in_map_iff in Imn as (r & <- & Ir). now apply (to_first _ _ T).
  - rewrite (press_eq tab c) by (apply F; assumption). fold (curve tab c). rewrite E.
    destruct (list_max_spec (snd p0) (map snd l)) as (mx & Emx & Imx & Mmx).
    cbn [map]. rewrite Emx. f_equal.
    change (snd p0 :: map snd l) with (map snd (p0 :: l)) in *. rewrite <- E in *.
    apply Rle_antisym.
    + apply in_map_iff in Imx as (r & <- & Ir). now apply (to_top _ _ T).
    + destruct (to_top_in _ _ T) as (r & Ir & Er). unfold topP. rewrite <- Er.
      apply Mmx. now apply in_map.
  - apply P.
  - now apply parsed_base_mag in P.
Qed.

(** The interval of the sorted points that the spline uses. *)
Lemma max_temp_interval tab c x : temp_ok tab c ->
  lowP tab c <= x -> x < topP tab c ->
  exists q rest u v, map ptK (sortedQ tab c) = q :: rest
    /\ consecutive (map ptK (sortedQ tab c)) u v /\ fst u <= x < fst v
    /\ spline1 x q rest = line u v x.
Proof.
  intros T A B. destruct (sorted_nonempty _ _ T) as (w & rest & Es & Ns & Ew & El).
  destruct (spline1_find rest w x Ns) as (u & v & C & X & E); [lra|lra|].
  exists w, rest, u, v. rewrite Es. auto.
Qed.

Lemma line_monotone_up p q x : fst p < fst q -> fst p <= x <= fst q -> forall q',
  fst q' = fst q -> snd q <= snd q' -> line p q x <= line p q' x.
Proof.
  intros L X q' E S. unfold line. rewrite E.
  assert (0 <= (x - fst p) / (fst q - fst p)).
  { apply Rmult_le_pos; [lra|]. left; apply Rinv_0_lt_compat; lra. }
  nra.
Qed.

(** Rating at the returned temperature. *)
Lemma inverse_rating tab c x (a b u v : R * R) :
  increasing (curve tab c) -> consecutive (curve tab c) a b ->
  fst b = snd u -> snd b = fst u -> snd a = fst v -> fst u <= x < fst v ->
  let T := line u (fst v, fst a) x in
  fst a < T <= fst b /\ line a b T = x.
Proof.
  intros Inc C E1 E2 E3 X T.
  assert (Lab : fst a < fst b) by (apply Inc; exact C).
  set (t := (x - fst u) / (fst v - fst u)).
  assert (Ht : 0 <= t < 1).
  { unfold t. split.
    - apply Rmult_le_pos; [lra|]. left; apply Rinv_0_lt_compat; lra.
    - apply Rmult_lt_reg_r with (fst v - fst u); [lra|]. field_simplify; lra. }
  assert (ET : T = fst b + (fst a - fst b) * t) by (unfold T, line, t; cbn [fst snd]; now rewrite <- E1).
  split; [rewrite ET; nra|].
  rewrite ET. unfold line. rewrite E2, E3.
  replace (fst b + (fst a - fst b) * t - fst a) with ((fst b - fst a) * (1 - t)) by ring.
  replace ((fst b - fst a) * (1 - t) / (fst b - fst a)) with (1 - t) by (field; lra).
  unfold t. field. lra.
Qed.

Lemma consecutive_in {A} (l : list A) a b : consecutive l a b -> In a l /\ In b l.
Proof.
  intros (x & y & ->). split; apply in_app_iff; right; [now left | right; now left].
Qed.

Lemma max_pressure_at strict m f tab c temp T p0 l :
  rates m f tab -> In c class_names -> curve tab c = p0 :: l ->
  denotes temp d_temperature T -> fst p0 <= T <= fst (last (p0 :: l) p0) ->
  exists q v, get_max_pressure strict c temp (NStr m) = Ok q
    /\ np_interp T (curve tab c) = Ok v /\ q_mag q = v.
Proof.
  intros H Ic E D [A B].
  destruct (max_pressure_rates strict _ _ _ c _ _ H Ic D) as (p1 & l1 & E1 & _ & ->).
  rewrite E in E1; injection E1 as <- <-.
  rewrite !Rltb_false by assumption. cbn [orb]. rewrite E.
  destruct (np_interp_defined T p0 l) as (v & ->). cbn [bind].
  destruct (quant_is_in (out_reg temp) v "Pa" Pa_known) as (q & -> & (_ & M & _)).
  exists q, v. auto.
Qed.

Lemma max_temp_core strict m f tab c p x :
  rates m f tab -> In c class_names -> temp_ok tab c -> denotes p d_pressure x ->
  (exists r, In r (curve tab c) /\ 0 < snd r <= x) -> x < topP tab c ->
  exists q T, get_max_temperature false c p (NStr m) = Ok q /\ is_in q T "K" (out_reg p)
    /\ forall temp, denotes temp d_temperature T ->
       exists q', get_max_pressure strict c temp (NStr m) = Ok q' /\ x <= q_mag q'
         /\ ((exists r, In r (curve tab c) /\ x < snd r < topP tab c) ->
             q_mag q' = x
             /\ forall temp2 T2 q2, denotes temp2 d_temperature T2 -> T < T2 ->
                get_max_pressure strict c temp2 (NStr m) = Ok q2 -> q_mag q2 < x).
Proof.
  intros H Ic To D (r0 & Ir0 & Pr0) X.
  pose proof (ra_ok _ _ _ H) as F.
  assert (Inc : increasing (curve tab c)) by (apply F; assumption).
  assert (Fal : falling (curve tab c)) by (apply F; assumption).
  rewrite (max_temp_closed false c p x m f tab H Ic To D).
  assert (Lo : lowP tab c <= x).
  { pose proof (to_first _ _ To _ Ir0). unfold lowP. lra. }
  rewrite !Rltb_false by lra. cbn [orb].
  destruct (max_temp_interval tab c x To Lo X) as (w & rest & u & v & Es & C & B & Esp).
  rewrite Es, Esp.
  destruct (quant_is_in (out_reg p) (line u v x) "K" K_known) as (q & -> & Iq).
  exists q, (line u v x). split; [reflexivity|]. split; [exact Iq|].
  (* the interval comes from neighbouring rows *)
  assert (Up : 0 < fst u).
  { destruct (Rlt_or_le 0 (fst u)) as [|Z]; [assumption|exfalso].
    destruct (to_gap _ _ To _ _ _ C Ir0); lra. }
  destruct (to_inv _ _ To _ _ C) as (a & b & Cab & E1 & E2 & E3 & E4 & E5); [lra|].
  destruct (inverse_rating tab c x a b u v Inc Cab E1 E2 E3 B) as [TB TL].
  set (Tx := line u (fst v, fst a) x) in *.
  assert (TT : line u v x <= Tx).
  { unfold Tx. apply (line_monotone_up u v x); cbn; lra. }
  assert (Lab : fst a < fst b) by (apply Inc; exact Cab).
  assert (Nx : np_interp Tx (curve tab c) = Ok x).
  { rewrite (np_interp_line _ _ _ _ Inc Cab) by lra. now rewrite TL. }
  destruct (curve_split _ _ _ _ H Ic) as (p0 & l & E & _).
  assert (Inc' : increasing (p0 :: l)) by (now rewrite <- E).
  assert (Rng : forall r, In r (curve tab c) -> fst p0 <= fst r <= fst (last (p0 :: l) p0)).
  { intros r Ir. rewrite E in Ir. split.
    - destruct Ir as [->|Ir]; [lra|]. left. exact (increasing_all _ _ Inc' _ Ir).
    - exact (increasing_last _ p0 Inc' _ Ir). }
  destruct (consecutive_in _ _ _ Cab) as [Ia Ib].
  destruct (consecutive_in _ _ _ C) as [Iu Iv].
  destruct (to_mem _ _ To _ Iv) as (rv & Irv & Erv & _).
  assert (TR : fst p0 <= line u v x <= fst (last (p0 :: l) p0)).
  { pose proof (Rng _ Irv) as Q1. pose proof (Rng _ Ib) as Q2.
    destruct (line_between u v x ltac:(lra) ltac:(lra)) as [W1 W2].
    { rewrite <- E1. pose proof (Rng _ Ia). lra. }
    split; [rewrite Erv in Q1; lra | lra]. }
  intros temp Dt.
  destruct (max_pressure_at strict m f tab c temp _ p0 l H Ic E Dt TR) as (q' & v' & Eq' & Ev' & Mq').
  exists q'. split; [exact Eq'|]. rewrite Mq'.
  split; [exact (np_interp_falling _ _ _ _ _ Inc Fal TT Ev' Nx)|].
  intros (r1 & Ir1 & Pr1).
  assert (Vt : fst v < topP tab c).
  { destruct (to_gap _ _ To _ _ _ C Ir1); lra. }
  destruct E5 as [E5|E5]; [|unfold topP in Vt; lra].
  assert (ET : line u v x = Tx) by (unfold Tx, line; cbn [fst snd]; now rewrite E5).
  rewrite ET in *. split; [congruence|].
  intros temp2 T2 q2 D2 L2 Eq2.
  destruct (max_pressure_ok _ _ _ _ _ _ _ _ H Ic D2 Eq2) as (N2 & _).
  (* strict fall *)
  assert (Str : forall a b s s2 y y2, consecutive (curve tab c) a b -> snd b < snd a ->
            fst a <= s < fst b -> s < s2 -> np_interp s (curve tab c) = Ok y ->
            np_interp s2 (curve tab c) = Ok y2 -> y2 < y).
  { clear -Inc Fal. intros a b s s2 y y2 C L B S N N2.
    assert (Lab : fst a < fst b) by (apply Inc; exact C).
    rewrite (np_interp_line _ _ _ _ Inc C) in N by lra. injection N as <-.
    assert (Lb : snd b < line a b s).
    { unfold line. assert ((s - fst a) / (fst b - fst a) < 1).
      { apply Rmult_lt_reg_r with (fst b - fst a); [lra|]. field_simplify; lra. }
      assert (0 <= (s - fst a) / (fst b - fst a)).
      { apply Rmult_le_pos; [lra|]. left; apply Rinv_0_lt_compat; lra. }
      nra. }
    destruct (Rle_dec s2 (fst b)) as [M|M].
    - rewrite (np_interp_line _ _ _ _ Inc C) in N2 by lra. injection N2 as <-.
      unfold line. assert ((s - fst a) / (fst b - fst a) < (s2 - fst a) / (fst b - fst a)).
      { apply Rmult_lt_compat_r; [apply Rinv_0_lt_compat; lra | lra]. }
      nra.
    - apply Rle_lt_trans with (snd b); [|exact Lb].
      assert (Nb : np_interp (fst b) (curve tab c) = Ok (snd b)).
      { rewrite (np_interp_line _ _ _ _ Inc C) by lra. now rewrite line_right. }
      refine (np_interp_falling _ _ _ _ _ Inc Fal _ Nb N2). lra. }
  destruct (Rlt_or_le Tx (fst b)) as [Lb|Lb].
  - refine (Str a b Tx T2 _ _ Cab _ _ L2 Nx N2); lra.
  - (* Tx is the temperature of row b *)
    assert (Tb : Tx = fst b) by lra.
    destruct Cab as (pre & post & Ecur). destruct post as [|d post].
    + exfalso.
      (* b is the last row: no higher temperature is accepted *)
      destruct (max_pressure_rates strict _ _ _ c _ _ H Ic D2) as (p1 & l1 & F1 & _ & G1).
      rewrite Eq2 in G1.
      assert (Lst : last (p1 :: l1) p1 = b).
      { rewrite <- F1, Ecur.
        change (pre ++ [a; b]) with (pre ++ [a] ++ [b]). now rewrite app_assoc, last_last. }
      rewrite Lst in G1. rewrite (Rltb_true (fst b)) in G1 by lra.
      rewrite orb_true_r in G1. discriminate.
    + assert (Cbd : consecutive (curve tab c) b d).
      { exists (pre ++ [a]), post. rewrite Ecur, <- app_assoc. reflexivity. }
      assert (Lbd : fst b < fst d) by (apply Inc; exact Cbd).
      refine (Str b d Tx T2 _ _ Cbd _ _ L2 Nx N2); [|lra].
      apply (to_strict _ _ To _ _ Cbd). fold (topP tab c). lra.
Qed.

Lemma max_temp_at_top (strict : bool) m f tab c p :
  rates m f tab -> In c class_names -> temp_ok tab c -> denotes p d_pressure (topP tab c) ->
  if strict then is_value_error (get_max_temperature strict c p (NStr m))
  else exists q, get_max_temperature strict c p (NStr m) = Ok q /\ is_in q 0 "K" (out_reg p).
Proof.
  intros H Ic To D.
  rewrite (max_temp_closed strict c p _ m f tab H Ic To D).
  destruct (to_top_in _ _ To) as (r & Ir & Er).
  pose proof (to_first _ _ To _ Ir) as Lo. fold (lowP tab c) in Lo.
  fold (topP tab c) in Er.
  rewrite !Rltb_false by lra. cbn [orb].
  destruct strict; [eexists; reflexivity|].
  destruct (to_split _ _ To) as (s & u & v & E & N & Eu & Ev).
  rewrite E. destruct s as [|w s]; [contradiction|]. cbn [app map].
  assert (Mem : forall z, In z (sortedQ tab c) -> fst (ptK z) <= topP tab c).
  { intros z Iz. destruct (to_mem _ _ To (ptK z) (in_map _ _ _ Iz)) as (r' & Ir' & _ & <-).
    exact (to_top _ _ To _ Ir'). }
  assert (Z : forall s w, (forall z, In z s -> fst (ptK z) <= topP tab c) ->
            spline1 (topP tab c) (ptK w) (map ptK (s ++ [u; v])) = 0).
  { clear -Eu Ev. induction s as [|z s IH]; intros w Hs.
    - cbn [app map spline1]. cbn [ptK fst]. rewrite Eu, Ev. fold (topP tab c). rnum.
      rewrite Rleb_true by lra. rewrite Reqb_true by reflexivity. apply zero_R.
    - assert (Hz : fst (ptK z) <= topP tab c) by (apply Hs; now left).
      assert (IH' := IH z (fun z' I => Hs z' (or_intror I))).
      cbn [app map]. destruct (map ptK (s ++ [u; v])) as [|y rest] eqn:Ey;
        [destruct s; discriminate|].
      cbn [spline1]. rnum. rewrite Rleb_true by exact Hz. exact IH'. }
  rewrite Z; [apply quant_is_in, K_known|].
  intros z Iz. apply Mem. rewrite E. right. apply in_app_iff. now left.
Qed.

(** ** The same in terms of the CSV file *)
Lemma rates_temp m f tab c : rates m f tab -> In c class_names -> temp_ok tab c.
Proof.
  intros H Ic. destruct (ra_group _ _ _ H) as (g & G & L).
  exact (temp_ok_of m g tab c (ra_in _ _ _ H) Ic G L).
Qed.
Lemma rated_pt m f tab c row P : rates m f tab -> In c class_names ->
  In row (f_rows f) -> tabulated f row c P ->
  exists r, In r (curve tab c) /\ snd r = Q2R P * 100000.
Proof.
  intros H Ic I T. destruct (row_tabulated _ _ _ row c H Ic I) as [Tt _].
  eexists; split; [exact (curve_pt _ _ _ _ _ _ _ H I Tt T)|]. reflexivity.
Qed.

Lemma max_temp_safe strict m f c p x row1 P1 row2 P2 :
  In m available_materials -> rated_by TUBE_MATERIALS flange_file m f ->
  In c (pressure_classes f) -> denotes p d_pressure x ->
  In row1 (f_rows f) -> tabulated f row1 c P1 -> 0 < Q2R P1 * 100000 <= x ->
  In row2 (f_rows f) -> tabulated f row2 c P2 -> x < Q2R P2 * 100000 ->
  exists q T, get_max_temperature false c p (NStr m) = Ok q /\ is_in q T "K" (out_reg p)
    /\ forall temp, denotes temp d_temperature T ->
       exists q', get_max_pressure strict c temp (NStr m) = Ok q' /\ x <= q_mag q'.
Proof.
  intros I Rb Ic D I1 T1 X1 I2 T2 X2.
  destruct (rates_of m f I Rb) as (tab & H). rewrite (rates_classes _ _ _ H) in Ic.
  pose proof (rates_temp _ _ _ _ H Ic) as To.
  destruct (rated_pt _ _ _ _ _ _ H Ic I1 T1) as (r1 & Ir1 & Er1).
  destruct (rated_pt _ _ _ _ _ _ H Ic I2 T2) as (r2 & Ir2 & Er2).
  destruct (max_temp_core strict m f tab c p x H Ic To D) as (q & T & Eq & Iq & S).
  - exists r1. rewrite Er1. auto.
  - pose proof (to_top _ _ To _ Ir2). unfold topP. lra.
  - exists q, T. split; [exact Eq|]. split; [exact Iq|].
    intros temp Dt. destruct (S temp Dt) as (q' & Eq' & L & _). exists q'. auto.
Qed.
Lemma max_temp_exact strict m f c p x row1 P1 row2 P2 row3 P3 :
  In m available_materials -> rated_by TUBE_MATERIALS flange_file m f ->
  In c (pressure_classes f) -> denotes p d_pressure x ->
  In row1 (f_rows f) -> tabulated f row1 c P1 -> 0 < Q2R P1 * 100000 <= x ->
  In row2 (f_rows f) -> tabulated f row2 c P2 -> x < Q2R P2 * 100000 ->
  In row3 (f_rows f) -> tabulated f row3 c P3 -> Q2R P2 < Q2R P3 ->
  exists q T, get_max_temperature false c p (NStr m) = Ok q /\ is_in q T "K" (out_reg p)
    /\ forall temp, denotes temp d_temperature T ->
       exists q', get_max_pressure strict c temp (NStr m) = Ok q' /\ q_mag q' = x
       /\ forall temp2 T2 q2, denotes temp2 d_temperature T2 -> T < T2 ->
          get_max_pressure strict c temp2 (NStr m) = Ok q2 -> q_mag q2 < x.
Proof.
  intros I Rb Ic D I1 T1 X1 I2 T2 X2 I3 T3 X3.
  destruct (rates_of m f I Rb) as (tab & H). rewrite (rates_classes _ _ _ H) in Ic.
  pose proof (rates_temp _ _ _ _ H Ic) as To.
  destruct (rated_pt _ _ _ _ _ _ H Ic I1 T1) as (r1 & Ir1 & Er1).
  destruct (rated_pt _ _ _ _ _ _ H Ic I2 T2) as (r2 & Ir2 & Er2).
  destruct (rated_pt _ _ _ _ _ _ H Ic I3 T3) as (r3 & Ir3 & Er3).
  pose proof (to_top _ _ To _ Ir3) as Tp. rewrite Er3 in Tp.
  destruct (max_temp_core strict m f tab c p x H Ic To D) as (q & T & Eq & Iq & S).
  - exists r1. rewrite Er1. auto.
  - unfold topP. lra.
  - exists q, T. split; [exact Eq|]. split; [exact Iq|].
    intros temp Dt. destruct (S temp Dt) as (q' & Eq' & L & Ex).
    destruct Ex as [Ex1 Ex2]; [exists r2; rewrite Er2; unfold topP; split; [exact Ir2|]; lra|].
    exists q'. auto.
Qed.
(** With a scipy that rejects repeated abscissae the call never returns. *)
Lemma max_temp_strict m f c p x :
  In m available_materials -> rated_by TUBE_MATERIALS flange_file m f ->
  In c (pressure_classes f) -> denotes p d_pressure x ->
  is_value_error (get_max_temperature true c p (NStr m)).
Proof.
  intros I Rb Ic D.
  destruct (rates_of m f I Rb) as (tab & H). rewrite (rates_classes _ _ _ H) in Ic.
  pose proof (rates_temp _ _ _ _ H Ic) as To.
  rewrite (max_temp_closed true c p x m f tab H Ic To D).
  destruct (_ || _)%bool; eexists; reflexivity.
Qed.
Lemma max_temp_out strict m f c p x :
  In m available_materials -> rated_by TUBE_MATERIALS flange_file m f ->
  In c (pressure_classes f) -> denotes p d_pressure x ->
  (forall row P, In row (f_rows f) -> tabulated f row c P -> x < Q2R P * 100000)
  \/ (forall row P, In row (f_rows f) -> tabulated f row c P -> Q2R P * 100000 < x) ->
  is_value_error (get_max_temperature strict c p (NStr m)).
Proof.
  intros I Rb Ic D B.
  destruct (rates_of m f I Rb) as (tab & H). rewrite (rates_classes _ _ _ H) in Ic.
  pose proof (rates_temp _ _ _ _ H Ic) as To.
  rewrite (max_temp_closed strict c p x m f tab H Ic To D).
  destruct B as [B|B].
  - destruct (sorted_nonempty _ _ To) as (w & rest & Es & _ & Ew & _).
    destruct (to_mem _ _ To w) as (r & Ir & _ & Er); [rewrite Es; now left|].
    destruct (curve_rows _ _ _ _ _ H Ic Ir) as (row & T & P & I1 & _ & Tp & ->).
    specialize (B row P I1 Tp). cbn [ptTP snd] in Er.
    rewrite Rltb_true by lra. eexists; reflexivity.
  - destruct (to_top_in _ _ To) as (r & Ir & Er).
    destruct (curve_rows _ _ _ _ _ H Ic Ir) as (row & T & P & I1 & _ & Tp & ->).
    specialize (B row P I1 Tp). cbn [ptTP snd] in Er. fold (topP tab c) in Er.
    rewrite (Rltb_true (topP tab c)) by lra. rewrite orb_true_r. eexists; reflexivity.
Qed.
(** At the highest tabulated rating. *)
Lemma max_temp_top (strict : bool) m f c p row P :
  In m available_materials -> rated_by TUBE_MATERIALS flange_file m f ->
  In c (pressure_classes f) -> In row (f_rows f) -> tabulated f row c P ->
  (forall row' P', In row' (f_rows f) -> tabulated f row' c P' -> Q2R P' <= Q2R P) ->
  denotes p d_pressure (Q2R P * 100000) ->
  if strict then is_value_error (get_max_temperature strict c p (NStr m))
  else exists q, get_max_temperature strict c p (NStr m) = Ok q /\ is_in q 0 "K" (out_reg p).
Proof.
  intros I Rb Ic Ir Tp Mx D.
  destruct (rates_of m f I Rb) as (tab & H). rewrite (rates_classes _ _ _ H) in Ic.
  pose proof (rates_temp _ _ _ _ H Ic) as To.
  assert (E : Q2R P * 100000 = topP tab c).
  { apply Rle_antisym.
    - destruct (rated_pt _ _ _ _ _ _ H Ic Ir Tp) as (r & Ir' & <-). exact (to_top _ _ To _ Ir').
    - destruct (to_top_in _ _ To) as (r & Ir' & Er).
      destruct (curve_rows _ _ _ _ _ H Ic Ir') as (row' & T' & P' & I1 & _ & Tp' & ->).
      specialize (Mx row' P' I1 Tp'). cbn [ptTP snd] in Er. unfold topP. lra. }
  rewrite E in D. exact (max_temp_at_top strict m f tab c p H Ic To D).
Qed.

(** ** Class names *)
Lemma class_rejected strict m f c i :
  In m available_materials -> rated_by TUBE_MATERIALS flange_file m f ->
  ~ In c (f_cols f) ->
  is_value_error (get_max_pressure (A:=R) strict c i (NStr m))
  /\ is_value_error (get_max_temperature (A:=R) strict c i (NStr m)).
Proof.
  intros I Rb Nc. destruct (rates_of m f I Rb) as (tab & H).
  destruct (ra_group _ _ _ H) as (g & G & L).
  assert (Tf : is_value_error (table_for c (NStr m))).
  { unfold table_for. rewrite check_material_grade by exact I. cbn [bind].
    rewrite G; cbn [bind]. rewrite L; cbn [bind]. unfold check_flange_class.
    rewrite (ra_cols _ _ _ H).
    destruct (str_mem c (f_cols f)) eqn:E; [apply str_mem_In in E; contradiction|].
    eexists; reflexivity. }
  destruct Tf as (msg & Tf). unfold get_max_pressure, get_max_temperature. rewrite Tf.
  split; eexists; reflexivity.
Qed.
Lemma class_temperature strict m f temp T p x :
  In m available_materials -> rated_by TUBE_MATERIALS flange_file m f ->
  denotes temp d_temperature T -> denotes p d_pressure x ->
  (is_value_error (get_max_pressure strict "Temperature" temp (NStr m))
   \/ is_key_error (get_max_pressure strict "Temperature" temp (NStr m)))
  /\ get_max_temperature strict "Temperature" p (NStr m) = Err DimensionalityError.
Proof.
  intros I Rb Dt Dp. destruct (rates_of m f I Rb) as (tab & H).
  destruct (ra_group _ _ _ H) as (g & G & L). pose proof (ra_ok _ _ _ H) as F.
  assert (Tf : table_for "Temperature" (NStr m) = Ok tab).
  { unfold table_for. rewrite check_material_grade by exact I. cbn [bind].
    rewrite G; cbn [bind]. rewrite L; cbn [bind]. unfold check_flange_class.
    rewrite (fo_cols _ F). reflexivity. }
  unfold get_max_pressure, get_max_temperature. rewrite Tf; cbn [bind]. split.
  - destruct (parse_denotes _ _ _ module_reg Dt) as (q & -> & P); cbn [bind].
    assert (I150 : In "150"%string class_names) by now left.
    destruct (curve_split _ _ _ _ H I150) as (p0 & l & E & _).
    assert (Inc : increasing (p0 :: l)) by (rewrite <- E; now apply F).
    rewrite (check_range_spec q d_temperature (temps_base tab) _ (fst p0)
               (fst (last (p0 :: l) p0)) T);
    [| rewrite (temps_eq tab "150") by apply F; fold (curve tab "150"); rewrite E; now apply list_min_inc
     | rewrite (temps_eq tab "150") by apply F; fold (curve tab "150"); rewrite E;
       apply list_max_inc; [assumption|discriminate]
     | apply P | now apply parsed_base_mag in P].
    destruct (_ || _)%bool; [left; eexists; reflexivity|]. right; eexists; reflexivity.
  - destruct (parse_denotes _ _ _ module_reg Dp) as (q & -> & P); cbn [bind].
    cbn [String.eqb raise_if bind]. destruct P as (_ & D & _). rewrite D. reflexivity.
Qed.

(** No tabulated temperature is below -29 degC. *)
Definition warm_facts (m : string) : bool :=
  match group_of m with
  | Ok g => match FLANGE_LIMITS g with
            | Ok tab => forallb (fun row => Qle_bool (-29) (fnum tab row "Temperature")) (fl_rows tab)
            | Err _ => false
            end
  | Err _ => false
  end.
Lemma warm_facts_hold : forallb warm_facts available_materials = true.
Proof. vm_compute. reflexivity. Qed.
Lemma warm m f tab c row T : rates m f tab -> In c class_names ->
  In row (f_rows f) -> tabulated f row "Temperature" T -> -29 <= Q2R T.
Proof.
  intros H Ic Ir Tt. pose proof warm_facts_hold as W. rewrite forallb_forall in W.
  specialize (W m (ra_in _ _ _ H)). unfold warm_facts in W.
  destruct (ra_group _ _ _ H) as (g & G & L). rewrite G, L in W.
  rewrite forallb_forall in W. specialize (W (map num_or_zero row)).
  rewrite (ra_rows _ _ _ H) in W. specialize (W (in_map _ _ _ Ir)).
  rewrite (tabulated_fnum _ _ _ _ _ _ H Tt) in W. apply Qle_bool_le in W.
  revert W. q2r. lra.
Qed.
