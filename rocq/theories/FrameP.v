(** * FrameP: lemmas about FrameM. *)
From Coq Require Import String Ascii ZArith QArith List Bool Arith Lia.
From Verif Require Import PyBase Pint UnitsM Csv Tables Interp TubeM FlangeM HeapM FrameM.
Import ListNotations.
Local Open Scope string_scope.
Local Open Scope list_scope.
Local Opaque MATERIAL_LIMITS TUBE_MATERIALS FLANGE_LIMITS.

Section P.
  Context {A : Type} {NA : Num A}.

  (** ** What a computation may change *)
  Definition keeps {B} (n : nat) (m : @fr A B) (Q : B -> Prop) : Prop :=
    forall h, (n <= next h)%nat ->
      (n <= next (o_heap (m h)))%nat
      /\ (forall r, (r < n)%nat -> obj (o_heap (m h)) r = obj h r)
      /\ (forall b, o_value (m h) = Ok b -> Q b).

  Lemma k_pure {B} n (r : result B) : keeps n (h_pure r) (fun _ => True).
  Proof. intros h H. cbn. auto. Qed.
  Lemma k_ret {B} n (b : B) (Q : B -> Prop) : Q b -> keeps n (h_ret b) Q.
  Proof. intros q h H. cbn. repeat split; auto. intros c E. injection E as <-. exact q. Qed.
  Lemma k_look {B} n (f : (nat -> df A) -> result B) : keeps n (h_look f) (fun _ => True).
  Proof. intros h H. cbn. auto. Qed.
  Lemma k_new n d : keeps n (new_frame d) (fun r => (n <= r)%nat).
  Proof.
    intros h H. cbn. split; [lia|]. split.
    - intros r Hr. destruct (Nat.eqb_spec r (next h)); [lia|reflexivity].
    - intros b E. injection E as <-. exact H.
  Qed.
  Lemma k_change n r f : (n <= r)%nat -> keeps n (change_frame r f) (fun _ => True).
  Proof.
    intros Hr h H. unfold change_frame. destruct (f (obj h r)); cbn; [|auto].
    split; [exact H|]. split; [|auto]. intros x Hx. destruct (Nat.eqb_spec x r); [lia|reflexivity].
  Qed.
  Lemma k_bind {B C} n (m : fr B) (f : B -> fr C) P Q :
    keeps n m P -> (forall b, P b -> keeps n (f b) Q) -> keeps n (h_bind m f) Q.
  Proof.
    intros Hm Hf h H. destruct (Hm h H) as (H1 & H2 & H3). unfold h_bind.
    destruct (o_value (m h)) as [b|e] eqn:E.
    - destruct (Hf b (H3 b eq_refl) (o_heap (m h)) H1) as (G1 & G2 & G3). cbn.
      split; [exact G1|]. split; [|exact G3]. intros r Hr. rewrite G2 by exact Hr. apply H2. exact Hr.
    - cbn. split; [exact H1|]. split; [exact H2|]. intros b E'. discriminate E'.
  Qed.
  Lemma k_weaken {B} n (m : fr B) (P Q : B -> Prop) : keeps n m P -> (forall b, P b -> Q b) -> keeps n m Q.
  Proof. intros Hm I h H. destruct (Hm h H) as (H1 & H2 & H3). repeat split; auto. Qed.

  Ltac keep :=
    repeat first
      [ apply k_pure | apply k_look | apply k_ret; exact I
      | eapply k_bind; [first [apply k_pure | apply k_look | apply k_new | apply k_change; lia]|cbv beta; intros ? ?]
      | match goal with |- keeps _ (let '(_, _) := ?p in _) _ => destruct p end ].

  Lemma k_stress n material welded : keeps n (f_get_pipe_stress_limits (A:=A) material welded) (fun _ => True).
  Proof. unfold f_get_pipe_stress_limits. keep. Qed.
  Lemma k_max_stress n t m w reg : keeps n (@f_calculate_max_stress A NA t m w reg) (fun _ => True).
  Proof. unfold f_calculate_max_stress. keep. eapply k_bind; [apply k_stress|intros ? ?]. keep. Qed.
  Lemma k_row n strict l c v : keeps n (@f_interpolated_row A NA strict l c v) (fun _ => True).
  Proof. unfold f_interpolated_row. keep. Qed.
  Lemma k_group n m : keeps n (@f_group A m) (fun _ => True).
  Proof. apply k_pure. Qed.
  Lemma k_table n c m : keeps n (@f_table_for A c m) (fun _ => True).
  Proof. unfold f_table_for. eapply k_bind; [apply k_group|intros ? ?]. keep. Qed.
  Lemma k_class n strict p t m reg : keeps n (@f_get_class A NA strict p t m reg) (fun _ => True).
  Proof.
    unfold f_get_class. eapply k_bind; [apply k_pure|intros [p' t'] _].
    eapply k_bind; [apply k_group|intros ? ?]. keep. eapply k_bind; [apply k_row|intros ? ?]. keep.
  Qed.
  Lemma k_pressure n strict c t m : keeps n (@f_get_max_pressure A NA strict c t m) (fun _ => True).
  Proof.
    unfold f_get_max_pressure. eapply k_bind; [apply k_table|intros ? ?]. keep.
    eapply k_bind; [apply k_row|intros ? ?]. keep.
  Qed.
  Lemma k_temperature n strict c p m : keeps n (@f_get_max_temperature A NA strict c p m) (fun _ => True).
  Proof.
    unfold f_get_max_temperature. eapply k_bind; [apply k_table|intros ? ?]. keep.
    eapply k_bind; [apply k_row|intros ? ?]. keep.
  Qed.
  Lemma perform_keeps strict c h :
    (next h <= next (fst (@perform A NA strict c h)))%nat
    /\ forall r, (r < next h)%nat -> obj (fst (perform strict c h)) r = obj h r.
  Proof.
    destruct c; cbn [perform fst].
    - destruct (k_max_stress (next h) initial_temperature material welded reg h) as (H1 & H2 & _); auto.
    - destruct (k_class (next h) strict max_pressure temperature material reg h) as (H1 & H2 & _); auto.
    - destruct (k_pressure (next h) strict flange_class temperature material h) as (H1 & H2 & _); auto.
    - destruct (k_temperature (next h) strict flange_class pressure material h) as (H1 & H2 & _); auto.
  Qed.
  Lemma history_keeps strict cs h :
    (next h <= next (fst (@history A NA strict cs h)))%nat
    /\ forall r, (r < next h)%nat -> obj (fst (history strict cs h)) r = obj h r.
  Proof.
    revert h. induction cs as [|c cs IH]; intros h; cbn [history]; [split; [apply le_n|reflexivity]|].
    destruct (perform_keeps strict c h) as (P1 & P2). destruct (perform strict c h) as [h1 a]. cbn [fst] in *.
    destruct (IH h1) as (I1 & I2). destruct (history strict cs h1) as [h2 l]. cbn [fst] in *.
    split; [lia|]. intros r Hr. rewrite I2 by lia. apply P2. exact Hr.
  Qed.

  (** ** Values *)
  Lemma bind_ext {B C} (r : result B) (f g : B -> result C) :
    (forall b, r = Ok b -> f b = g b) -> bind r f = bind r g.
  Proof. destruct r; cbn; [auto|reflexivity]. Qed.
  Lemma bind_assoc {B C D} (r : result B) (f : B -> result C) (g : C -> result D) :
    bind (bind r f) g = bind r (fun b => bind (f b) g).
  Proof. destruct r; reflexivity. Qed.
  Lemma v_pure {B C} (r : result B) (f : B -> @fr A C) h :
    o_value (h_bind (h_pure r) f h) = bind r (fun b => o_value (f b h)).
  Proof. destruct r; reflexivity. Qed.
  Lemma v_look {B C} (g : (nat -> df A) -> result B) (f : B -> fr C) h :
    o_value (h_bind (h_look g) f h) = bind (g (obj h)) (fun b => o_value (f b h)).
  Proof. unfold h_bind, h_look. cbn. destruct (g (obj h)); reflexivity. Qed.
  Lemma v_new {C} d (f : nat -> @fr A C) h :
    o_value (h_bind (new_frame d) f h)
    = o_value (f (next h) (mkHeap (obj (write h (next h) d)) (S (next h)))).
  Proof. reflexivity. Qed.
  Lemma v_change {C} r g (f : unit -> @fr A C) h :
    o_value (h_bind (change_frame r g) f h) = bind (g (obj h r)) (fun d => o_value (f tt (write h r d))).
  Proof. unfold h_bind, change_frame. destruct (g (obj h r)); reflexivity. Qed.
  Lemma v_bind {B C} (m : fr B) (f : B -> @fr A C) h :
    o_value (h_bind m f h) = bind (o_value (m h)) (fun b => o_value (f b (o_heap (m h)))).
  Proof. unfold h_bind. destruct (o_value (m h)); reflexivity. Qed.

  Lemma mapM_ext {B C} (f g : B -> result C) l : (forall x, In x l -> f x = g x) -> mapM f l = mapM g l.
  Proof.
    induction l as [|x l IH]; intros H; [reflexivity|]. cbn. rewrite H by (left; reflexivity).
    rewrite IH; [reflexivity|]. intros y Hy. apply H. right. exact Hy.
  Qed.
  Lemma mapM_map {B C D} (f : C -> result D) (g : B -> C) l : mapM f (map g l) = mapM (fun x => f (g x)) l.
  Proof. induction l as [|x l IH]; [reflexivity|]. cbn. rewrite IH. reflexivity. Qed.
  Lemma mapM_ok {B C} (f : B -> C) l : mapM (fun x => Ok (f x)) l = Ok (map f l).
  Proof. induction l as [|x l IH]; [reflexivity|]. cbn. rewrite IH. reflexivity. Qed.
  Lemma mapM_app {B C} (f : B -> result C) l r :
    mapM f (l ++ r) = bind (mapM f l) (fun a => bind (mapM f r) (fun b => Ok (a ++ b))).
  Proof.
    induction l as [|x l IH]; cbn.
    - destruct (mapM f r); reflexivity.
    - destruct (f x); cbn; [|reflexivity]. rewrite IH.
      destruct (mapM f l); cbn; [|reflexivity]. destruct (mapM f r); reflexivity.
  Qed.
  Lemma mapM_bind_map {B C D} (f : B -> result C) (g : C -> D) l :
    bind (mapM f l) (fun a => Ok (map g a)) = mapM (fun x => bind (f x) (fun y => Ok (g y))) l.
  Proof.
    induction l as [|x l IH]; [reflexivity|]. cbn. destruct (f x); cbn; [|reflexivity].
    rewrite <- IH. destruct (mapM f l); reflexivity.
  Qed.

  (** ** Columns of numbers *)
  Definition numcol (k : string * list A) : string * list (fcell A) := (fst k, map FNum (snd k)).
  Lemma find_name {B C} (g : string * B -> string * C) (cs : list (string * B)) c :
    (forall k, fst (g k) = fst k) ->
    find (fun k => String.eqb (fst k) c) (map g cs)
    = match find (fun k => String.eqb (fst k) c) cs with Some k => Some (g k) | None => None end.
  Proof.
    intros H. induction cs as [|k cs IH]; [reflexivity|]. cbn [map find]. rewrite H.
    destruct (String.eqb (fst k) c); [reflexivity|exact IH].
  Qed.
  Lemma filter_name {B C} (g : string * B -> string * C) (cs : list (string * B)) c :
    (forall k, fst (g k) = fst k) ->
    filter (fun k => negb (String.eqb (fst k) c)) (map g cs)
    = map g (filter (fun k => negb (String.eqb (fst k) c)) cs).
  Proof.
    intros H. induction cs as [|k cs IH]; [reflexivity|]. cbn [map filter]. rewrite H.
    destruct (String.eqb (fst k) c); cbn [negb map]; [exact IH|f_equal; exact IH].
  Qed.
  Lemma find_in (cs : list (string * list A)) k : In k cs ->
    exists k', find (fun k => String.eqb (fst k) (fst k)) cs = Some k'.
  Proof. destruct cs as [|a cs]; [intros []|]. intros _. cbn. rewrite String.eqb_refl. eauto. Qed.

  Lemma known_nums X Y v : length X = length Y ->
    known_points (map (@FNum A) X ++ [FNum v]) (map FNum Y ++ [FNaN]) = combine X Y.
  Proof.
    unfold known_points. revert Y. induction X as [|x X IH]; intros [|y Y] H; try discriminate H; [reflexivity|].
    cbn. rewrite IH by (cbn in H; lia). reflexivity.
  Qed.
  Lemma fill_column strict X Y v : length X = length Y ->
    interpolate_column strict (map (@FNum A) X ++ [FNum v]) (map FNum Y ++ [FNaN])
    = bind (slinear strict (combine X Y) v) (fun y => Ok (map FNum Y ++ [FNum y])).
  Proof.
    intros H. unfold interpolate_column. rewrite known_nums by exact H.
    set (P := combine X Y). clearbody P. revert Y H.
    induction X as [|x X IH]; intros [|y Y] H; try discriminate H.
    - cbn. destruct (slinear strict P v); reflexivity.
    - cbn [map app combine mapM bind]. rewrite IH by (cbn in H; lia).
      destruct (slinear strict P v); reflexivity.
  Qed.

  Lemma row_value strict l c v h (cs : list (string * list A)) X :
    (l < next h)%nat -> obj h l = mkDf [] (map numcol cs) ->
    find (fun k => String.eqb (fst k) c) cs = Some (c, X) ->
    (forall k, In k cs -> length X = length (snd k)) ->
    o_value (f_interpolated_row strict l c v h)
    = mapM (fun k => bind (slinear strict (combine X (snd k)) v) (fun y => Ok (fst k, FNum y)))
           (filter (fun k => negb (String.eqb (fst k) c)) cs).
  Proof.
    intros Hl Ho Hc Hlen. unfold f_interpolated_row.
    rewrite v_look, Ho. cbn [bind]. rewrite v_new, v_change. cbn [obj write next].
    rewrite Nat.eqb_refl. unfold assign1 at 1. cbn [bind]. rewrite v_look. cbn [obj write next].
    rewrite Nat.eqb_refl. destruct (Nat.eqb_spec l (next h)) as [E|_]; [lia|]. rewrite Ho.
    unfold keys, empty_frame. cbn [d_cols d_index]. rewrite !map_map.
    unfold concat2, numcol. cbn [d_cols fst snd].
    erewrite (mapM_ext _ (fun k => Ok (fst k, snd k ++ [if String.eqb (fst k) c then FNum v else FNaN]))); cycle 1.
    { intros k Hk. unfold get_column. cbn [d_cols].
      rewrite (find_name (fun k => (fst k, [if String.eqb (fst k) c then FNum v else FNaN])) cs (fst k))
        by reflexivity.
      destruct (find (fun k0 => String.eqb (fst k0) (fst k)) cs) as [k1|] eqn:F.
      - cbn [bind snd]. apply find_some in F as (_ & F). apply String.eqb_eq in F. rewrite F. reflexivity.
      - exfalso. apply in_map_iff in Hk as (k0 & <- & Hk). pose proof (find_none _ _ F _ Hk) as N.
        cbn in N. rewrite String.eqb_refl in N. discriminate N. }
    rewrite mapM_ok, map_map. cbn [bind fst snd]. unfold set_index, get_column. cbn [d_cols].
    rewrite (find_name (fun k => (fst k, map FNum (snd k) ++ [if String.eqb (fst k) c then FNum v else FNaN])) cs c)
      by reflexivity.
    rewrite Hc. cbn [bind fst snd]. rewrite String.eqb_refl.
    rewrite v_new, v_change. cbn [obj write next]. rewrite Nat.eqb_refl.
    rewrite (filter_name (fun k => (fst k, map FNum (snd k) ++ [if String.eqb (fst k) c then FNum v else FNaN])) cs c)
      by reflexivity.
    unfold interpolate. cbn [d_cols d_index]. rewrite mapM_map.
    erewrite (mapM_ext _ (fun k => bind (slinear strict (combine X (snd k)) v)
                                       (fun y => Ok (fst k, map FNum (snd k) ++ [FNum y])))); cycle 1.
    { intros k Hk. apply filter_In in Hk as (Hk & N). cbn [fst snd].
      destruct (String.eqb (fst k) c); [discriminate N|].
      rewrite fill_column by (apply Hlen; exact Hk).
      destruct (slinear strict (combine X (snd k)) v); reflexivity. }
    rewrite bind_assoc. cbn [bind]. unfold h_look. cbn [o_value obj write]. 
    erewrite bind_ext; cycle 1.
    { intros b _. rewrite Nat.eqb_refl. unfold last_row. cbn [d_cols]. reflexivity. }
    rewrite mapM_bind_map. apply mapM_ext. intros k _.
    destruct (slinear strict (combine X (snd k)) v); [|reflexivity]. cbn [bind fst snd].
    rewrite last_last. reflexivity.
  Qed.

  (** ** slinear fails or not, whatever the ordinates *)
  Fixpoint insert_x (x : A) (l : list A) : list A :=
    match l with [] => [x] | y :: r => if (x <=? y)%num then x :: l else y :: insert_x x r end.
  Fixpoint sort_x (l : list A) : list A := match l with [] => [] | x :: r => insert_x x (sort_x r) end.
  Fixpoint dup_x (l : list A) : bool :=
    match l with x :: ((y :: _) as r) => ((x =? y)%num || dup_x r)%bool | _ => false end.
  Definition fails (strict : bool) (xs : list A) (x : A) : option exn :=
    let s := sort_x xs in
    if (strict && dup_x s)%bool then Some (ValueError "Expect x to not have duplicates")
    else match s with
         | p :: ((_ :: _) as rest) => if ((x <? p) || (last rest p <? x))%num then Some NotFinite else None
         | _ => Some Unmodelled
         end.
  Lemma sort_fst (l : list (A * A)) : map fst (sort_pts l) = sort_x (map fst l).
  Proof.
    assert (I : forall p l, map fst (insert_pt p l) = insert_x (fst p) (map fst l)).
    { intros p r. induction r as [|q r IH]; [reflexivity|]. cbn. destruct (fst p <=? fst q)%num; [reflexivity|].
      cbn. f_equal. exact IH. }
    induction l as [|p l IH]; [reflexivity|]. cbn. rewrite I, IH. reflexivity.
  Qed.
  Lemma dup_fst (l : list (A * A)) : has_duplicates l = dup_x (map fst l).
  Proof. induction l as [|p [|q l] IH]; try reflexivity. cbn in *. rewrite IH. reflexivity. Qed.
  Lemma slinear_fails strict pts x :
    match fails strict (map fst pts) x with
    | Some e => slinear strict pts x = Err e
    | None => exists y, slinear strict pts x = Ok y
    end.
  Proof.
    unfold fails, slinear. rewrite <- sort_fst, <- dup_fst. destruct (sort_pts pts) as [|p [|q r]] eqn:E.
    - rewrite andb_false_r. reflexivity.
    - cbn [has_duplicates]. rewrite andb_false_r. reflexivity.
    - destruct (strict && has_duplicates (p :: q :: r))%bool; [reflexivity|].
      cbn [map]. change (last (fst q :: map fst r) (fst p)) with (last (map fst (q :: r)) (fst p)).
      replace (last (map fst (q :: r)) (fst p)) with (fst (last (q :: r) p)).
      2:{ clear. revert q p. induction r as [|a r IH]; intros q p; [reflexivity|].
          change (last (q :: a :: r) p) with (last (a :: r) p).
          change (last (map fst (q :: a :: r)) (fst p)) with (last (map fst (a :: r)) (fst p)). apply IH. }
      destruct ((x <? fst p) || (fst (last (q :: r) p) <? x))%num; [reflexivity|]. eexists. reflexivity.
  Qed.

  (** ** The flange tables *)
  Definition table_ok (t : flange_table) : bool :=
    match fl_columns t with
    | c :: cs =>
      (String.eqb c "Temperature" && negb (str_mem "Temperature" cs)
       && forallb (fun k => Nat.eqb (length (column t "Temperature")) (length (column t k))) (fl_columns t)
       && match max_key cs "0" with Ok k => str_mem k (fl_columns t) | Err _ => false end)%bool
    | [] => false
    end.
  Definition base_col (t : flange_table) (c : string) : string * list A :=
    (c, if String.eqb c "Temperature" then temps_base t else press_column t c).

  Lemma base_units t : applymap base_cell (units_frame t) = mkDf [] (map numcol (map (base_col t) (fl_columns t))).
  Proof.
    unfold applymap, units_frame. cbn [d_cols d_index]. f_equal. rewrite !map_map. apply map_ext.
    intros c. unfold numcol, base_col. cbn [fst snd]. f_equal. rewrite !map_map.
    destruct (String.eqb_spec c "Temperature") as [ -> |N].
    - unfold temps_base. rewrite map_map. reflexivity.
    - unfold press_column. rewrite map_map. reflexivity.
  Qed.
  Lemma keys_units t : keys (units_frame t) = fl_columns t.
  Proof. unfold keys, units_frame. cbn [d_cols]. rewrite map_map. apply map_id. Qed.
  Lemma find_cols {B} (f : string -> B) c cs :
    find (fun k => String.eqb (fst k) c) (map (fun c => (c, f c)) cs)
    = if str_mem c cs then Some (c, f c) else None.
  Proof.
    induction cs as [|a cs IH]; [reflexivity|]. cbn [map find fst]. unfold str_mem in *. cbn [existsb].
    rewrite (String.eqb_sym c a). destruct (String.eqb_spec a c) as [ -> |N]; [reflexivity|exact IH].
  Qed.
  Lemma units_column t c : str_mem c (fl_columns t) = true ->
    exists l, get_column (units_frame t) c = Ok l
      /\ base_numbers l = (if String.eqb c "Temperature" then temps_base t else press_column (A:=A) t c).
  Proof.
    intros H. unfold get_column, units_frame. cbn [d_cols].
    rewrite (find_cols _ c), H. eexists. split; [reflexivity|]. cbn [snd].
    assert (E : forall (f : Q -> quantity A) l, base_numbers (map (fun q => FQuant (f q)) l) = map (fun q => base_mag (f q)) l).
    { intros f l. unfold base_numbers. induction l as [|a l IH]; [reflexivity|]. cbn. f_equal. exact IH. }
    rewrite E. destruct (String.eqb_spec c "Temperature") as [ -> |N]; reflexivity.
  Qed.

  Lemma groups_ok : forallb (fun g => match FLANGE_LIMITS g with Ok t => table_ok t | Err _ => false end)
                            ["2.1"; "2.2"; "2.3"] = true.
  Proof. vm_compute. reflexivity. Qed.
  Lemma group_table g :
    match flange_ref g with
    | Ok r => (r < 5)%nat /\ exists t, FLANGE_LIMITS g = Ok t /\ table_ok t = true
    | Err e => FLANGE_LIMITS g = Err e
    end.
  Proof.
    pose proof groups_ok as G. cbn [forallb] in G. apply andb_prop in G as (G1 & G).
    apply andb_prop in G as (G2 & G). apply andb_prop in G as (G3 & _).
    unfold flange_ref.
    destruct (String.eqb_spec g "2.1") as [ -> |N1].
    { split; [lia|]. destruct (FLANGE_LIMITS "2.1") as [t|]; [|discriminate]. eauto. }
    destruct (String.eqb_spec g "2.2") as [ -> |N2].
    { split; [lia|]. destruct (FLANGE_LIMITS "2.2") as [t|]; [|discriminate]. eauto. }
    destruct (String.eqb_spec g "2.3") as [ -> |N3].
    { split; [lia|]. destruct (FLANGE_LIMITS "2.3") as [t|]; [|discriminate]. eauto. }
    Transparent FLANGE_LIMITS. unfold FLANGE_LIMITS, flange_file. Opaque FLANGE_LIMITS.
    apply String.eqb_neq in N1, N2, N3. rewrite N1, N2, N3. reflexivity.
  Qed.

  Lemma table_facts t : table_ok t = true ->
    exists cs, fl_columns t = "Temperature" :: cs /\ str_mem "Temperature" cs = false
      /\ (forall k, In k (fl_columns t) -> length (column t "Temperature") = length (column t k))
      /\ exists k, max_key cs "0" = Ok k /\ In k cs.
  Proof.
    unfold table_ok. destruct (fl_columns t) as [|c cs]; [discriminate|]. intros H.
    apply andb_prop in H as (H & H4). apply andb_prop in H as (H & H3). apply andb_prop in H as (H1 & H2).
    apply String.eqb_eq in H1. subst c. apply negb_true_iff in H2. exists cs.
    split; [reflexivity|]. split; [exact H2|]. split.
    - intros k Hk. rewrite forallb_forall in H3. apply Nat.eqb_eq. apply H3. exact Hk.
    - destruct (max_key cs "0") as [k|] eqn:E; [|discriminate]. exists k. split; [reflexivity|].
      unfold str_mem in H4. cbn [existsb] in H4. apply orb_prop in H4 as [H4|H4].
      + apply String.eqb_eq in H4. subst k. exfalso.
        clear -E. assert (G : forall cs b, max_key cs b = Ok "Temperature" -> b <> "Temperature" -> False).
        { clear. induction cs as [|c cs IH]; intros b H N; cbn in H; [congruence|].
          destruct (int_of c) as [a|] eqn:I; [|discriminate H]. cbn in H.
          destruct (int_of b); [|discriminate H]. cbn in H. apply IH in H; [exact H|].
          destruct (Z.ltb _ _); [|exact N]. intros ->. vm_compute in I. discriminate I. }
        eapply G; [exact E|discriminate].
      + apply existsb_exists in H4 as (x & Hx & Q). apply String.eqb_eq in Q. subst x. exact Hx.
  Qed.
  Lemma mem_iff c l : str_mem c l = true <-> In c l.
  Proof.
    unfold str_mem. rewrite existsb_exists. split.
    - intros (x & H & E). apply String.eqb_eq in E. congruence.
    - intros H. exists c. split; [exact H|apply String.eqb_refl].
  Qed.

  Lemma filter_classes t cs : fl_columns t = "Temperature" :: cs -> str_mem "Temperature" cs = false ->
    filter (fun k => negb (String.eqb (fst k) "Temperature")) (map (base_col t) (fl_columns t))
    = map (fun c => (c, press_column t c)) cs.
  Proof.
    intros -> H. cbn [map filter]. cbn [base_col fst]. rewrite String.eqb_refl. cbn [negb].
    induction cs as [|c cs IH]; [reflexivity|]. unfold str_mem in H. cbn [existsb] in H.
    apply orb_false_elim in H as (H & H'). cbn [map filter]. cbn [base_col fst].
    rewrite String.eqb_sym in H. rewrite H. cbn [negb].
    f_equal; [unfold base_col; rewrite H; reflexivity|]. apply IH. exact H'.
  Qed.
  Lemma base_lengths t : table_ok t = true -> forall k, In k (map (base_col t) (fl_columns t)) ->
    length (temps_base (A:=A) t) = length (snd k).
  Proof.
    intros H k Hk. destruct (table_facts t H) as (cs & E & _ & L & _).
    apply in_map_iff in Hk as (c & <- & Hc). cbn [base_col snd].
    unfold temps_base, press_column. destruct (String.eqb c "Temperature"); [reflexivity|].
    rewrite !map_length. apply L. exact Hc.
  Qed.
  (** the last row of the interpolated flange table *)
  Lemma flange_row strict t l v h : table_ok t = true -> (l < next h)%nat ->
    obj h l = applymap base_cell (units_frame t) ->
    o_value (f_interpolated_row strict l "Temperature" v h)
    = mapM (fun c => bind (rating strict t c v) (fun y => Ok (c, FNum y))) (classes t).
  Proof.
    intros Ht Hl Ho. destruct (table_facts t Ht) as (cs & E & N & _).
    rewrite base_units in Ho.
    rewrite (row_value strict l "Temperature" v h _ (temps_base t) Hl Ho).
    - rewrite (filter_classes t cs E N), mapM_map. unfold classes. rewrite E. reflexivity.
    - unfold base_col. rewrite find_cols, E. reflexivity.
    - apply base_lengths. exact Ht.
  Qed.

  (** ** The functions *)
  Section Loaded.
    Variable h : heap (df A).
    Hypothesis Hh : tables_loaded h.

    Lemma load_group g :
      match flange_ref g with
      | Ok r => exists t, FLANGE_LIMITS g = Ok t /\ table_ok t = true /\ obj h r = units_frame t
      | Err e => FLANGE_LIMITS g = Err e
      end.
    Proof.
      pose proof (group_table g) as H. destruct (flange_ref g) as [r|e] eqn:E; [|exact H].
      destruct H as (_ & t & E1 & E2). exists t. split; [exact E1|]. split; [exact E2|].
      destruct Hh as (_ & _ & F). exact (F g r t E E1).
    Qed.

    Lemma class_value strict p t m reg :
      o_value (f_get_class strict p t m reg h) = get_class strict p t m reg.
    Proof.
      unfold f_get_class, get_class, f_group. rewrite v_pure.
      destruct (parse_quant_input p reg) as [p1|]; cbn [bind]; [|reflexivity].
      destruct (parse_quant_input t reg) as [t1|]; cbn [bind]; [|reflexivity].
      destruct (check_q p1 "pressure" true); cbn [bind]; [|reflexivity].
      destruct (check_q t1 "temperature" true); cbn [bind]; [|reflexivity].
      destruct (parse_quant_input (PQuant p1) module_reg) as [p2|]; cbn [bind]; [|reflexivity].
      destruct (parse_quant_input (PQuant t1) module_reg) as [t2|]; cbn [bind]; [|reflexivity].
      rewrite v_pure. destruct (check_material m); cbn [bind]; [|reflexivity].
      destruct (match m with NStr s => group_of s | NInt _ => Err IndexError end) as [g|]; cbn [bind]; [|reflexivity].
      pose proof (load_group g) as L. destruct (flange_ref g) as [r|e]; cbn [bind]; [|rewrite L; reflexivity].
      destruct L as (tab & -> & Ht & Ho). cbn [bind].
      destruct (table_facts tab Ht) as (cs & E & N & _ & key & Ek & Ik).
      rewrite v_look, Ho, keys_units. cbn [bind]. rewrite v_pure. unfold classes. rewrite E. cbn [tl].
      rewrite Ek. cbn [bind]. rewrite v_look, Ho.
      assert (Mk : str_mem key (fl_columns tab) = true) by (apply mem_iff; rewrite E; right; exact Ik).
      assert (Mt : str_mem "Temperature" (fl_columns tab) = true) by (apply mem_iff; rewrite E; left; reflexivity).
      destruct (units_column tab key Mk) as (lp & -> & Bp). cbn [bind]. rewrite v_look, Ho.
      destruct (units_column tab "Temperature" Mt) as (lt & -> & Bt). cbn [bind]. rewrite v_pure.
      replace (String.eqb key "Temperature") with false in Bp.
      2:{ symmetry. apply String.eqb_neq. intros ->. apply mem_iff in Ik. congruence. }
      rewrite Bp, Bt, String.eqb_refl.
      destruct (list_max (press_column tab key)) as [mx|]; cbn [bind]; [|reflexivity].
      destruct (raise_if (mx <? base_mag p2)%num (ValueError "Pressure out of range.")); cbn [bind]; [|reflexivity].
      destruct (check_in_range t2 d_temperature (temps_base tab) "Temperature out of range."); cbn [bind]; [|reflexivity].
      rewrite v_look, Ho. cbn [bind]. rewrite v_new, v_bind.
      rewrite (flange_row strict tab) by (exact Ht || (cbn; lia) || (cbn; rewrite Nat.eqb_refl; reflexivity)).
      unfold classes. rewrite E. cbn [tl]. cbn [h_pure o_value].
      transitivity (bind (mapM (fun c => bind (rating strict tab c (base_mag t2)) (fun y => Ok (c, y))) cs)
        (fun ratings => match filter (fun cr => (base_mag p2 <=? snd cr)%num) ratings with
                        | [] => Err IndexError | cr :: _ => Ok (fst cr) end)); [|reflexivity].
      assert (M : mapM (fun c => bind (rating strict tab c (base_mag t2)) (fun y => Ok (c, FNum y))) cs
                  = bind (mapM (fun c => bind (rating strict tab c (base_mag t2)) (fun y => Ok (c, y))) cs)
                         (fun a => Ok (map (fun k => (fst k, FNum (snd k))) a))).
      { rewrite mapM_bind_map. apply mapM_ext. intros c _. destruct (rating strict tab c (base_mag t2)); reflexivity. }
      rewrite M, bind_assoc. apply bind_ext. intros rs _. cbn [bind].
      rewrite mapM_map. cbn [snd fst number bind]. rewrite mapM_ok. cbn [bind].
      replace (map (fun x : string * A => (fst x, snd x)) rs) with rs; [reflexivity|].
      symmetry. erewrite map_ext; [apply map_id|]. intros [? ?]. reflexivity.
    Qed.

    Lemma table_value {B} c m (f : nat -> @fr A B) (g : flange_table -> result B) :
      (forall r t cs, obj h r = units_frame t -> table_ok t = true -> fl_columns t = "Temperature" :: cs ->
         str_mem c (fl_columns t) = true -> o_value (f r h) = g t) ->
      o_value (h_bind (f_table_for c m) f h) = bind (table_for c m) g.
    Proof.
      intros H. unfold table_for. rewrite v_bind. unfold f_table_for, f_group.
      rewrite v_pure. unfold h_bind at 2 3. cbn [h_pure o_value o_heap].
      destruct (check_material m); cbn [bind]; [|reflexivity].
      destruct (match m with NStr s => group_of s | NInt _ => Err IndexError end) as [gr|]; cbn [bind]; [|reflexivity].
      pose proof (load_group gr) as L. destruct (flange_ref gr) as [r|e]; cbn [bind]; [|rewrite L; reflexivity].
      destruct L as (tab & -> & Ht & Ho). cbn [bind]. rewrite v_look, Ho, keys_units.
      unfold check_flange_class. destruct (str_mem c (fl_columns tab)) eqn:M; [|reflexivity].
      cbn [bind h_ret o_value]. destruct (table_facts tab Ht) as (cs & E & _).
      rewrite <- (H r tab cs Ho Ht E M). unfold h_bind, h_look. cbn [o_heap o_value].
      rewrite Ho, keys_units, M. reflexivity.
    Qed.

    (** one class of the whole row *)
    Lemma item_value strict tab c v : table_ok tab = true -> str_mem c (fl_columns tab) = true ->
      c <> "Temperature" ->
      bind (mapM (fun k => bind (rating strict tab k v) (fun y => Ok (k, @FNum A y))) (classes tab))
           (fun row => item row c) = rating strict tab c v.
    Proof.
      intros Ht M N. destruct (table_facts tab Ht) as (cs & E & _ & L & _).
      assert (Ic : In c cs).
      { apply mem_iff in M. rewrite E in M. destruct M as [M|M]; [congruence|exact M]. }
      unfold classes. rewrite E. cbn [tl].
      assert (F : forall k, In k cs -> map fst (combine (temps_base tab) (press_column tab k)) = temps_base (A:=A) tab).
      { intros k Hk. assert (Q : length (temps_base (A:=A) tab) = length (press_column (A:=A) tab k)).
        { unfold temps_base, press_column. rewrite !map_length. apply L. rewrite E. right. exact Hk. }
        clear -Q. revert Q. generalize (temps_base (A:=A) tab) (press_column (A:=A) tab k).
        intros l. induction l as [|x l IH]; intros [|y r] Q; try discriminate Q; [reflexivity|].
        cbn. f_equal. apply IH. cbn in Q. lia. }
      destruct (fails strict (temps_base tab) v) as [e|] eqn:Fe.
      - assert (R : forall k, In k cs -> rating strict tab k v = Err e).
        { intros k Hk. unfold rating. pose proof (slinear_fails strict (combine (temps_base tab) (press_column tab k)) v) as S0.
          rewrite F, Fe in S0 by exact Hk. exact S0. }
        rewrite (R c Ic). destruct cs as [|k cs]; [destruct Ic|]. cbn [mapM]. rewrite R by (left; reflexivity). reflexivity.
      - assert (R : forall k, In k cs -> exists y, rating strict tab k v = Ok y).
        { intros k Hk. unfold rating. pose proof (slinear_fails strict (combine (temps_base tab) (press_column tab k)) v) as S0.
          rewrite F, Fe in S0 by exact Hk. exact S0. }
        clear -R Ic. assert (G : exists row, mapM (fun k => bind (rating strict tab k v) (fun y => Ok (k, FNum y))) cs = Ok row
                               /\ item row c = rating strict tab c v).
        { induction cs as [|k cs IH]; [destruct Ic|].
          destruct (R k (or_introl eq_refl)) as (y & Ry).
          assert (T : exists tl, mapM (fun k => bind (rating strict tab k v) (fun y => Ok (k, FNum y))) cs = Ok tl).
          { assert (R' : forall k, In k cs -> exists y, rating strict tab k v = Ok y) by (intros; apply R; right; assumption).
            clear -R'. induction cs as [|k cs IH]; [eexists; reflexivity|].
            destruct (R' k (or_introl eq_refl)) as (y & Ry). destruct IH as (tl & Ht); [intros; apply R'; right; assumption|].
            eexists. cbn [mapM]. rewrite Ry. cbn [bind]. rewrite Ht. reflexivity. }
          destruct T as (rest & Ht). exists ((k, FNum y) :: rest). cbn [mapM]. rewrite Ry. cbn [bind]. rewrite Ht.
          split; [reflexivity|]. unfold item. cbn [find fst].
          destruct (String.eqb_spec k c) as [ -> |Nk]; [cbn; symmetry; exact Ry|].
          destruct Ic as [Ic|Ic]; [congruence|].
          destruct IH as (row & Hr & Hi); [exact Ic|intros; apply R; right; assumption|].
          rewrite Ht in Hr. injection Hr as <-. exact Hi. }
        destruct G as (row & -> & H). exact H.
    Qed.

    Lemma pressure_value strict c t m :
      o_value (f_get_max_pressure strict c t m h) = get_max_pressure strict c t m.
    Proof.
      unfold f_get_max_pressure, get_max_pressure. apply table_value. intros r tab cs Ho Ht E M.
      rewrite v_pure. destruct (parse_quant_input t module_reg) as [t1|]; cbn [bind]; [|reflexivity].
      rewrite v_look, Ho.
      assert (Mt : str_mem "Temperature" (fl_columns tab) = true) by (apply mem_iff; rewrite E; left; reflexivity).
      destruct (units_column tab "Temperature" Mt) as (lt & -> & Bt). cbn [bind]. rewrite v_pure, Bt, String.eqb_refl.
      destruct (check_in_range t1 d_temperature (temps_base tab) "Temperature out of range."); cbn [bind]; [|reflexivity].
      rewrite v_pure. unfold raise_if. destruct (String.eqb_spec c "Temperature") as [Ec|Nc]; cbn [bind]; [reflexivity|].
      rewrite v_look, Ho. cbn [bind]. rewrite v_new, v_bind.
      rewrite (flange_row strict tab) by (exact Ht || (cbn; lia) || (cbn; rewrite Nat.eqb_refl; reflexivity)).
      cbn [h_pure o_value]. rewrite <- (item_value strict tab c (base_mag t1) Ht M Nc), bind_assoc. reflexivity.
    Qed.

    Lemma temperature_value strict c p m :
      o_value (f_get_max_temperature strict c p m h) = get_max_temperature strict c p m.
    Proof.
      unfold f_get_max_temperature, get_max_temperature. apply table_value. intros r tab cs Ho Ht E M.
      rewrite v_pure. destruct (parse_quant_input p module_reg) as [p1|]; cbn [bind]; [|reflexivity].
      rewrite v_pure. unfold raise_if at 1 2. destruct (String.eqb_spec c "Temperature") as [Ec|Nc]; cbn [bind]; [reflexivity|].
      rewrite v_look, Ho. destruct (units_column tab c M) as (lp & -> & Bp). cbn [bind]. rewrite v_pure, Bp.
      pose proof Nc as Nb. apply String.eqb_neq in Nb. rewrite Nb.
      destruct (check_in_range p1 d_pressure (press_column tab c) "Pressure out of range."); cbn [bind]; [|reflexivity].
      rewrite v_look, Ho. cbn [bind]. rewrite v_new, v_look. cbn [obj write next]. rewrite Nat.eqb_refl.
      rewrite base_units.
      assert (G : forall k, str_mem k (fl_columns tab) = true ->
        get_column (mkDf [] (map numcol (map (base_col tab) (fl_columns tab)))) k = Ok (map FNum (snd (base_col tab k)))).
      { intros k Hk. unfold get_column. cbn [d_cols]. rewrite map_map.
        rewrite (find_cols (fun k => map FNum (snd (base_col tab k))) k), Hk. reflexivity. }
      assert (Mt : str_mem "Temperature" (fl_columns tab) = true) by (apply mem_iff; rewrite E; left; reflexivity).
      unfold select2. rewrite (G _ Mt), (G _ M). cbn [bind]. rewrite v_new, v_bind. cbn [base_col snd d_index].
      rewrite Nb, String.eqb_refl.
      rewrite (row_value strict _ c (base_mag p1) _ [("Temperature", temps_base tab); (c, press_column tab c)] (press_column tab c)).
      - cbn [filter fst]. rewrite String.eqb_sym, Nb, String.eqb_refl. cbn [negb mapM snd].
        rewrite !bind_assoc. apply bind_ext. intros y _. reflexivity.
      - cbn. lia.
      - cbn. rewrite Nat.eqb_refl. reflexivity.
      - cbn [find fst]. rewrite String.eqb_sym, Nb, String.eqb_refl. reflexivity.
      - destruct (table_facts tab Ht) as (_ & _ & _ & L & _). apply mem_iff in M.
        intros k [<- |[<- |[]]]; cbn [snd]; [|reflexivity].
        unfold temps_base, press_column. rewrite !map_length. symmetry. apply L. exact M.
    Qed.

    Lemma stress_columns w : str_mem "Temp" (f_cols (MATERIAL_LIMITS w)) = true.
    Proof. destruct w; vm_compute; reflexivity. Qed.
    Lemma limits_value m w : o_value (f_get_pipe_stress_limits m w h) = get_pipe_stress_limits (A:=A) m w.
    Proof.
      unfold f_get_pipe_stress_limits, get_pipe_stress_limits. rewrite v_look.
      destruct Hh as (_ & Hl & _). rewrite Hl. generalize (stress_columns w). generalize (MATERIAL_LIMITS w). intros f Ht.
      assert (G : forall k, get_column (numbers_frame f) k
                = if str_mem k (f_cols f) then Ok (map (fun r => match num_cell (f_cols f) r k with
                                             | Some q => FNum (nofQ q) | None => FNaN end) (f_rows f))
                  else Err (KeyError k)).
      { intros k. unfold get_column, numbers_frame. cbn [d_cols].
        rewrite (find_cols (fun c => map (fun r => match num_cell (f_cols f) r c with
                                             | Some q => FNum (nofQ q) | None => FNaN end) (f_rows f)) k).
        destruct (str_mem k (f_cols f)); reflexivity. }
      unfold select2. rewrite !G, Ht. cbn [bind]. destruct (str_mem m (f_cols f)) eqn:Em; [|reflexivity].
      cbn [negb raise_if bind]. rewrite v_new, v_change. cbn [obj write next]. rewrite Nat.eqb_refl.
      unfold rename. cbn [d_cols length Nat.eqb map snd combine bind d_index]. rewrite v_look. cbn [obj write].
      rewrite Nat.eqb_refl. unfold get_column. cbn [d_cols find fst String.eqb Ascii.eqb Bool.eqb bind snd].
      rewrite v_look. cbn [obj write]. rewrite Nat.eqb_refl. cbn [d_cols find fst String.eqb Ascii.eqb Bool.eqb bind snd].
      cbn [h_pure o_value]. clear G Hl. induction (f_rows f) as [|r rows IH]; [reflexivity|].
      cbn [map combine mapM fst snd]. rewrite IH.
      destruct (num_cell (f_cols f) r "Temp"); cbn [number bind]; [|reflexivity].
      destruct (num_cell (f_cols f) r m); reflexivity.
    Qed.
    Lemma max_stress_value t m w reg :
      o_value (f_calculate_max_stress t m w reg h) = calculate_max_stress t m w reg.
    Proof.
      unfold f_calculate_max_stress, calculate_max_stress. rewrite v_pure. apply bind_ext. intros t1 _.
      rewrite v_bind, limits_value. reflexivity.
    Qed.
  End Loaded.
End P.
