(** * NanLift: on ordinary numbers the model with nan is the model without *)
From Coq Require Import String ZArith QArith Reals Qreals List Bool Lra.
From Verif Require Import PyBase Pint UnitsM Spec QLemmas Interp Csv Tables TubeM WindowM BoltM DdtM
  FlangeM NanM NanSpec.
Import ListNotations.
Local Open Scope string_scope.
Local Open Scope num_scope.

Notation hom f x' x := (x' = fin_result f x) (only parsing).

Lemma hom_bind {A A' B B'} (fa : A -> A') (fb : B -> B') x x' k k' :
  x' = fin_result fa x -> (forall a, k' (fa a) = fin_result fb (k a)) ->
  bind x' k' = fin_result fb (bind x k).
Proof. intros -> H. destruct x; [apply H|reflexivity]. Qed.
Lemma hom_id {A} (x : result A) : x = fin_result (fun a => a) x.
Proof. now destruct x. Qed.
Lemma hom_bind_id {A B B'} (fb : B -> B') (x : result A) k k' :
  (forall a, k' a = fin_result fb (k a)) -> bind x k' = fin_result fb (bind x k).
Proof. intros H. destruct x; [apply H|reflexivity]. Qed.

Lemma hom_pydiv (x y : R) : hom Fin (@pydiv fl _ (Fin x) (Fin y)) (pydiv x y).
Proof. unfold pydiv, zero. cbn. now destruct (Reqb y _). Qed.
Lemma hom_npdiv (x y : R) : hom Fin (@npdiv fl _ (Fin x) (Fin y)) (npdiv x y).
Proof. unfold npdiv, zero. cbn. now destruct (Reqb y _). Qed.
Definition hom_d (d' : fl -> fl -> result fl) (d : R -> R -> result R) : Prop :=
  forall x y, d' (Fin x) (Fin y) = fin_result Fin (d x y).
Lemma hom_npsqrt (x : R) : hom Fin (@npsqrt fl _ (Fin x)) (npsqrt x).
Proof. unfold npsqrt, zero. cbn. now destruct (Rltb x _). Qed.

Lemma fin_base q : base_mag (fin_quant q) = Fin (base_mag q).
Proof. unfold base_mag. cbn. now destruct (u_off (q_unit q)). Qed.
Lemma fin_to_base q : to_base_units (fin_quant q) = fin_quant (to_base_units q).
Proof. unfold to_base_units. rewrite fin_base. reflexivity. Qed.
Lemma fin_offset q : offset_free (fin_quant q) = offset_free q.
Proof. unfold offset_free. cbn. now destruct (u_off (q_unit q)). Qed.

Ltac hb := apply hom_bind_id; intros [].
Lemma hom_to q u : hom fin_quant (q_to (fin_quant q) (fin_unit u)) (q_to q u).
Proof.
  unfold q_to. cbn [u_dim q_unit fin_quant fin_unit]. destruct (dim_eqb _ _); [|reflexivity].
  fold (fin_unit (q_unit q)). fold (fin_quant q). rewrite fin_base. cbn. now destruct (u_off u).
Qed.
Lemma hom_mul p q : hom fin_quant (q_mul (fin_quant p) (fin_quant q)) (q_mul p q).
Proof. unfold q_mul. rewrite !fin_offset. now do 3 hb. Qed.
Lemma hom_div d' d p q : hom_d d' d -> hom fin_quant (q_div d' (fin_quant p) (fin_quant q)) (q_div d p q).
Proof.
  intros D. unfold q_div. rewrite !fin_offset. do 3 hb. eapply hom_bind; [apply D|].
  intros a. reflexivity.
Qed.
Lemma hom_scale k q : hom fin_quant (q_scale (Fin k) (fin_quant q)) (q_scale k q).
Proof. unfold q_scale. rewrite !fin_offset. now hb. Qed.
Lemma hom_divn d' d q k : hom_d d' d -> hom fin_quant (q_divn d' (fin_quant q) (Fin k)) (q_divn d q k).
Proof.
  intros D. unfold q_divn. rewrite !fin_offset. hb. eapply hom_bind; [apply D|]. reflexivity.
Qed.
Lemma hom_ndivq d' d k q : hom_d d' d -> hom fin_quant (n_divq d' (Fin k) (fin_quant q)) (n_divq d k q).
Proof.
  intros D. unfold n_divq. rewrite !fin_offset. hb. eapply hom_bind; [apply D|]. reflexivity.
Qed.
Lemma hom_add p q : hom fin_quant (q_add (fin_quant p) (fin_quant q)) (q_add p q).
Proof.
  unfold q_add, q_addsub. rewrite !fin_offset. do 3 hb. eapply hom_bind; [apply hom_to|]. reflexivity.
Qed.
Lemma hom_sub p q : hom fin_quant (q_sub (fin_quant p) (fin_quant q)) (q_sub p q).
Proof.
  unfold q_sub, q_addsub. rewrite !fin_offset. do 3 hb. eapply hom_bind; [apply hom_to|]. reflexivity.
Qed.
Lemma hom_naddq k q : hom fin_quant (n_addq (Fin k) (fin_quant q)) (n_addq k q).
Proof.
  unfold n_addq. rewrite fin_base. cbn [u_dim q_unit fin_quant fin_unit].
  now destruct (dim_eqb _ _).
Qed.
Lemma hom_sq q : hom fin_quant (q_sq (fin_quant q)) (q_sq q).
Proof. unfold q_sq. rewrite !fin_offset. now hb. Qed.
Lemma hom_sqrt q : hom fin_quant (q_sqrt (fin_quant q)) (q_sqrt q).
Proof.
  unfold q_sqrt. rewrite !fin_offset. hb. cbn [u_dim q_unit fin_quant fin_unit q_mag].
  destruct (dim_root _ _); [|reflexivity]. eapply hom_bind; [apply hom_npsqrt|]. reflexivity.
Qed.
Lemma hom_root4 q : hom fin_quant (q_root4 (fin_quant q)) (q_root4 q).
Proof.
  unfold q_root4. rewrite !fin_offset. hb. cbn [u_dim q_unit fin_quant fin_unit q_mag].
  destruct (dim_root _ _); [|reflexivity]. unfold zero. cbn. now destruct (Rltb _ _).
Qed.
Lemma hom_cmp c' c p q : (forall x y, c' (Fin x) (Fin y) = c x y) ->
  q_cmp c' (fin_quant p) (fin_quant q) = q_cmp c p q.
Proof.
  intros H. unfold q_cmp. rewrite !fin_base, H. reflexivity.
Qed.
Lemma hom_lt p q : q_lt (fin_quant p) (fin_quant q) = q_lt p q.
Proof. now apply hom_cmp. Qed.
Lemma hom_ge p q : q_ge (fin_quant p) (fin_quant q) = q_ge p q.
Proof. now apply hom_cmp. Qed.
Lemma hom_plain q : hom Fin (q_plain (fin_quant q)) (q_plain q).
Proof.
  unfold q_plain. change (mult_unit d_none (@one fl _)) with (fin_unit (mult_unit d_none (@one R _))).
  eapply hom_bind; [apply hom_to|]. reflexivity.
Qed.

Lemma fin_table : @unit_table fl _ = map (fun su => (fst su, fin_unit (snd su))) (@unit_table R _).
Proof. reflexivity. Qed.
Lemma fin_lookup s : @lookup_unit fl _ s = option_map fin_unit (@lookup_unit R _ s).
Proof.
  unfold lookup_unit. rewrite fin_table. induction (@unit_table R _) as [|[t u] l IH]; [reflexivity|].
  cbn. now destruct (String.eqb _ _).
Qed.
Lemma hom_quant reg m s : hom fin_quant (quant reg (Fin m) s) (quant reg m s).
Proof. unfold quant. rewrite fin_lookup. now destruct (lookup_unit s). Qed.
Lemma hom_to_str q s : hom fin_quant (q_to_str (fin_quant q) s) (q_to_str q s).
Proof. unfold q_to_str. rewrite fin_lookup. destruct (lookup_unit s); [apply hom_to|reflexivity]. Qed.

Lemma hom_parse i reg : hom fin_quant (parse_quant_input (fin_arg i) reg) (parse_quant_input i reg).
Proof.
  destruct i as [q|l|]; try reflexivity.
  destruct l as [|x [|y [|z l]]]; try reflexivity.
  destruct x, y; try reflexivity. apply hom_quant.
Qed.
Lemma hom_parse_base i reg : hom fin_quant (parse_base (fin_arg i) reg) (parse_base i reg).
Proof.
  unfold parse_base. eapply hom_bind; [apply hom_parse|]. intros a. cbn. now rewrite fin_to_base.
Qed.
Lemma hom_check q d pos : check_q (fin_quant q) d pos = check_q q d pos.
Proof.
  unfold check_q, check_pint_quantity. cbn [bind q_mag fin_quant].
  destruct (supported_dimension d); [|reflexivity].
  change (mkQ (Fin (q_mag q)) (q_unit (fin_quant q)) 0) with (fin_quant (mkQ (q_mag q) (q_unit q) 0)).
  rewrite fin_base. reflexivity.
Qed.

Ltac hom1 :=
  match goal with
  | |- bind (parse_base (fin_arg _) _) _ = _ => eapply hom_bind; [apply hom_parse_base|intros ?]
  | |- bind (parse_quant_input (fin_arg _) _) _ = _ => eapply hom_bind; [apply hom_parse|intros ?]
  | |- bind (check_q (fin_quant _) _ _) _ = _ => rewrite hom_check; apply hom_bind_id; intros _
  | |- bind (quant _ _ _) _ = _ => eapply hom_bind; [apply hom_quant|intros ?]
  | |- bind (q_mul _ _) _ = _ => eapply hom_bind; [apply hom_mul|intros ?]
  | |- bind (q_div pydiv _ _) _ = _ => eapply hom_bind; [apply (hom_div _ _ _ _ hom_pydiv)|intros ?]
  | |- bind (q_div npdiv _ _) _ = _ => eapply hom_bind; [apply (hom_div _ _ _ _ hom_npdiv)|intros ?]
  | |- bind (q_divn pydiv _ _) _ = _ => eapply hom_bind; [apply (hom_divn _ _ _ _ hom_pydiv)|intros ?]
  | |- bind (n_divq pydiv _ _) _ = _ => eapply hom_bind; [apply (hom_ndivq _ _ _ _ hom_pydiv)|intros ?]
  | |- bind (n_divq npdiv _ _) _ = _ => eapply hom_bind; [apply (hom_ndivq _ _ _ _ hom_npdiv)|intros ?]
  | |- bind (q_scale _ _) _ = _ => eapply hom_bind; [apply hom_scale|intros ?]
  | |- bind (q_add _ _) _ = _ => eapply hom_bind; [apply hom_add|intros ?]
  | |- bind (q_sub _ _) _ = _ => eapply hom_bind; [apply hom_sub|intros ?]
  | |- bind (n_addq _ _) _ = _ => eapply hom_bind; [apply hom_naddq|intros ?]
  | |- bind (q_sq _) _ = _ => eapply hom_bind; [apply hom_sq|intros ?]
  | |- bind (q_sqrt _) _ = _ => eapply hom_bind; [apply hom_sqrt|intros ?]
  | |- bind (q_plain _) _ = _ => eapply hom_bind; [apply hom_plain|intros ?]
  | |- bind (npsqrt _) _ = _ => eapply hom_bind; [apply hom_npsqrt|intros ?]
  | |- bind (q_lt _ _) _ = _ => rewrite hom_lt; apply hom_bind_id; intros ?
  | |- bind (q_ge _ _) _ = _ => rewrite hom_ge; apply hom_bind_id; intros ?
  | |- bind (raise_if _ _) _ = _ => apply hom_bind_id; intros ?
  | |- bind (thread_cell _ _ _ _) _ = _ => apply hom_bind_id; intros ?
  | |- bind (q_to_str _ _) _ = _ => eapply hom_bind; [apply hom_to_str|intros ?]
  | |- Ok _ = _ => reflexivity
  | |- q_plain _ = _ => apply hom_plain
  | |- q_mul _ _ = _ => apply hom_mul
  | |- q_scale _ _ = _ => apply hom_scale
  | |- q_to _ _ = _ => apply hom_to
  | |- q_root4 _ = _ => apply hom_root4
  | |- quant _ _ _ = _ => apply hom_quant
  | |- q_div pydiv _ _ = _ => apply (hom_div _ _ _ _ hom_pydiv)
  end.
Ltac homs := repeat hom1.

Lemma lift_safety_factor L W t P M reg :
  safety_factor (fin_arg L) (fin_arg W) (fin_arg t) (fin_arg P) (fin_arg M) reg
  = fin_result Fin (safety_factor L W t P M reg).
Proof. unfold safety_factor. homs. Qed.
Lemma lift_thickness L W s P M reg :
  minimum_thickness (fin_arg L) (fin_arg W) (fin_sf s) (fin_arg P) (fin_arg M) reg
  = fin_result fin_quant (minimum_thickness L W s P M reg).
Proof.
  unfold minimum_thickness. homs. eapply (hom_bind Fin).
  - destruct s as [x|]; [|reflexivity]. unfold one. cbn. now destruct (Rltb _ _).
  - intros ?. homs.
Qed.
Lemma lift_blockage_diameter d b reg :
  calculate_blockage_diameter (fin_arg d) (fin_br b) reg
  = fin_result fin_quant (calculate_blockage_diameter d b reg).
Proof.
  unfold calculate_blockage_diameter. eapply (hom_bind Fin).
  - destruct b as [x|[x|]|]; reflexivity.
  - intros ?. homs.
Qed.
Lemma lift_blockage_ratio d b reg :
  calculate_blockage_ratio (fin_arg d) (fin_arg b) reg
  = fin_result Fin (calculate_blockage_ratio d b reg).
Proof.
  unfold calculate_blockage_ratio. homs. eapply hom_bind; [apply hom_pydiv|]. reflexivity.
Qed.
Lemma lift_max_pressure i o s k :
  calculate_max_pressure (fin_quant i) (fin_quant o) (fin_quant s) (Fin k)
  = fin_result fin_quant (calculate_max_pressure i o s k).
Proof. unfold calculate_max_pressure. homs. Qed.
Lemma lift_critical i o e d nu :
  critical_velocity (fin_quant i) (fin_quant o) (fin_quant e) (fin_quant d) (Fin nu)
  = fin_result fin_quant (critical_velocity i o e d nu).
Proof. unfold critical_velocity. homs. Qed.
Lemma lift_dlf i o c e d nu pm :
  dynamic_load_factor (fin_quant i) (fin_quant o) (fin_quant c) (fin_quant e) (fin_quant d)
    (Fin nu) (Fin pm)
  = dynamic_load_factor i o c e d nu pm.
Proof.
  rewrite (hom_id (dynamic_load_factor i o c e d nu pm)).
  unfold dynamic_load_factor. homs. eapply hom_bind; [apply lift_critical|]. intros ?. homs.
Qed.

(** Tables *)
Definition fin_pt (p : R * R) : fl * fl := (Fin (fst p), Fin (snd p)).
Lemma hom_mapM {A B B'} (f : B -> B') (g' : A -> result B') (g : A -> result B) l :
  (forall a, g' a = fin_result f (g a)) -> mapM g' l = fin_result (map f) (mapM g l).
Proof.
  intros H. induction l as [|a l IH]; [reflexivity|]. cbn [mapM].
  eapply hom_bind; [apply H|]. intros b. eapply hom_bind; [apply IH|]. reflexivity.
Qed.
Local Opaque MATERIAL_LIMITS.
Lemma hom_limits mat w : hom (map fin_pt) (get_pipe_stress_limits mat w) (get_pipe_stress_limits mat w).
Proof.
  unfold get_pipe_stress_limits. apply hom_bind_id. intros _. apply hom_mapM. intros r.
  destruct (num_cell _ _ _); [|reflexivity]. now destruct (num_cell _ _ _).
Qed.
Lemma hom_increasing l : strictly_increasing (map fst (map fin_pt l)) = strictly_increasing (map fst l).
Proof.
  induction l as [|a [|b l] IH]; try reflexivity.
  cbn [map strictly_increasing] in *. rewrite IH. reflexivity.
Qed.
Lemma hom_interp_from x l : forall p,
  np_interp_from (Fin x) (fin_pt p) (map fin_pt l) = Fin (np_interp_from x p l).
Proof.
  induction l as [|q l IH]; intros p; [reflexivity|]. cbn [map np_interp_from]. rewrite IH.
  cbn. now destruct (Rltb _ _).
Qed.
Lemma hom_interp x l : hom Fin (np_interp (Fin x) (map fin_pt l)) (np_interp x l).
Proof.
  destruct l as [|p l]; [reflexivity|]. cbn [map np_interp fin_result]. rewrite hom_interp_from.
  cbn. destruct (Reqb x x); [|reflexivity]. cbn. now destruct (Rltb _ _).
Qed.
Lemma lift_max_stress t mat w reg :
  calculate_max_stress (fin_arg t) mat w reg = fin_result fin_quant (calculate_max_stress t mat w reg).
Proof.
  unfold calculate_max_stress. homs. eapply hom_bind; [apply hom_limits|]. intros l.
  rewrite hom_increasing. homs. eapply hom_bind; [apply hom_interp|]. intros ?. homs.
Qed.

(** Bolt *)
Local Opaque THREAD_SPECS.
Lemma hom_tensile b d e t reg :
  tensile_area (fin_quant b) (fin_quant d) (fin_quant e) (fin_quant t) reg
  = fin_result fin_quant (tensile_area b d e t reg).
Proof. unfold tensile_area. homs. match goal with |- (if ?b then _ else _) = _ => destruct b end; homs. Qed.
Lemma hom_shear t e d x y :
  shear_area (fin_quant t) (fin_quant e) (fin_quant d) (fin_quant x) (fin_quant y)
  = fin_result fin_quant (shear_area t e d x y).
Proof. unfold shear_area. homs. Qed.
Lemma fin_rereg q reg : rereg (fin_quant q) reg = fin_quant (rereg q reg).
Proof. reflexivity. Qed.
Lemma lift_areas size cls b p e reg :
  calculate_stress_areas size cls (fin_quant b) (fin_quant p) (fin_quant e) reg
  = fin_result fin_areas (calculate_stress_areas size cls b p e reg).
Proof.
  unfold calculate_stress_areas. rewrite !fin_rereg. homs.
  eapply (hom_bind Fin); [unfold threads_per_inch; now destruct (parse_number _)|]. intros tpi. homs.
  eapply hom_bind; [apply hom_tensile|]. intros st.
  eapply hom_bind; [apply hom_shear|]. intros ss.
  homs. eapply hom_bind; [apply hom_shear|]. intros pl. homs.
  match goal with |- Ok (mkThread (if ?b then _ else _) _ _ _) = _ => now destruct b end.
Qed.
Lemma lift_bolt P a n size cls b p e reg :
  calculate_safety_factors (fin_arg P) (fin_arg a) (Fin n) size cls (fin_arg b) (fin_arg p) (fin_arg e) reg
  = fin_result fin_factors (calculate_safety_factors P a n size cls b p e reg).
Proof.
  unfold calculate_safety_factors. homs.
  eapply hom_bind; [apply lift_areas|]. intros t.
  cbn [fin_areas screw_area plate_area shear_warning]. rewrite !fin_rereg. homs.
Qed.

(** Flange *)
Local Opaque FLANGE_LIMITS.
Lemma fin_temps t : @temps_base fl _ t = map Fin (@temps_base R _ t).
Proof. unfold temps_base. rewrite map_map. reflexivity. Qed.
Lemma fin_press t c : @press_column fl _ t c = map Fin (@press_column R _ t c).
Proof. unfold press_column. rewrite map_map. reflexivity. Qed.
Lemma fin_combine l : forall m, combine (map Fin l) (map Fin m) = map fin_pt (combine l m).
Proof. induction l as [|a l IH]; intros [|b m]; cbn; [reflexivity..|now rewrite IH]. Qed.
Lemma hom_fold (c : R -> R -> bool) l : forall x,
  fold_left (fun m y => if flc c m y then y else m) (map Fin l) (Fin x)
  = Fin (fold_left (fun m y => if c m y then y else m) l x).
Proof. induction l as [|a l IH]; intros x; [reflexivity|]. cbn. rewrite <- IH. now destruct (c x a). Qed.
Lemma hom_fold' (c : R -> R -> bool) l : forall x,
  fold_left (fun m y => if flc c y m then y else m) (map Fin l) (Fin x)
  = Fin (fold_left (fun m y => if c y m then y else m) l x).
Proof. induction l as [|a l IH]; intros x; [reflexivity|]. cbn. rewrite <- IH. now destruct (c a x). Qed.
Lemma hom_max l : hom Fin (list_max (map Fin l)) (list_max l).
Proof. destruct l as [|a l]; [reflexivity|]. cbn [map list_max fin_result]. f_equal. apply hom_fold. Qed.
Lemma hom_min l : hom Fin (list_min (map Fin l)) (list_min l).
Proof. destruct l as [|a l]; [reflexivity|]. cbn [map list_min fin_result]. f_equal. apply hom_fold'. Qed.
Lemma hom_range q d l m : check_in_range (fin_quant q) d (map Fin l) m = check_in_range q d l m.
Proof.
  rewrite (hom_id (check_in_range q d l m)). unfold check_in_range.
  eapply hom_bind; [apply hom_min|]. intros lo. eapply hom_bind; [apply hom_max|]. intros hi.
  rewrite fin_base. cbn [u_dim q_unit fin_quant fin_unit]. destruct (negb _); [reflexivity|].
  apply hom_id.
Qed.
Lemma fin_insert p l : insert_pt (fin_pt p) (map fin_pt l) = map fin_pt (insert_pt p l).
Proof.
  induction l as [|q l IH]; [reflexivity|]. cbn [map insert_pt]. rewrite IH. cbn [fin_pt fst].
  cbn [nleb Num_fl flc Num_R]. now destruct (Rleb _ _).
Qed.
Lemma fin_sort l : sort_pts (map fin_pt l) = map fin_pt (sort_pts l).
Proof. induction l as [|p l IH]; [reflexivity|]. cbn [map sort_pts]. rewrite IH. apply fin_insert. Qed.
Lemma fin_dup l : has_duplicates (map fin_pt l) = has_duplicates l.
Proof.
  induction l as [|a [|b l] IH]; try reflexivity. cbn [map has_duplicates] in *. rewrite IH. reflexivity.
Qed.
Lemma spline1_cons {A} {NA : Num A} (x : A) p q r l :
  spline1 x p (q :: r :: l)
  = if fst q <=? x then spline1 x q (r :: l)
    else (fst q - x) / (fst q - fst p) * snd p + (x - fst p) / (fst q - fst p) * snd q.
Proof. reflexivity. Qed.
Lemma hom_spline x l : forall p, spline1 (Fin x) (fin_pt p) (map fin_pt l) = Fin (spline1 x p l).
Proof.
  induction l as [|q l IH]; intros p; [reflexivity|]. destruct l as [|r l].
  - cbn [map spline1]. unfold zero. cbn. now destruct (Reqb _ _).
  - cbn [map] in *. rewrite !spline1_cons, IH. cbn [fin_pt fst snd nleb Num_fl flc Num_R].
    now destruct (Rleb _ _).
Qed.
Lemma fin_last l : forall p, last (map fin_pt l) (fin_pt p) = fin_pt (last l p).
Proof. induction l as [|q [|r l] IH]; intros p; try reflexivity. apply IH. Qed.
Lemma hom_slinear strict l x : hom Fin (slinear strict (map fin_pt l) (Fin x)) (slinear strict l x).
Proof.
  unfold slinear. rewrite fin_sort, fin_dup. destruct (_ && _); [reflexivity|].
  destruct (sort_pts l) as [|p [|q r]]; try reflexivity.
  cbn [map]. change (fin_pt q :: map fin_pt r) with (map fin_pt (q :: r)).
  rewrite fin_last, hom_spline. cbn [fin_pt fst nltb Num_fl flc Num_R map].
  now destruct (_ || _).
Qed.
Lemma fin_out_reg i : out_reg (fin_arg i) = out_reg i.
Proof. now destruct i. Qed.
Lemma lift_flange_pressure strict c t mat :
  get_max_pressure strict c (fin_arg t) mat = fin_result fin_quant (get_max_pressure strict c t mat).
Proof.
  unfold get_max_pressure. rewrite fin_out_reg. apply hom_bind_id. intros tab. homs.
  rewrite fin_temps, hom_range. apply hom_bind_id. intros _. homs.
  unfold rating. rewrite fin_temps, fin_press, fin_combine, fin_base.
  eapply hom_bind; [apply hom_slinear|]. intros ?. homs.
Qed.
Lemma lift_flange_temperature strict c p mat :
  get_max_temperature strict c (fin_arg p) mat = fin_result fin_quant (get_max_temperature strict c p mat).
Proof.
  unfold get_max_temperature. rewrite fin_out_reg. apply hom_bind_id. intros tab. homs.
  rewrite fin_press, hom_range. apply hom_bind_id. intros _.
  rewrite fin_temps, fin_combine, fin_base.
  eapply hom_bind; [apply hom_slinear|]. intros ?. homs.
Qed.
Lemma fin_filter x l :
  filter (fun cr => Fin x <=? snd cr) (map (fun cr : string * R => (fst cr, Fin (snd cr))) l)
  = map (fun cr => (fst cr, Fin (snd cr))) (filter (fun cr => x <=? snd cr) l).
Proof.
  induction l as [|a l IH]; [reflexivity|]. cbn [map filter]. rewrite IH.
  cbn [fst snd nleb Num_fl flc Num_R]. now destruct (Rleb _ _).
Qed.
Lemma lift_get_class strict p t mat reg :
  get_class strict (fin_arg p) (fin_arg t) mat reg = get_class strict p t mat reg.
Proof.
  rewrite (hom_id (get_class strict p t mat reg)). unfold get_class. homs.
  eapply hom_bind; [apply (hom_parse (PQuant _))|]. intros p'.
  eapply hom_bind; [apply (hom_parse (PQuant _))|]. intros t'.
  apply hom_bind_id; intros _. apply hom_bind_id; intros g. apply hom_bind_id; intros tab.
  apply hom_bind_id; intros key. rewrite fin_press.
  eapply hom_bind; [apply hom_max|]. intros mx. rewrite !fin_base. homs.
  rewrite fin_temps, hom_range. apply hom_bind_id. intros _.
  eapply (hom_bind (map (fun cr => (fst cr, Fin (snd cr))))).
  - apply hom_mapM. intros c. unfold rating. rewrite fin_temps, fin_press, fin_combine.
    eapply hom_bind; [apply hom_slinear|]. reflexivity.
  - intros rs. rewrite fin_filter. now destruct (filter _ _).
Qed.
