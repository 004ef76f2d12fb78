(** * IeeeFlangeP: flange ratings in double precision. *)
From Coq Require Import String Ascii ZArith QArith Reals Qreals List Bool Lra Lia.
From Flocq Require Import Core BinarySingleNaN.
From Verif Require Import PyBase Pint UnitsM Csv Tables Interp TubeM FlangeM RoundM RoundSpec RoundP
  IeeeM IeeeSpec QLemmas IeeeP IeeePiP IeeeBoltP IeeeInterpP.
Import ListNotations.
Local Open Scope R_scope.
Ltac step H := eapply rsim_bind; [exact H|].

Definition flange_sizes (m : string) : bool :=
  match group_of m with
  | Ok g => match FLANGE_LIMITS g with
            | Ok tab => forallb (forallb cell_size) (fl_rows tab)
            | Err _ => true
            end
  | Err _ => true
  end.
Lemma flange_sizes_ok : forallb flange_sizes grades = true.
Proof. vm_compute. reflexivity. Qed.
Local Opaque TUBE_MATERIALS FLANGE_LIMITS grades.

Definition sized (tab : flange_table) : Prop := forallb (forallb cell_size) (fl_rows tab) = true.
Lemma sized_of m g tab : str_mem m grades = true -> group_of m = Ok g -> FLANGE_LIMITS g = Ok tab -> sized tab.
Proof.
  intros I G T. apply str_mem_In in I. pose proof flange_sizes_ok as H. rewrite forallb_forall in H.
  specialize (H _ I). unfold flange_sizes in H. now rewrite G, T in H.
Qed.
Lemma fl_cell_In cols : forall row c q, fl_cell cols row c = Some q -> In q row.
Proof.
  induction cols as [|k cols IH]; intros row c q; destruct row as [|x row]; cbn [fl_cell]; try discriminate.
  destruct (String.eqb k c); [intros [= <-]; now left|]. intros H. right. now apply (IH _ c).
Qed.
Lemma column_size tab c : sized tab -> Forall (fun q => cell_size q = true) (column tab c).
Proof.
  unfold sized, column. intros H. rewrite forallb_forall in H. apply Forall_forall. intros q I.
  apply in_flat_map in I. destruct I as (row & Ir & I). specialize (H _ Ir). rewrite forallb_forall in H.
  destruct (fl_cell (fl_columns tab) row c) as [x|] eqn:E; [|contradiction].
  destruct I as [<-|[]]. apply H. now apply fl_cell_In in E.
Qed.
Lemma map_sim {A B C} (P : A -> Prop) (S : B -> C -> Prop) f f' l :
  (forall x, P x -> S (f x) (f' x)) -> Forall P l -> Forall2 S (map f l) (map f' l).
Proof. intros H. induction 1; cbn [map]; constructor; auto. Qed.
Lemma temp_base_sim q : cell_size q = true -> sim 72 (@temp_base b64 NB q) (@temp_base R ND q).
Proof.
  intros C. unfold temp_base. pose proof (cell_size_sim q C) as S.
  apply (sim_weaken (15 + 0 + 52)); [lia|]. apply sim_add; [lia| |].
  - apply sim_mul; [lia|exact S|apply sim_one].
  - apply (sim_weaken 9); [lia|]. tight.
Qed.
Lemma press_base_sim q : cell_size q = true -> sim 32 (@press_base b64 NB q) (@press_base R ND q).
Proof.
  intros C. unfold press_base. pose proof (cell_size_sim q C) as S.
  apply (sim_mul 15 17); [lia|exact S|]. tight.
Qed.
Lemma temps_sim tab : sized tab -> Forall2 (sim 72) (@temps_base b64 NB tab) (@temps_base R ND tab).
Proof.
  intros S. unfold temps_base. apply (map_sim _ _ _ _ _ temp_base_sim). now apply column_size.
Qed.
Lemma pressures_sim tab c : sized tab -> Forall2 (sim 32) (@press_column b64 NB tab c) (@press_column R ND tab c).
Proof.
  intros S. unfold press_column. apply (map_sim _ _ _ _ _ press_base_sim). now apply column_size.
Qed.
Lemma combine_sim k l k' l' x x' y y' : (k <= k')%Z -> (l <= l')%Z ->
  Forall2 (sim k) x x' -> Forall2 (sim l) y y' -> Forall2 (psim k' l') (combine x y) (combine x' y').
Proof.
  intros K L F. revert y y'. induction F as [|a a' r r' A F IH]; intros y y' G; cbn [combine]; [constructor|].
  destruct G as [|b b' s s' B G]; constructor; [|now apply IH].
  split; cbn [fst snd]; [now apply (sim_weaken k)|now apply (sim_weaken l)].
Qed.
Lemma Forall2_weaken k l x y : (k <= l)%Z -> Forall2 (sim k) x y -> Forall2 (sim l) x y.
Proof. intros K. induction 1; constructor; auto. now apply (sim_weaken k). Qed.
Lemma range_sim q q' d l l' msg : qsim 60 32 q q' -> Forall2 (sim 72) l l' ->
  rsim (fun _ _ => True) (@check_in_range b64 NB q d l msg) (@check_in_range R ND q' d l' msg).
Proof.
  intros Q F. unfold check_in_range.
  step (list_min_sim 72 _ _ F). intros lo lo' Lo.
  step (list_max_sim 72 _ _ F). intros hi hi' Hi.
  pose proof (base_sim q q' 60 32 Q ltac:(lia) ltac:(lia)) as B.
  destruct Q as (_ & (D & _) & _). rewrite D. destruct (negb _); cbn [rsim]; [reflexivity|].
  rewrite (sim_ltb _ _ _ _ _ _ B Lo), (sim_ltb _ _ _ _ _ _ Hi B). now destruct (_ || _)%bool.
Qed.
Lemma rating_sim strict tab c x x' : sized tab -> sim 144 x x' ->
  rsim (sim 560) (@rating b64 NB strict tab c x) (@rating R ND strict tab c x').
Proof.
  intros S X. unfold rating.
  exact (slinear_sim 144 32 ltac:(lia) ltac:(lia) strict _ _ x x'
     (combine_sim 72 32 144 32 _ _ _ _ ltac:(lia) ltac:(lia) (temps_sim tab S) (pressures_sim tab c S)) X).
Qed.
Lemma rereg_parse {A} {NA : Num A} (q : quantity A) reg :
  parse_quant_input (PQuant q) reg = Ok (mkQ (q_mag q) (q_unit q) reg).
Proof. reflexivity. Qed.

Lemma table_sim material g : @check_material material = Ok true ->
  match material with NStr s => group_of s | NInt _ => Err IndexError end = Ok g ->
  forall tab, FLANGE_LIMITS g = Ok tab -> sized tab.
Proof.
  destruct material as [s|z]; cbn [check_material]; [|discriminate].
  destruct (str_mem s grades) eqn:E; [|discriminate]. intros _ G tab T. exact (sized_of s g tab E G T).
Qed.
Lemma check_material_true m b : check_material m = Ok b -> b = true.
Proof. destruct m as [s|]; cbn; [|discriminate]. destruct (str_mem s grades); now intros [= <-]. Qed.

Lemma get_class_sim strict p p' t t' material reg : reads 1e18 p p' -> reads 1e18 t t' ->
  rsim eq (@get_class b64 NB strict p t material reg) (@get_class R ND strict p' t' material reg).
Proof.
  intros Rp Rt. unfold get_class.
  step (parse_sim _ _ reg Rp). intros qp qp' Qp.
  step (parse_sim _ _ reg Rt). intros qt qt' Qt.
  step (check_sim 60 32 _ _ "pressure" true ltac:(lia) Qp). intros _ _ _.
  step (check_sim 60 32 _ _ "temperature" true ltac:(lia) Qt). intros _ _ _.
  rewrite !rereg_parse. cbn [bind].
  assert (Qp2 : qsim 60 32 (mkQ (q_mag qp) (q_unit qp) module_reg) (mkQ (q_mag qp') (q_unit qp') module_reg))
    by (split; [apply Qp|split; [apply Qp|reflexivity]]).
  assert (Qt2 : qsim 60 32 (mkQ (q_mag qt) (q_unit qt) module_reg) (mkQ (q_mag qt') (q_unit qt') module_reg))
    by (split; [apply Qt|split; [apply Qt|reflexivity]]).
  revert Qp2 Qt2. generalize (mkQ (q_mag qp) (q_unit qp) module_reg) (mkQ (q_mag qp') (q_unit qp') module_reg)
    (mkQ (q_mag qt) (q_unit qt) module_reg) (mkQ (q_mag qt') (q_unit qt') module_reg).
  clear qp qp' qt qt' Qp Qt. intros qp qp' qt qt' Qp Qt.
  destruct (check_material material) as [b|] eqn:Em; cbn [bind]; [|reflexivity].
  pose proof (check_material_true _ _ Em); subst b.
  destruct (match material with NStr s => group_of s | NInt _ => Err IndexError end) as [g|] eqn:Eg; cbn [bind]; [|reflexivity].
  destruct (FLANGE_LIMITS g) as [tab|] eqn:Et; cbn [bind]; [|reflexivity].
  pose proof (table_sim material g Em Eg tab Et) as S.
  destruct (max_key (classes tab) "0") as [key|]; cbn [bind]; [|reflexivity].
  step (list_max_sim 32 _ _ (pressures_sim tab key S)). intros mx mx' Mx.
  pose proof (base_sim qp qp' 60 32 Qp ltac:(lia) ltac:(lia)) as Bp.
  pose proof (base_sim qt qt' 60 32 Qt ltac:(lia) ltac:(lia)) as Bt.
  rewrite (sim_ltb _ _ _ _ _ _ Mx Bp). destruct (nltb mx' _); cbn [raise_if bind]; [reflexivity|].
  step (range_sim qt qt' d_temperature _ _ "Temperature out of range." Qt (temps_sim tab S)). intros _ _ _.
  eapply rsim_bind with (S := Forall2 (fun a b : string * _ => fst a = fst b /\ sim 560 (snd a) (snd b))).
  { apply mapM_sim. intros c _. step (rating_sim strict tab c _ _ S Bt). intros r r' Rr. cbn [rsim]. now split. }
  intros rs rs' F.
  assert (G : Forall2 (fun a b : string * _ => fst a = fst b /\ sim 560 (snd a) (snd b))
     (filter (fun cr => @nleb b64 NB (base_mag qp) (snd cr)) rs)
     (filter (fun cr => @nleb R ND (@base_mag R ND qp') (snd cr)) rs')).
  { induction F as [|a a' r r' A F IH]; cbn [filter]; [constructor|].
    rewrite (sim_leb _ _ _ _ _ _ Bp (proj2 A)). destruct (nleb _ (snd a')); [now constructor|exact IH]. }
  destruct G as [|a a' r r' A G]; cbn [rsim]; [reflexivity|apply A].
Qed.

Lemma table_for_sized c material tab : table_for c material = Ok tab -> sized tab.
Proof.
  unfold table_for. destruct (check_material material) as [b|] eqn:Em; cbn [bind]; [|discriminate].
  pose proof (check_material_true _ _ Em); subst b.
  destruct (match material with NStr s => group_of s | NInt _ => Err IndexError end) as [g|] eqn:Eg; cbn [bind]; [|discriminate].
  destruct (FLANGE_LIMITS g) as [t|] eqn:Et; cbn [bind]; [|discriminate].
  destruct (check_flange_class c t); cbn [bind]; [|discriminate]. intros [= <-].
  exact (table_sim material g Em Eg t Et).
Qed.
Lemma out_reg_sim i i' : reads 1e18 i i' -> out_reg i = out_reg i'.
Proof. destruct 1; reflexivity. Qed.

Lemma max_pressure_sim strict c t t' material : reads 1e18 t t' ->
  rsim (qplain 560 32) (@get_max_pressure b64 NB strict c t material) (@get_max_pressure R ND strict c t' material).
Proof.
  intros Rt. unfold get_max_pressure.
  destruct (table_for c material) as [tab|] eqn:E; cbn [bind]; [|reflexivity].
  pose proof (table_for_sized _ _ _ E) as S. cbv zeta. rewrite (out_reg_sim _ _ Rt).
  step (parse_sim _ _ module_reg Rt). intros q q' Q.
  step (range_sim q q' d_temperature _ _ "Temperature out of range." Q (temps_sim tab S)). intros _ _ _.
  destruct (String.eqb c "Temperature"); cbn [raise_if bind]; [reflexivity|].
  step (rating_sim strict tab c _ _ S (base_sim q q' 60 32 Q ltac:(lia) ltac:(lia))). intros r r' Rr.
  eapply quant_plain; [exact Rr|unfold lookup_unit, unit_table; cbn [assoc String.eqb Ascii.eqb Bool.eqb]; reflexivity|reflexivity].
Qed.
Lemma max_temperature_sim strict c p p' material : reads 1e18 p p' ->
  rsim (qplain 640 32) (@get_max_temperature b64 NB strict c p material) (@get_max_temperature R ND strict c p' material).
Proof.
  intros Rp. unfold get_max_temperature.
  destruct (table_for c material) as [tab|] eqn:E; cbn [bind]; [|reflexivity].
  pose proof (table_for_sized _ _ _ E) as S. cbv zeta. rewrite (out_reg_sim _ _ Rp).
  step (parse_sim _ _ module_reg Rp). intros q q' Q.
  assert (D : u_dim (q_unit q) = u_dim (q_unit q')) by apply Q. rewrite D.
  destruct (String.eqb c "Temperature"); cbn [raise_if bind]; [reflexivity|].
  step (range_sim q q' d_pressure _ _ "Pressure out of range." Q (Forall2_weaken 32 72 _ _ ltac:(lia) (pressures_sim tab c S))).
  intros _ _ _.
  eapply rsim_bind; [exact (slinear_sim 144 72 ltac:(lia) ltac:(lia) strict _ _ _ _
     (combine_sim 32 72 144 72 _ _ _ _ ltac:(lia) ltac:(lia) (pressures_sim tab c S) (temps_sim tab S))
     (base_sim q q' 60 32 Q ltac:(lia) ltac:(lia)))|].
  intros r r' Rr.
  eapply quant_plain; [exact Rr|unfold lookup_unit, unit_table; cbn [assoc String.eqb Ascii.eqb Bool.eqb]; reflexivity|reflexivity].
Qed.
