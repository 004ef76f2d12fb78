(** * IeeeBoltP: bolts in double precision. *)
From Coq Require Import String Ascii ZArith QArith Reals Qreals List Bool Lra Lia.
From Flocq Require Import Core BinarySingleNaN.
From Verif Require Import PyBase Pint UnitsM BoltM Csv Tables RoundM RoundSpec RoundP IeeeM IeeeSpec QLemmas IeeeP
  IeeePiP IeeeWindowP.
Import ListNotations.
Local Open Scope R_scope.

(** ** Numbers *)
Lemma sim_lit_tight k l m q : (0 <= k <= 53)%Z -> (0 <= l <= 53)%Z -> (0 <= m <= 1000)%Z ->
  (Z.abs (Qnum q) <=? 2 ^ k)%Z = true -> (Zpos (Qden q) <=? 2 ^ l)%Z = true ->
  ((Qnum q =? 0) || (Zpos (Qden q) <=? Z.abs (Qnum q) * 2 ^ m) && (Z.abs (Qnum q) <=? Zpos (Qden q) * 2 ^ m))%Z%bool = true ->
  sim m (@nofQ b64 NB q) (@nofQ R ND q).
Proof.
  intros K L M A B C. eapply sim_resize; [exact (sim_lit k l q K L A B)|].
  cbn [nofQ Num_rounded].
  assert (S : size m (Q2R q)); [|exact (proj2 (proj2 (size_round m _ (proj2 M) S)))].
  split; [lia|]. unfold Q2R. apply orb_true_iff in C. destruct C as [C|C].
  - left. apply Z.eqb_eq in C. rewrite C. ring.
  - right. apply andb_true_iff in C. destruct C as (C1 & C2). apply Z.leb_le in C1, C2.
    apply IZR_le in C1, C2. rewrite mult_IZR in C1, C2.
    assert (D0 : 0 < IZR (Zpos (Qden q))) by (apply IZR_lt; reflexivity).
    rewrite Rabs_mult, Rabs_inv, (Rabs_pos_eq (IZR (Zpos _))) by lra. rewrite <- abs_IZR.
    rewrite bpow_opp. rewrite <- (IZR_Zpower radix2 m) by lia. change (radix_val radix2) with 2%Z.
    assert (P0 : 0 < IZR (2 ^ m)) by (apply IZR_lt; apply Z.pow_pos_nonneg; lia).
    split.
    + apply Rmult_le_reg_l with (IZR (2 ^ m) * IZR (Zpos (Qden q))); [now apply Rmult_lt_0_compat|].
      replace (IZR (2 ^ m) * IZR (Zpos (Qden q)) * / IZR (2 ^ m)) with (IZR (Zpos (Qden q))) by (field; lra).
      replace (IZR (2 ^ m) * IZR (Zpos (Qden q)) * (IZR (Z.abs (Qnum q)) * / IZR (Zpos (Qden q))))
        with (IZR (Z.abs (Qnum q)) * IZR (2 ^ m)) by (field; lra). exact C1.
    + apply Rmult_le_reg_l with (IZR (Zpos (Qden q))); [exact D0|].
      replace (IZR (Zpos (Qden q)) * (IZR (Z.abs (Qnum q)) * / IZR (Zpos (Qden q)))) with (IZR (Z.abs (Qnum q))) by (field; lra).
      exact C2.
Qed.
Lemma pi_sim : sim 2 (@npi b64 NB) (@npi R ND).
Proof.
  cbn [npi NB Num_rounded]. split; [reflexivity|]. split; [apply pi_double|].
  assert (S : size 2 PI); [|exact (proj2 (proj2 (size_round 2 _ ltac:(lia) S)))].
  split; [lia|]. right. pose proof PI_RGT_0. pose proof PI_4. pose proof PI2_1.
  assert (E1 : bpow radix2 (- (2)) = / 4) by reflexivity. assert (E2 : bpow radix2 2 = 4) by reflexivity.
  rewrite E1, E2, Rabs_pos_eq by lra. split; lra.
Qed.
Ltac tight := apply (sim_lit_tight 25 25); (lia || reflexivity).

Lemma npdiv_sim k l x y x' y' : (k + l <= 1000)%Z -> sim k x y -> sim l x' y' ->
  rsim (sim (k + l)) (@npdiv b64 NB x x') (@npdiv R ND y y').
Proof.
  intros K A B. unfold npdiv. rewrite (sim_eqb l 0 _ _ _ _ B sim_zero).
  cbn [neqb Num_rounded]. unfold Reqb. destruct (Req_EM_T y' (@zero R ND)) as [E|N]; cbn [rsim]; [reflexivity|].
  apply sim_div; try assumption. intros Z. apply N. rewrite Z. symmetry. apply (RoundP.zero_rnd _ _ double_rounding).
Qed.
Lemma q_npdiv_sim k s k' s' p p' q q' : (k + k' <= 1000)%Z -> (s + s' <= 1000)%Z ->
  qsim k s p p' -> qsim k' s' q q' ->
  rsim (qplain (k + k') (s + s')) (@q_div b64 NB (@npdiv b64 NB) p q) (@q_div R ND (@npdiv R ND) p' q').
Proof.
  intros K S A B. unfold q_div.
  eapply rsim_bind; [exact (reg_sim _ _ _ _ _ _ _ _ A B)|intros ? ? _].
  eapply rsim_bind; [exact (offset_sim _ _ _ _ A)|intros ? ? _].
  eapply rsim_bind; [exact (offset_sim _ _ _ _ B)|intros ? ? _].
  destruct A as (M & (D & U & P & _) & R), B as (M' & (D' & U' & P' & _) & R').
  eapply rsim_bind; [exact (npdiv_sim _ _ _ _ _ _ K M M')|intros m m' Em]. cbn [rsim].
  split; [|reflexivity]. split; [exact Em|]. cbn [q_unit q_reg]. split; [|exact R].
  rewrite D, D'. apply usim_mult; [apply sim_div; try assumption; lra|now apply (sim_nz_div s s' _ _ _ _ S U U')].
Qed.
Lemma n_divq_sim k s l c c' q q' : (l + k <= 1000)%Z -> (s <= 1000)%Z -> sim l c c' -> qsim k s q q' ->
  rsim (qplain (l + k) s) (@n_divq b64 NB (@pydiv b64 NB) c q) (@n_divq R ND (@pydiv R ND) c' q').
Proof.
  intros K S C A. unfold n_divq.
  eapply rsim_bind; [exact (offset_sim _ _ _ _ A)|intros ? ? _].
  destruct A as (M & (D & U & P & _) & R).
  eapply rsim_bind; [exact (pydiv_sim _ _ _ _ _ _ K C M)|intros m m' Em]. cbn [rsim].
  split; [|reflexivity]. split; [exact Em|]. cbn [q_unit q_reg]. split; [|exact R].
  rewrite D. pose proof one_nz as O. apply usim_mult.
  - apply (sim_div 0 s); [lia|lra|apply sim_one|exact U].
  - apply (sim_nz_div 0 s _ _ _ _ ltac:(lia) sim_one U O P).
Qed.

(** ** Units of the calculation *)
Lemma inch_sim : sim 7 (@s_inch b64 NB) (@s_inch R ND).
Proof. unfold s_inch. apply (sim_lit_tight 8 14); (lia || reflexivity). Qed.
Lemma quant_in k reg m m' : sim k m m' -> rsim (qplain k 7) (@quant b64 NB reg m "in") (@quant R ND reg m' "in").
Proof.
  intros M. unfold quant, lookup_unit, unit_table. cbn [assoc String.eqb Ascii.eqb Bool.eqb rsim].
  split; [|reflexivity]. split; [exact M|]. split; [|reflexivity]. cbn [q_unit].
  apply usim_mult; [apply inch_sim|apply s_inch_nz].
Qed.
Lemma quant_per_in k reg m m' : sim k m m' -> rsim (qplain k 7) (@quant b64 NB reg m "1/in") (@quant R ND reg m' "1/in").
Proof.
  intros M. unfold quant, lookup_unit, unit_table. cbn [assoc String.eqb Ascii.eqb Bool.eqb rsim].
  split; [|reflexivity]. split; [exact M|]. split; [|reflexivity]. cbn [q_unit].
  apply usim_mult.
  - apply (sim_div 0 7); [lia|apply Rgt_not_eq, s_inch_nz|apply sim_one|apply inch_sim].
  - apply (sim_nz_div 0 7 _ _ _ _ ltac:(lia) sim_one inch_sim one_nz s_inch_nz).
Qed.
Lemma quant_psi k reg m m' : sim k m m' -> rsim (qplain k 15) (@quant b64 NB reg m "psi") (@quant R ND reg m' "psi").
Proof.
  intros M. unfold quant, lookup_unit, unit_table. cbn [assoc String.eqb Ascii.eqb Bool.eqb rsim].
  split; [|reflexivity]. split; [exact M|]. split; [|reflexivity]. cbn [q_unit].
  apply usim_mult; [apply s_psi_sim|apply s_psi_nz].
Qed.
Lemma quant_atm k reg m m' : sim k m m' -> rsim (qplain k 17) (@quant b64 NB reg m "atm") (@quant R ND reg m' "atm").
Proof.
  intros M. unfold quant, lookup_unit, unit_table. cbn [assoc String.eqb Ascii.eqb Bool.eqb rsim].
  split; [|reflexivity]. split; [exact M|]. split; [|reflexivity]. cbn [q_unit].
  apply (usim_weaken (17 + 0)); [lia|]. apply usim_lit; (lia || reflexivity).
Qed.

(** ** The thread tables *)
Definition cell_size (q : Q) : bool :=
  ((Z.abs (Qnum q) <=? 2 ^ 25) && (Zpos (Qden q) <=? 2 ^ 25)
   && ((Qnum q =? 0) || (Zpos (Qden q) <=? Z.abs (Qnum q) * 2 ^ 15) && (Z.abs (Qnum q) <=? Zpos (Qden q) * 2 ^ 15)))%Z%bool.
Definition cells_size : bool :=
  forallb (fun internal => forallb (fun row =>
     forallb (fun c => match num_cell (f_cols (THREAD_SPECS internal)) row c with Some q => cell_size q | None => true end)
       (tl (tl (f_cols (THREAD_SPECS internal))))
     && match parse_number (last (split_on "-"%char (hd ""%string row)) ""%string) with Some q => cell_size q | None => true end)%bool
    (f_rows (THREAD_SPECS internal))) [true; false].
Lemma cells_size_ok : cells_size = true.
Proof. vm_compute. reflexivity. Qed.
Local Opaque THREAD_SPECS.

Lemma cell_size_sim q : cell_size q = true -> sim 15 (@nofQ b64 NB q) (@nofQ R ND q).
Proof.
  unfold cell_size. intros H. apply andb_true_iff in H. destruct H as (H & C). apply andb_true_iff in H. destruct H as (A & B).
  now apply (sim_lit_tight 25 25).
Qed.
Lemma str_mem_In x l : str_mem x l = true -> In x l.
Proof.
  unfold str_mem. intros H. apply existsb_exists in H. destruct H as (y & I & E). apply String.eqb_eq in E. now subst.
Qed.
Lemma row_size internal row : In row (f_rows (THREAD_SPECS internal)) ->
  (forall c q, In c (tl (tl (f_cols (THREAD_SPECS internal)))) ->
     num_cell (f_cols (THREAD_SPECS internal)) row c = Some q -> cell_size q = true)
  /\ (forall q, parse_number (last (split_on "-"%char (hd ""%string row)) ""%string) = Some q -> cell_size q = true).
Proof.
  intros I. pose proof cells_size_ok as H. unfold cells_size in H.
  assert (Ii : In internal [true; false]) by (destruct internal; cbn; auto).
  rewrite forallb_forall in H. specialize (H _ Ii). rewrite forallb_forall in H. specialize (H _ I).
  apply andb_true_iff in H. destruct H as (A & B). rewrite forallb_forall in A. split.
  - intros c q Ic E. specialize (A _ Ic). now rewrite E in A.
  - intros q E. now rewrite E in B.
Qed.
Lemma thread_cell_size internal prop size cls q : thread_cell internal prop size cls = Ok q ->
  cell_size q = true
  /\ (forall n, parse_number (last (split_on "-"%char size) ""%string) = Some n -> cell_size n = true).
Proof.
  unfold thread_cell. destruct (str_mem prop _) eqn:M; cbn [negb]; [|discriminate]. apply str_mem_In in M.
  destruct (thread_rows internal size cls) as [|r [|r2 rs]] eqn:E; [discriminate| |discriminate].
  assert (F : In r (thread_rows internal size cls)) by (rewrite E; now left).
  unfold thread_rows in F. apply filter_In in F. destruct F as (I & F). apply andb_true_iff in F. destruct F as (F & _).
  apply String.eqb_eq in F. destruct (row_size internal r I) as (A & B). rewrite F in B.
  destruct (num_cell _ r prop) as [v|] eqn:V; [|discriminate]. intros [= <-]. split; [exact (A _ _ M V)|exact B].
Qed.
(** A cell read from the table as a length in inches. *)
Lemma cell_step {A B} (S : A -> B -> Prop) internal prop size cls reg f f' :
  (forall q q', qplain 15 7 q q' ->
     (forall n, parse_number (last (split_on "-"%char size) ""%string) = Some n -> cell_size n = true) ->
     rsim S (f q) (f' q')) ->
  rsim S (let* c := thread_cell internal prop size cls in let* q := @quant b64 NB reg (@nofQ b64 NB c) "in" in f q)
         (let* c := thread_cell internal prop size cls in let* q := @quant R ND reg (@nofQ R ND c) "in" in f' q).
Proof.
  intros H. destruct (thread_cell internal prop size cls) as [c|e] eqn:E; cbn [bind]; [|reflexivity].
  destruct (thread_cell_size _ _ _ _ _ E) as (C & T).
  apply (rsim_bind (qplain 15 7)); [exact (quant_in 15 reg _ _ (cell_size_sim c C))|]. intros q q' Q. now apply H.
Qed.

(** ** Areas *)
Definition area_sim (a : thread_areas b64) (a' : thread_areas R) : Prop :=
  qplain 300 60 (screw_area a) (screw_area a') /\ qplain 300 60 (plate_area a) (plate_area a')
  /\ qplain 1000 300 (minimum_engagement a) (minimum_engagement a')
  /\ shear_warning a = shear_warning a'.

Lemma rereg_sim k s q q' reg : qplain k s q q' -> qplain k s (rereg q reg) (rereg q' reg).
Proof. intros ((A & B & _) & C). split; [|exact C]. split; [exact A|split; [exact B|reflexivity]]. Qed.

Lemma tensile_sim b b' d d' e e' t t' reg :
  qplain 60 32 b b' -> qplain 15 7 d d' -> qplain 15 7 e e' -> qplain 15 7 t t' ->
  rsim (qplain 178 14) (@tensile_area b64 NB b d e t reg) (@tensile_area R ND b' d' e' t' reg).
Proof.
  intros Hb Hd He Ht. unfold tensile_area.
  assert (L1 : sim 17 (@nofQ b64 NB 100000) (@nofQ R ND 100000)) by tight.
  apply (rsim_bind (qplain 17 15)); [exact (quant_psi 17 reg _ _ L1)|]. intros lim lim' Hlim.
  apply (rsim_bind eq).
  { apply (q_cmp_sim _ _ 60 32 17 15); [|lia|lia|exact Hb|exact Hlim]. intros i j x y x' y'. apply sim_ltb. }
  intros weak _ <-. destruct weak.
  - assert (L2 : sim 1 (@nofQ b64 NB 0.9742785) (@nofQ R ND 0.9742785)) by tight.
    step (n_divq_sim 15 7 1 _ _ _ _ ltac:(lia) ltac:(lia) L2 (proj1 Ht)). intros p p' Hp.
    eapply rsim_bind; [exact (q_addsub_sim _ _ 16 7 7 _ _ _ _ sim_sub ltac:(lia) ltac:(lia) ltac:(lia)
       (qsim_weaken 15 7 16 7 _ _ ltac:(lia) ltac:(lia) (proj1 Hd)) (proj1 Hp))|]. intros x x' Hx.
    step (q_sq_sim 82 7 _ _ ltac:(lia) ltac:(lia) (proj1 Hx)). intros x2 x2' Hx2.
    assert (F : sim 5 (@ndiv b64 NB (@npi b64 NB) (@nofQ b64 NB 4)) (@ndiv R ND (@npi R ND) (@nofQ R ND 4))).
    { apply (sim_weaken (2 + 2)); [lia|]. apply sim_div; [lia| |apply pi_sim|apply four_sim].
      apply Rgt_not_eq, (lit_nz 2 0); (lia || reflexivity). }
    eapply rsim_mono; [|exact (q_scale_sim 164 14 5 _ _ _ _ ltac:(lia) F (proj1 Hx2))].
    intros y y'. apply qplain_weaken; lia.
  - step (q_divn_sim 15 7 1 _ _ _ _ ltac:(lia) two_sim (proj1 He)). intros h h' Hh.
    assert (L2 : sim 3 (@nofQ b64 NB 0.16238) (@nofQ R ND 0.16238)) by tight.
    step (n_divq_sim 15 7 3 _ _ _ _ ltac:(lia) ltac:(lia) L2 (proj1 Ht)). intros p p' Hp.
    eapply rsim_bind; [exact (q_addsub_sim _ _ 18 7 7 _ _ _ _ sim_sub ltac:(lia) ltac:(lia) ltac:(lia)
       (qsim_weaken 16 7 18 7 _ _ ltac:(lia) ltac:(lia) (proj1 Hh)) (proj1 Hp))|]. intros x x' Hx.
    step (q_sq_sim 84 7 _ _ ltac:(lia) ltac:(lia) (proj1 Hx)). intros x2 x2' Hx2.
    eapply rsim_mono; [|exact (q_scale_sim 168 14 2 _ _ _ _ ltac:(lia) pi_sim (proj1 Hx2))].
    intros y y'. apply qplain_weaken; lia.
Qed.
Lemma shear_sim t t' g g' d d' x x' y y' :
  qplain 15 7 t t' -> qplain 60 32 g g' -> qplain 15 7 d d' -> qplain 15 7 x x' -> qplain 15 7 y y' ->
  rsim (qplain 248 53) (@shear_area b64 NB t g d x y) (@shear_area R ND t' g' d' x' y').
Proof.
  intros Ht Hg Hd Hx Hy. unfold shear_area.
  step (q_scale_sim 15 7 2 _ _ _ _ ltac:(lia) pi_sim (proj1 Ht)). intros a a' Ha.
  step (q_mul_sim 17 7 60 32 _ _ _ _ ltac:(lia) ltac:(lia) (proj1 Ha) (proj1 Hg)). intros b b' Hb.
  step (q_mul_sim 77 39 15 7 _ _ _ _ ltac:(lia) ltac:(lia) (proj1 Hb) (proj1 Hd)). intros c c' Hc.
  step (q_scale_sim 15 7 1 _ _ _ _ ltac:(lia) two_sim (proj1 Ht)). intros t2 t2' Ht2.
  step (n_divq_sim 16 7 0 _ _ _ _ ltac:(lia) ltac:(lia) sim_one (proj1 Ht2)). intros h h' Hh.
  step (q_addsub_sim _ _ 15 7 7 _ _ _ _ sim_sub ltac:(lia) ltac:(lia) ltac:(lia) (proj1 Hx) (proj1 Hy)). intros df df' Hdf.
  assert (L : sim 1 (@nofQ b64 NB 0.57735) (@nofQ R ND 0.57735)) by tight.
  step (q_scale_sim 81 7 1 _ _ _ _ ltac:(lia) L (proj1 Hdf)). intros k k' Hk.
  step (q_addsub_sim _ _ 82 7 7 _ _ _ _ sim_add ltac:(lia) ltac:(lia) ltac:(lia)
     (qsim_weaken 16 7 82 7 _ _ ltac:(lia) ltac:(lia) (proj1 Hh)) (proj1 Hk)). intros s s' Hs.
  eapply rsim_mono; [|exact (q_mul_sim 92 46 148 7 _ _ _ _ ltac:(lia) ltac:(lia) (proj1 Hc) (proj1 Hs))].
  intros z z'. apply qplain_weaken; lia.
Qed.

Lemma offset_plain (q : quantity b64) d : (Pint.u_off (q_unit q) <> None -> u_dim (q_unit q) = d_temperature) ->
  u_dim (q_unit q) = d -> d <> d_temperature -> plain (q_unit q).
Proof.
  intros W E N. unfold plain. destruct (Pint.u_off (q_unit q)); [|reflexivity]. exfalso. apply N.
  rewrite <- E. apply W. discriminate.
Qed.
Definition offset_only_temperature (q : quantity b64) : Prop :=
  Pint.u_off (q_unit q) <> None -> u_dim (q_unit q) = d_temperature.

Lemma stress_areas_sim size cls b b' p p' l l' reg :
  qsim 60 32 b b' -> qsim 60 32 p p' -> qsim 60 32 l l' ->
  offset_only_temperature b -> offset_only_temperature p -> offset_only_temperature l ->
  rsim area_sim (@calculate_stress_areas b64 NB size cls b p l reg)
                (@calculate_stress_areas R ND size cls b' p' l' reg).
Proof.
  intros Sb Sp Sl Wb Wp Wl. unfold calculate_stress_areas.
  step (check_sim 60 32 _ _ "pressure" true ltac:(lia) Sb). intros ? ? Db; cbn beta in Db.
  step (check_sim 60 32 _ _ "pressure" true ltac:(lia) Sp). intros ? ? Dp; cbn beta in Dp.
  step (check_sim 60 32 _ _ "length" true ltac:(lia) Sl). intros ? ? Dl; cbn beta in Dl.
  pose proof (rereg_sim _ _ _ _ reg (conj Sb (offset_plain b _ Wb (Db _ eq_refl) ltac:(discriminate)))) as Hb.
  pose proof (rereg_sim _ _ _ _ reg (conj Sp (offset_plain p _ Wp (Dp _ eq_refl) ltac:(discriminate)))) as Hp.
  pose proof (rereg_sim _ _ _ _ reg (conj Sl (offset_plain l _ Wl (Dl _ eq_refl) ltac:(discriminate)))) as Hl.
  clear Sb Sp Sl Wb Wp Wl Db Dp Dl. revert Hb Hp Hl.
  generalize (rereg b reg) (rereg b' reg) (rereg p reg) (rereg p' reg) (rereg l reg) (rereg l' reg).
  clear b b' p p' l l'. intros b b' p p' l l' Hb Hp Hl. cbv zeta.
  apply cell_step. intros kn kn' Hkn T.
  apply cell_step. intros es es' Hes _.
  apply cell_step. intros en en' Hen _.
  apply cell_step. intros ds ds' Hds _.
  apply (rsim_bind (sim 15)).
  { unfold threads_per_inch. destruct (parse_number _) as [n|] eqn:E; cbn [rsim]; [|reflexivity].
    apply cell_size_sim. now apply T. }
  intros n n' Hn.
  apply (rsim_bind (qplain 15 7)); [exact (quant_per_in 15 reg _ _ Hn)|]. intros t t' Ht.
  apply cell_step. intros bd bd' Hbd _.
  step (tensile_sim _ _ _ _ _ _ _ _ reg Hb Hbd Hes Ht). intros at_ at' Hat.
  step (shear_sim _ _ _ _ _ _ _ _ _ _ Ht Hl Hkn Hes Hkn). intros as_ as' Has.
  apply (rsim_bind eq).
  { apply (q_cmp_sim _ _ 248 53 178 14); [|lia|lia|exact Has|exact Hat]. intros i j x y x' y'. apply sim_ltb. }
  intros sh _ <-.
  step (shear_sim _ _ _ _ _ _ _ _ _ _ Ht Hl Hds Hds Hen). intros pl pl' Hpl.
  step (q_mul_sim 248 53 60 32 _ _ _ _ ltac:(lia) ltac:(lia) (proj1 Has) (proj1 Hb)). intros jn jn' Hjn.
  step (q_mul_sim 248 53 60 32 _ _ _ _ ltac:(lia) ltac:(lia) (proj1 Hpl) (proj1 Hp)). intros jd jd' Hjd.
  step (q_npdiv_sim 308 85 308 85 _ _ _ _ ltac:(lia) ltac:(lia) (proj1 Hjn) (proj1 Hjd)). intros j j' Hj.
  step (q_scale_sim 178 14 1 _ _ _ _ ltac:(lia) two_sim (proj1 Hat)). intros nu nu' Hnu.
  step (q_scale_sim 15 7 2 _ _ _ _ ltac:(lia) pi_sim (proj1 Hkn)). intros kp kp' Hkp.
  assert (L : sim 1 (@nofQ b64 NB 0.57735) (@nofQ R ND 0.57735)) by tight.
  step (q_scale_sim 15 7 1 _ _ _ _ ltac:(lia) L (proj1 Ht)). intros c c' Hc.
  step (q_addsub_sim _ _ 15 7 7 _ _ _ _ sim_sub ltac:(lia) ltac:(lia) ltac:(lia) (proj1 Hes) (proj1 Hkn)). intros df df' Hdf.
  step (q_mul_sim 16 7 81 7 _ _ _ _ ltac:(lia) ltac:(lia) (proj1 Hc) (proj1 Hdf)). intros e e' He.
  assert (O : sim 1 (@ndiv b64 NB (@one b64 NB) (@nofQ b64 NB 2)) (@ndiv R ND (@one R ND) (@nofQ R ND 2))).
  { apply (sim_div 0 1); [lia| |apply sim_one|apply two_sim]. apply Rgt_not_eq, (lit_nz 1 0); (lia || reflexivity). }
  step (n_addq_sim 97 14 1 _ _ _ _ ltac:(lia) ltac:(lia) O He). intros s s' Hs.
  step (q_mul_sim 17 7 163 0 _ _ _ _ ltac:(lia) ltac:(lia) (proj1 Hkp) (proj1 Hs)). intros de de' Hde.
  step (q_npdiv_sim 179 14 180 7 _ _ _ _ ltac:(lia) ltac:(lia) (proj1 Hnu) (proj1 Hde)). intros ba ba' Hba.
  step (q_mul_sim 359 21 616 170 _ _ _ _ ltac:(lia) ltac:(lia) (proj1 Hba) (proj1 Hj)). intros m m' Hm.
  cbn [rsim]. unfold area_sim; cbn [screw_area plate_area minimum_engagement shear_warning].
  split; [destruct sh; eapply qplain_weaken; [| |exact Has| | |exact Hat]; lia|].
  split; [eapply qplain_weaken; [| |exact Hpl]; lia|].
  split; [eapply qplain_weaken; [| |exact Hm]; lia|reflexivity].
Qed.

(** ** Safety factors *)
Lemma parse_plain_sim i i' reg : reads 1e18 i i' ->
  rsim (fun q q' => qsim 60 32 q q' /\ offset_only_temperature q)
    (@parse_quant_input b64 NB i reg) (@parse_quant_input R ND i' reg).
Proof.
  intros Rd. pose proof (parse_sim i i' reg Rd) as P. pose proof lookup_off as W.
  destruct Rd as [m name Mo|m name v v' r Mo L L']; cbn [parse_quant_input quantity_of_items] in *.
  - unfold quant in *.
    destruct (@lookup_unit b64 NB name) as [v|] eqn:L, (@lookup_unit R ND name) as [v'|];
      cbn [rsim] in *; try contradiction; [|exact P].
    split; [exact P|]. exact (W name v L).
  - cbn [rsim] in *. split; [exact P|]. exact (W name v L).
Qed.
Definition factor_sim (f : bolt_factors b64) (f' : bolt_factors R) : Prop :=
  sim 1000 (sf_bolt f) (sf_bolt f') /\ sim 1000 (sf_plate f) (sf_plate f') /\ sf_warning f = sf_warning f'.
Lemma safety_factors_sim size cls mp mp' wa wa' n b b' p p' l l' reg :
  reads 1e18 mp mp' -> reads 1e18 wa wa' -> moderate 1e18 n ->
  reads 1e18 b b' -> reads 1e18 p p' -> reads 1e18 l l' ->
  rsim factor_sim (@calculate_safety_factors b64 NB mp wa n size cls b p l reg)
                  (@calculate_safety_factors R ND mp' wa' (real n) size cls b' p' l' reg).
Proof.
  intros Rm Rw Mn Rb Rp Rl. unfold calculate_safety_factors.
  step (parse_plain_sim _ _ reg Rm). intros qm qm' (Sm & Wm).
  step (parse_plain_sim _ _ reg Rw). intros qw qw' (Sw & Ww).
  step (parse_plain_sim _ _ reg Rb). intros qb qb' (Sb & Wb).
  step (parse_plain_sim _ _ reg Rp). intros qp qp' (Sp & Wp).
  step (parse_plain_sim _ _ reg Rl). intros ql ql' (Sl & Wl).
  step (check_sim 60 32 _ _ "pressure" true ltac:(lia) Sm). intros ? ? Dm; cbn beta in Dm.
  step (check_sim 60 32 _ _ "area" true ltac:(lia) Sw). intros ? ? Dw; cbn beta in Dw.
  step (check_sim 60 32 _ _ "pressure" true ltac:(lia) Sb). intros ? ? Db; cbn beta in Db.
  step (check_sim 60 32 _ _ "pressure" true ltac:(lia) Sp). intros ? ? Dp; cbn beta in Dp.
  step (check_sim 60 32 _ _ "length" true ltac:(lia) Sl). intros ? ? _.
  apply (rsim_bind (qplain 0 17)); [exact (quant_atm 0 reg _ _ sim_one)|]. intros at_ at' Hat.
  assert (Hat2 : qsim 60 17 at_ at') by (apply (qsim_weaken 0 17); [lia|lia|exact (proj1 Hat)]).
  unfold q_sub.
  step (q_addsub_sim _ _ 60 32 17 _ _ _ _ sim_sub ltac:(lia) ltac:(lia) ltac:(lia) Sm Hat2). intros g g' Hg.
  step (q_mul_sim 161 32 60 32 _ _ _ _ ltac:(lia) ltac:(lia) (proj1 Hg) Sw). intros f f' Hf.
  step (q_divn_sim 221 64 60 _ _ _ _ ltac:(lia) (moderate_sim n Mn) (proj1 Hf)). intros wf wf' Hwf.
  step (stress_areas_sim size cls _ _ _ _ _ _ reg Sb Sp Sl Wb Wp Wl). intros t t' (Hsc & Hpl & _ & Ew).
  cbv zeta. apply (rereg_sim _ _ _ _ reg) in Hsc. apply (rereg_sim _ _ _ _ reg) in Hpl.
  step (q_npdiv_sim 281 64 300 60 _ _ _ _ ltac:(lia) ltac:(lia) (proj1 Hwf) (proj1 Hsc)). intros sb sb' Hsb.
  step (q_npdiv_sim 60 32 581 124 _ _ _ _ ltac:(lia) ltac:(lia) Sb (proj1 Hsb)). intros fb fb' Hfb.
  step (q_plain_sim 641 156 _ _ ltac:(lia) Hfb). intros xb xb' Hxb.
  step (q_npdiv_sim 281 64 300 60 _ _ _ _ ltac:(lia) ltac:(lia) (proj1 Hwf) (proj1 Hpl)). intros sp sp' Hsp.
  step (q_npdiv_sim 60 32 581 124 _ _ _ _ ltac:(lia) ltac:(lia) Sp (proj1 Hsp)). intros fp fp' Hfp.
  step (q_plain_sim 641 156 _ _ ltac:(lia) Hfp). intros xp xp' Hxp.
  cbn [rsim]. unfold factor_sim; cbn [sf_bolt sf_plate sf_warning].
  split; [apply (sim_weaken 797); [lia|exact Hxb]|]. split; [apply (sim_weaken 797); [lia|exact Hxp]|exact Ew].
Qed.
