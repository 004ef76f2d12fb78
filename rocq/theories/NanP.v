(** * NanP: nan goes through the arithmetic of pint quantities *)
From Coq Require Import String ZArith QArith Reals Qreals List Bool Lra.
From Verif Require Import PyBase Pint UnitsM Spec QLemmas Interp Csv Tables TubeM WindowM BoltM DdtM
  FlangeM Gas GasP FitM SdM ThermoM ThermoP RunUpM InitPressureM NanM NanSpec.
Import ListNotations.
Local Open Scope string_scope.
Local Open Scope num_scope.

Lemma fl2_l f (b : fl) : fl2 f NaN b = NaN.
Proof. reflexivity. Qed.
Lemma fl2_r f (a : fl) : fl2 f a NaN = NaN.
Proof. now destruct a. Qed.
Lemma flc_r f (a : fl) : flc f a NaN = false.
Proof. now destruct a. Qed.

Lemma nan_pydiv (x y r : fl) : pydiv x y = Ok r -> x = NaN \/ y = NaN -> r = NaN.
Proof.
  unfold pydiv. destruct (y =? zero); [discriminate|]. intros [= <-] [->| ->]; cbn [ndiv Num_fl].
  - reflexivity. - apply fl2_r.
Qed.
Lemma nan_npdiv (x y r : fl) : npdiv x y = Ok r -> x = NaN \/ y = NaN -> r = NaN.
Proof.
  unfold npdiv. destruct (y =? zero); [discriminate|]. intros [= <-] [->| ->]; cbn [ndiv Num_fl].
  - reflexivity. - apply fl2_r.
Qed.
Definition nan_div (div : fl -> fl -> result fl) : Prop :=
  forall x y r, div x y = Ok r -> x = NaN \/ y = NaN -> r = NaN.
Lemma nan_npsqrt (x r : fl) : npsqrt x = Ok r -> x = NaN -> r = NaN.
Proof. unfold npsqrt. intros H ->. now injection H as <-. Qed.

Lemma nan_base (q : quantity fl) : q_mag q = NaN -> base_mag q = NaN.
Proof. unfold base_mag. intros ->. now destruct (u_off _). Qed.
Lemma nan_to_base q : q_mag q = NaN -> q_mag (to_base_units q) = NaN.
Proof. exact (nan_base q). Qed.

Ltac binds H :=
  repeat match type of H with bind _ _ = Ok _ => apply bind_inv in H; destruct H as (? & ? & H) end.
Ltac leaf := cbn [q_mag nmul nadd nsub ndiv Num_fl]; auto using fl2_l, fl2_r.

Lemma nan_mul p q r : q_mul p q = Ok r -> q_mag p = NaN \/ q_mag q = NaN -> q_mag r = NaN.
Proof. unfold q_mul. intros H. binds H. injection H as <-. intros [E|E]; cbn [q_mag]; rewrite E; leaf. Qed.
Lemma nan_qdiv div p q r : nan_div div -> q_div div p q = Ok r ->
  q_mag p = NaN \/ q_mag q = NaN -> q_mag r = NaN.
Proof. unfold q_div. intros D H. binds H. injection H as <-. cbn [q_mag]. eauto. Qed.
Lemma nan_scale k q r : q_scale k q = Ok r -> k = NaN \/ q_mag q = NaN -> q_mag r = NaN.
Proof. unfold q_scale. intros H. binds H. injection H as <-. intros [E|E]; cbn [q_mag]; rewrite E; leaf. Qed.
Lemma nan_qdivn div q k r : nan_div div -> q_divn div q k = Ok r ->
  q_mag q = NaN \/ k = NaN -> q_mag r = NaN.
Proof. unfold q_divn. intros D H. binds H. injection H as <-. cbn [q_mag]. eauto. Qed.
Lemma nan_ndivq div k q r : nan_div div -> n_divq div k q = Ok r ->
  k = NaN \/ q_mag q = NaN -> q_mag r = NaN.
Proof. unfold n_divq. intros D H. binds H. injection H as <-. cbn [q_mag]. eauto. Qed.
Lemma nan_to q u r : q_to q u = Ok r -> q_mag q = NaN -> q_mag r = NaN.
Proof.
  unfold q_to. destruct (dim_eqb _ _); [|discriminate]. intros [= <-] E. cbn [q_mag].
  rewrite (nan_base q E). now destruct (u_off u).
Qed.
Lemma nan_to_str q s r : q_to_str q s = Ok r -> q_mag q = NaN -> q_mag r = NaN.
Proof. unfold q_to_str. destruct (lookup_unit s); [apply nan_to|discriminate]. Qed.
Lemma nan_add p q r : q_add p q = Ok r -> q_mag p = NaN \/ q_mag q = NaN -> q_mag r = NaN.
Proof.
  unfold q_add, q_addsub. intros H. binds H. injection H as <-. cbn [q_mag].
  intros [E|E]; [rewrite E; leaf|].
  match goal with K : q_to q _ = Ok _ |- _ => rewrite (nan_to _ _ _ K E) end. leaf.
Qed.
Lemma nan_sub p q r : q_sub p q = Ok r -> q_mag p = NaN \/ q_mag q = NaN -> q_mag r = NaN.
Proof.
  unfold q_sub, q_addsub. intros H. binds H. injection H as <-. cbn [q_mag].
  intros [E|E]; [rewrite E; leaf|].
  match goal with K : q_to q _ = Ok _ |- _ => rewrite (nan_to _ _ _ K E) end. leaf.
Qed.
Lemma nan_addq k q r : n_addq k q = Ok r -> q_mag q = NaN -> q_mag r = NaN.
Proof.
  unfold n_addq. destruct (dim_eqb _ _); [|discriminate]. intros [= <-] E. cbn [q_mag].
  rewrite (nan_base q E). leaf.
Qed.
Lemma nan_sq q r : q_sq q = Ok r -> q_mag q = NaN -> q_mag r = NaN.
Proof. unfold q_sq. intros H. binds H. injection H as <-. intros E; cbn [q_mag]; now rewrite E. Qed.
Lemma nan_sqrt q r : q_sqrt q = Ok r -> q_mag q = NaN -> q_mag r = NaN.
Proof.
  unfold q_sqrt. intros H. binds H. destruct (dim_root _ _); [|discriminate]. binds H.
  injection H as <-. cbn [q_mag]. eauto using nan_npsqrt.
Qed.
Lemma nan_root4 q r : q_root4 q = Ok r -> q_mag q = NaN -> q_mag r = NaN.
Proof.
  unfold q_root4. intros H E. binds H. destruct (dim_root _ _); [|discriminate].
  rewrite E in H. now injection H as <-.
Qed.
Lemma nan_plain q r : q_plain q = Ok r -> q_mag q = NaN -> r = NaN.
Proof. unfold q_plain. intros H. binds H. injection H as <-. eauto using nan_to. Qed.
Lemma nan_parse i reg q : parse_quant_input i reg = Ok q -> nan_arg i -> q_mag q = NaN.
Proof.
  intros H N. destruct N as [u r|s]; cbn in H.
  - now injection H as <-.
  - unfold quant in H. destruct (lookup_unit s); [|discriminate]. now injection H as <-.
Qed.
Lemma nan_parse_base i reg q : parse_base i reg = Ok q -> nan_arg i -> q_mag q = NaN.
Proof.
  unfold parse_base. intros H. binds H. injection H as <-. intros N. apply nan_to_base.
  eauto using nan_parse.
Qed.
Lemma nan_quant_ reg m s q : quant reg m s = Ok q -> m = NaN -> q_mag q = NaN.
Proof. unfold quant. destruct (lookup_unit s); [|discriminate]. now intros [= <-]. Qed.
Lemma nan_interp (x : fl) l r : np_interp x l = Ok r -> x = NaN -> r = NaN.
Proof. unfold np_interp. destruct l; [discriminate|]. intros H ->. now injection H as <-. Qed.

(** One step of forward reasoning: the value of an operation on a nan is nan. *)
Ltac known H r := match goal with K : r = NaN |- _ => fail 1 | _ => idtac end.
Ltac isnan :=
  solve [ assumption | left; assumption | right; assumption
        | left; subst; reflexivity | right; subst; reflexivity ].
Ltac fwd1 :=
  match goal with
  | H : parse_quant_input ?i _ = Ok ?q, N : nan_arg ?i |- _ =>
    known H (q_mag q); pose proof (nan_parse _ _ _ H N)
  | H : parse_base ?i _ = Ok ?q, N : nan_arg ?i |- _ =>
    known H (q_mag q); pose proof (nan_parse_base _ _ _ H N)
  | H : q_mul _ _ = Ok ?q |- _ => known H (q_mag q); pose proof (nan_mul _ _ _ H ltac:(isnan))
  | H : q_div pydiv _ _ = Ok ?q |- _ =>
    known H (q_mag q); pose proof (nan_qdiv _ _ _ _ nan_pydiv H ltac:(isnan))
  | H : q_div npdiv _ _ = Ok ?q |- _ =>
    known H (q_mag q); pose proof (nan_qdiv _ _ _ _ nan_npdiv H ltac:(isnan))
  | H : q_divn pydiv _ _ = Ok ?q |- _ =>
    known H (q_mag q); pose proof (nan_qdivn _ _ _ _ nan_pydiv H ltac:(isnan))
  | H : n_divq pydiv _ _ = Ok ?q |- _ =>
    known H (q_mag q); pose proof (nan_ndivq _ _ _ _ nan_pydiv H ltac:(isnan))
  | H : n_divq npdiv _ _ = Ok ?q |- _ =>
    known H (q_mag q); pose proof (nan_ndivq _ _ _ _ nan_npdiv H ltac:(isnan))
  | H : q_scale _ _ = Ok ?q |- _ => known H (q_mag q); pose proof (nan_scale _ _ _ H ltac:(isnan))
  | H : q_add _ _ = Ok ?q |- _ => known H (q_mag q); pose proof (nan_add _ _ _ H ltac:(isnan))
  | H : q_sub _ _ = Ok ?q |- _ => known H (q_mag q); pose proof (nan_sub _ _ _ H ltac:(isnan))
  | H : n_addq _ _ = Ok ?q |- _ => known H (q_mag q); pose proof (nan_addq _ _ _ H ltac:(isnan))
  | H : q_sq _ = Ok ?q |- _ => known H (q_mag q); pose proof (nan_sq _ _ H ltac:(isnan))
  | H : q_sqrt _ = Ok ?q |- _ => known H (q_mag q); pose proof (nan_sqrt _ _ H ltac:(isnan))
  | H : q_root4 _ = Ok ?q |- _ => known H (q_mag q); pose proof (nan_root4 _ _ H ltac:(isnan))
  | H : q_to _ _ = Ok ?q |- _ => known H (q_mag q); pose proof (nan_to _ _ _ H ltac:(isnan))
  | H : q_to_str _ _ = Ok ?q |- _ => known H (q_mag q); pose proof (nan_to_str _ _ _ H ltac:(isnan))
  | H : q_plain _ = Ok ?q |- _ => known H q; pose proof (nan_plain _ _ H ltac:(isnan))
  | H : quant _ _ _ = Ok ?q |- _ => known H (q_mag q); pose proof (nan_quant_ _ _ _ _ H ltac:(isnan))
  | H : np_interp _ _ = Ok ?q |- _ => known H q; pose proof (nan_interp _ _ _ H ltac:(isnan))
  | H : npsqrt _ = Ok ?q |- _ => known H q; pose proof (nan_npsqrt _ _ H ltac:(isnan))
  | H : pydiv _ _ = Ok ?q |- _ => known H q; pose proof (nan_pydiv _ _ _ H ltac:(isnan))
  | H : npdiv _ _ = Ok ?q |- _ => known H q; pose proof (nan_npdiv _ _ _ H ltac:(isnan))
  end.
Ltac fwd := repeat fwd1; try assumption.

(** ** Window *)
Lemma nan_safety_factor L W t P M reg :
  nan_arg L \/ nan_arg W \/ nan_arg t \/ nan_arg P \/ nan_arg M ->
  no_number (safety_factor L W t P M reg).
Proof.
  intros N v H. unfold safety_factor in H. binds H.
  destruct N as [N|[N|[N|[N|N]]]]; fwd.
Qed.
Lemma nan_thickness L W s P M reg :
  nan_arg L \/ nan_arg W \/ s = SfNum NaN \/ nan_arg P \/ nan_arg M ->
  no_quantity (minimum_thickness L W s P M reg).
Proof.
  intros N v H. unfold minimum_thickness in H. binds H.
  destruct N as [N|[N|[->|[N|N]]]]; fwd.
  match goal with E : (if _ then _ else _) = Ok ?x |- _ => cbn in E; injection E as <- end.
  match goal with E : npsqrt ?e = Ok _ |- _ => assert (e = NaN) by reflexivity end. fwd.
Qed.

(** ** Blockage *)
Lemma nan_blockage_diameter d br reg : nan_arg d -> no_quantity (calculate_blockage_diameter d br reg).
Proof. intros N v H. unfold calculate_blockage_diameter in H. binds H. fwd. Qed.
Lemma nan_blockage_refused d br reg : br = BrNum NaN \/ br = BrStr (Some NaN) ->
  calculate_blockage_diameter d br reg = Err (ValueError "Blockage ratio outside of 0<BR<1").
Proof. intros [->| ->]; reflexivity. Qed.
Lemma nan_blockage_ratio d b reg : nan_arg d \/ nan_arg b -> no_number (calculate_blockage_ratio d b reg).
Proof.
  intros N v H. unfold calculate_blockage_ratio in H. binds H. injection H as <-.
  assert (E : x6 = NaN).
  { destruct N as [N|N]; fwd.
    match goal with P : pydiv ?a _ = Ok _, M : q_mag ?q = NaN |- _ =>
      assert (a = NaN) by (rewrite M; reflexivity) end. fwd. }
  rewrite E. reflexivity.
Qed.

(** ** Tube *)
Lemma nan_max_pressure i o s k :
  nan_quant i \/ nan_quant o \/ nan_quant s \/ k = NaN ->
  no_quantity (calculate_max_pressure i o s k).
Proof.
  unfold nan_quant. intros N v H. unfold calculate_max_pressure in H. binds H.
  destruct N as [N|[N|[N|N]]]; fwd.
Qed.
Lemma nan_max_stress t mat w reg : nan_arg t -> no_quantity (calculate_max_stress t mat w reg).
Proof. intros N v H. unfold calculate_max_stress in H. binds H. fwd. Qed.

Lemma nan_critical i o e d nu v :
  critical_velocity i o e d nu = Ok v ->
  nan_quant i \/ nan_quant o \/ nan_quant e \/ nan_quant d \/ nu = NaN -> q_mag v = NaN.
Proof.
  unfold nan_quant, critical_velocity. intros H N. binds H.
  destruct N as [N|[N|[N|[N|N]]]]; fwd.
Qed.
Lemma nan_dlf i o c e d nu pm n :
  dynamic_load_factor i o c e d nu pm = Ok n ->
  nan_quant i \/ nan_quant o \/ nan_quant c \/ nan_quant e \/ nan_quant d \/ nu = NaN -> n = 4%nat.
Proof.
  intros H N. unfold dynamic_load_factor in H. binds H. injection H as <-.
  match goal with K : critical_velocity _ _ _ _ _ = Ok ?v |- _ => rename K into HC; set (cv := v) in * end.
  assert (E : q_mag cv = NaN \/ nan_quant c).
  { destruct N as [N|[N|[N|[N|[N|N]]]]]; auto; left; eapply nan_critical; eauto 8. }
  unfold nan_quant in E.
  destruct E as [E|E]; fwd;
    repeat match goal with M : q_mag _ = NaN |- _ => rewrite M; clear M end;
    cbn [nltb Num_fl flc]; rewrite ?flc_r; reflexivity.
Qed.
Lemma nan_margin i o c e d nu :
  raises (dynamic_load_factor i o c e d nu NaN).
Proof.
  unfold raises. destruct (dynamic_load_factor i o c e d nu NaN) eqn:H; [|eauto].
  unfold dynamic_load_factor in H. binds H. discriminate.
Qed.

(** ** Bolt *)
Local Opaque THREAD_SPECS.
Lemma nan_shear_area tpi e d x y r : shear_area tpi e d x y = Ok r -> q_mag e = NaN -> q_mag r = NaN.
Proof. unfold shear_area. intros H E. binds H. fwd. Qed.
Lemma nan_plate_area size cls b p e reg t :
  calculate_stress_areas size cls b p e reg = Ok t -> q_mag e = NaN ->
  q_mag (plate_area t) = NaN /\ shear_warning t = false.
Proof.
  unfold calculate_stress_areas. intros H E. binds H. injection H as <-. cbn [plate_area shear_warning].
  match goal with K1 : shear_area _ _ _ _ _ = Ok _, K2 : shear_area _ _ _ _ _ = Ok _ |- _ =>
    pose proof (nan_shear_area _ _ _ _ _ _ K1 E) as N1;
    pose proof (nan_shear_area _ _ _ _ _ _ K2 E) as N2 end.
  split; [assumption|].
  match goal with K : q_lt ?s _ = Ok _ |- _ => rename K into Q end.
  unfold q_lt, q_cmp in Q. binds Q. destruct (dim_eqb _ _); [|discriminate].
  injection Q as <-. rewrite nan_base by assumption. reflexivity.
Qed.
Lemma nan_bolt P a n size cls b p e reg f :
  calculate_safety_factors P a n size cls b p e reg = Ok f ->
  (nan_arg P \/ nan_arg a \/ n = NaN -> sf_bolt f = NaN /\ sf_plate f = NaN)
  /\ (nan_arg b -> sf_bolt f = NaN)
  /\ (nan_arg p -> sf_plate f = NaN)
  /\ (nan_arg e -> sf_plate f = NaN /\ sf_warning f = false).
Proof.
  unfold calculate_safety_factors. intros H. binds H. injection H as <-.
  cbn [sf_bolt sf_plate sf_warning].
  split; [|split; [|split]].
  - intros [N|[N|N]]; fwd; split; fwd.
  - intros N; fwd.
  - intros N; fwd.
  - intros N. fwd.
    match goal with K : calculate_stress_areas _ _ _ _ _ _ = Ok ?t, M : q_mag ?q = NaN |- _ =>
      destruct (nan_plate_area _ _ _ _ _ _ _ K M) as (N1 & N2);
      assert (q_mag (rereg (plate_area t) reg) = NaN) by exact N1
    end. split; fwd.
Qed.

(** ** Flange class *)
Lemma nan_filter {B} (l : list (B * fl)) : filter (fun cr => NaN <=? snd cr) l = [].
Proof. induction l as [|a l IH]; [reflexivity|exact IH]. Qed.
Local Opaque FLANGE_LIMITS.
Lemma nan_get_class strict P T mat reg : nan_arg P -> raises (get_class strict P T mat reg).
Proof.
  intros N. unfold raises. destruct (get_class strict P T mat reg) eqn:H; [|eauto]. exfalso.
  unfold get_class in H. binds H. fwd.
  match goal with M : q_mag ?q = NaN, K : parse_quant_input (PQuant ?q) _ = Ok ?q' |- _ =>
    injection K as <- end.
  rewrite nan_base in H by assumption. rewrite nan_filter in H. discriminate.
Qed.

(** ** Run-up *)
Ltac vbinds H :=
  repeat match type of H with
    | value (io_bind _ _) = Ok _ =>
      rewrite value_bind in H; apply bind_inv in H; destruct H as (? & ? & H)
    end.
Lemma nan_pow q e r : q_pow q e = Ok r -> q_mag q = NaN -> q_mag r = NaN.
Proof.
  unfold q_pow. intros H E. binds H. destruct (dim_eqb _ _); [|discriminate]. rewrite E in H.
  now injection H as <-.
Qed.
Lemma nan_log q r : q_log q = Ok r -> q_mag q = NaN -> False.
Proof.
  unfold q_log. intros H E. destruct (dim_eqb _ _); [|discriminate].
  now rewrite (nan_base _ E) in H.
Qed.
Section RunUpNan.
  Context {G X : Type} (L : cantera fl G X).
  Lemma nan_eq4_1 br D T P x reg g s r c q :
    value (eq4_1 L br D T P x reg g s r c) = Ok q -> br = NaN \/ q_mag D = NaN -> False.
  Proof.
    unfold eq4_1. intros H N. vbinds H. rewrite value_pure in H. binds H.
    match goal with K : q_log ?e = Ok _ |- _ => apply (nan_log _ _ K) end.
    destruct N as [N|N].
    - subst br.
      match goal with K : npsqrt _ = Ok _ |- _ => injection K as <- end.
      match goal with K : npdiv _ _ = Ok _ |- _ => injection K as <- end. fwd.
    - do 2 try match goal with
        | K : q_pow ?e _ = Ok ?v |- _ =>
          known K (q_mag v); fwd; pose proof (nan_pow _ _ _ K ltac:(assumption)) end.
      fwd.
  Qed.
  Lemma nan_eq4_4 br D s r c q :
    eq4_4 br D s r c = Ok q -> br = NaN \/ q_mag D = NaN -> q_mag q = NaN.
  Proof.
    unfold eq4_4. intros H N. binds H. destruct N as [N|N]; fwd.
  Qed.
  Lemma nan_run_up br D T P x mech reg phase :
    br = NaN \/ nan_arg D -> no_quantity (value (calculate_run_up L br D T P x mech reg phase)).
  Proof.
    intros N q H. unfold calculate_run_up in H.
    destruct ((br <=? zero) || (lit 0.75 <? br)); [discriminate|].
    vbinds H. repeat match goal with K : value (pure _) = Ok _ |- _ => rewrite value_pure in K end.
    match type of H with value (if _ then _ else if _ then eq4_1 _ _ ?d _ _ _ _ _ _ _ _ else _) = _ =>
      assert (N' : br = NaN \/ q_mag d = NaN) by (destruct N as [N|N]; [now left|right; fwd]) end.
    destruct ((lit 0.3 <=? br) && (br <=? lit 0.75)).
    { rewrite value_pure in H. eapply nan_eq4_4; eauto. }
    destruct (br <=? lit 0.1); [exfalso; eapply nan_eq4_1; eauto|].
    vbinds H. exfalso. eapply nan_eq4_1; eauto.
  Qed.
End RunUpNan.

(** ** The initial pressure *)
Section InitNan.
  Context {G X : Type} (L : cantera fl G X).
  Context (tube_id tube_od T : quantity fl) (x : X) (mech : string)
          (limit elastic density : quantity fl) (nu pm : fl) (use : bool) (reg : nat) (p : pool fl).

  Lemma nan_loop_stops sel budget tol e q dlf s :
    tol = NaN \/ e = NaN ->
    pressure_loop L tube_id tube_od T x mech limit elastic density nu pm use reg p sel
      budget tol e q dlf s = ret (q, dlf).
  Proof.
    intros N. assert (E : (tol <? nabs e) = false).
    { destruct N as [->| ->]; [reflexivity|]. cbn [nltb nabs Num_fl fl1]. apply flc_r. }
    destruct budget; cbn [pressure_loop]; now rewrite E.
  Qed.

  Definition one_atm : quantity fl := mkQ one (mult_unit d_pressure (lit 101325)) reg.
  Lemma one_atm_eq : quant reg one "atm" = Ok one_atm.
  Proof. reflexivity. Qed.

  (** The whole search when the limit or the tolerance is nan *)
  Lemma nan_search tol max_it state_name dlf_too :
    q_mag limit = NaN \/ tol = NaN -> which_state state_name <> None -> q_mag limit <> Fin 0 ->
    calculate_max_initial_pressure L tube_id tube_od T x mech limit elastic density nu pm use reg
      tol max_it p state_name dlf_too
    = (do s <- shock_at L T x mech reg p one_atm;
       do dlf <- pure (load_factor tube_id tube_od elastic density nu pm s);
       ret (if dlf_too then PressureAndFactor one_atm dlf else Pressure one_atm)).
  Proof.
    intros N W Z. unfold calculate_max_initial_pressure.
    destruct (which_state state_name) as [sel|]; [|congruence].
    rewrite one_atm_eq, bind_pure_ok. apply io_bind_ext. intros s. apply io_bind_ext. intros dlf.
    assert (D : exists e, pydiv (q_mag one_atm * dlf) (q_mag limit) = Ok e
                /\ (q_mag limit = NaN -> e = NaN)).
    { unfold pydiv. destruct (q_mag limit) as [m|] eqn:M.
      - unfold zero. cbn [neqb Num_fl flc nofQ]. rewrite Reqb_false; [eexists; split; [reflexivity|discriminate]|].
        intros ->. apply Z. f_equal. unfold Q2R; cbn; lra.
      - eexists; split; [reflexivity|]. intros _. apply fl2_r. }
    destruct D as (e & -> & De). rewrite bind_pure_ok.
    rewrite nan_loop_stops; [now rewrite bind_ret|].
    destruct N as [N|N]; [right; now rewrite (De N)|left; now rewrite N].
  Qed.
End InitNan.
