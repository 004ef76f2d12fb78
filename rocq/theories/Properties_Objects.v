(** * C103-C105: gas objects. *)
From Coq Require Import String ZArith QArith Reals Qreals List Bool Lra Lia.
From Verif Require Import PyBase Pint UnitsM Spec Gas GasP FitM QLemmas FitP SdM SdSpec SdP SpeedSpec SpeedP
  ThermoM HeapM ObjectSpec HeapP ExampleGas Properties_Speed Properties_Thermo.
Import ListNotations.

(** C103.  cj_state, get_eq_state and reflect change no gas object but the working gas,
    whether they return or raise, whatever a failed cantera call leaves behind, and
    whichever of the arguments are the same object.  What they return is the working gas
    itself. *)
Theorem C103_only_the_working_gas :
  forall {A G X} {NA : Num A} (L : cantera A G X) wreck (before : heap G),
    (forall fuel div working initial tol_T tol_V ratio n,
       let call := h_cj_state L wreck fuel div working initial tol_T tol_V ratio n before in
       only_changes working before (o_heap call)
       /\ forall r U, o_value call = Ok (r, U) -> r = working)
    /\ (forall fuel div speed post_shock working tol_T tol_v n,
       let call := h_get_eq_state L wreck fuel div speed post_shock working tol_T tol_v n before in
       only_changes working before (o_heap call)
       /\ forall r, o_value call = Ok r -> r = working)
    /\ (forall initial post_shock working speed,
       let call := h_reflect L wreck initial post_shock working speed before in
       only_changes working before (o_heap call)
       /\ forall P W r, o_value call = Ok (P, W, r) -> r = working).
Proof.
  intros. split; [|split].
  - intros. split; [apply w_cj_state|]. intros r U H. apply cj_state_returns in H. exact H.
  - intros. split; [apply w_get_eq_state|]. intros r H. apply get_eq_state_returns in H. exact H.
  - intros. split; [apply w_reflect|]. intros P W r H. unfold call, h_reflect in H.
    do 12 (apply h_bind_ok in H; destruct H as (? & _ & H)).
    apply h_bind_ok in H. destruct H as (w' & Hw & H). apply get_eq_state_returns in Hw. subst w'.
    do 3 (apply h_bind_ok in H; destruct H as (? & _ & H)). cbn in H. congruence.
Qed.
Print Assumptions C103_only_the_working_gas.

(** With separate objects the in-place programs do what SdM.v says: same events, same
    exceptions, same numbers, and the working gas is left in the state SdM.v returns.
    (This is what ties C63-C69, C72, C73 to the code that changes objects.) *)
Theorem C103_cj_state_in_place :
  forall {A G X} {NA : Num A} (L : cantera A G X) wreck (before : heap G)
         fuel div working initial tol_T tol_V ratio n,
    working <> initial ->
    let call := h_cj_state L wreck fuel div working initial tol_T tol_V ratio n before in
    let pure_call := cj_state L fuel div (obj before working) (obj before initial)
                              tol_T tol_V ratio n in
    o_trace call = trace pure_call
    /\ (forall g U, value pure_call = Ok (g, U) ->
          o_value call = Ok (working, U) /\ obj (o_heap call) working = g)
    /\ (forall e, value pure_call = Err e -> o_value call = Err e).
Proof.
  intros * Hne call pure_call.
  destruct (sim_cj_state L wreck fuel div working initial tol_T tol_V ratio n before Hne)
    as (H1 & _ & H3). fold call pure_call in H1, H3.
  split; [exact H1|]. split.
  - intros g U E. rewrite E in H3. destruct (o_value call) as [b|]; [|contradiction].
    destruct H3 as (G1 & -> & _). auto.
  - intros e E. rewrite E in H3. destruct (o_value call) as [b|]; [contradiction|]. congruence.
Qed.
Print Assumptions C103_cj_state_in_place.

(** C104.  One object for two arguments is as good as two copies: true of reflect with the
    initial gas as working gas. *)
Theorem C104_initial_may_be_working_partial :
  forall {A G X} {NA : Num A} (L : cantera A G X) wreck (before : heap G)
         initial post_shock working speed,
    working <> post_shock ->
    let call := h_reflect L wreck initial post_shock working speed before in
    let pure_call := reflect L (obj before initial) (obj before post_shock)
                             (obj before working) speed in
    o_trace call = trace pure_call
    /\ (forall P W g, value pure_call = Ok (P, W, g) ->
          o_value call = Ok (P, W, working) /\ obj (o_heap call) working = g)
    /\ (forall e, value pure_call = Err e -> o_value call = Err e).
Proof.
  intros * Hne call pure_call.
  destruct (sim_reflect L wreck initial post_shock working speed before Hne) as (H1 & _ & H3).
  fold call pure_call in H1, H3.
  split; [exact H1|]. split.
  - intros P W g E. rewrite E in H3. destruct (o_value call) as [b|]; [|contradiction].
    destruct H3 as (G1 & -> & _). auto.
  - intros e E. rewrite E in H3. destruct (o_value call) as [b|]; [contradiction|]. congruence.
Qed.
Print Assumptions C104_initial_may_be_working_partial.

(** cj_state, in contrast, must be given two objects.  With one object for both it never
    returns (unless max_iterations is 1 or the tolerances are so large that no step is
    made): the two error functions vanish identically and the 2x2 system is singular. *)
Local Open Scope R_scope.
Theorem C104_cj_state_shared_refuted :
  forall {G X} (L : cantera R G X) wreck (before : heap G) fuel div gas tol_T tol_V ratio n,
    div = pydiv \/ div = npdiv ->
    tol_T * 2000 < 1000 \/ tol_V * 2000 < 1000 -> n <> 1%Z ->
    forall r, o_value (h_cj_state L wreck fuel div gas gas tol_T tol_V ratio n before) <> Ok r.
Proof.
  intros * Hdiv Htol Hn r H. unfold h_cj_state in H.
  do 4 (apply h_bind_ok in H; destruct H as (? & _ & H)).
  destruct fuel as [|fuel]; cbn [h_cj_loop] in H; rnum; rewrite lit_2000, lit_1000 in H;
    rewrite (Rabs_pos_eq 1000) in H by lra;
    assert (Hgo : (Rltb (tol_T * 2000) 1000 || Rltb (tol_V * 2000) 1000)%bool = true)
      by (destruct Htol; [rewrite QLemmas.Rltb_true by assumption; reflexivity|
                          rewrite (QLemmas.Rltb_true (tol_V * 2000)) by assumption; apply orb_true_r]);
    rewrite Hgo in H; [discriminate H|].
  destruct (Z.eqb_spec (0 + 1) n) as [E|_]; [lia|].
  apply h_bind_ok in H. destruct H as (b & H & _). clear Hgo.
  assert (Z0 : forall V h eh ep, o_value (h_error L gas gas V h) = Ok (eh, ep) -> eh = 0 /\ ep = 0).
  { intros V h eh ep E. unfold h_error, h_look, error_equilibrium in E. cbn [o_value] in E. rnum.
    destruct (Req_EM_T (ct_density L (obj h gas)) 0) as [Ez|Nz].
    - rewrite Ez in E. rewrite FitP.pydiv_zero in E by reflexivity. discriminate E.
    - rewrite FitP.pydiv_ok in E by exact Nz. cbn [bind] in E. injection E as <- <-.
      unfold sq. rnum. split; field; exact Nz. }
  unfold h_cj_body in H.
  apply h_bind_ok in H. destruct H as ((eh & ep) & E0 & H). apply Z0 in E0. destruct E0 as (-> & ->).
  apply h_bind_ok in H. destruct H as (? & _ & H).
  apply h_bind_ok in H. destruct H as ((eh & ep) & E0 & H). apply Z0 in E0. destruct E0 as (-> & ->).
  apply h_bind_ok in H. destruct H as (hT & EhT & H).
  apply h_bind_ok in H. destruct H as (pT & EpT & H).
  apply h_bind_ok in H. destruct H as (? & _ & H).
  apply h_bind_ok in H. destruct H as ((eh & ep) & E0 & H). apply Z0 in E0. destruct E0 as (-> & ->).
  apply h_bind_ok in H. destruct H as (hV & EhV & H).
  apply h_bind_ok in H. destruct H as (pV & EpV & H).
  apply h_bind_ok in H. destruct H as ((dT & dV) & E & _).
  assert (Q0 : forall d q (h : heap G), o_value (h_pure (A:=R) (pydiv (0 - 0) d) h) = Ok q -> q = 0).
  { intros d q h. unfold h_pure. cbn [o_value]. destruct (Req_EM_T d 0) as [->|Nz].
    - rewrite FitP.pydiv_zero by reflexivity. discriminate.
    - rewrite FitP.pydiv_ok by exact Nz. intros K. injection K as <-. field. exact Nz. }
  rnum. apply Q0 in EhT. apply Q0 in EpT. apply Q0 in EhV. apply Q0 in EpV. subst.
  unfold h_pure, solve2 in E. cbn [o_value] in E. rnum.
  rewrite FitP.pydiv_zero in E by ring. discriminate E.
Qed.
Print Assumptions C104_cj_state_shared_refuted.

Local Close Scope R_scope.
(** C105.  calculate_reflected_shock_state, serial or with a pool, leaves every existing
    gas object alone, also when it raises, and returns two new and different objects, in
    the states ThermoM.v gives. *)
Theorem C105_fresh_states :
  forall {A G X} {NA : Num A} (L : cantera A G X) wreck (before : heap G) T P x mech reg p,
    let call := h_calculate_reflected_shock_state L wreck T P x mech reg p before in
    let pure_call := calculate_reflected_shock_state L T P x mech reg p in
    old_objects_untouched before (o_heap call)
    /\ o_trace call = trace pure_call
    /\ (forall e, value pure_call = Err e -> o_value call = Err e)
    /\ (forall s, value pure_call = Ok s ->
          exists r, o_value call = Ok r
            /\ reflected_speed r = reflected_speed s /\ cj_wave_speed r = cj_wave_speed s
            /\ obj (o_heap call) (reflected_state r) = reflected_state s
            /\ obj (o_heap call) (cj_gas_state r) = cj_gas_state s
            /\ new_object before (o_heap call) (reflected_state r)
            /\ new_object before (o_heap call) (cj_gas_state r)
            /\ reflected_state r <> cj_gas_state r).
Proof.
  intros. destruct (sim_shock L wreck T P x mech reg p before) as (H1 & (N & F) & H3).
  fold call pure_call in H1, H3, N, F.
  split; [split; [exact N|]; intros r Hr; apply F; unfold from; lia|].
  split; [exact H1|]. split.
  - intros e E. rewrite E in H3. destruct (o_value call) as [b|]; [contradiction|]. congruence.
  - intros s E. rewrite E in H3. destruct (o_value call) as [b|]; [|contradiction].
    exists b. split; [reflexivity|]. unfold new_object. exact H3.
Qed.
Print Assumptions C105_fresh_states.

(** A consequence: changing one of the returned objects afterwards does not change the
    other, nor anything the caller had. *)
Theorem C105_states_are_independent :
  forall {A G X} {NA : Num A} (L : cantera A G X) wreck (before : heap G) T P x mech reg p r g,
    let call := h_calculate_reflected_shock_state L wreck T P x mech reg p before in
    o_value call = Ok r ->
    let later := write (o_heap call) (reflected_state r) g in
    obj later (cj_gas_state r) = obj (o_heap call) (cj_gas_state r)
    /\ old_objects_untouched before later.
Proof.
  intros * Hr later.
  destruct (C105_fresh_states L wreck before T P x mech reg p) as ((N & F) & _ & HE & HOk).
  fold call in N, F, HE, HOk.
  destruct (value (calculate_reflected_shock_state L T P x mech reg p)) as [s|e] eqn:E.
  2:{ specialize (HE e eq_refl). congruence. }
  destruct (HOk s eq_refl) as (r' & Hr' & _ & _ & _ & _ & N1 & N2 & Hne).
  assert (r' = r) as -> by congruence. unfold new_object in *. split.
  - unfold later. cbn. destruct (Nat.eqb_spec (cj_gas_state r) (reflected_state r)); [congruence|reflexivity].
  - split; [exact N|]. intros q Hq. unfold later. cbn.
    destruct (Nat.eqb_spec q (reflected_state r)); [lia|]. apply F. exact Hq.
Qed.
Print Assumptions C105_states_are_independent.

(** cj_speed makes its own gas objects. *)
Theorem C105_cj_speed_new_state :
  forall {A G X} {NA : Num A} (L : cantera A G X) wreck (before : heap G) P T x mech p,
    let call := h_cj_speed L wreck P T x mech p before in
    old_objects_untouched before (o_heap call)
    /\ (forall U r, o_value call = Ok (U, r) ->
          new_object before (o_heap call) r
          /\ value (cj_speed L P T x mech p false true)
             = Ok [("cj speed"%string, ENumber U);
                   ("cj state"%string, EGas (obj (o_heap call) r))])
    /\ (forall e, o_value call = Err e -> value (cj_speed L P T x mech p false true) = Err e).
Proof.
  intros. destruct (sim_cj_speed L wreck P T x mech p (next before) before) as (H1 & (N & F) & H3);
    [lia|]. fold call in H1, H3, N, F.
  split; [split; [exact N|]; intros r Hr; apply F; unfold from; lia|]. split.
  - intros U r E. rewrite E in H3. destruct (value _) as [d|]; [|contradiction].
    destruct H3 as (g & <- & Hr & ->). cbn [fst snd] in *. split; [exact Hr|reflexivity].
  - intros e E. rewrite E in H3. destruct (value _) as [d|]; [contradiction|]. congruence.
Qed.
Print Assumptions C105_cj_speed_new_state.

(** ** Examples *)
Local Open Scope R_scope.
(** two gas objects in the same state *)
Definition two_gases : heap gas_state := mkHeap (fun _ => (300, 1, 1, fresh)) 2.
Definition no_wreck : event R -> gas_state -> gas_state := fun _ g => g.

(** Given two objects cj_state converges; given one of them twice it does not return. *)
Example two_objects_and_one :
  let call w i := h_cj_state example_gas no_wreck 500 npdiv w i (1/10000) (1/10000) (9/5) 500
                             two_gases in
  o_value (call 1%nat 0%nat) = Ok (1%nat, 2000)
  /\ obj (o_heap (call 1%nat 0%nat)) 1%nat = (2000, 9/5, 1, burnt)
  /\ obj (o_heap (call 1%nat 0%nat)) 0%nat = (300, 1, 1, fresh)
  /\ (forall r, o_value (call 0%nat 0%nat) <> Ok r).
Proof.
  intros call.
  pose proof (example_cj_state 1 (9/5) ltac:(lra) ltac:(lra) ltac:(lra)
                ltac:(unfold bump; nra)) as E.
  destruct (C103_cj_state_in_place example_gas no_wreck two_gases 500 npdiv 1 0 (1/10000) (1/10000)
              (9/5) 500 ltac:(lia)) as (_ & K & _).
  specialize (K _ _ E). fold (call 1%nat 0%nat) in K. destruct K as (K1 & K2).
  assert (E2 : 2000 + bump (9/5) = 2000) by (unfold bump; field). rewrite E2 in K1.
  split; [exact K1|]. split; [rewrite K2; f_equal; f_equal; f_equal; ring|]. split.
  - destruct (C103_only_the_working_gas example_gas no_wreck two_gases) as (Hc & _).
    destruct (Hc 500%nat npdiv 1%nat 0%nat (1/10000) (1/10000) (9/5) 500%Z) as ((_ & F) & _).
    change (obj (o_heap (call 1%nat 0%nat)) 0%nat = obj two_gases 0%nat). apply F. lia.
  - apply C104_cj_state_shared_refuted; [right; reflexivity|left; lra|lia].
Qed.
(** C105: a call that returns *)
Example example_fresh_states : forall before mech p, any_pool p ->
  exists r, o_value (h_calculate_reflected_shock_state example_gas no_wreck
      (mkQ 300 (mult_unit d_temperature one) 0) (mkQ 101325 (mult_unit d_pressure one) 0)
      fresh mech 0 p before) = Ok r /\ reflected_state r <> cj_gas_state r.
Proof.
  intros before mech p Hp.
  destruct (example_shock_states (mkQ 300 (mult_unit d_temperature one) 0)
              (mkQ 101325 (mult_unit d_pressure one) 0) 101325 mech 0 p) as (s & Hs & _).
  - apply denotes_quantity; [split; cbn; [rewrite one_R; lra|congruence]|reflexivity|].
    unfold worth. cbn. rewrite one_R. lra.
  - apply denotes_quantity; [split; cbn; [rewrite one_R; lra|congruence]|reflexivity|].
    unfold worth. cbn. rewrite one_R. lra.
  - lra.
  - exact Hp.
  - destruct (C105_fresh_states example_gas no_wreck before (mkQ 300 (mult_unit d_temperature one) 0)
              (mkQ 101325 (mult_unit d_pressure one) 0) fresh mech 0 p) as (_ & _ & _ & K).
    destruct (K s Hs) as (r & Hr & _ & _ & _ & _ & _ & _ & Hne). exists r. auto.
Qed.
