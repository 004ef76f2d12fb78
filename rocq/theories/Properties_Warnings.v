(** * C116: what the warnings of sd.py say. *)
From Coq Require Import String Ascii ZArith QArith Reals List Bool Lra Lia.
From Verif Require Import PyBase Show Gas GasP QLemmas FitM SdM SdSpec SdP TextSpec Properties_Sd.
Import ListNotations.
Local Open Scope string_scope.

(** ** Numbers in texts: the usual decimal spelling of [n >= 0], without leading zeros. *)
Definition spells (s : string) (n : Z) : Prop :=
  exists k, digits s n k /\ (s = "0" \/ exists c r, s = String c r /\ c <> "0"%char).

Lemma digit_char_is d : (0 <= d < 10)%Z -> digit_is (digit_char d) (Z.to_nat d).
Proof.
  intros H. assert (E : exists k, (k < 10)%nat /\ d = Z.of_nat k) by (exists (Z.to_nat d); lia).
  destruct E as (k & Hk & ->). unfold digit_char, digit_is. rewrite Nat2Z.id.
  do 10 (destruct k as [|k]; [reflexivity|]). lia.
Qed.
Lemma digit_char_nonzero d : (0 < d < 10)%Z -> digit_char d <> "0"%char.
Proof.
  intros H. assert (E : exists k, (0 < k < 10)%nat /\ d = Z.of_nat k) by (exists (Z.to_nat d); lia).
  destruct E as (k & Hk & ->). unfold digit_char. rewrite Nat2Z.id.
  destruct k as [|k]; [lia|]. do 9 (destruct k as [|k]; [discriminate|]). lia.
Qed.
Lemma show_digits_spec fuel : forall n rest m k, (0 < n <= Z.of_nat fuel)%Z -> digits rest m k ->
  exists k', digits (show_digits fuel n rest) (n * 10 ^ Z.of_nat k + m) k'
    /\ exists c r, show_digits fuel n rest = String c r /\ c <> "0"%char.
Proof.
  induction fuel as [|fuel IH]; intros n rest m k Hn Hr; [lia|]. cbn [show_digits].
  pose proof (Z.mod_pos_bound n 10 ltac:(lia)) as Hm.
  pose proof (Z.div_mod n 10 ltac:(lia)) as Hd.
  assert (Hcons : digits (String (digit_char (n mod 10)) rest) (n mod 10 * 10 ^ Z.of_nat k + m) (S k)).
  { replace (n mod 10 * 10 ^ Z.of_nat k)%Z with (Z.of_nat (Z.to_nat (n mod 10)) * 10 ^ Z.of_nat k)%Z
      by (rewrite Z2Nat.id; lia).
    constructor; [apply digit_char_is; exact Hm|exact Hr]. }
  destruct (Z.eqb_spec (n / 10) 0) as [E|E].
  - exists (S k). replace (n mod 10)%Z with n in * by lia. split; [exact Hcons|].
    do 2 eexists. split; [reflexivity|]. apply digit_char_nonzero. lia.
  - assert (0 <= n / 10)%Z by (apply Z.div_pos; lia).
    destruct (IH (n / 10)%Z _ _ _ ltac:(lia) Hcons) as (k' & Hk & Hc).
    exists k'. split; [|exact Hc].
    replace (n * 10 ^ Z.of_nat k + m)%Z
      with (n / 10 * 10 ^ Z.of_nat (S k) + (n mod 10 * 10 ^ Z.of_nat k + m))%Z; [exact Hk|].
    rewrite Nat2Z.inj_succ, Z.pow_succ_r by lia.
    rewrite Hd at 3. ring.
Qed.
Lemma show_int_spells n : (0 <= n)%Z -> spells (show_int n) n.
Proof.
  intros H. unfold show_int. rewrite (proj2 (Z.ltb_ge n 0)) by lia.
  destruct (Z.eq_dec n 0) as [->|Hn].
  - exists 1%nat. split; [|left; reflexivity].
    exact (more_digits "0" 0 "" 0 0 eq_refl no_digits).
  - destruct (show_digits_spec (S (Z.to_nat n)) n "" 0 0 ltac:(lia) no_digits) as (k & Hk & Hc).
    exists k. split; [|right; exact Hc].
    replace (n * 10 ^ Z.of_nat 0 + 0)%Z with n in Hk by (cbn; lia). exact Hk.
Qed.

(** ** No warnings but these *)
Section Only.
  Context {A G X : Type} {NA : Num A} (L : cantera A G X).
  Definition saying (P : string -> Prop) (e : event A) : Prop :=
    match e with EvWarn m => P m | _ => True end.

  Lemma equilibrium_quiet P g D T : all_events (saying P) (equilibrium L g D T).
  Proof.
    unfold equilibrium. apply all_bind; [apply all_act; exact I|]. intros. apply all_act. exact I.
  Qed.
  Ltac quiet := repeat (first [apply all_ret | apply all_pure | apply equilibrium_quiet
    | apply all_act; exact I
    | match goal with |- all_events _ (let '(_, _) := ?p in _) => destruct p end
    | apply all_bind; [|intros ? _] | progress cbv zeta ]).
  Lemma cj_body_quiet P i D g T V : all_events (saying P) (cj_body L i D g T V).
  Proof. unfold cj_body. quiet. Qed.
  Lemma eq_body_quiet P div u g2 v2 g T v D : all_events (saying P) (eq_body L div u g2 v2 g T v D).
  Proof. unfold eq_body. quiet. Qed.
  Lemma cj_loop_says (P : string -> Prop) fuel : forall i tT tV D mx k g T V dT dV,
    ((0 <= k < mx)%Z -> P (no_convergence mx)) -> (0 <= k)%Z ->
    all_events (saying P) (cj_loop L fuel i tT tV D mx k g T V dT dV).
  Proof.
    induction fuel as [|fuel IH]; intros * HP Hk; cbn [cj_loop]; destruct (_ || _)%bool;
      try apply all_ret; [apply all_act; exact I|].
    destruct (Z.eqb_spec (k + 1) mx) as [E|E].
    - apply all_bind; [apply all_emit; apply HP; lia|]. intros. apply all_ret.
    - apply all_bind; [apply cj_body_quiet|]. intros [[[[g' T'] V'] dT'] dV'] _.
      apply IH; [|lia]. intros. apply HP. lia.
  Qed.
  Lemma eq_loop_says (P : string -> Prop) fuel : forall div u g2 v2 tT tv mx k g T v D dT dv,
    ((0 <= k < mx)%Z -> P (did_not_converge mx)) -> (0 <= k)%Z ->
    all_events (saying P) (eq_loop L fuel div u g2 v2 tT tv mx k g T v D dT dv).
  Proof.
    induction fuel as [|fuel IH]; intros * HP Hk; cbn [eq_loop]; destruct (_ || _)%bool;
      try apply all_ret; [apply all_act; exact I|].
    destruct (Z.eqb_spec (k + 1) mx) as [E|E].
    - apply all_bind; [apply all_emit|intros; apply all_ret]. rewrite E. apply HP. lia.
    - apply all_bind; [apply eq_body_quiet|]. intros [[[[[g' T'] v'] D'] dT'] dv'] _.
      apply IH; [|lia]. intros. apply HP. lia.
  Qed.
  Lemma cj_state_says (P : string -> Prop) fuel div w i tT tV r mx :
    ((0 < mx)%Z -> P (no_convergence mx)) -> all_events (saying P) (cj_state L fuel div w i tT tV r mx).
  Proof.
    intros H. unfold cj_state. quiet. apply cj_loop_says; [|lia]. intros. apply H. lia.
  Qed.
  Lemma get_eq_state_says (P : string -> Prop) fuel div u g2 w tT tv mx :
    ((0 < mx)%Z -> P (did_not_converge mx)) ->
    all_events (saying P) (get_eq_state L fuel div u g2 w tT tv mx).
  Proof.
    intros H. unfold get_eq_state. quiet. apply eq_loop_says; [|lia]. intros. apply H. lia.
  Qed.
End Only.

(** C116.  Every warning of cj_state states its iteration limit in figures. *)
Theorem C116_cj_state_says :
  forall {A G X} {NA : Num A} (L : cantera A G X) fuel div working initial tol_T tol_V ratio
         max_iterations m,
    In (EvWarn m) (trace (cj_state L fuel div working initial tol_T tol_V ratio max_iterations)) ->
    exists number, spells number max_iterations
      /\ m = ("No convergence within " ++ number ++ " iterations").
Proof.
  intros * Hin.
  pose proof (cj_state_says L (fun m => exists number, spells number max_iterations
      /\ m = ("No convergence within " ++ number ++ " iterations"))
      fuel div working initial tol_T tol_V ratio max_iterations) as H.
  unfold all_events in H. rewrite Forall_forall in H.
  refine (H _ (EvWarn m) Hin). intros Hm. exists (show_int max_iterations).
  split; [apply show_int_spells; lia|reflexivity].
Qed.
Print Assumptions C116_cj_state_says.

(** The full claim for get_eq_state is "... for U = <the speed> after <n> iterations".  The
    number of iterations is there, the speed is not. *)
Theorem C116_get_eq_state_says_partial :
  forall {A G X} {NA : Num A} (L : cantera A G X) fuel div speed post working tol_T tol_v
         max_iterations m,
    In (EvWarn m) (trace (get_eq_state L fuel div speed post working tol_T tol_v max_iterations)) ->
    exists beginning number, spells number max_iterations
      /\ m = (beginning ++ "after " ++ number ++ " iterations").
Proof.
  intros * Hin.
  pose proof (get_eq_state_says L (fun m => exists beginning number, spells number max_iterations
      /\ m = (beginning ++ "after " ++ number ++ " iterations"))
      fuel div speed post working tol_T tol_v max_iterations) as H.
  unfold all_events in H. rewrite Forall_forall in H.
  refine (H _ (EvWarn m) Hin). intros Hm.
  exists "Calculation did not converge for U = {0:.2f} ", (show_int max_iterations).
  split; [apply show_int_spells; lia|reflexivity].
Qed.
Print Assumptions C116_get_eq_state_says_partial.
(** Whatever the speed, the text has the placeholder in its place. *)
Theorem C116_speed_refuted :
  forall {A G X} {NA : Num A} (L : cantera A G X) fuel div speed post working tol_T tol_v
         max_iterations m,
    In (EvWarn m) (trace (get_eq_state L fuel div speed post working tol_T tol_v max_iterations)) ->
    exists ending, m = ("Calculation did not converge for U = {0:.2f} " ++ ending).
Proof.
  intros * Hin.
  pose proof (get_eq_state_says L (fun m => exists ending, m = ("Calculation did not converge for U = {0:.2f} " ++ ending))
      fuel div speed post working tol_T tol_v max_iterations) as H.
  unfold all_events in H. rewrite Forall_forall in H.
  refine (H _ (EvWarn m) Hin). intros Hm. eexists. reflexivity.
Qed.
Print Assumptions C116_speed_refuted.

(** Runs that warn: one iteration allowed. *)
Local Open Scope R_scope.
Example C116_case :
  In (EvWarn "No convergence within 1 iterations")
     (trace (cj_state calm_gas 500 pydiv (300, 1) (300, 1) (1/10000) (1/10000) 2 1))
  /\ In (EvWarn "Calculation did not converge for U = {0:.2f} after 1 iterations")
     (trace (get_eq_state calm_gas 500 pydiv 1000 (300, 1) (300, 2) (1/10000) (1/10000) 1))
  /\ no_convergence 500 = "No convergence within 500 iterations"
  /\ spells "500" 500.
Proof.
  split; [|split; [|split; [reflexivity|]]].
  - unfold cj_state. rnum. rewrite lit_2000, lit_1000, one_R.
    cbn [calm_gas ct_density snd].
    rewrite (pydiv_ok 1 1) by lra. rewrite bind_pure_ok.
    rewrite (pydiv_ok (1/1) 2) by lra. rewrite bind_pure_ok.
    rewrite pydiv_ok by lra. rewrite bind_pure_ok. fold calm_gas. rewrite calm_equilibrium, bind_some.
    change 500%nat with (S 499). cbn [cj_loop]. rnum.
    rewrite (Rabs_pos_eq 1000) by lra. rewrite QLemmas.Rltb_true by lra. cbn [orb].
    change (Z.eqb (0 + 1) 1) with true. cbv iota.
    right. right. left. reflexivity.
  - rewrite get_eq_state_unfold by (cbn; lra).
    cbn [calm_gas ct_density ct_T fst snd]. fold calm_gas. rewrite calm_equilibrium, bind_some.
    change 500%nat with (S 499). cbn [eq_loop]. rnum.
    rewrite (Rabs_pos_eq 1000) by lra. rewrite QLemmas.Rltb_true by lra. cbn [orb].
    change (Z.eqb (0 + 1) 1) with true. cbv iota.
    right. right. left. reflexivity.
  - apply (show_int_spells 500). lia.
Qed.
