(** * HeapP: the programs on gas objects against those on gas states. *)
From Coq Require Import String ZArith QArith List Bool Lia.
From Verif Require Import PyBase Pint UnitsM Gas GasP FitM SdM ThermoM HeapM.
Import ListNotations.
Local Open Scope num_scope.

Section Sim.
  Context {A G X : Type} {NA : Num A} (L : cantera A G X) (wreck : event A -> G -> G).

  (** only objects in [W] change, and none disappears *)
  Definition frame (W : nat -> Prop) (h h' : heap G) : Prop :=
    (next h <= next h')%nat /\ forall x, ~ W x -> obj h' x = obj h x.
  Lemma frame_refl W h : frame W h h.
  Proof. split; auto. Qed.
  Lemma frame_trans (W1 W2 W : nat -> Prop) h1 h2 h3 :
    (forall x, W1 x -> W x) -> (forall x, W2 x -> W x) ->
    frame W1 h1 h2 -> frame W2 h2 h3 -> frame W h1 h3.
  Proof.
    intros I1 I2 (N1 & F1) (N2 & F2). split; [lia|].
    intros x Hx. rewrite F2, F1; auto.
  Qed.
  Lemma frame_weaken (W1 W : nat -> Prop) h h' :
    (forall x, W1 x -> W x) -> frame W1 h h' -> frame W h h'.
  Proof. intros I (N & F). split; [exact N|]. auto. Qed.

  Definition sim {B C} (W : nat -> Prop) (m : hio A G B) (f : io A C)
    (rel : C -> heap G -> B -> Prop) (h : heap G) : Prop :=
    o_trace (m h) = trace f
    /\ frame W h (o_heap (m h))
    /\ match o_value (m h), value f with
       | Ok b, Ok c => rel c (o_heap (m h)) b
       | Err e, Err e' => e = e'
       | _, _ => False
       end.

  Lemma sim_bind {B C B' C'} (W1 W : nat -> Prop) (m : hio A G B) (f : io A C)
    (k : B -> hio A G B') (k' : C -> io A C') rel rel' h :
    (forall x, W1 x -> W x) ->
    sim W1 m f rel h ->
    (forall b c h', frame W1 h h' -> rel c h' b -> sim W (k b) (k' c) rel' h') ->
    sim W (h_bind m k) (io_bind f k') rel' h.
  Proof.
    intros I (Ht & Hf & Hr) Hk. unfold sim, h_bind, io_bind. unfold trace, value in *.
    destruct (o_value (m h)) as [b|e]; destruct (snd f) as [c|e']; try contradiction.
    - destruct (Hk b c (o_heap (m h)) Hf Hr) as (Ht' & Hf' & Hr'). unfold trace, value in *.
      cbn [o_trace o_heap o_value fst snd].
      split; [rewrite Ht, Ht'; reflexivity|]. split; [|exact Hr'].
      apply (frame_trans W1 W W h (o_heap (m h)) _ I (fun x H => H) Hf Hf').
    - cbn [o_trace o_heap o_value fst snd]. split; [exact Ht|]. split; [|exact Hr].
      apply (frame_weaken W1); assumption.
  Qed.
  Lemma sim_ret {B C} W (b : B) (c : C) (rel : C -> heap G -> B -> Prop) h :
    rel c h b -> sim W (h_ret b) (ret c) rel h.
  Proof. intros H. split; [reflexivity|]. split; [apply frame_refl|exact H]. Qed.
  Lemma sim_look {B B' C} W (f : (nat -> G) -> result B) r
    (k : B -> hio A G B') (k' : B -> io A C) rel h :
    f (obj h) = r -> (forall b, r = Ok b -> sim W (k b) (k' b) rel h) ->
    sim W (h_bind (h_look f) k) (io_bind (pure r) k') rel h.
  Proof.
    intros Hf Hk. unfold sim, h_bind, h_look, io_bind, pure, trace, value in *.
    cbn [o_value o_heap o_trace fst snd]. rewrite Hf.
    destruct r as [b|e]; [|split; [reflexivity|]; split; [apply frame_refl|reflexivity]].
    destruct (Hk b eq_refl) as (H1 & H2 & H3). cbn [o_value o_heap o_trace fst snd].
    split; [cbn; rewrite H1; reflexivity|]. split; assumption.
  Qed.
  Lemma sim_pure {B B' C} W (r : result B) (k : B -> hio A G B') (k' : B -> io A C) rel h :
    (forall b, r = Ok b -> sim W (k b) (k' b) rel h) ->
    sim W (h_bind (h_pure r) k) (io_bind (pure r) k') rel h.
  Proof. intros Hk. apply (sim_look W (fun _ => r) r k k' rel h eq_refl Hk). Qed.
  Lemma sim_look_let {B B' C} W (f : (nat -> G) -> result B) b (k : B -> hio A G B') (m : io A C) rel h :
    f (obj h) = Ok b -> sim W (k b) m rel h -> sim W (h_bind (h_look f) k) m rel h.
  Proof.
    intros Hf Hs. unfold sim, h_bind, h_look in *. cbn [o_value o_heap o_trace].
    rewrite Hf. exact Hs.
  Qed.
  Lemma sim_emit W e h : sim W (h_emit e) (emit e) (fun _ h' _ => h' = h) h.
  Proof. split; [reflexivity|]. split; [apply frame_refl|reflexivity]. Qed.
  Lemma sim_stuck {B C} W e ex (rel : C -> heap G -> B -> Prop) h :
    sim W (h_act e (Err ex)) (act e (Err ex)) rel h.
  Proof. split; [reflexivity|]. split; [apply frame_refl|reflexivity]. Qed.
  Lemma sim_weaken {B C} (W1 W : nat -> Prop) (m : hio A G B) (f : io A C)
    (rel rel' : C -> heap G -> B -> Prop) h :
    (forall x, W1 x -> W x) -> (forall c h' b, frame W1 h h' -> rel c h' b -> rel' c h' b) ->
    sim W1 m f rel h -> sim W m f rel' h.
  Proof.
    intros I R (Ht & Hf & Hr). split; [exact Ht|]. split; [apply (frame_weaken W1); assumption|].
    destruct (o_value (m h)), (value f); auto.
  Qed.
  Lemma sim_then_ret {B C D} W (m : hio A G B) (f : io A C) (phi : C -> D) rel
    (rel' : D -> heap G -> B -> Prop) h :
    sim W m f rel h -> (forall c h' b, rel c h' b -> rel' (phi c) h' b) ->
    sim W m (io_bind f (fun c => ret (phi c))) rel' h.
  Proof.
    intros (Ht & Hf & Hr) R. unfold sim, io_bind, trace, value, ret in *.
    destruct (o_value (m h)) as [b|e], (snd f) as [c|e']; try contradiction; cbn [fst snd].
    - rewrite app_nil_r. auto.
    - auto.
  Qed.
  Lemma io_bind_assoc {B C D} (m : io A B) (f : B -> io A C) (g : C -> io A D) :
    io_bind (io_bind m f) g = io_bind m (fun x => io_bind (f x) g).
  Proof.
    unfold io_bind. destruct m as [t [b|e]]; cbn [fst snd]; [|reflexivity].
    destruct (f b) as [t' [c|e]]; cbn [fst snd]; rewrite ?app_assoc; reflexivity.
  Qed.

  (** ** The calls *)
  Lemma obj_write_same (h : heap G) r g : obj (write h r g) r = g.
  Proof. cbn. rewrite Nat.eqb_refl. reflexivity. Qed.
  Lemma frame_write (h : heap G) r (g : G) : frame (eq r) h (write h r g).
  Proof.
    split; [cbn; lia|]. intros x Hx. cbn. destruct (Nat.eqb_spec x r); [congruence|reflexivity].
  Qed.
  Lemma sim_mutate r e (f : G -> result G) h :
    sim (eq r) (h_mutate wreck r e f) (act e (f (obj h r)))
        (fun g h' _ => obj h' r = g /\ next h' = next h) h.
  Proof.
    unfold sim, h_mutate, act, trace, value. cbn [fst snd].
    destruct (f (obj h r)) as [g|ex]; cbn [o_trace o_heap o_value].
    - split; [reflexivity|]. split; [apply frame_write|]. split; [apply obj_write_same|reflexivity].
    - split; [reflexivity|]. split; [apply frame_write|reflexivity].
  Qed.
  Lemma sim_TPX r T P x h :
    sim (eq r) (h_set_TPX L wreck r T P x) (set_TPX L (obj h r) T P x)
        (fun g h' _ => obj h' r = g /\ next h' = next h) h.
  Proof. apply sim_mutate. Qed.
  Lemma sim_new mech ph h :
    sim (eq (next h)) (h_new L mech ph) (new_solution L mech ph)
        (fun g h' r => r = next h /\ next h' = S (next h) /\ obj h' r = g) h.
  Proof.
    unfold sim, h_new, new_solution, act, trace, value. cbn [fst snd].
    destruct (ct_new L mech ph) as [g|ex]; cbn [o_trace o_heap o_value].
    - split; [reflexivity|]. split.
      + split; [cbn; lia|]. intros x Hx. cbn. destruct (Nat.eqb_spec x (next h)); [congruence|reflexivity].
      + split; [reflexivity|]. split; [reflexivity|]. cbn. rewrite Nat.eqb_refl. reflexivity.
    - split; [reflexivity|]. split; [apply frame_refl|reflexivity].
  Qed.
  Lemma sim_equilibrium w D T h :
    sim (eq w) (h_equilibrium L wreck w D T) (equilibrium L (obj h w) D T)
        (fun g h' _ => obj h' w = g /\ next h' = next h) h.
  Proof.
    unfold h_equilibrium, equilibrium.
    eapply (sim_bind (eq w)); [auto|apply sim_mutate|].
    intros _ g h1 _ (Hg & Hn). subst g.
    eapply sim_weaken; [| |apply sim_mutate]; [auto|].
    cbn. intros ? ? _ _ (? & ?). split; [assumption|congruence].
  Qed.

  (** ** cj_state *)
  (** what the value of the loop means *)
  Definition same_gas (w : nat) (n : nat) (c : G * A) (h : heap G) (b : nat * A) : Prop :=
    obj h w = fst c /\ b = (w, snd c) /\ next h = n.

  Lemma sim_cj_body w i gi D T V h : w <> i -> obj h i = gi ->
    sim (eq w) (h_cj_body L wreck i D w T V) (cj_body L gi D (obj h w) T V)
      (fun c h' b => let '(g, T', V', dT', dV') := c in
                     obj h' w = g /\ b = (T', V', dT', dV') /\ next h' = next h) h.
  Proof.
    intros Hne Hi. unfold h_cj_body, cj_body, h_error.
    apply sim_look; [rewrite Hi; reflexivity|]. intros [eh ep] _.
    eapply (sim_bind (eq w)); [auto|apply sim_equilibrium|].
    intros _ g1 h1 F1 (G1 & N1).
    assert (I1 : obj h1 i = gi) by (rewrite (proj2 F1); auto).
    apply sim_look; [rewrite G1, I1; reflexivity|]. intros [eh1 ep1] _.
    apply sim_pure. intros hT _. apply sim_pure. intros pT _. rewrite <- G1.
    eapply (sim_bind (eq w)); [auto|apply sim_equilibrium|].
    intros _ g2 h2 F2 (G2 & N2).
    assert (I2 : obj h2 i = gi) by (rewrite (proj2 F2); auto).
    apply sim_look; [rewrite G2, I2; reflexivity|]. intros [eh2 ep2] _.
    apply sim_pure. intros hV _. apply sim_pure. intros pV _.
    apply sim_pure. intros [dT dV] _. apply sim_pure. intros dT' _. rewrite <- G2.
    eapply (sim_bind (eq w)); [auto|apply sim_equilibrium|].
    intros _ g3 h3 F3 (G3 & N3).
    apply sim_ret. repeat split; [exact G3|congruence].
  Qed.

  Lemma sim_cj_loop fuel w i gi tT tV D mx : w <> i ->
    forall k T V dT dV h, obj h i = gi ->
    sim (eq w) (h_cj_loop L wreck fuel i tT tV D mx k w T V dT dV)
      (cj_loop L fuel gi tT tV D mx k (obj h w) T V dT dV) (same_gas w (next h)) h.
  Proof.
    intros Hne. induction fuel as [|fuel IH]; intros k T V dT dV h Hi; cbn [h_cj_loop cj_loop];
      destruct (_ || _)%bool.
    - apply sim_stuck.
    - apply sim_ret. repeat split.
    - destruct (Z.eqb _ _).
      + eapply (sim_bind (eq w)); [auto|apply sim_emit|]. intros _ _ h1 _ ->.
        apply sim_ret. repeat split.
      + eapply (sim_bind (eq w)); [auto|apply sim_cj_body; [exact Hne|exact Hi]|].
        intros b [[[[g T'] V'] dT'] dV'] h1 F (Hg & -> & Hn).
        subst g. rewrite <- Hn. apply IH. rewrite (proj2 F); auto.
    - apply sim_ret. repeat split.
  Qed.

  Lemma sim_cj_state fuel div w i tT tV r mx h : w <> i ->
    sim (eq w) (h_cj_state L wreck fuel div w i tT tV r mx)
      (cj_state L fuel div (obj h w) (obj h i) tT tV r mx) (same_gas w (next h)) h.
  Proof.
    intros Hne. unfold h_cj_state, cj_state.
    apply sim_look; [reflexivity|]. intros v0 _.
    apply sim_pure. intros v _. apply sim_pure. intros d _.
    eapply (sim_bind (eq w)); [auto|apply sim_equilibrium|].
    intros _ g1 h1 F1 (G1 & N1). subst g1. rewrite <- N1.
    apply sim_cj_loop; [exact Hne|]. apply (proj2 F1). exact Hne.
  Qed.

  (** ** cj_speed *)
  Definition from (n : nat) (x : nat) : Prop := (n <= x)%nat.

  Lemma sim_over_ratio x T P mech tT tV job n h : (n <= next h)%nat ->
    sim (from n) (h_over_ratio L wreck x T P mech tT tV job) (over_ratio L x T P mech tT tV job)
      (fun c _ b => b = c) h.
  Proof.
    intros Hn. unfold h_over_ratio, over_ratio, fresh_gas. rewrite io_bind_assoc.
    eapply (sim_bind (eq (next h))); [intros ? <-; exact Hn|apply sim_new|].
    intros i g0 h1 F1 (-> & N1 & O1). rewrite <- O1.
    eapply (sim_bind (eq (next h))); [intros ? <-; exact Hn|apply sim_TPX|].
    intros _ gi h2 F2 (O2 & N2). rewrite io_bind_assoc.
    eapply (sim_bind (eq (next h2))); [intros ? <-; unfold from; lia|apply sim_new|].
    intros w g1 h3 F3 (-> & N3 & O3). rewrite <- O3.
    eapply (sim_bind (eq (next h2))); [intros ? <-; unfold from; lia|apply sim_TPX|].
    intros _ gw h4 F4 (O4 & N4).
    assert (Hi : obj h4 (next h) = gi).
    { rewrite (proj2 F4), (proj2 F3) by lia. exact O2. }
    rewrite <- O4, <- Hi.
    eapply (sim_bind (eq (next h2))); [intros ? <-; unfold from; lia|apply sim_cj_state; lia|].
    intros [? U] [g U'] h5 F5 (_ & E & _). injection E as _ ->. cbn [snd].
    apply sim_ret. reflexivity.
  Qed.
  Lemma sim_map {B C} n (f : B -> hio A G C) (f' : B -> io A C) :
    (forall b h, (n <= next h)%nat -> sim (from n) (f b) (f' b) (fun c _ b => b = c) h) ->
    forall l h, (n <= next h)%nat ->
    sim (from n) (h_map f l) (io_map f' l) (fun c _ b => b = c) h.
  Proof.
    intros Hf. induction l as [|b l IH]; intros h Hn; cbn [h_map io_map].
    - apply sim_ret. reflexivity.
    - eapply (sim_bind (from n)); [auto|apply Hf; exact Hn|]. intros c ? h1 F1 ->.
      eapply (sim_bind (from n)); [auto|apply IH; destruct F1; lia|]. intros cs ? h2 F2 ->.
      apply sim_ret. reflexivity.
  Qed.
  Lemma sim_run_jobs n p k f f' jobs :
    (forall b h, (n <= next h)%nat -> sim (from n) (f b) (f' b) (fun c _ b => b = c) h) ->
    forall h, (n <= next h)%nat ->
    sim (from n) (h_run_jobs p k f jobs) (run_jobs p k f' jobs) (fun c _ b => b = c) h.
  Proof.
    intros Hf h Hn. destruct p as [|s]; cbn [h_run_jobs run_jobs].
    - apply sim_map; assumption.
    - destruct (sim_map n f f' Hf (s k jobs) h Hn) as (H1 & H2 & H3).
      split; [exact H1|]. split; [apply frame_refl|]. cbn [o_value o_heap].
      destruct (o_value _), (value _); auto.
  Qed.
  Lemma sim_speed_loop fuel p x T P mech tT tV n :
    forall k r2 d lo hi acc h, (n <= next h)%nat ->
    sim (from n) (h_speed_loop L wreck fuel p x T P mech tT tV k r2 d lo hi acc)
      (speed_loop L fuel p x T P mech tT tV k r2 d lo hi acc) (fun c _ b => b = c) h.
  Proof.
    induction fuel as [|fuel IH]; intros k r2 d lo hi acc h Hn; cbn [h_speed_loop speed_loop];
      destruct (_ && _)%bool.
    - apply sim_stuck.
    - apply sim_ret. reflexivity.
    - eapply (sim_bind (from n)); [auto|apply sim_run_jobs; [|exact Hn]|].
      { intros. apply sim_over_ratio. assumption. }
      intros res ? h1 F1 ->. apply sim_pure. intros f _. apply sim_pure. intros v _.
      apply IH. destruct F1. lia.
    - apply sim_ret. reflexivity.
  Qed.
  Lemma sim_pool W p e h : sim W (h_pool_step p e) (pool_step p e) (fun _ h' _ => h' = h) h.
  Proof. destruct p; [apply sim_ret; reflexivity|apply sim_emit]. Qed.

  Lemma sim_cj_speed P T x mech p n h : (n <= next h)%nat ->
    sim (from n) (h_cj_speed L wreck P T x mech p) (cj_speed L P T x mech p false true)
      (fun c h' b => exists g, obj h' (snd b) = g /\ (next h <= snd b < next h')%nat
          /\ c = [("cj speed"%string, ENumber (fst b)); ("cj state"%string, EGas g)]) h.
  Proof.
    intros Hn. unfold h_cj_speed, cj_speed, cj_speed_rounds.
    rewrite io_bind_assoc.
    eapply (sim_bind (from n)); [auto|apply sim_pool|]. intros _ _ h0 _ ->.
    rewrite io_bind_assoc.
    eapply (sim_bind (from n)); [auto|apply sim_speed_loop; exact Hn|].
    intros done ? h1 F1 ->. assert (N1 : (next h <= next h1)%nat) by apply F1.
    rewrite io_bind_assoc.
    eapply (sim_bind (from n)); [auto|apply sim_pool|]. intros _ _ h2 _ ->.
    destruct (last_round c) as [[[[a b] c'] v] r2]. rewrite io_bind_assoc.
    eapply (sim_bind (eq (next h1))); [intros ? <-; unfold from; lia|apply sim_new|].
    intros i gi0 h2 F2 (-> & N2 & O2). rewrite io_bind_assoc.
    eapply (sim_bind (eq (next h2))); [intros ? <-; unfold from; lia|apply sim_new|].
    intros w gw0 h3 F3 (-> & N3 & O3). rewrite io_bind_assoc.
    assert (I3 : obj h3 (next h1) = gi0) by (rewrite (proj2 F3) by lia; exact O2).
    rewrite <- I3.
    eapply (sim_bind (eq (next h1))); [intros ? <-; unfold from; lia|apply sim_TPX|].
    intros _ gi h4 F4 (O4 & N4). rewrite io_bind_assoc.
    assert (W4 : obj h4 (next h2) = gw0) by (rewrite (proj2 F4) by lia; exact O3).
    rewrite <- W4.
    eapply (sim_bind (eq (next h2))); [intros ? <-; unfold from; lia|apply sim_TPX|].
    intros _ gw h5 F5 (O5 & N5). rewrite io_bind_assoc.
    assert (I5 : obj h5 (next h1) = gi) by (rewrite (proj2 F5) by lia; exact O4).
    rewrite <- O5, <- I5.
    eapply (sim_bind (eq (next h2))); [intros ? <-; unfold from; lia|apply sim_cj_state; lia|].
    intros [? U] [g U'] h6 F6 (Hg & _ & N6). rewrite bind_ret.
    apply sim_ret. exists g. cbn [fst snd] in *. split; [exact Hg|]. split; [lia|reflexivity].
  Qed.

  (** ** reflect *)
  Lemma sim_eq_body div u w c gc vc T v D h : w <> c -> obj h c = gc ->
    sim (eq w) (h_eq_body L wreck div u c vc w T v D) (eq_body L div u gc vc (obj h w) T v D)
      (fun r h' b => let '(g, T', v', D', dT', dv') := r in
                     obj h' w = g /\ b = (T', v', D', dT', dv') /\ next h' = next h) h.
  Proof.
    intros Hne Hi. unfold h_eq_body, eq_body, h_error_reflected.
    apply sim_look; [rewrite Hi; reflexivity|]. intros [eh ep] _.
    eapply (sim_bind (eq w)); [auto|apply sim_equilibrium|].
    intros _ g1 h1 F1 (G1 & N1).
    assert (I1 : obj h1 c = gc) by (rewrite (proj2 F1); auto).
    apply sim_look; [rewrite G1, I1; reflexivity|]. intros [eh1 ep1] _.
    apply sim_pure. intros hT _. apply sim_pure. intros pT _.
    apply sim_pure. intros D' _. rewrite <- G1.
    eapply (sim_bind (eq w)); [auto|apply sim_equilibrium|].
    intros _ g2 h2 F2 (G2 & N2).
    assert (I2 : obj h2 c = gc) by (rewrite (proj2 F2); auto).
    apply sim_look; [rewrite G2, I2; reflexivity|]. intros [eh2 ep2] _.
    apply sim_pure. intros hV _. apply sim_pure. intros pV _.
    apply sim_pure. intros [dT dv] _. apply sim_pure. intros dT' _. apply sim_pure. intros dv' _.
    apply sim_pure. intros D'' _. rewrite <- G2.
    eapply (sim_bind (eq w)); [auto|apply sim_equilibrium|].
    intros _ g3 h3 F3 (G3 & N3).
    apply sim_ret. repeat split; [exact G3|congruence].
  Qed.

  (** the reference that comes back, and the state of that object *)
  Definition same_object (w : nat) (n : nat) (g : G) (h : heap G) (r : nat) : Prop :=
    obj h w = g /\ r = w /\ next h = n.

  Lemma sim_eq_loop fuel div u w c gc vc tT tv mx : w <> c ->
    forall k T v D dT dv h, obj h c = gc ->
    sim (eq w) (h_eq_loop L wreck fuel div u c vc tT tv mx k w T v D dT dv)
      (eq_loop L fuel div u gc vc tT tv mx k (obj h w) T v D dT dv) (same_object w (next h)) h.
  Proof.
    intros Hne. induction fuel as [|fuel IH]; intros k T v D dT dv h Hi; cbn [h_eq_loop eq_loop];
      destruct (_ || _)%bool.
    - apply sim_stuck.
    - apply sim_ret. repeat split.
    - destruct (Z.eqb _ _).
      + eapply (sim_bind (eq w)); [auto|apply sim_emit|]. intros _ _ h1 _ ->.
        apply sim_ret. repeat split.
      + eapply (sim_bind (eq w)); [auto|apply sim_eq_body; [exact Hne|exact Hi]|].
        intros b [[[[[g T'] v'] D'] dT'] dv'] h1 F (Hg & -> & Hn).
        subst g. rewrite <- Hn. apply IH. rewrite (proj2 F); auto.
    - apply sim_ret. repeat split.
  Qed.

  Lemma sim_get_eq_state fuel div u c w tT tv mx h : w <> c ->
    sim (eq w) (h_get_eq_state L wreck fuel div u c w tT tv mx)
      (get_eq_state L fuel div u (obj h c) (obj h w) tT tv mx) (same_object w (next h)) h.
  Proof.
    intros Hne. unfold h_get_eq_state, get_eq_state.
    apply sim_look; [reflexivity|]. intros vc _.
    eapply sim_look_let; [reflexivity|]. eapply sim_look_let; [reflexivity|].
    apply sim_pure. intros v _.
    eapply (sim_bind (eq w)); [auto|apply sim_equilibrium|].
    intros _ g1 h1 F1 (G1 & N1). subst g1. rewrite <- N1.
    apply sim_eq_loop; [exact Hne|]. apply (proj2 F1). exact Hne.
  Qed.

  (** the initial gas may be the working gas: it is read before anything is written *)
  Lemma sim_reflect i c w U h : w <> c ->
    sim (eq w) (h_reflect L wreck i c w U) (reflect L (obj h i) (obj h c) (obj h w) U)
      (fun r h' b => let '(P3, Wr, g) := r in
                     obj h' w = g /\ b = (P3, Wr, w) /\ next h' = next h) h.
  Proof.
    intros Hne. unfold h_reflect, reflect.
    eapply sim_look_let; [reflexivity|]. apply sim_look; [reflexivity|]. intros v1 _.
    eapply sim_look_let; [reflexivity|]. eapply sim_look_let; [reflexivity|].
    apply sim_look; [reflexivity|]. intros v2 _. eapply sim_look_let; [reflexivity|].
    apply sim_pure. intros u _. apply sim_pure. intros vw _. apply sim_pure. intros q _.
    apply sim_pure. intros Tw _. eapply sim_look_let; [reflexivity|].
    eapply (sim_bind (eq w)); [auto|apply sim_TPX|].
    intros _ g1 h1 F1 (G1 & N1). subst g1.
    assert (C1 : obj h1 c = obj h c) by (apply (proj2 F1); exact Hne).
    rewrite <- C1.
    eapply (sim_bind (eq w)); [auto|apply sim_get_eq_state; exact Hne|].
    intros r g2 h2 F2 (G2 & -> & N2). subst g2. rewrite C1.
    eapply sim_look_let; [reflexivity|].
    apply sim_pure. intros k1 _. apply sim_pure. intros k2 _.
    apply sim_ret. repeat split. congruence.
  Qed.

  (** ** calculate_reflected_shock_state *)
  Lemma sim_shock T0 P0 x mech reg p h :
    sim (from (next h)) (h_calculate_reflected_shock_state L wreck T0 P0 x mech reg p)
      (calculate_reflected_shock_state L T0 P0 x mech reg p)
      (fun c h' b =>
         reflected_speed b = reflected_speed c /\ cj_wave_speed b = cj_wave_speed c
         /\ obj h' (reflected_state b) = reflected_state c
         /\ obj h' (cj_gas_state b) = cj_gas_state c
         /\ (next h <= reflected_state b < next h')%nat
         /\ (next h <= cj_gas_state b < next h')%nat
         /\ reflected_state b <> cj_gas_state b) h.
  Proof.
    unfold h_calculate_reflected_shock_state, calculate_reflected_shock_state.
    eapply (sim_bind (eq (next h))); [intros ? <-; unfold from; lia|apply sim_new|].
    intros i gi0 h1 F1 (-> & N1 & O1).
    eapply (sim_bind (eq (next h1))); [intros ? <-; unfold from; lia|apply sim_new|].
    intros w gw0 h2 F2 (-> & N2 & O2).
    apply sim_pure. intros T _. apply sim_pure. intros P _.
    assert (I2 : obj h2 (next h) = gi0) by (rewrite (proj2 F2) by lia; exact O1).
    rewrite <- I2.
    eapply (sim_bind (eq (next h))); [intros ? <-; unfold from; lia|apply sim_TPX|].
    intros _ gi h3 F3 (O3 & N3).
    assert (W3 : obj h3 (next h1) = gw0) by (rewrite (proj2 F3) by lia; exact O2).
    rewrite <- W3.
    eapply (sim_bind (eq (next h1))); [intros ? <-; unfold from; lia|apply sim_TPX|].
    intros _ gw h4 F4 (O4 & N4).
    assert (I4 : obj h4 (next h) = gi) by (rewrite (proj2 F4) by lia; exact O3).
    eapply (sim_bind (from (next h4))); [unfold from; lia|apply sim_cj_speed; lia|].
    intros [U cj] d h5 F5 (g & Hg & Hcj & ->). cbn [fst snd] in *.
    cbn [gas_at number_at String.eqb Ascii.eqb Bool.eqb]. rewrite !bind_pure_ok.
    assert (I5 : obj h5 (next h) = gi) by (rewrite (proj2 F5); [exact I4|unfold from; lia]).
    assert (W5 : obj h5 (next h1) = gw) by (rewrite (proj2 F5); [exact O4|unfold from; lia]).
    rewrite <- I5, <- W5, <- Hg.
    eapply (sim_bind (eq (next h1))); [intros ? <-; unfold from; lia|apply sim_reflect; lia|].
    intros b [[P3 Wr] g3] h6 F6 (G6 & -> & N6).
    assert (C6 : obj h6 cj = obj h5 cj) by (apply (proj2 F6); lia).
    apply sim_pure. intros ws _. apply sim_pure. intros cs _.
    apply sim_ret. cbn [reflected_speed cj_wave_speed reflected_state cj_gas_state].
    repeat split; try assumption; lia.
  Qed.
End Sim.

(** ** Which objects are touched, whatever is shared with what *)
Section Touch.
  Context {A G X : Type} {NA : Num A} (L : cantera A G X) (wreck : event A -> G -> G).
  Definition stays (w : nat) (h h' : heap G) : Prop :=
    next h' = next h /\ forall x, x <> w -> obj h' x = obj h x.
  Definition writes {B} (w : nat) (m : hio A G B) : Prop := forall h, stays w h (o_heap (m h)).
  Lemma stays_refl w h : stays w h h. Proof. split; auto. Qed.
  Lemma w_bind {B C} w (m : hio A G B) (k : B -> hio A G C) :
    writes w m -> (forall b, writes w (k b)) -> writes w (h_bind m k).
  Proof.
    intros Hm Hk h. unfold h_bind. destruct (Hm h) as (N1 & F1).
    destruct (o_value (m h)) as [b|e]; cbn [o_heap]; [|split; assumption].
    destruct (Hk b (o_heap (m h))) as (N2 & F2). split; [congruence|].
    intros x Hx. rewrite F2, F1; auto.
  Qed.
  Lemma w_ret {B} w (b : B) : writes w (h_ret b). Proof. intros h. apply stays_refl. Qed.
  Lemma w_pure {B} w (r : result B) : writes w (h_pure r). Proof. intros h. apply stays_refl. Qed.
  Lemma w_look {B} w (f : (nat -> G) -> result B) : writes w (h_look f).
  Proof. intros h. apply stays_refl. Qed.
  Lemma w_emit w e : writes w (h_emit e). Proof. intros h. apply stays_refl. Qed.
  Lemma w_act {B} w e (r : result B) : writes w (h_act e r). Proof. intros h. apply stays_refl. Qed.
  Lemma stays_write w h g : stays w h (write h w g).
  Proof.
    split; [reflexivity|]. intros x Hx. cbn. destruct (Nat.eqb_spec x w); [contradiction|reflexivity].
  Qed.
  Lemma w_mutate w e f : writes w (h_mutate wreck w e f).
  Proof. intros h. unfold h_mutate. destruct (f (obj h w)); apply stays_write. Qed.
  Lemma w_equilibrium w D T : writes w (h_equilibrium L wreck w D T).
  Proof. apply w_bind; [apply w_mutate|]. intros. apply w_mutate. Qed.
  Ltac ww :=
    first [ apply w_ret | apply w_pure | apply w_look | apply w_emit | apply w_act
          | apply w_mutate | apply w_equilibrium
          | apply w_bind; [ww | intros; repeat match goal with p : (_ * _)%type |- _ => destruct p end; ww] ].
  Lemma w_cj_loop fuel w i tT tV D mx : forall k T V dT dV,
    writes w (h_cj_loop L wreck fuel i tT tV D mx k w T V dT dV).
  Proof.
    induction fuel as [|fuel IH]; intros; cbn [h_cj_loop]; destruct (_ || _)%bool; try ww.
    destruct (Z.eqb _ _); [ww|].
    apply w_bind; [unfold h_cj_body, h_error; ww|]. intros [[[? ?] ?] ?]. apply IH.
  Qed.
  Lemma w_cj_state fuel div w i tT tV r mx : writes w (h_cj_state L wreck fuel div w i tT tV r mx).
  Proof.
    unfold h_cj_state. do 4 (apply w_bind; [ww|]; intros ?). apply w_cj_loop.
  Qed.
  Lemma w_eq_loop fuel div u w c vc tT tv mx : forall k T v D dT dv,
    writes w (h_eq_loop L wreck fuel div u c vc tT tv mx k w T v D dT dv).
  Proof.
    induction fuel as [|fuel IH]; intros; cbn [h_eq_loop]; destruct (_ || _)%bool; try ww.
    destruct (Z.eqb _ _); [ww|].
    apply w_bind; [unfold h_eq_body, h_error_reflected; ww|]. intros [[[[? ?] ?] ?] ?]. apply IH.
  Qed.
  Lemma w_get_eq_state fuel div u c w tT tv mx : writes w (h_get_eq_state L wreck fuel div u c w tT tv mx).
  Proof.
    unfold h_get_eq_state. do 5 (apply w_bind; [ww|]; intros ?). apply w_eq_loop.
  Qed.
  Lemma eq_loop_returns fuel div u w c vc tT tv mx : forall k T v D dT dv h r,
    o_value (h_eq_loop L wreck fuel div u c vc tT tv mx k w T v D dT dv h) = Ok r -> r = w.
  Proof.
    induction fuel as [|fuel IH]; intros *; cbn [h_eq_loop]; destruct (_ || _)%bool.
    - discriminate.
    - cbn. congruence.
    - destruct (Z.eqb _ _); [cbn; congruence|].
      unfold h_bind at 1. destruct (o_value (h_eq_body _ _ _ _ _ _ _ _ _ _ _)) as [[[[[? ?] ?] ?] ?]|];
        cbn [o_value]; [|discriminate]. apply IH.
    - cbn. congruence.
  Qed.
  Lemma h_bind_ok {B C} (m : hio A G B) (k : B -> hio A G C) h c :
    o_value (h_bind m k h) = Ok c ->
    exists b, o_value (m h) = Ok b /\ o_value (k b (o_heap (m h))) = Ok c.
  Proof. unfold h_bind. destruct (o_value (m h)) as [b|]; cbn; [eauto|discriminate]. Qed.
  Lemma cj_loop_returns fuel w i tT tV D mx : forall k T V dT dV h r U,
    o_value (h_cj_loop L wreck fuel i tT tV D mx k w T V dT dV h) = Ok (r, U) -> r = w.
  Proof.
    induction fuel as [|fuel IH]; intros *; cbn [h_cj_loop]; destruct (_ || _)%bool.
    - discriminate.
    - cbn. congruence.
    - destruct (Z.eqb _ _); [cbn; congruence|].
      unfold h_bind at 1. destruct (o_value (h_cj_body _ _ _ _ _ _ _ _)) as [[[[? ?] ?] ?]|];
        cbn [o_value]; [|discriminate]. apply IH.
    - cbn. congruence.
  Qed.
  Lemma cj_state_returns fuel div w i tT tV q mx h r U :
    o_value (h_cj_state L wreck fuel div w i tT tV q mx h) = Ok (r, U) -> r = w.
  Proof.
    unfold h_cj_state. intros H.
    do 4 (apply h_bind_ok in H; destruct H as (? & _ & H)). apply cj_loop_returns in H. exact H.
  Qed.
  Lemma get_eq_state_returns fuel div u c w tT tv mx h r :
    o_value (h_get_eq_state L wreck fuel div u c w tT tv mx h) = Ok r -> r = w.
  Proof.
    unfold h_get_eq_state. intros H.
    do 5 (apply h_bind_ok in H; destruct H as (? & _ & H)). apply eq_loop_returns in H. exact H.
  Qed.
  Lemma w_reflect i c w U : writes w (h_reflect L wreck i c w U).
  Proof.
    unfold h_reflect. do 12 (apply w_bind; [ww|]; intros ?).
    apply w_bind; [apply w_get_eq_state|]. intros ?. ww.
  Qed.
End Touch.
