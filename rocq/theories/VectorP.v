(** * VectorP: array calls are the scalar calls, element by element. *)
From Coq Require Import String List Bool Arith Lia QArith.
From Verif Require Import PyBase Pint UnitsM Csv Tables WindowM BoltM VectorM VectorSpec.
Import ListNotations.
Local Open Scope string_scope.
Local Open Scope nat_scope.

Section Sim.
  Context {A : Type} {NA : Num A}.
  Context (n : nat) (Hn : 0 < n).

  Definition neg_err : exn := ValueError "Input value < 0".

  (** values: [v] seen at index [i] is [f i] *)
  Definition mrel {B} (m : vmag B) (f : nat -> B) : Prop :=
    of_length n m /\ forall i, i < n -> pick i m = Some (f i).
  Definition vrel (v : vquantity A) (f : nat -> quantity A) : Prop :=
    mrel (v_mag v) (fun i => q_mag (f i))
    /\ forall i, i < n -> q_unit (f i) = v_unit v /\ q_reg (f i) = v_reg v.
  Definition crel {B} (b : B) (f : nat -> B) : Prop := forall i, i < n -> f i = b.

  (** results *)
  Definition rrel {V S} (R : V -> (nat -> S) -> Prop) (rv : result V)
    (rf : nat -> result S) : Prop :=
    match rv with
    | Ok v => exists f, R v f
              /\ forall i, i < n -> rf i = Ok (f i) \/ (0 < i /\ rf i = Err neg_err)
    | Err _ => exists i, i < n /\ raises (rf i)
    end.

  Lemma rrel_ret {V S} (R : V -> (nat -> S) -> Prop) v f :
    R v f -> rrel R (Ok v) (fun i => Ok (f i)).
  Proof. intros H. exists f. auto. Qed.

  Lemma rrel_bind {V S V' S'} (R : V -> (nat -> S) -> Prop) (R' : V' -> (nat -> S') -> Prop)
    rv rf kv kf :
    rrel R rv rf ->
    (forall v f, R v f -> rrel R' (kv v) (fun i => kf i (f i))) ->
    rrel R' (bind rv kv) (fun i => bind (rf i) (kf i)).
  Proof.
    intros H K. destruct rv as [v|e]; cbn [bind].
    - destruct H as (f & Rf & H). specialize (K v f Rf).
      destruct (kv v) as [v'|e].
      + destruct K as (f' & Rf' & K). exists f'. split; [exact Rf'|].
        intros i Hi. destruct (H i Hi) as [E|[Z E]]; rewrite E; cbn [bind]; auto.
      + destruct K as (i & Hi & e' & K). exists i. split; [exact Hi|].
        destruct (H i Hi) as [E|[Z E]]; rewrite E; cbn [bind]; [exists e'; exact K|eexists; reflexivity].
    - destruct H as (i & Hi & e' & H). exists i. split; [exact Hi|].
      rewrite H. exists e'. reflexivity.
  Qed.

  Lemma rrel_const {V} (r : result V) : rrel crel r (fun _ => r).
  Proof.
    destruct r as [v|e]; [exists (fun _ => v); split; [intros i Hi; reflexivity|auto]|].
    exists 0. split; [exact Hn|exists e; reflexivity].
  Qed.

  Lemma rrel_ext {V S} (R : V -> (nat -> S) -> Prop) rv rf rf' :
    (forall i, i < n -> rf i = rf' i) -> rrel R rv rf -> rrel R rv rf'.
  Proof.
    intros E H. destruct rv as [v|e].
    - destruct H as (f & Rf & H). exists f. split; [exact Rf|].
      intros i Hi. rewrite <- (E i Hi). auto.
    - destruct H as (i & Hi & H). exists i. rewrite <- (E i Hi). auto.
  Qed.

  (** ** lists *)
  Lemma mapM_ok {B C} (f : B -> result C) l r :
    mapM f l = Ok r -> length r = length l
      /\ forall i b, nth_error l i = Some b -> exists c, nth_error r i = Some c /\ f b = Ok c.
  Proof.
    revert r. induction l as [|x l IH]; intros r; cbn [mapM].
    - intros [= <-]. split; [reflexivity|]. intros [|i] b; discriminate.
    - destruct (f x) as [y|] eqn:E; cbn [bind]; [|discriminate].
      destruct (mapM f l) as [ys|] eqn:El; cbn [bind]; [|discriminate].
      intros [= <-]. destruct (IH ys eq_refl) as [L H]. split; [cbn; congruence|].
      intros [|i] b; cbn [nth_error]; [intros [= <-]; eauto|apply H].
  Qed.
  Lemma mapM_err {B C} (f : B -> result C) l e :
    mapM f l = Err e -> exists i b, nth_error l i = Some b /\ raises (f b).
  Proof.
    induction l as [|x l IH]; cbn [mapM]; [discriminate|].
    destruct (f x) as [y|e'] eqn:E; cbn [bind].
    - destruct (mapM f l) as [ys|e''] eqn:El; cbn [bind]; [discriminate|].
      intros [= ->]. destruct (IH eq_refl) as (i & b & Hb & R). exists (S i), b. auto.
    - intros _. exists 0, x. split; [reflexivity|eexists; exact E].
  Qed.

  Lemma pick_nth {B} (l : list B) i b :
    length l <> 1 -> nth_error l i = Some b -> pick i (Arr l) = Some b.
  Proof. destruct l as [|x [|y l]]; cbn; auto. intros H; exfalso; apply H; reflexivity. Qed.
  Lemma pick_arr_some {B} (l : list B) i b :
    pick i (Arr l) = Some b ->
    (exists x, l = [x] /\ x = b) \/ (length l <> 1 /\ nth_error l i = Some b).
  Proof.
    destruct l as [|x [|y l]].
    - destruct i; discriminate.
    - intros [= ->]. left. eauto.
    - intros H. right. split; [discriminate|exact H].
  Qed.

  (** every relation on arrays, through positions *)
  Lemma mrel_arr {B} (l : list B) f :
    mrel (Arr l) f ->
    (exists x, l = [x] /\ forall i, i < n -> f i = x)
    \/ (length l <> 1 /\ length l = n /\ forall i, i < n -> nth_error l i = Some (f i)).
  Proof.
    intros [L P]. destruct l as [|x [|y l]].
    - destruct L as [L|L]; cbn in L; lia.
    - left. exists x. split; [reflexivity|]. intros i Hi. specialize (P i Hi).
      cbn in P. congruence.
    - right. split; [cbn; lia|]. split; [destruct L as [L|L]; [exact L|cbn in L; lia]|].
      exact P.
  Qed.

  Lemma mrel_of_nth {B} (l : list B) f :
    length l = n -> (forall i, i < n -> nth_error l i = Some (f i)) -> mrel (Arr l) f.
  Proof.
    intros L P. split; [left; exact L|]. intros i Hi.
    destruct l as [|x [|y l]]; [cbn in L; lia| |exact (P i Hi)].
    cbn in L. assert (i = 0) by lia. subst i. specialize (P 0 Hi). exact P.
  Qed.
  Lemma mrel_single {B} (x : B) f : (forall i, i < n -> f i = x) -> mrel (Arr [x]) f.
  Proof. intros P. split; [right; reflexivity|]. intros i Hi. cbn. now rewrite P. Qed.

  Lemma nth_error_nth' {B} (l : list B) i d b : nth_error l i = Some b -> nth i l d = b.
  Proof. intros H. exact (nth_error_nth l i d H). Qed.

  (** the result of [mapM] over positions *)
  Lemma mapM_rel {B C} (g : B -> result C) (l : list B) (h : nat -> result C) :
    length l = n ->
    (forall i b, i < n -> nth_error l i = Some b -> h i = g b) ->
    rrel mrel (let* r := mapM g l in Ok (Arr r)) h.
  Proof.
    intros Ln E. destruct (mapM g l) as [r|e] eqn:M; cbn [bind].
    - destruct (mapM_ok _ _ _ M) as [L P].
      destruct r as [|c0 r0]; [cbn in L; lia|]. set (r := c0 :: r0) in *.
      assert (Q : forall i, i < n -> exists c, nth_error r i = Some c /\ h i = Ok c).
      { intros i Hi. destruct (nth_error l i) as [b|] eqn:Eb.
        - destruct (P i b Eb) as (c & Hc & Gc). exists c. split; [exact Hc|].
          now rewrite (E i b Hi Eb).
        - apply nth_error_None in Eb. lia. }
      exists (fun i => nth i r c0). split.
      + apply mrel_of_nth; [lia|]. intros i Hi. destruct (Q i Hi) as (c & Hc & _).
        now rewrite (nth_error_nth' _ _ c0 _ Hc).
      + intros i Hi. left. destruct (Q i Hi) as (c & Hc & G).
        now rewrite (nth_error_nth' _ _ c0 _ Hc).
    - destruct (mapM_err _ _ _ M) as (i & b & Hb & e' & G).
      assert (Hi : i < n).
      { rewrite <- Ln. apply nth_error_Some. congruence. }
      exists i. split; [exact Hi|]. exists e'. now rewrite (E i b Hi Hb).
  Qed.
  Lemma mapM1_rel {B C} (g : B -> result C) (x : B) (h : nat -> result C) :
    (forall i, i < n -> h i = g x) ->
    rrel mrel (let* r := mapM g [x] in Ok (Arr r)) h.
  Proof.
    intros E. cbn [mapM]. destruct (g x) as [c|e] eqn:G; cbn [bind].
    - exists (fun _ => c). split; [now apply mrel_single|]. intros i Hi. left. auto.
    - exists 0. split; [exact Hn|]. exists e. auto.
  Qed.
  Lemma sca_rel {C} (r : result C) (h : nat -> result C) :
    (forall i, i < n -> h i = r) -> rrel mrel (let* c := r in Ok (Sca c)) h.
  Proof.
    intros E. destruct r as [c|e]; cbn [bind].
    - exists (fun _ => c). split; [split; [exact I|reflexivity]|]. intros i Hi. left. auto.
    - exists 0. split; [exact Hn|]. exists e. auto.
  Qed.

  Lemma mrel_sca {B} (a : B) f : mrel (Sca a) f -> forall i, i < n -> f i = a.
  Proof. intros [_ P] i Hi. specialize (P i Hi). cbn in P. congruence. Qed.

  Lemma lift1_rel {B C} (g : B -> result C) m f :
    mrel m f -> rrel mrel (lift1 g m) (fun i => g (f i)).
  Proof.
    intros H. destruct m as [a|l]; cbn [lift1].
    - apply sca_rel. intros i Hi. now rewrite (mrel_sca _ _ H i Hi).
    - destruct (mrel_arr _ _ H) as [(x & -> & E)|(L1 & Ln & E)].
      + apply mapM1_rel. intros i Hi. now rewrite E.
      + apply mapM_rel; [exact Ln|]. intros i b Hi Hb. rewrite E in Hb by exact Hi. congruence.
  Qed.

  Lemma nth_error_combine {B C} (l : list B) (m : list C) i :
    nth_error (combine l m) i =
    match nth_error l i, nth_error m i with Some b, Some c => Some (b, c) | _, _ => None end.
  Proof.
    revert m i. induction l as [|x l IH]; intros m i; [destruct i; reflexivity|].
    destruct m as [|y m]; [destruct i; cbn; [reflexivity|destruct (nth_error l i); reflexivity]|].
    destruct i; [reflexivity|]. cbn. apply IH.
  Qed.

  Lemma lift2_rel {B C D} (g : B -> C -> result D) x y f h :
    mrel x f -> mrel y h -> rrel mrel (lift2 g x y) (fun i => g (f i) (h i)).
  Proof.
    intros Hx Hy. destruct x as [a|l], y as [b|m]; cbn [lift2].
    - apply sca_rel. intros i Hi. now rewrite (mrel_sca _ _ Hx i Hi), (mrel_sca _ _ Hy i Hi).
    - destruct (mrel_arr _ _ Hy) as [(y & -> & E)|(L1 & Ln & E)].
      + apply mapM1_rel. intros i Hi. now rewrite E, (mrel_sca _ _ Hx i Hi).
      + apply mapM_rel; [exact Ln|]. intros i c Hi Hc. rewrite E in Hc by exact Hi.
        rewrite (mrel_sca _ _ Hx i Hi). congruence.
    - destruct (mrel_arr _ _ Hx) as [(x & -> & E)|(L1 & Ln & E)].
      + apply (mapM1_rel (fun a => g a b)). intros i Hi. now rewrite E, (mrel_sca _ _ Hy i Hi).
      + apply (mapM_rel (fun a => g a b)); [exact Ln|]. intros i c Hi Hc.
        rewrite E in Hc by exact Hi. rewrite (mrel_sca _ _ Hy i Hi). congruence.
    - destruct (mrel_arr _ _ Hx) as [(a & -> & E)|(L1 & Ln & E)];
      destruct (mrel_arr _ _ Hy) as [(b & -> & E')|(L1' & Ln' & E')].
      + cbn [length Nat.eqb]. apply (mapM1_rel (fun p => g (fst p) (snd p)) (a, b)).
        intros i Hi. cbn [fst snd]. now rewrite E, E'.
      + destruct (Nat.eqb_spec (length [a]) (length m)) as [Hl|_]; [cbn in Hl; lia|].
        apply mapM_rel; [exact Ln'|]. intros i c Hi Hc. rewrite E' in Hc by exact Hi.
        rewrite E by exact Hi. congruence.
      + destruct (Nat.eqb_spec (length l) (length [b])) as [Hl|_]; [cbn in Hl; lia|].
        destruct l as [|x0 [|x1 l]]; [cbn in Ln; lia|cbn in L1; lia|].
        apply (mapM_rel (fun a => g a b)); [exact Ln|]. intros i c Hi Hc.
        rewrite E in Hc by exact Hi. rewrite E' by exact Hi. congruence.
      + destruct (Nat.eqb_spec (length l) (length m)) as [Hl|Hl]; [|lia].
        apply (mapM_rel (fun p => g (fst p) (snd p))); [rewrite combine_length; lia|].
        intros i [p q] Hi Hp. rewrite nth_error_combine, E, E' in Hp by exact Hi.
        injection Hp as <- <-. reflexivity.
  Qed.

  Lemma map_rel {B C} (g : B -> C) m f :
    mrel m f ->
    mrel (match m with Sca a => Sca (g a) | Arr l => Arr (map g l) end) (fun i => g (f i)).
  Proof.
    intros H. destruct m as [a|l].
    - split; [exact I|]. intros i Hi. cbn. now rewrite (mrel_sca _ _ H i Hi).
    - destruct (mrel_arr _ _ H) as [(x & -> & E)|(L1 & Ln & E)].
      + apply mrel_single. intros i Hi. now rewrite E.
      + apply mrel_of_nth; [now rewrite map_length|]. intros i Hi.
        now rewrite nth_error_map, E.
  Qed.
  Lemma mrel_ext {B} (m : vmag B) f f' :
    (forall i, i < n -> f i = f' i) -> mrel m f -> mrel m f'.
  Proof. intros E [L P]. split; [exact L|]. intros i Hi. rewrite <- E by exact Hi. auto. Qed.

  (** [div] behaves like numpy's division whenever it returns *)
  Definition like_division (div : A -> A -> result A) : Prop :=
    forall x y, match npdiv x y with
                | Ok z => div x y = Ok z
                | Err _ => raises (div x y)
                end.
  Lemma pydiv_like : like_division pydiv.
  Proof.
    intros x y. unfold npdiv, pydiv. destruct (neqb y zero); [eexists; reflexivity|reflexivity].
  Qed.
  Lemma npdiv_like : like_division npdiv.
  Proof. intros x y. destruct (npdiv x y) as [z|e]; [reflexivity|eexists; reflexivity]. Qed.

  Lemma rrel_like {B} (rv : result (vmag B)) rf rf' :
    (forall i, i < n -> match rf i with Ok z => rf' i = Ok z | Err _ => raises (rf' i) end) ->
    (forall i, i < n -> rf i <> Err neg_err) ->
    rrel mrel rv rf -> rrel mrel rv rf'.
  Proof.
    intros E N H. destruct rv as [v|e].
    - destruct H as (f & Rf & H). exists f. split; [exact Rf|]. intros i Hi.
      destruct (H i Hi) as [G|G]; [|exfalso; exact (N i Hi (proj2 G))].
      specialize (E i Hi). rewrite G in E. auto.
    - destruct H as (i & Hi & e' & H). exists i. split; [exact Hi|].
      specialize (E i Hi). now rewrite H in E.
  Qed.

  Lemma vdiv_rel div x y f h :
    like_division div -> mrel x f -> mrel y h ->
    rrel mrel (vdiv div x y) (fun i => div (f i) (h i)).
  Proof.
    intros Hd Hx Hy.
    assert (G : rrel mrel (lift2 npdiv x y) (fun i => div (f i) (h i))).
    { apply (rrel_like _ (fun i => npdiv (f i) (h i))); [intros i _; apply Hd| |].
      - intros i _. unfold npdiv. destruct (neqb _ _); discriminate.
      - now apply lift2_rel. }
    destruct x as [a|l], y as [b|m]; try exact G.
    cbn [vdiv]. apply sca_rel. intros i Hi.
    now rewrite (mrel_sca _ _ Hx i Hi), (mrel_sca _ _ Hy i Hi).
  Qed.

  (** ** quantities *)
  Lemma vrel_mk m u r f :
    mrel m f -> vrel (mkV m u r) (fun i => mkQ (f i) u r).
  Proof. intros H. split; [exact H|]. intros i Hi. auto. Qed.

  Lemma vrel_scalar q : vrel (scalar q) (fun _ => q).
  Proof. split; [split; [exact I|reflexivity]|]. intros i Hi. auto. Qed.

  Lemma vrel_ext v f f' : (forall i, i < n -> f i = f' i) -> vrel v f -> vrel v f'.
  Proof.
    intros E [H U]. split.
    - refine (mrel_ext _ _ _ _ H). intros i Hi. cbn. now rewrite E.
    - intros i Hi. rewrite <- E by exact Hi. auto.
  Qed.

  Lemma unit_step {V S} (R : V -> (nat -> S) -> Prop) (rv : result unit) (kv : result V)
    (rf : nat -> result unit) (kf : nat -> result S) :
    (forall i, i < n -> rf i = rv) -> rrel R kv kf ->
    rrel R (let* _ := rv in kv) (fun i => let* _ := rf i in kf i).
  Proof.
    intros E K. apply (rrel_bind crel _ rv rf (fun _ => kv) (fun i _ => kf i)).
    - apply (rrel_ext crel rv (fun _ => rv)); [intros; symmetry; auto|apply rrel_const].
    - intros v f _. exact K.
  Qed.

  (** a magnitude wrapped into a quantity *)
  Lemma wrap_step (rm : result (vmag A)) (rf : nat -> result A) u r (kf : nat -> result (quantity A)) :
    rrel mrel rm rf ->
    (forall i, i < n -> kf i = let* m := rf i in Ok (mkQ m u r)) ->
    rrel vrel (let* m := rm in Ok (mkV m u r)) kf.
  Proof.
    intros H E. apply (rrel_ext vrel _ (fun i => let* m := rf i in Ok (mkQ m u r)));
      [intros i Hi; symmetry; auto|].
    apply (rrel_bind mrel vrel rm rf (fun m => Ok (mkV m u r)) (fun i m => Ok (mkQ m u r)) H).
    intros m f Hm. apply (rrel_ret vrel (mkV m u r) (fun i => mkQ (f i) u r)).
    now apply vrel_mk.
  Qed.

  Lemma unit_of_rel v f i : vrel v f -> i < n -> q_unit (f i) = v_unit v.
  Proof. intros [_ U] Hi. apply U, Hi. Qed.
  Lemma reg_of_rel v f i : vrel v f -> i < n -> q_reg (f i) = v_reg v.
  Proof. intros [_ U] Hi. apply U, Hi. Qed.
  Lemma mag_of_rel v f : vrel v f -> mrel (v_mag v) (fun i => q_mag (f i)).
  Proof. intros [H _]. exact H. Qed.

  Ltac units := repeat match goal with
    | H : vrel ?v ?f, Hi : ?i < n |- context [q_unit (?f ?i)] => rewrite (unit_of_rel v f i H Hi)
    | H : vrel ?v ?f, Hi : ?i < n |- context [q_reg (?f ?i)] => rewrite (reg_of_rel v f i H Hi)
    end.
  Ltac guards :=
    repeat (apply unit_step;
      [intros i Hi; unfold same_reg, v_same_reg, offset_free, v_offset_free; units; reflexivity|]).

  Lemma v_mul_rel p q f h :
    vrel p f -> vrel q h -> rrel vrel (v_mul p q) (fun i => q_mul (f i) (h i)).
  Proof.
    intros Hp Hq. unfold v_mul, q_mul. guards.
    eapply wrap_step; [apply lift2_rel; [apply mag_of_rel, Hp|apply mag_of_rel, Hq]|].
    intros i Hi. cbn [bind]. units. reflexivity.
  Qed.
  Lemma v_div_rel div p q f h :
    like_division div ->
    vrel p f -> vrel q h -> rrel vrel (v_div div p q) (fun i => q_div div (f i) (h i)).
  Proof.
    intros Hd Hp Hq. unfold v_div, q_div. guards.
    eapply wrap_step; [apply (vdiv_rel div); [exact Hd|apply mag_of_rel, Hp|apply mag_of_rel, Hq]|].
    intros i Hi. cbv beta. units. reflexivity.
  Qed.
  Lemma v_scale_rel k q kf h :
    mrel k kf -> vrel q h -> rrel vrel (v_scale k q) (fun i => q_scale (kf i) (h i)).
  Proof.
    intros Hk Hq. unfold v_scale, q_scale. guards.
    eapply wrap_step; [apply lift2_rel; [exact Hk|apply mag_of_rel, Hq]|].
    intros i Hi. cbn [bind]. units. reflexivity.
  Qed.
  Lemma v_divn_rel div q k h kf :
    like_division div ->
    vrel q h -> mrel k kf -> rrel vrel (v_divn div q k) (fun i => q_divn div (h i) (kf i)).
  Proof.
    intros Hd Hq Hk. unfold v_divn, q_divn. guards.
    eapply wrap_step; [apply (vdiv_rel div); [exact Hd|apply mag_of_rel, Hq|exact Hk]|].
    intros i Hi. cbv beta. units. reflexivity.
  Qed.
  Lemma v_base_mag_rel q h : vrel q h -> mrel (v_base_mag q) (fun i => base_mag (h i)).
  Proof.
    intros Hq. unfold v_base_mag, v_map.
    apply (mrel_ext _ (fun i => base_mag (mkQ (q_mag (h i)) (v_unit q) (v_reg q)))).
    - intros i Hi. unfold base_mag. cbn [q_mag q_unit]. units. reflexivity.
    - apply (map_rel (fun a => base_mag (mkQ a (v_unit q) (v_reg q)))). apply mag_of_rel, Hq.
  Qed.
  Lemma v_to_rel q h u : vrel q h -> rrel vrel (v_to q u) (fun i => q_to (h i) u).
  Proof.
    intros Hq. unfold v_to.
    destruct (dim_eqb (u_dim (v_unit q)) (u_dim u)) eqn:E.
    - match goal with |- rrel _ (Ok ?v) _ =>
        exists (fun i => mkQ (match u_off u with
               | None => base_mag (h i) / u_scale u
               | Some o => (base_mag (h i) - o) / u_scale u
               end)%num u (v_reg q)) end.
      split.
      + split; [|intros i Hi; auto]. cbn [v_mag q_mag]. unfold v_map.
        eapply mrel_ext; [|apply (map_rel (fun a => match u_off u with
               | None => base_mag (mkQ a (v_unit q) (v_reg q)) / u_scale u
               | Some o => (base_mag (mkQ a (v_unit q) (v_reg q)) - o) / u_scale u
               end)%num _ _ (mag_of_rel _ _ Hq))].
        intros i Hi. unfold base_mag. cbn [q_mag q_unit]. units. reflexivity.
      + intros i Hi. left. unfold q_to. units. rewrite E. reflexivity.
    - exists 0. split; [exact Hn|]. eexists. unfold q_to.
      rewrite (unit_of_rel q h 0 Hq Hn), E. reflexivity.
  Qed.
  Lemma v_sub_rel p q f h :
    vrel p f -> vrel q h -> rrel vrel (v_sub p q) (fun i => q_sub (f i) (h i)).
  Proof.
    intros Hp Hq. unfold v_sub, q_sub, q_addsub. guards.
    apply (rrel_ext vrel _ (fun i => let* q' := q_to (h i) (v_unit p) in
             Ok (mkQ (nsub (q_mag (f i)) (q_mag q')) (v_unit p) (v_reg p)))).
    { intros i Hi. units. reflexivity. }
    apply (rrel_bind vrel vrel); [apply v_to_rel, Hq|].
    intros q' h' Hq'. eapply wrap_step;
      [apply lift2_rel; [apply mag_of_rel, Hp|apply mag_of_rel, Hq']|].
    intros i Hi. reflexivity.
  Qed.
  Lemma v_naddq_rel k q h : vrel q h -> rrel vrel (v_naddq k q) (fun i => n_addq k (h i)).
  Proof.
    intros Hq. unfold v_naddq.
    destruct (dim_eqb (u_dim (v_unit q)) d_none) eqn:E.
    - exists (fun i => mkQ (k + base_mag (h i))%num (mult_unit d_none one) (v_reg q)). split.
      + split; [|intros i Hi; auto]. cbn [v_mag q_mag]. unfold v_map.
        apply (map_rel (fun b => (k + b)%num)). apply v_base_mag_rel, Hq.
      + intros i Hi. left. unfold n_addq. units. rewrite E. reflexivity.
    - exists 0. split; [exact Hn|]. eexists. unfold n_addq.
      rewrite (unit_of_rel q h 0 Hq Hn), E. reflexivity.
  Qed.
  Lemma v_sq_rel q h : vrel q h -> rrel vrel (v_sq q) (fun i => q_sq (h i)).
  Proof.
    intros Hq. unfold v_sq, q_sq. guards.
    match goal with |- rrel _ (Ok (mkV ?m ?u ?r)) _ =>
      exists (fun i => mkQ (sq (q_mag (h i))) u r) end.
    split.
    - split; [|intros i Hi; auto]. cbn [v_mag q_mag]. apply (map_rel sq). apply mag_of_rel, Hq.
    - intros i Hi. left. units. reflexivity.
  Qed.
  Lemma v_sqrt_rel q h : vrel q h -> rrel vrel (v_sqrt q) (fun i => q_sqrt (h i)).
  Proof.
    intros Hq. unfold v_sqrt, q_sqrt. guards.
    destruct (dim_root 2 (u_dim (v_unit q))) as [d|] eqn:E.
    - eapply wrap_step; [apply (lift1_rel npsqrt); apply mag_of_rel, Hq|].
      intros i Hi. units. rewrite E. reflexivity.
    - exists 0. split; [exact Hn|]. rewrite (unit_of_rel q h 0 Hq Hn), E. eexists. reflexivity.
  Qed.
  Lemma v_plain_rel q h : vrel q h -> rrel mrel (v_plain q) (fun i => q_plain (h i)).
  Proof.
    intros Hq. unfold v_plain, q_plain. apply (rrel_bind vrel mrel); [apply v_to_rel, Hq|].
    intros q' h' Hq'. apply (rrel_ret mrel (v_mag q') (fun i => q_mag (h' i))).
    apply mag_of_rel, Hq'.
  Qed.
  Lemma v_rereg_rel q h r : vrel q h -> vrel (v_rereg q r) (fun i => rereg (h i) r).
  Proof.
    intros Hq. split; [exact (mag_of_rel _ _ Hq)|]. intros i Hi. cbn. split; [|reflexivity].
    apply (unit_of_rel _ _ _ Hq Hi).
  Qed.
  Lemma v_to_base_rel q h : vrel q h -> vrel (v_to_base q) (fun i => to_base_units (h i)).
  Proof.
    intros Hq. split; [exact (v_base_mag_rel _ _ Hq)|]. intros i Hi. cbn. units. auto.
  Qed.

  (** ** arguments *)
  Definition arel (v : vpyin A) (f : nat -> pyin A) : Prop :=
    of_length n (arg_mag v) /\ forall i, i < n -> element_of i v (f i).
  Lemma v_parse_rel v f reg :
    arel v f -> rrel vrel (v_parse v reg) (fun i => parse_quant_input (f i) reg).
  Proof.
    intros [L H]. destruct v as [q|m s|]; cbn [v_parse].
    - exists (fun i => mkQ (match f i with PQuant p => q_mag p | _ => zero end) (v_unit q) reg).
      split.
      + split; [|intros i Hi; auto]. split; [exact L|]. intros i Hi.
        specialize (H i Hi). inversion H as [q' a Ha E1 E2| |]. cbn. exact Ha.
      + intros i Hi. left. specialize (H i Hi). inversion H as [q' a Ha E1 E2| |]. reflexivity.
    - destruct (lookup_unit s) as [u|] eqn:E.
      + exists (fun i => mkQ (match f i with PSeq (ENum a :: _) => a | _ => zero end) u reg).
        split.
        * split; [|intros i Hi; auto]. split; [exact L|]. intros i Hi.
          specialize (H i Hi). inversion H as [|m' s' a Ha E1 E2|]. cbn. exact Ha.
        * intros i Hi. left. specialize (H i Hi). inversion H as [|m' s' a Ha E1 E2|].
          cbn [parse_quant_input quantity_of_items]. unfold quant. rewrite E. reflexivity.
      + exists 0. split; [exact Hn|]. specialize (H 0 Hn).
        inversion H as [|m' s' a Ha E1 E2|]. eexists.
        cbn [parse_quant_input quantity_of_items]. unfold quant. rewrite E. reflexivity.
    - exists 0. split; [exact Hn|]. specialize (H 0 Hn). inversion H. eexists. reflexivity.
  Qed.
  Lemma v_parse_base_rel v f reg :
    arel v f -> rrel vrel (v_parse_base v reg) (fun i => parse_base (f i) reg).
  Proof.
    intros H. apply (rrel_bind vrel vrel); [now apply v_parse_rel|].
    intros q h Hq. apply (rrel_ret vrel (v_to_base q) (fun i => to_base_units (h i))).
    now apply v_to_base_rel.
  Qed.

  (** the check: only a negative value makes a difference *)
  Definition anyrel {V S} (v : V) (f : nat -> S) : Prop := True.
  Lemma v_check_rel q h d :
    vrel q h -> rrel anyrel (v_check q d true) (fun i => check_q (h i) d true).
  Proof.
    intros Hq. unfold v_check, check_q, check_pint_quantity, v_raw.
    assert (H0 : forall a, pick 0 (v_mag q) = Some a -> a = q_mag (h 0)).
    { intros a Ha. destruct (mag_of_rel _ _ Hq) as [_ P]. specialize (P 0 Hn). congruence. }
    assert (X : exists a, a = q_mag (h 0) /\
              (match match v_mag q with Sca a => MNum a | Arr l => MArr l end with
               | MArr [] => Err IndexError
               | MArr (a :: _) => Ok (OQuant (MNum a) (v_unit q))
               | m => Ok (OQuant m (v_unit q))
               end = Ok (OQuant (MNum a) (v_unit q)))).
    { destruct (v_mag q) as [a|l] eqn:M.
      - exists a. split; [apply H0; reflexivity|reflexivity].
      - destruct (mrel_arr _ _ (eq_ind _ (fun m => mrel m _) (mag_of_rel _ _ Hq) _ M))
          as [(x & -> & E)|(L1 & Ln & E)].
        + exists x. split; [symmetry; apply E, Hn|reflexivity].
        + destruct l as [|x l]; [cbn in Ln; lia|]. exists x. split; [|reflexivity].
          specialize (E 0 Hn). cbn in E. congruence. }
    destruct X as (a & Ea & X).
    assert (Y : (let* o := match OQuant (match v_mag q with Sca a => MNum a | Arr l => MArr l end)
                                (v_unit q) with
              | OQuant (MArr l) u =>
                match l with
                | [] => Err IndexError
                | a :: _ => Ok (OQuant (MNum a) u)
                end
              | o => Ok o
              end in Ok o) = Ok (OQuant (MNum a) (v_unit q))).
    { destruct (v_mag q) as [b|[|b l]]; cbn in *; exact X. }
    match goal with |- rrel _ (bind ?x _) _ => assert (Z : x = Ok (OQuant (MNum a) (v_unit q))) end.
    { destruct (v_mag q) as [b|[|b l]]; cbn in *; exact X. }
    rewrite Z. cbn [bind]. clear X Y Z. subst a.
    destruct (supported_dimension d) as [dd|].
    - destruct (nltb (base_mag (mkQ (q_mag (h 0)) (v_unit q) 0)) zero) eqn:E1; cbn [andb raise_if bind].
      + exists 0. split; [exact Hn|]. eexists.
        rewrite (unit_of_rel q h 0 Hq Hn), E1. reflexivity.
      + destruct (dim_eqb (u_dim (v_unit q)) dd) eqn:E2; cbn [negb raise_if bind].
        * exists (fun _ => true). split; [exact I|]. intros i Hi. units. rewrite E2.
          destruct (nltb (base_mag (mkQ (q_mag (h i)) (v_unit q) 0)) zero) eqn:E3;
            cbn [andb raise_if bind negb]; [right|left; reflexivity].
          split; [|reflexivity]. destruct i as [|i]; [congruence|lia].
        * exists 0. split; [exact Hn|]. eexists.
          rewrite (unit_of_rel q h 0 Hq Hn), E1, E2. reflexivity.
    - exists 0. split; [exact Hn|]. eexists. reflexivity.
  Qed.

  Lemma const_mrel {B} (a : B) : mrel (Sca a) (fun _ => a).
  Proof. split; [exact I|reflexivity]. Qed.
  Lemma v_scale_const_rel k q h :
    vrel q h -> rrel vrel (v_scale (Sca k) q) (fun i => q_scale k (h i)).
  Proof. intros Hq. apply (v_scale_rel (Sca k) q (fun _ => k)); [apply const_mrel|exact Hq]. Qed.

  Ltac parse := eapply rrel_bind; [eapply v_parse_base_rel; eassumption|]; intros ? ? ?.
  Ltac parse0 := eapply rrel_bind; [eapply v_parse_rel; eassumption|]; intros ? ? ?.
  Ltac check := eapply rrel_bind; [eapply v_check_rel; eassumption|]; intros ? ? _.
  Ltac op L := eapply rrel_bind; [eapply L; eassumption|]; intros ? ? ?.
  Ltac divop L := eapply rrel_bind;
    [eapply L; [first [exact pydiv_like|exact npdiv_like]|eassumption|eassumption]|]; intros ? ? ?.

  Lemma window_sf_rel l w t p m lf wf tf pf mf reg :
    arel l lf -> arel w wf -> arel t tf -> arel p pf -> arel m mf ->
    rrel mrel (v_safety_factor l w t p m reg)
         (fun i => safety_factor (lf i) (wf i) (tf i) (pf i) (mf i) reg).
  Proof.
    intros Hl Hw Ht Hp Hm. unfold v_safety_factor, safety_factor.
    do 5 parse. do 5 check.
    divop v_div_rel. divop v_div_rel. op v_sq_rel. op v_scale_const_rel. op v_sq_rel.
    op v_naddq_rel. op v_mul_rel. op v_mul_rel. op v_scale_const_rel. divop v_div_rel.
    eapply v_plain_rel. eassumption.
  Qed.

  (** the safety factor argument of minimum_thickness: a single number *)
  Lemma window_mt_rel l w sm s p m lf wf pf mf reg :
    sm = Sca s \/ sm = Arr [s] ->
    arel l lf -> arel w wf -> arel p pf -> arel m mf ->
    rrel vrel (v_minimum_thickness l w (VSfNum sm) p m reg)
         (fun i => minimum_thickness (lf i) (wf i) (SfNum s) (pf i) (mf i) reg).
  Proof.
    intros Hs Hl Hw Hp Hm. unfold v_minimum_thickness, minimum_thickness.
    do 4 parse. do 4 check.
    match goal with |- rrel _ (bind ?x _) _ =>
      replace x with (if nltb s one then Err (ValueError "Window safety factor < 1")
                      else Ok sm) by (destruct Hs as [-> | ->]; reflexivity) end.
    destruct (nltb s one).
    { cbn [bind]. exists 0. split; [exact Hn|]. eexists. reflexivity. }
    cbn [bind].
    divop v_div_rel.
    eapply rrel_bind with (R := mrel).
    { eapply (lift1_rel (fun s0 => npsqrt (s0 * window_k / lit 2)%num) sm (fun _ => s)).
      destruct Hs as [-> | ->]; [apply const_mrel|apply mrel_single; reflexivity]. }
    intros rs rsf Hrs.
    op v_scale_rel. op v_sq_rel. op v_naddq_rel. op v_mul_rel. divop v_div_rel.
    op v_sqrt_rel. op v_mul_rel.
    eapply rrel_ext; [|eapply v_to_rel; eassumption].
    intros i Hi. cbv beta. units. reflexivity.
  Qed.

  (** ** bolts *)
  Definition srel (v : vquantity A) (f : nat -> quantity A) : Prop :=
    vrel v f /\ of_length 1 (v_mag v).
  Lemma one_element {B} (m : vmag B) f :
    mrel m f -> of_length 1 m -> exists a, (m = Sca a \/ m = Arr [a]) /\ forall i, i < n -> f i = a.
  Proof.
    intros [_ P] L. destruct m as [a|[|a [|b l]]]; cbn in L.
    - exists a. split; [auto|]. intros i Hi. specialize (P i Hi). cbn in P. congruence.
    - lia.
    - exists a. split; [auto|]. intros i Hi. specialize (P i Hi). cbn in P. congruence.
    - destruct L; lia.
  Qed.
  Lemma srel_vrel v f : srel v f -> vrel v f. Proof. intros [H _]. exact H. Qed.
  Lemma srel_scalar q : srel (scalar q) (fun _ => q).
  Proof. split; [apply vrel_scalar|exact I]. Qed.
  Lemma v_mul_srel p q f h :
    srel p f -> srel q h -> rrel srel (v_mul p q) (fun i => q_mul (f i) (h i)).
  Proof.
    intros [Hp Lp] [Hq Lq].
    pose proof (v_mul_rel p q f h Hp Hq) as H.
    destruct (one_element _ _ (mag_of_rel _ _ Hp) Lp) as (a & Ea & _).
    destruct (one_element _ _ (mag_of_rel _ _ Hq) Lq) as (b & Eb & _).
    destruct (v_mul p q) as [r|e] eqn:E; [|exact H].
    destruct H as (g & Hg & H). exists g. split; [|exact H]. split; [exact Hg|].
    unfold v_mul in E.
    destruct (v_same_reg p q); cbn [bind] in E; [|discriminate].
    destruct (v_offset_free p); cbn [bind] in E; [|discriminate].
    destruct (v_offset_free q); cbn [bind] in E; [|discriminate].
    destruct Ea as [Ea|Ea], Eb as [Eb|Eb]; rewrite Ea, Eb in E;
      cbn [lift2 bind mapM combine length Nat.eqb fst snd] in E; injection E as <-;
      cbn; auto.
  Qed.
  Lemma v_lt_rel p q f h :
    srel p f -> srel q h -> rrel crel (v_lt p q) (fun i => q_lt (f i) (h i)).
  Proof.
    intros [Hp Lp] [Hq Lq]. unfold v_lt, q_lt, q_cmp.
    apply unit_step.
    { intros i Hi. unfold same_reg, v_same_reg. units. reflexivity. }
    assert (Lp' : of_length 1 (v_base_mag p)).
    { unfold v_base_mag. destruct (v_mag p); cbn in *; [exact I|rewrite map_length; exact Lp]. }
    assert (Lq' : of_length 1 (v_base_mag q)).
    { unfold v_base_mag. destruct (v_mag q); cbn in *; [exact I|rewrite map_length; exact Lq]. }
    destruct (one_element _ _ (v_base_mag_rel p f Hp) Lp') as (a & Ea & Fa).
    destruct (one_element _ _ (v_base_mag_rel q h Hq) Lq') as (b & Eb & Fb).
    destruct (dim_eqb (u_dim (v_unit p)) (u_dim (v_unit q))) eqn:E.
    - assert (X : (let* mask := lift2 (fun a b => Ok (nltb a b)) (v_base_mag p) (v_base_mag q) in
                   truth mask) = Ok (nltb a b)).
      { destruct Ea as [Ea|Ea], Eb as [Eb|Eb]; rewrite Ea, Eb; reflexivity. }
      rewrite X.
      exists (fun _ => nltb a b). split; [intros i Hi; reflexivity|].
      intros i Hi. left. units. rewrite E. rewrite <- (Fa i Hi), <- (Fb i Hi). reflexivity.
    - exists 0. split; [exact Hn|]. eexists.
      rewrite (unit_of_rel p f 0 Hp Hn), (unit_of_rel q h 0 Hq Hn), E. reflexivity.
  Qed.

  (** a step that does not involve the arrays *)
  Lemma const_step {V S C} (R : V -> (nat -> S) -> Prop) (r : result C) kv (kf : nat -> C -> result S) :
    (forall c, rrel R (kv c) (fun i => kf i c)) ->
    rrel R (bind r kv) (fun i => bind r (kf i)).
  Proof.
    intros K. destruct r as [c|e]; cbn [bind]; [apply K|].
    exists 0. split; [exact Hn|]. eexists. reflexivity.
  Qed.

  Lemma v_shear_area_srel tpi e ef d x y :
    srel e ef -> rrel srel (v_shear_area tpi e d x y) (fun i => shear_area tpi (ef i) d x y).
  Proof.
    intros He. unfold v_shear_area, shear_area.
    apply const_step; intros a.
    eapply rrel_bind; [apply v_mul_srel; [apply srel_scalar|exact He]|]; intros v1 f1 H1.
    eapply rrel_bind; [apply v_mul_srel; [exact H1|apply srel_scalar]|]; intros v2 f2 H2.
    do 5 (apply const_step; intros ?).
    apply v_mul_srel; [exact H2|apply srel_scalar].
  Qed.

  Lemma v_tensile_rel b bf bd es tpi reg :
    srel b bf ->
    rrel crel (v_tensile_area b bd es tpi reg) (fun i => tensile_area (bf i) bd es tpi reg).
  Proof.
    intros Hb. unfold v_tensile_area, tensile_area.
    apply const_step; intros limit.
    eapply rrel_bind; [apply v_lt_rel; [exact Hb|apply srel_scalar]|]; intros w wf Hw.
    eapply rrel_ext with (rf := fun i => if w then _ else _);
      [intros i Hi; rewrite (Hw i Hi); reflexivity|].
    destruct w; apply rrel_const.
  Qed.

  Definition trel (t : v_thread_areas A) (f : nat -> thread_areas A) : Prop :=
    vrel (v_screw_area t) (fun i => screw_area (f i))
    /\ vrel (v_plate_area t) (fun i => plate_area (f i))
    /\ vrel (v_minimum_engagement t) (fun i => minimum_engagement (f i))
    /\ forall i, i < n -> shear_warning (f i) = v_shear_warning t.

  Lemma v_rereg_srel q h r : srel q h -> srel (v_rereg q r) (fun i => rereg (h i) r).
  Proof. intros [H L]. split; [now apply v_rereg_rel|exact L]. Qed.

  Lemma v_stress_rel size cls b p e bf pf ef reg :
    srel b bf -> vrel p pf -> srel e ef ->
    rrel trel (v_stress_areas size cls b p e reg)
         (fun i => calculate_stress_areas size cls (bf i) (pf i) (ef i) reg).
  Proof.
    intros Hb Hp He. pose proof (srel_vrel _ _ Hb) as Hb'. pose proof (srel_vrel _ _ He) as He'.
    unfold v_stress_areas, calculate_stress_areas. cbv zeta.
    do 3 check.
    do 12 (apply const_step; intros ?).
    eapply rrel_bind; [apply v_tensile_rel, v_rereg_srel, Hb|]; intros ten tenf Hten.
    eapply rrel_bind; [apply v_shear_area_srel, v_rereg_srel, He|]; intros sh shf Hsh.
    eapply rrel_bind.
    { eapply rrel_ext; [|apply v_lt_rel; [exact Hsh|apply (srel_scalar ten)]].
      intros i Hi. cbv beta. rewrite (Hten i Hi). reflexivity. }
    intros sw swf Hsw.
    eapply rrel_bind; [apply v_shear_area_srel, v_rereg_srel, He|]; intros pl plf Hpl.
    eapply rrel_bind; [apply v_mul_rel; [apply srel_vrel, Hsh|apply v_rereg_rel, Hb']|];
      intros jn jnf Hjn.
    eapply rrel_bind; [apply v_mul_rel; [apply srel_vrel, Hpl|apply v_rereg_rel, Hp]|];
      intros jd jdf Hjd.
    eapply rrel_bind; [apply (v_div_rel npdiv); [exact npdiv_like|exact Hjn|exact Hjd]|];
      intros j jf Hj.
    eapply rrel_ext with (rf := fun i => let* num := q_scale (lit 2)%num ten in _).
    { intros i Hi. rewrite (Hten i Hi). reflexivity. }
    do 7 (apply const_step; intros ?). cbv beta.
    apply const_step; intros base.
    eapply rrel_bind; [apply v_mul_rel; [apply (vrel_scalar base)|exact Hj]|]; intros me mef Hme.
    match goal with |- rrel trel (Ok ?t) _ =>
      exists (fun i => mkThread (if sw then shf i else ten) (plf i) (mef i) sw) end.
    split.
    - split; [|split; [|split]]; cbn [v_screw_area v_plate_area v_minimum_engagement
        v_shear_warning screw_area plate_area minimum_engagement shear_warning].
      + destruct sw; [exact (srel_vrel _ _ Hsh)|apply vrel_scalar].
      + exact (srel_vrel _ _ Hpl).
      + exact Hme.
      + reflexivity.
    - intros i Hi. left. rewrite (Hsw i Hi). reflexivity.
  Qed.

  Definition frel (t : v_factors A) (f : nat -> bolt_factors A) : Prop :=
    mrel (v_sf_bolt t) (fun i => sf_bolt (f i))
    /\ mrel (v_sf_plate t) (fun i => sf_plate (f i))
    /\ forall i, i < n -> sf_warning (f i) = v_sf_warning t.

  Lemma v_parse_srel v f reg :
    arel v f -> of_length 1 (arg_mag v) ->
    rrel srel (v_parse v reg) (fun i => parse_quant_input (f i) reg).
  Proof.
    intros H E. pose proof (v_parse_rel v f reg H) as P.
    destruct (v_parse v reg) as [q|] eqn:Q; [|exact P].
    destruct P as (g & Hg & P). exists g. split; [|exact P]. split; [exact Hg|].
    destruct v as [p|m s|]; cbn in E; [| |lia].
    - cbn [v_parse] in Q. injection Q as <-. exact E.
    - cbn [v_parse] in Q. destruct (lookup_unit s); [|discriminate Q]. injection Q as <-. exact E.
  Qed.

  Lemma v_bolt_rel p w nb size cls b pl e pf wf nf bf plf ef reg :
    arel p pf -> arel w wf -> mrel nb nf -> arel b bf -> arel pl plf -> arel e ef ->
    of_length 1 (arg_mag b) -> of_length 1 (arg_mag e) ->
    rrel frel (v_bolt_safety_factors p w nb size cls b pl e reg)
         (fun i => calculate_safety_factors (pf i) (wf i) (nf i) size cls
                     (bf i) (plf i) (ef i) reg).
  Proof.
    intros Hp Hw Hnb Hb Hpl He Sb Se.
    unfold v_bolt_safety_factors, calculate_safety_factors. cbv zeta.
    parse0. parse0.
    eapply rrel_bind; [eapply v_parse_srel; [exact Hb|exact Sb]|]; intros qb qbf Hqb.
    parse0.
    eapply rrel_bind; [eapply v_parse_srel; [exact He|exact Se]|]; intros qe qef Hqe.
    pose proof (srel_vrel _ _ Hqb) as Hqb'. pose proof (srel_vrel _ _ Hqe) as Hqe'.
    do 5 check.
    apply const_step; intros atm.
    pose proof (vrel_scalar atm) as Hatm.
    op v_sub_rel. op v_mul_rel.
    eapply rrel_bind; [eapply (v_divn_rel pydiv); [exact pydiv_like|eassumption|eassumption]|];
      intros fo fof Hfo.
    eapply rrel_bind; [apply v_stress_rel; eassumption|]; intros th thf (T1 & T2 & T3 & T4).
    eapply rrel_bind;
      [apply (v_div_rel npdiv); [exact npdiv_like|exact Hfo|apply v_rereg_rel, T1]|];
      intros s1 s1f Hs1.
    eapply rrel_bind;
      [apply (v_div_rel npdiv); [exact npdiv_like|exact Hqb'|exact Hs1]|]; intros b1 b1f Hb1.
    eapply rrel_bind; [apply v_plain_rel, Hb1|]; intros b2 b2f Hb2.
    eapply rrel_bind;
      [apply (v_div_rel npdiv); [exact npdiv_like|exact Hfo|apply v_rereg_rel, T2]|];
      intros s2 s2f Hs2.
    eapply rrel_bind; [apply (v_div_rel npdiv); [exact npdiv_like|eassumption|exact Hs2]|];
      intros p1 p1f Hp1.
    eapply rrel_bind; [apply v_plain_rel, Hp1|]; intros p2 p2f Hp2.
    exists (fun i => mkFactors (b2f i) (p2f i) (v_shear_warning th)).
    split; [split; [exact Hb2|split; [exact Hp2|intros i Hi; reflexivity]]|].
    intros i Hi. left. rewrite (T4 i Hi). reflexivity.
  Qed.
End Sim.

(** ** Shapes: the length of a result bounds the lengths of the arguments. *)
Section Shape.
  Context {A : Type} {NA : Num A}.

  Lemma mapM_length {B C} (f : B -> result C) l r : mapM f l = Ok r -> length r = length l.
  Proof. intros H. now destruct (mapM_ok f l r H). Qed.

  Lemma lift2_back {B C D} (g : B -> C -> result D) x y z k :
    lift2 g x y = Ok z -> of_length k z -> of_length k x /\ of_length k y.
  Proof.
    destruct x as [a|l], y as [b|m]; cbn [lift2].
    - intros _ _. split; exact I.
    - destruct (mapM (g a) m) as [r|] eqn:E; cbn [bind]; [|discriminate].
      intros [= <-] H. split; [exact I|]. cbn in *. now rewrite (mapM_length _ _ _ E) in H.
    - destruct (mapM _ l) as [r|] eqn:E; cbn [bind]; [|discriminate].
      intros [= <-] H. split; [|exact I]. cbn in *. now rewrite (mapM_length _ _ _ E) in H.
    - destruct (Nat.eqb (length l) (length m)) eqn:L.
      + apply Nat.eqb_eq in L.
        destruct (mapM _ (combine l m)) as [r|] eqn:E; cbn [bind]; [|discriminate].
        intros [= <-] H. cbn in *. rewrite (mapM_length _ _ _ E), combine_length in H. lia.
      + apply Nat.eqb_neq in L.
        destruct l as [|a [|a' l]].
        * destruct m as [|b [|b' m]]; cbn in L; try discriminate; try lia.
          cbn. intros [= <-] H. cbn in *. lia.
        * destruct (mapM (g a) m) as [r|] eqn:E; cbn [bind]; [|discriminate].
          intros [= <-] H. cbn in *. rewrite (mapM_length _ _ _ E) in H. lia.
        * destruct m as [|b [|b' m]]; try discriminate.
          destruct (mapM _ (a :: a' :: l)) as [r|] eqn:E; cbn [bind]; [|discriminate].
          intros [= <-] H. cbn [of_length] in *. rewrite (mapM_length _ _ _ E) in H.
          split; [exact H|right; reflexivity].
  Qed.
  Lemma lift1_back {B C} (g : B -> result C) x z k :
    lift1 g x = Ok z -> of_length k z -> of_length k x.
  Proof.
    destruct x as [a|l]; cbn [lift1]; [intros _ _; exact I|].
    destruct (mapM g l) as [r|] eqn:E; cbn [bind]; [|discriminate].
    intros [= <-] H. cbn in *. now rewrite (mapM_length _ _ _ E) in H.
  Qed.
  Lemma v_map_back (g : A -> A) x k : of_length k (v_map g x) -> of_length k x.
  Proof. destruct x; cbn; [auto|now rewrite map_length]. Qed.
  Lemma vdiv_back div (x y : vmag A) z k :
    vdiv div x y = Ok z -> of_length k z -> of_length k x /\ of_length k y.
  Proof.
    destruct x as [a|l], y as [b|m]; cbn [vdiv]; [intros _ _; split; exact I|..];
      apply lift2_back.
  Qed.

  Definition shaped (k : nat) (q : vquantity A) : Prop := of_length k (v_mag q).

  Lemma bind_ok {B C} (r : result B) (g : B -> result C) c :
    bind r g = Ok c -> exists b, r = Ok b /\ g b = Ok c.
  Proof. destruct r as [b|]; [eauto|discriminate]. Qed.
  Ltac unbind := repeat match goal with
    | H : bind ?r _ = Ok _ |- _ => destruct r eqn:?; cbn [bind] in H; [|discriminate H]
    end.
  Ltac unbind' := repeat match goal with
    | H : bind _ _ = Ok _ |- _ => apply bind_ok in H; destruct H as (? & ? & H)
    end.
  Lemma v_mul_back p q r k : v_mul p q = Ok r -> shaped k r -> shaped k p /\ shaped k q.
  Proof. unfold v_mul. intros H. unbind. injection H as <-. eapply lift2_back. eassumption. Qed.
  Lemma v_div_back div p q r k : v_div div p q = Ok r -> shaped k r -> shaped k p /\ shaped k q.
  Proof. unfold v_div. intros H. unbind. injection H as <-. eapply vdiv_back. eassumption. Qed.
  Lemma v_scale_back m q r k : v_scale m q = Ok r -> shaped k r -> of_length k m /\ shaped k q.
  Proof. unfold v_scale. intros H. unbind. injection H as <-. eapply lift2_back. eassumption. Qed.
  Lemma v_divn_back div q m r k : v_divn div q m = Ok r -> shaped k r -> shaped k q /\ of_length k m.
  Proof. unfold v_divn. intros H. unbind. injection H as <-. eapply vdiv_back. eassumption. Qed.
  Lemma v_to_back q u r k : v_to q u = Ok r -> shaped k r -> shaped k q.
  Proof.
    unfold v_to. destruct (dim_eqb _ _); [|discriminate]. intros [= <-]. apply v_map_back.
  Qed.
  Lemma v_sub_back p q r k : v_sub p q = Ok r -> shaped k r -> shaped k p /\ shaped k q.
  Proof.
    unfold v_sub. intros H. unbind. injection H as <-. intros S.
    destruct (lift2_back _ _ _ _ k Heqr4 S) as [P Q]. split; [exact P|].
    eapply v_to_back; eassumption.
  Qed.
  Lemma v_naddq_back c q r k : v_naddq c q = Ok r -> shaped k r -> shaped k q.
  Proof.
    unfold v_naddq. destruct (dim_eqb _ _); [|discriminate]. intros [= <-] H.
    apply v_map_back in H. apply v_map_back in H. exact H.
  Qed.
  Lemma v_sq_back q r k : v_sq q = Ok r -> shaped k r -> shaped k q.
  Proof. unfold v_sq. intros H. unbind. injection H as <-. apply v_map_back. Qed.
  Lemma v_sqrt_back q r k : v_sqrt q = Ok r -> shaped k r -> shaped k q.
  Proof.
    unfold v_sqrt. intros H. unbind. destruct (dim_root _ _); [|discriminate]. unbind.
    injection H as <-. eapply lift1_back. eassumption.
  Qed.
  Lemma v_plain_back q r k : v_plain q = Ok r -> of_length k r -> shaped k q.
  Proof. unfold v_plain. intros H. unbind. injection H as <-. eapply v_to_back. eassumption. Qed.
  Lemma v_parse_back v q reg k : v_parse v reg = Ok q -> shaped k q -> of_length k (arg_mag v).
  Proof.
    destruct v as [p|m s|]; cbn [v_parse]; [|destruct (lookup_unit s); [|discriminate]|discriminate];
      intros [= <-] H; exact H.
  Qed.
  Lemma v_parse_base_back v q reg k :
    v_parse_base v reg = Ok q -> shaped k q -> of_length k (arg_mag v).
  Proof.
    unfold v_parse_base. intros H. unbind. injection H as <-. intros S.
    apply v_map_back in S. eapply v_parse_back; eassumption.
  Qed.
  Lemma v_check_nonempty q d pos b : v_check q d pos = Ok b -> v_mag q <> Arr [].
  Proof.
    unfold v_check, check_pint_quantity, v_raw. intros H E. rewrite E in H. discriminate H.
  Qed.
  Lemma of_length_0_1 {B} (m : vmag B) : m <> Arr [] -> of_length 0 m -> of_length 1 m.
  Proof. destruct m as [a|[|a l]]; cbn; auto. congruence. intros _ [H|H]; auto; lia. Qed.

  (** the length a result asks for *)
  Definition len_of {B} (m : vmag B) : nat :=
    match m with Sca _ => 1 | Arr l => length l end.
  Lemma of_len_of {B} (m : vmag B) : of_length (len_of m) m.
  Proof. destruct m; cbn; auto. Qed.
  Lemma v_truth_one m b : truth m = Ok b -> m = Arr [] \/ of_length 1 m.
  Proof. destruct m as [c|[|c [|d l]]]; cbn; auto; discriminate. Qed.

  Lemma v_parse_mag v q reg : v_parse v reg = Ok q -> v_mag q = arg_mag v.
  Proof.
    destruct v as [p|m s|]; cbn [v_parse]; [|destruct (lookup_unit s); [|discriminate]|discriminate];
      intros [= <-]; reflexivity.
  Qed.
  Lemma v_parse_base_nonempty v q reg :
    v_parse_base v reg = Ok q -> v_mag q <> Arr [] -> arg_mag v <> Arr [].
  Proof.
    unfold v_parse_base. intros H. unbind. injection H as <-. intros N E. apply N.
    cbn [v_to_base v_mag]. unfold v_base_mag. rewrite (v_parse_mag _ _ _ Heqr), E. reflexivity.
  Qed.

  (** choose the common length *)
  Lemma common_length (P : nat -> Prop) k :
    P k -> (P 0 -> P 1) -> exists k, 0 < k /\ P k.
  Proof. destruct k as [|k]; intros H H'; [exists 1|exists (S k)]; auto with arith. Qed.

  Ltac back := repeat match goal with
    | H : v_plain _ = Ok _, L : of_length _ _ |- _ => apply (v_plain_back _ _ _ H) in L; clear H
    | H : v_div _ ?p ?q = Ok ?r, L : shaped _ ?r |- _ =>
        destruct (v_div_back _ _ _ _ _ H L); clear H
    | H : v_mul ?p ?q = Ok ?r, L : shaped _ ?r |- _ =>
        destruct (v_mul_back _ _ _ _ H L); clear H
    | H : v_scale _ ?q = Ok ?r, L : shaped _ ?r |- _ =>
        destruct (v_scale_back _ _ _ _ H L); clear H
    | H : v_divn _ _ _ = Ok ?r, L : shaped _ ?r |- _ =>
        destruct (v_divn_back _ _ _ _ _ H L); clear H
    | H : v_sub ?p ?q = Ok ?r, L : shaped _ ?r |- _ =>
        destruct (v_sub_back _ _ _ _ H L); clear H
    | H : v_naddq _ _ = Ok ?r, L : shaped _ ?r |- _ =>
        pose proof (v_naddq_back _ _ _ _ H L); clear H
    | H : v_sq _ = Ok ?r, L : shaped _ ?r |- _ => pose proof (v_sq_back _ _ _ H L); clear H
    | H : v_sqrt _ = Ok ?r, L : shaped _ ?r |- _ => pose proof (v_sqrt_back _ _ _ H L); clear H
    | H : v_to _ _ = Ok ?r, L : shaped _ ?r |- _ => pose proof (v_to_back _ _ _ _ H L); clear H
    end.

  Lemma window_sf_lengths l w t p m reg v :
    v_safety_factor l w t p m reg = Ok v ->
    exists k, 0 < k /\ of_length k (arg_mag l) /\ of_length k (arg_mag w)
              /\ of_length k (arg_mag t) /\ of_length k (arg_mag p) /\ of_length k (arg_mag m).
  Proof.
    unfold v_safety_factor. intros H. unbind.
    assert (L := of_len_of v). set (k := len_of v) in *. clearbody k.
    repeat match goal with C : v_check _ _ _ = Ok _ |- _ => apply v_check_nonempty in C end.
    apply (common_length _ k).
    - back.
      repeat split; eapply v_parse_base_back; eassumption.
    - intros (? & ? & ? & ? & ?).
      repeat split; (apply of_length_0_1; [eapply v_parse_base_nonempty; eassumption|assumption]).
  Qed.

  Lemma lift1_empty {B C} (g : B -> result C) x : lift1 g x = Ok (Arr []) -> x = Arr [].
  Proof.
    destruct x as [a|[|a l]]; cbn [lift1 mapM].
    - destruct (g a); discriminate.
    - reflexivity.
    - destruct (g a); cbn [bind]; [|discriminate].
      destruct (mapM g l); cbn [bind]; discriminate.
  Qed.
  Lemma window_mt_lengths l w s p m reg v :
    v_minimum_thickness l w s p m reg = Ok v ->
    exists k sm, 0 < k /\ s = VSfNum sm /\ (sm = Arr [] \/ of_length 1 sm)
              /\ of_length k (arg_mag l) /\ of_length k (arg_mag w)
              /\ of_length k (arg_mag p) /\ of_length k (arg_mag m).
  Proof.
    unfold v_minimum_thickness. intros H. unbind.
    destruct s as [sm|]; [|discriminate]. unbind.
    destruct a18; [discriminate|]. injection Heqr7 as <-.
    assert (Hsm : sm = Arr [] \/ of_length 1 sm).
    { destruct (v_truth_one _ _ Heqr18) as [E|E].
      - left. rewrite E in Heqr17. eapply lift1_empty. eassumption.
      - right. exact (lift1_back _ _ _ _ Heqr17 E). }
    assert (L := of_len_of (v_mag v)). set (k := len_of (v_mag v)) in *. clearbody k.
    change (shaped k v) in L.
    repeat match goal with C : v_check _ _ _ = Ok _ |- _ => apply v_check_nonempty in C end.
    assert (X : exists k, 0 < k /\ of_length k (arg_mag l) /\ of_length k (arg_mag w)
              /\ of_length k (arg_mag p) /\ of_length k (arg_mag m)).
    { apply (common_length _ k).
      - back. repeat split; eapply v_parse_base_back; eassumption.
      - intros (? & ? & ? & ?).
        repeat split; (apply of_length_0_1; [eapply v_parse_base_nonempty; eassumption|assumption]). }
    destruct X as (k' & Hk & X1 & X2 & X3 & X4). exists k', sm. repeat split; assumption.
  Qed.

  Lemma truth_lift2 {B C} (g : B -> C -> result bool) x y mask b :
    lift2 g x y = Ok mask -> truth mask = Ok b -> x <> Arr [] -> y <> Arr [] ->
    of_length 1 x /\ of_length 1 y.
  Proof.
    intros H T Nx Ny. destruct (v_truth_one _ _ T) as [E|E].
    - subst mask. destruct (lift2_back _ _ _ _ 0 H (or_introl eq_refl)) as [X Y].
      split; apply of_length_0_1; assumption.
    - eapply lift2_back; eassumption.
  Qed.
  Lemma v_base_mag_nonempty (q : vquantity A) : v_mag q <> Arr [] -> v_base_mag q <> Arr [].
  Proof. unfold v_base_mag. destruct (v_mag q) as [a|[|a l]]; cbn; congruence. Qed.
  Lemma v_lt_one p q b :
    v_lt p q = Ok b -> v_mag p <> Arr [] -> v_mag q <> Arr [] -> shaped 1 p /\ shaped 1 q.
  Proof.
    unfold v_lt. intros H Np Nq. unbind. destruct (dim_eqb _ _); [|discriminate]. unbind.
    destruct (truth_lift2 _ _ _ _ _ Heqr0 H) as [X Y]; auto using v_base_mag_nonempty.
    apply v_map_back in X. apply v_map_back in Y. split; assumption.
  Qed.
  Lemma lift2_empty {B C D} (g : B -> C -> result D) x y :
    lift2 g x y = Ok (Arr []) -> x = Arr [] \/ y = Arr [].
  Proof.
    intros H. destruct (lift2_back _ _ _ _ 0 H (or_introl eq_refl)) as [X Y].
    destruct x as [a|[|a [|a' l]]], y as [b|[|b [|b' m]]]; cbn in *; auto; try lia;
      exfalso; destruct (g a b); discriminate.
  Qed.
  Lemma v_mul_nonempty p q r :
    v_mul p q = Ok r -> v_mag p <> Arr [] -> v_mag q <> Arr [] -> v_mag r <> Arr [].
  Proof.
    unfold v_mul. intros H Np Nq. unbind. injection H as <-. cbn. intros ->.
    destruct (lift2_empty _ _ _ Heqr3); congruence.
  Qed.
  Lemma v_shear_back tpi e d x y r k :
    v_shear_area tpi e d x y = Ok r -> shaped k r -> shaped k e.
  Proof. unfold v_shear_area. intros H L. unbind. back. assumption. Qed.
  Lemma v_shear_nonempty tpi e d x y r :
    v_shear_area tpi e d x y = Ok r -> v_mag e <> Arr [] -> v_mag r <> Arr [].
  Proof.
    unfold v_shear_area. intros H N. unbind.
    eapply v_mul_nonempty; [exact H| |discriminate].
    eapply v_mul_nonempty; [eassumption| |discriminate].
    eapply v_mul_nonempty; [eassumption|discriminate|exact N].
  Qed.
  Lemma v_stress_one size cls b p e reg t :
    v_stress_areas size cls b p e reg = Ok t -> shaped 1 b /\ shaped 1 e.
  Proof.
    unfold v_stress_areas. cbv zeta. intros H. unbind'.
    repeat match goal with C : v_check _ _ _ = Ok _ |- _ => apply v_check_nonempty in C end.
    match goal with T : v_tensile_area _ _ _ _ _ = Ok _ |- _ => unfold v_tensile_area in T end.
    unbind'. split.
    - match goal with T : v_lt (v_rereg b reg) _ = Ok _ |- _ =>
        exact (proj1 (v_lt_one _ _ _ T ltac:(assumption) ltac:(discriminate))) end.
    - match goal with T : v_lt ?s (scalar _) = Ok ?c, S : v_shear_area _ _ _ _ _ = Ok ?s |- _ =>
        assert (N : v_mag s <> Arr []) by (eapply v_shear_nonempty; [exact S|assumption]);
        pose proof (proj1 (v_lt_one _ _ _ T N ltac:(discriminate))) as L;
        exact (v_shear_back _ _ _ _ _ _ _ S L) end.
  Qed.

  Lemma v_parse_nonempty v q reg :
    v_parse v reg = Ok q -> v_mag q <> Arr [] -> arg_mag v <> Arr [].
  Proof. intros H N. now rewrite <- (v_parse_mag _ _ _ H). Qed.
  Lemma bolt_lengths p w nb size cls b pl e reg v :
    v_bolt_safety_factors p w nb size cls b pl e reg = Ok v -> nb <> Arr [] ->
    of_length 1 (arg_mag b) /\ of_length 1 (arg_mag e)
    /\ exists k, 0 < k /\ of_length k (arg_mag p) /\ of_length k (arg_mag w)
        /\ of_length k nb /\ of_length k (arg_mag pl).
  Proof.
    unfold v_bolt_safety_factors. cbv zeta. intros H Nb. unbind'.
    match goal with T : v_stress_areas _ _ _ _ _ _ = Ok _ |- _ =>
      destruct (v_stress_one _ _ _ _ _ _ _ T) as [Lb Le] end.
    split; [eapply v_parse_back; eassumption|]. split; [eapply v_parse_back; eassumption|].
    repeat match goal with C : v_check _ _ _ = Ok _ |- _ => apply v_check_nonempty in C end.
    injection H as Hv.
    match goal with P : v_plain _ = Ok ?r, P2 : v_plain _ = Ok ?r2, Hv : mkVFactors ?r2 ?r _ = _ |- _ =>
      assert (L := of_len_of r); set (k := len_of r) in *; clearbody k; clear P2 Hv end.
    apply (common_length _ k).
    - back.
      repeat split; first [assumption | eapply v_parse_back; eassumption].
    - intros (? & ? & ? & ?).
      repeat split; (apply of_length_0_1;
        [first [assumption|eapply v_parse_nonempty; eassumption]|assumption]).
  Qed.
End Shape.
