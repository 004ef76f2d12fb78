(** * HeapM: sd.py and calculate_reflected_shock_state with gas objects as objects.

    SdM.v and ThermoM.v pass gas states around as values.  Here a gas is a reference to an
    object that the code changes in place, as in Python, so that it matters which of the
    arguments are the same object and what is left of them after an exception.  The
    arithmetic is SdM's. *)
From Coq Require Import String ZArith QArith List Bool.
From Verif Require Import PyBase Pint UnitsM Gas FitM SdM ThermoM.
Import ListNotations.
Local Open Scope num_scope.

(** The gas objects of the process: the state of each, and the first address not in use. *)
Record heap (G : Type) : Type := mkHeap { obj : nat -> G; next : nat }.
Arguments mkHeap {G}.
Arguments obj {G}.
Arguments next {G}.

Definition write {G} (h : heap G) (r : nat) (g : G) : heap G :=
  mkHeap (fun x => if Nat.eqb x r then g else obj h x) (next h).

(** A computation that may change gas objects: events, objects afterwards, value. *)
Record outcome (A G B : Type) : Type := mkOut {
  o_trace : list (event A); o_heap : heap G; o_value : result B }.
Arguments mkOut {A G B}.
Arguments o_trace {A G B}.
Arguments o_heap {A G B}.
Arguments o_value {A G B}.
Definition hio (A G B : Type) : Type := heap G -> outcome A G B.

Definition h_ret {A G B} (b : B) : hio A G B := fun h => mkOut [] h (Ok b).
Definition h_pure {A G B} (r : result B) : hio A G B := fun h => mkOut [] h r.
Definition h_emit {A G} (e : event A) : hio A G unit := fun h => mkOut [e] h (Ok tt).
Definition h_act {A G B} (e : event A) (r : result B) : hio A G B := fun h => mkOut [e] h r.
(** a computation on the states the objects have now, without effects *)
Definition h_look {A G B} (f : (nat -> G) -> result B) : hio A G B :=
  fun h => mkOut [] h (f (obj h)).
Definition h_bind {A G B C} (m : hio A G B) (f : B -> hio A G C) : hio A G C :=
  fun h =>
    let o := m h in
    match o_value o with
    | Ok b => let o' := f b (o_heap o) in
              mkOut (o_trace o ++ o_trace o') (o_heap o') (o_value o')
    | Err e => mkOut (o_trace o) (o_heap o) (Err e)
    end.

Notation "'run' x <- e ; k" := (h_bind e (fun x => k))
  (at level 200, x pattern, e at level 100, k at level 200, right associativity).

Fixpoint h_map {A G B C} (f : B -> hio A G C) (l : list B) : hio A G (list C) :=
  match l with
  | [] => h_ret []
  | x :: r => run y <- f x; run ys <- h_map f r; h_ret (y :: ys)
  end.

Section Heap.
  Context {A G X : Type} {NA : Num A} (L : cantera A G X).
  (** what a failed call leaves of the object it was called on: anything at all *)
  Context (wreck : event A -> G -> G).

  (** ct.Solution(mechanism): a new object *)
  Definition h_new (mech phase : string) : hio A G nat :=
    fun h => match ct_new L mech phase with
             | Ok g => mkOut [EvNew mech phase]
                             (mkHeap (obj (write h (next h) g)) (S (next h))) (Ok (next h))
             | Err e => mkOut [EvNew mech phase] h (Err e)
             end.
  (** a method or property setter that changes object [r] *)
  Definition h_mutate (r : nat) (e : event A) (f : G -> result G) : hio A G unit :=
    fun h => match f (obj h r) with
             | Ok g => mkOut [e] (write h r g) (Ok tt)
             | Err ex => mkOut [e] (write h r (wreck e (obj h r))) (Err ex)
             end.
  Definition h_set_TPX (r : nat) (T P : A) (x : X) : hio A G unit :=
    h_mutate r (EvTPX T P) (fun g => ct_set_TPX L g T P x).
  Definition h_set_TD (r : nat) (T D : A) : hio A G unit :=
    h_mutate r (EvTD T D) (fun g => ct_set_TD L g T D).
  Definition h_equilibrate (r : nat) (XY : string) : hio A G unit :=
    h_mutate r (EvEquilibrate XY) (fun g => ct_equilibrate L g XY).

  (** sd.py:468-502 Properties.equilibrium *)
  Definition h_equilibrium (gas : nat) (density temperature : A) : hio A G unit :=
    run _ <- h_set_TD gas temperature density;
    h_equilibrate gas "TV".

  (** sd.py:512-569 GetError.equilibrium: reads both objects *)
  Definition h_error (working initial : nat) (V : A) : hio A G (A * A) :=
    h_look (fun o => error_equilibrium L (o working) (o initial) V).

  (** sd.py:172-252, the loop body of cj_state *)
  Definition h_cj_body (initial : nat) (density : A) (working : nat) (T V : A)
    : hio A G (A * A * A * A) :=
    run (eh, ep) <- h_error working initial V;
    let dT := lit 0.02 * T in
    run _ <- h_equilibrium working density (T + dT);
    run (eh1, ep1) <- h_error working initial V;
    run h_T <- h_pure (pydiv (eh1 - eh) dT);
    run p_T <- h_pure (pydiv (ep1 - ep) dT);
    let dV := lit 0.02 * V in
    let V' := V + dV in
    run _ <- h_equilibrium working density T;
    run (eh2, ep2) <- h_error working initial V';
    run h_V <- h_pure (pydiv (eh2 - eh) dV);
    run p_V <- h_pure (pydiv (ep2 - ep) dV);
    run (dT, dV) <- h_pure (solve2 pydiv h_T p_T h_V p_V eh ep);
    run dT <- h_pure (limit_temperature dT T);
    let T := T + dT in
    let V := V + dV in
    run _ <- h_equilibrium working density T;
    h_ret (T, V, dT, dV).

  (** sd.py:152-254, the loop; returns [working_gas, guess_velocity] *)
  Fixpoint h_cj_loop (fuel : nat) (initial : nat) (tol_T tol_V density : A)
    (max_iterations : Z) (loop_counter : Z) (working : nat) (T V dT dV : A)
    : hio A G (nat * A) :=
    if (tol_T * T <? nabs dT) || (tol_V * V <? nabs dV) then
      match fuel with
      | O => h_act EvStuck (Err OutOfFuel)
      | S fuel =>
        let loop_counter := (loop_counter + 1)%Z in
        if Z.eqb loop_counter max_iterations then
          run _ <- h_emit (EvWarn (no_convergence max_iterations));
          h_ret (working, V)
        else
          run (T, V, dT, dV) <- h_cj_body initial density working T V;
          h_cj_loop fuel initial tol_T tol_V density max_iterations loop_counter
                    working T V dT dV
      end
    else h_ret (working, V).

  (** sd.py:92-254 cj_state *)
  Definition h_cj_state (fuel : nat) (div : A -> A -> result A) (working initial : nat)
    (tol_T tol_V density_ratio : A) (max_iterations : Z) : hio A G (nat * A) :=
    run initial_volume <- h_look (fun o => pydiv one (ct_density L (o initial)));
    let T := lit 2000 in
    let V := lit 2000 in
    run guess_volume <- h_pure (div initial_volume density_ratio);
    run guess_density <- h_pure (div one guess_volume);
    let dT := lit 1000 in
    let dV := lit 1000 in
    run _ <- h_equilibrium working guess_density T;
    h_cj_loop fuel initial tol_T tol_V guess_density max_iterations 0 working T V dT dV.

  (** sd.py:256-291 _calculate_over_ratio_range *)
  Definition h_over_ratio (x : X) (T P : A) (mech : string) (tol_T tol_V : A)
    (job : nat * A) : hio A G (nat * A) :=
    run initial <- h_new mech "";
    run _ <- h_set_TPX initial T P x;
    run working <- h_new mech "";
    run _ <- h_set_TPX working T P x;
    run (_, velocity) <- h_cj_state 500 npdiv working initial tol_T tol_V (snd job) 500;
    h_ret (fst job, velocity).

  (** sd.py:369-401.  Pool workers have objects of their own: nothing here changes. *)
  Definition h_run_jobs (p : pool A) (round : nat) (f : nat * A -> hio A G (nat * A))
    (jobs : list (nat * A)) : hio A G (list (nat * A)) :=
    match p with
    | Serial => h_map f jobs
    | Workers schedule =>
        fun h => let o := h_map f (schedule round jobs) h in mkOut (o_trace o) h (o_value o)
    end.

  (** sd.py:360-417 *)
  Fixpoint h_speed_loop (fuel : nat) (p : pool A) (x : X) (T P : A) (mech : string)
    (tol_T tol_V : A) (counter : nat) (r_squared : result A) (delta_r_squared : A)
    (rmin rmax : A) (done : list (round A)) : hio A G (list (round A)) :=
    if (Nat.leb counter 4
        && (r2_lt r_squared (lit 0.99999) || (delta_r_squared <? lit 0.0000001)))%bool
    then
      match fuel with
      | O => h_act EvStuck (Err OutOfFuel)
      | S fuel =>
        let ratios := linspace21 rmin rmax in
        run res <- h_run_jobs p counter (h_over_ratio x T P mech tol_T tol_V)
                              (combine (seq 0 (length ratios)) ratios);
        let velocities := map snd (sort_pairs res) in
        run f <- h_pure (cj_curve_fit ratios velocities);
        run vertex <- h_pure (npdiv (- fit_b f) (lit 2 * fit_a f));
        h_speed_loop fuel p x T P mech tol_T tol_V (counter + 1) (fit_r2 f) delta_r_squared
                     (vertex * (one - lit 0.001)) (vertex * (one + lit 0.001))
                     (done ++ [(ratios, velocities, f, vertex)])
      end
    else h_ret done.

  Definition h_pool_step (p : pool A) (e : event A) : hio A G unit :=
    match p with Serial => h_ret tt | Workers _ => h_emit e end.

  (** sd.py:293-463 cj_speed with return_state=True, return_r_squared=False, as
      calculate_reflected_shock_state calls it: the speed and the gas object *)
  Definition h_cj_speed (P T : A) (x : X) (mech : string) (p : pool A) : hio A G (A * nat) :=
    let tol := lit 0.0001 in
    run _ <- h_pool_step p EvPoolOpen;
    run done <- h_speed_loop 4 p x T P mech tol tol 1 (Ok zero) zero (lit 1.5) (lit 2.0) [];
    run _ <- h_pool_step p EvPoolClose;
    let '(a, b, c, vertex, r_squared) := last_round done in
    let speed := a * sq vertex + b * vertex + c in
    (* sd.py:425-444 *)
    run initial <- h_new mech "";
    run working <- h_new mech "";
    run _ <- h_set_TPX initial T P x;
    run _ <- h_set_TPX working T P x;
    run (gas, _) <- h_cj_state 500 npdiv working initial tol tol vertex 500;
    (* sd.py:447-458: the dict holds working_gas *)
    h_ret (speed, working).

  (** sd.py:572-629 GetError.reflected_shock_frozen: reads both objects *)
  Definition h_error_reflected (div : A -> A -> result A) (speed : A) (working post_shock : nat)
    : hio A G (A * A) :=
    h_look (fun o => error_reflected L div speed (o working) (o post_shock)).

  (** sd.py:788-894 *)
  Definition h_eq_body (div : A -> A -> result A) (speed : A) (post_shock : nat)
    (post_shock_volume : A) (working : nat) (T v density : A)
    : hio A G (A * A * A * A * A) :=
    run (eh, ep) <- h_error_reflected div speed working post_shock;
    let dT := T * lit 0.02 in
    run _ <- h_equilibrium working density (T + dT);
    run (eh1, ep1) <- h_error_reflected div speed working post_shock;
    run h_T <- h_pure (div (eh1 - eh) dT);
    run p_T <- h_pure (div (ep1 - ep) dT);
    let dv := lit 0.02 * v in
    run density' <- h_pure (pydiv one (v + dv));
    run _ <- h_equilibrium working density' T;
    run (eh2, ep2) <- h_error_reflected div speed working post_shock;
    run h_v <- h_pure (div (eh2 - eh) dv);
    run p_v <- h_pure (div (ep2 - ep) dv);
    run (dT, dv) <- h_pure (solve2 div h_T p_T h_v p_v eh ep);
    run dT <- h_pure (limit_temperature_reflected div dT T);
    run dv <- h_pure (limit_volume div dv v post_shock_volume);
    let T := T + dT in
    let v := v + dv in
    run density <- h_pure (div one v);
    run _ <- h_equilibrium working density T;
    h_ret (T, v, density, dT, dv).

  (** sd.py:770-896 *)
  Fixpoint h_eq_loop (fuel : nat) (div : A -> A -> result A) (speed : A) (post_shock : nat)
    (post_shock_volume tol_T tol_v : A) (max_iterations : Z) (loop_counter : Z)
    (working : nat) (T v density dT dv : A) : hio A G nat :=
    if (tol_T * T <? nabs dT) || (tol_v * v <? nabs dv) then
      match fuel with
      | O => h_act EvStuck (Err OutOfFuel)
      | S fuel =>
        let loop_counter := (loop_counter + 1)%Z in
        if Z.eqb loop_counter max_iterations then
          run _ <- h_emit (EvWarn (did_not_converge loop_counter));
          h_ret working
        else
          run (T, v, density, dT, dv) <-
            h_eq_body div speed post_shock post_shock_volume working T v density;
          h_eq_loop fuel div speed post_shock post_shock_volume tol_T tol_v
                    max_iterations loop_counter working T v density dT dv
      end
    else h_ret working.

  (** sd.py:715-896 get_eq_state *)
  Definition h_get_eq_state (fuel : nat) (div : A -> A -> result A) (speed : A)
    (post_shock working : nat) (tol_T tol_v : A) (max_iterations : Z) : hio A G nat :=
    run post_shock_volume <- h_look (fun o => pydiv one (ct_density L (o post_shock)));
    run T <- h_look (fun o => Ok (ct_T L (o working)));
    run density <- h_look (fun o => Ok (ct_density L (o working)));
    run v <- h_pure (pydiv one density);
    let dT := lit 1000 in
    let dv := lit 1000 in
    run _ <- h_equilibrium working density T;
    h_eq_loop fuel div speed post_shock post_shock_volume tol_T tol_v max_iterations 0
              working T v density dT dv.

  (** sd.py:633-712 Reflection.reflect *)
  Definition h_reflect (initial post_shock working : nat) (incident_shock_speed : A)
    : hio A G (A * A * nat) :=
    run initial_pressure <- h_look (fun o => Ok (ct_P L (o initial)));
    run initial_volume <- h_look (fun o => pydiv one (ct_density L (o initial)));
    run P2 <- h_look (fun o => Ok (ct_P L (o post_shock)));
    run rho2 <- h_look (fun o => Ok (ct_density L (o post_shock)));
    run v2 <- h_look (fun o => pydiv one (ct_density L (o post_shock)));
    run T2 <- h_look (fun o => Ok (ct_T L (o post_shock)));
    run u <- h_pure (npsqrt ((P2 - initial_pressure) * (initial_volume - v2)));
    run vw <- h_pure (pydiv (lit 0.2) rho2);
    run q <- h_pure (pydiv vw v2);
    let Pw := P2 + rho2 * sq incident_shock_speed * (one - q) in
    run Tw <- h_pure (pydiv (T2 * Pw * vw) (P2 * v2));
    run x2 <- h_look (fun o => Ok (ct_X L (o post_shock)));
    run _ <- h_set_TPX working Tw Pw x2;
    run working <- h_get_eq_state 500 npdiv u post_shock working (lit 0.0001) (lit 0.0001) 500;
    run P3 <- h_look (fun o => Ok (ct_P L (o working)));
    run k <- h_pure (npdiv (P3 - P2) u);
    run k <- h_pure (npdiv k rho2);
    let Wr := k - u in
    h_ret (P3, Wr, working).

  (** thermochem.py:169-265; the gas objects in the returned dict are references *)
  Definition h_calculate_reflected_shock_state (initial_temperature initial_pressure : quantity A)
    (species : X) (mechanism : string) (reg : nat) (p : pool A)
    : hio A G (shock_states A nat) :=
    run initial_gas <- h_new mechanism "";
    run reflected_gas <- h_new mechanism "";
    run T <- h_pure (in_unit initial_temperature "K");
    run P <- h_pure (in_unit initial_pressure "Pa");
    run _ <- h_set_TPX initial_gas T P species;
    run _ <- h_set_TPX reflected_gas T P species;
    run (cj_speed, cj_state) <- h_cj_speed P T species mechanism p;
    run (_, reflected_speed, reflected_gas) <-
      h_reflect initial_gas cj_state reflected_gas cj_speed;
    run ws <- h_pure (quant reg reflected_speed "m/s");
    run cs <- h_pure (quant reg cj_speed "m/s");
    h_ret (mkShock ws reflected_gas cs cj_state).
End Heap.
