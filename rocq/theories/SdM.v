(** * SdM: model of pypbomb/sd.py (Detonation, Properties, GetError, Reflection). *)
From Coq Require Import String ZArith QArith List Bool.
From Verif Require Import PyBase Show Gas FitM.
Import ListNotations.
Local Open Scope num_scope.

Section Sd.
  Context {A G X : Type} {NA : Num A} (L : cantera A G X).

  (** sd.py:466-502 Properties.equilibrium.  [gas] is updated in place in Python; the
      model returns the new state.  The returned dict is ignored by every caller in
      pypbomb and is left out here ([equilibrium_dict] below has it). *)
  Definition equilibrium (gas : G) (density temperature : A) : io A G :=
    do g <- set_TD L gas temperature density;
    equilibrate L g "TV".

  (** sd.py:497-502: the dict {"pressure": gas.P, "enthalpy": gas.enthalpy_mass} *)
  Definition equilibrium_dict (gas : G) (density temperature : A)
    : io A (G * list (string * A)) :=
    do g <- equilibrium gas density temperature;
    ret (g, [("pressure"%string, ct_P L g); ("enthalpy"%string, ct_enthalpy L g)]).

  (** sd.py:512-569 GetError.equilibrium *)
  Definition error_equilibrium (working initial : G) (initial_velocity : A)
    : result (A * A) :=
    let initial_pressure := ct_P L initial in
    let initial_enthalpy := ct_enthalpy L initial in
    let initial_density := ct_density L initial in
    let working_pressure := ct_P L working in
    let working_enthalpy := ct_enthalpy L working in
    let working_density := ct_density L working in
    (* sd.py:551 *)
    let* working_velocity := pydiv (initial_velocity * initial_density) working_density in
    let sqr_vel_initial := sq initial_velocity in
    let sqr_vel_working := sq working_velocity in
    (* sd.py:556-567 *)
    let enthalpy_error :=
      (working_enthalpy + lit 0.5 * sqr_vel_working)
      - (initial_enthalpy + lit 0.5 * sqr_vel_initial) in
    let pressure_error :=
      (working_pressure + working_density * sqr_vel_working)
      - (initial_pressure + initial_density * sqr_vel_initial) in
    Ok (enthalpy_error, pressure_error).

  (** sd.py:571-628 GetError.reflected_shock_frozen.  [div] is [pydiv] when
      [shock_speed] is a Python float and [npdiv] when it is a numpy float64 (as when
      Reflection.reflect calls it); the division of the two densities is always
      between Python floats. *)
  Definition error_reflected (div : A -> A -> result A)
    (shock_speed : A) (working post_shock : G) : result (A * A) :=
    let post_shock_pressure := ct_P L post_shock in
    let post_shock_enthalpy := ct_enthalpy L post_shock in
    let post_shock_density := ct_density L post_shock in
    let working_pressure := ct_P L working in
    let working_enthalpy := ct_enthalpy L working in
    let working_density := ct_density L working in
    (* sd.py:609-616 *)
    let* r := pydiv working_density post_shock_density in
    let* eh := div (lit 0.5 * sq shock_speed * (r + one)) (r - one) in
    let enthalpy_error := working_enthalpy - post_shock_enthalpy - eh in
    (* sd.py:618-626 *)
    let* ep := div (working_density * sq shock_speed) (r - one) in
    let pressure_error := working_pressure - post_shock_pressure - ep in
    Ok (enthalpy_error, pressure_error).

  (** the 2x2 solve of sd.py:225-237 and 842-859:
      (b[0]*a[0]+b[1]*a[1])/j and (b[2]*a[0]+b[3]*a[1])/j *)
  Definition solve2 (div : A -> A -> result A) (h_1 p_1 h_2 p_2 eh ep : A)
    : result (A * A) :=
    let j := h_1 * p_2 - p_1 * h_2 in
    let* d1 := div (p_2 * (- eh) + (- h_2) * (- ep)) j in
    let* d2 := div ((- p_1) * (- eh) + h_1 * (- ep)) j in
    Ok (d1, d2).

  (** ** Detonation.cj_state (sd.py:92-254) *)

  (** sd.py:240-243: limit temperature changes; [delta *= max / abs(delta)] *)
  Definition limit_temperature (delta guess : A) : result A :=
    let max_delta := lit 0.2 * guess in
    if max_delta <? nabs delta then
      let* k := pydiv max_delta (nabs delta) in Ok (delta * k)
    else Ok delta.

  (** One pass through the loop body, sd.py:172-252.  Returns the working gas, the new
      temperature and velocity and the two deltas. *)
  Definition cj_body (initial : G) (density : A) (gas : G) (T V : A)
    : io A (G * A * A * A * A) :=
    (* sd.py:172-177 *)
    do (eh, ep) <- pure (error_equilibrium gas initial V);
    (* sd.py:180-200 *)
    let dT := lit 0.02 * T in
    do gas <- equilibrium gas density (T + dT);
    do (eh1, ep1) <- pure (error_equilibrium gas initial V);
    do h_T <- pure (pydiv (eh1 - eh) dT);
    do p_T <- pure (pydiv (ep1 - ep) dT);
    (* sd.py:203-222 *)
    let dV := lit 0.02 * V in
    let V' := V + dV in
    do gas <- equilibrium gas density T;
    do (eh2, ep2) <- pure (error_equilibrium gas initial V');
    do h_V <- pure (pydiv (eh2 - eh) dV);
    do p_V <- pure (pydiv (ep2 - ep) dV);
    (* sd.py:225-237 *)
    do (dT, dV) <- pure (solve2 pydiv h_T p_T h_V p_V eh ep);
    (* sd.py:240-243 *)
    do dT <- pure (limit_temperature dT T);
    (* sd.py:246-252 *)
    let T := T + dT in
    let V := V + dV in
    do gas <- equilibrium gas density T;
    ret (gas, T, V, dT, dV).

  (** sd.py:164-166, the text of the warning *)
  Definition no_convergence (max_iterations : Z) : string :=
    ("No convergence within " ++ show_int max_iterations ++ " iterations")%string.

  (** sd.py:152-254, the loop.  [fuel] is the model's own bound on the number of
      passes: running out of it is recorded as [EvStuck]. *)
  Fixpoint cj_loop (fuel : nat) (initial : G) (tol_T tol_V density : A)
    (max_iterations : Z) (loop_counter : Z) (gas : G) (T V dT dV : A)
    : io A (G * A) :=
    (* sd.py:153-159 *)
    if (tol_T * T <? nabs dT) || (tol_V * V <? nabs dV) then
      match fuel with
      | O => act EvStuck (Err OutOfFuel)
      | S fuel =>
        let loop_counter := (loop_counter + 1)%Z in
        if Z.eqb loop_counter max_iterations then
          (* sd.py:162-169 *)
          do _ <- emit (EvWarn (no_convergence max_iterations));
          ret (gas, V)
        else
          do (gas, T, V, dT, dV) <- cj_body initial density gas T V;
          cj_loop fuel initial tol_T tol_V density max_iterations loop_counter
                  gas T V dT dV
      end
    else ret (gas, V).

  (** sd.py:92-254.  [div] is [pydiv] for a Python-float density ratio and [npdiv] for
      a numpy one (as when cj_speed calls it). *)
  Definition cj_state (fuel : nat) (div : A -> A -> result A) (working initial : G)
    (tol_T tol_V density_ratio : A) (max_iterations : Z) : io A (G * A) :=
    (* sd.py:133-139 *)
    do initial_volume <- pure (pydiv one (ct_density L initial));
    let T := lit 2000 in
    let V := lit 2000 in
    do guess_volume <- pure (div initial_volume density_ratio);
    do guess_density <- pure (div one guess_volume);
    (* sd.py:142-143 *)
    let dT := lit 1000 in
    let dV := lit 1000 in
    (* sd.py:146-150 *)
    do gas <- equilibrium working guess_density T;
    cj_loop fuel initial tol_T tol_V guess_density max_iterations 0 gas T V dT dV.

  (** ** Detonation.cj_speed (sd.py:256-463) *)

  (** a gas object in the given state: sd.py:268-279 *)
  Definition fresh_gas (mech : string) (T P : A) (x : X) : io A G :=
    do g <- new_solution L mech "";
    set_TPX L g T P x.

  (** sd.py:256-291 _calculate_over_ratio_range (max_iterations = 500, the default) *)
  Definition over_ratio (x : X) (T P : A) (mech : string) (tol_T tol_V : A)
    (job : nat * A) : io A (nat * A) :=
    do initial <- fresh_gas mech T P x;
    do working <- fresh_gas mech T P x;
    do (_, velocity) <- cj_state 500 npdiv working initial tol_T tol_V (snd job) 500;
    ret (fst job, velocity).

  (** np.linspace(start, stop, 21): start + i*step, last point exactly stop *)
  Definition linspace21 (start stop : A) : list A :=
    let step := (stop - start) / lit 20 in
    map (fun i => n_of_nat i * step + start) (seq 0 20) ++ [stop].

  (** list.sort() on (index, value) pairs: lexicographic, stable *)
  Definition pair_leb (p q : nat * A) : bool :=
    if Nat.eqb (fst p) (fst q) then snd p <=? snd q else Nat.ltb (fst p) (fst q).
  Fixpoint insert_pair (p : nat * A) (l : list (nat * A)) : list (nat * A) :=
    match l with
    | [] => [p]
    | q :: r => if pair_leb p q then p :: l else q :: insert_pair p r
    end.
  Definition sort_pairs (l : list (nat * A)) : list (nat * A) :=
    fold_right insert_pair [] l.

  (** How the 21 jobs of a round are run (sd.py:369-401): serially, or by a pool whose
      workers finish in the order given by a schedule.  The pool is not assumed to
      hand back results in the order of submission; if a job raises, the exception of
      the first job to fail is raised. *)
  Inductive pool : Type :=
  | Serial
  | Workers (schedule : nat -> list (nat * A) -> list (nat * A)).

  Definition run_jobs (p : pool) (round : nat) (f : nat * A -> io A (nat * A))
    (jobs : list (nat * A)) : io A (list (nat * A)) :=
    match p with
    | Serial => io_map f jobs
    | Workers schedule => io_map f (schedule round jobs)
    end.

  (** sd.py:348-349 and 419-420: the pool is made before the first round and closed
      after the last, if there is one *)
  Definition pool_step (p : pool) (e : event A) : io A unit :=
    match p with Serial => ret tt | Workers _ => emit e end.

  (** comparisons with an R^2 that may be nan: false *)
  Definition r2_lt (r : result A) (y : A) : bool :=
    match r with Ok x => x <? y | Err _ => false end.

  (** sd.py:360-417, the loop.  [delta_r_squared] is initialised to 0.0 (sd.py:357)
      and never assigned again.  State: counter, r_squared, min and max ratio, the
      last fit and its vertex.  The trailing list is a record of the ratio arrays that
      were fitted, with their velocities (not part of the Python state). *)
  Definition round : Type := (list A * list A * fit A * A)%type.
  Fixpoint speed_loop (fuel : nat) (p : pool) (x : X) (T P : A) (mech : string)
    (tol_T tol_V : A) (counter : nat) (r_squared : result A) (delta_r_squared : A)
    (rmin rmax : A) (done : list round) : io A (list round) :=
    if (Nat.leb counter 4
        && (r2_lt r_squared (lit 0.99999) || (delta_r_squared <? lit 0.0000001)))%bool
    then
      match fuel with
      | O => act EvStuck (Err OutOfFuel)
      | S fuel =>
        (* sd.py:363-367 *)
        let ratios := linspace21 rmin rmax in
        (* sd.py:369-401 *)
        do res <- run_jobs p counter (over_ratio x T P mech tol_T tol_V)
                           (combine (seq 0 (length ratios)) ratios);
        (* sd.py:403-406 *)
        let velocities := map snd (sort_pairs res) in
        (* sd.py:409-413 *)
        do f <- pure (cj_curve_fit ratios velocities);
        do vertex <- pure (npdiv (- fit_b f) (lit 2 * fit_a f));
        (* sd.py:415-417 *)
        speed_loop fuel p x T P mech tol_T tol_V (counter + 1) (fit_r2 f) delta_r_squared
                   (vertex * (one - lit 0.001)) (vertex * (one + lit 0.001))
                   (done ++ [(ratios, velocities, f, vertex)])
      end
    else ret done.

  (** sd.py:422-423: value of the last fit at its vertex.  [a], [b], [c] and the vertex
      are 0 if no round was done (sd.py:344-346, 358). *)
  Definition last_round (done : list round) : A * A * A * A * result A :=
    match rev done with
    | [] => (zero, zero, zero, zero, Ok zero)
    | (_, _, f, v) :: _ => (fit_a f, fit_b f, fit_c f, v, fit_r2 f)
    end.

  (** the value of one entry of the returned dict *)
  Inductive entry : Type := ENumber (a : A) | EMaybe (r : result A) | EGas (g : G).

  (** sd.py:293-463 cj_speed.  Also returns the record of rounds. *)
  Definition cj_speed_rounds (P T : A) (x : X) (mech : string) (p : pool)
    (return_r_squared return_state : bool)
    : io A (list round * list (string * entry)) :=
    let tol := lit 0.0001 in
    do _ <- pool_step p EvPoolOpen;
    do done <- speed_loop 4 p x T P mech tol tol 1 (Ok zero) zero
                          (lit 1.5) (lit 2.0) [];
    do _ <- pool_step p EvPoolClose;
    let '(a, b, c, vertex, r_squared) := last_round done in
    let speed := a * sq vertex + b * vertex + c in
    if return_state then
      (* sd.py:425-444 *)
      do initial0 <- new_solution L mech "";
      do working0 <- new_solution L mech "";
      do initial <- set_TPX L initial0 T P x;
      do working <- set_TPX L working0 T P x;
      do (gas, _) <- cj_state 500 npdiv working initial tol tol vertex 500;
      if return_r_squared then
        ret (done, [("cj speed"%string, ENumber speed);
                    ("R^2"%string, EMaybe r_squared);
                    ("cj state"%string, EGas gas)])
      else
        ret (done, [("cj speed"%string, ENumber speed); ("cj state"%string, EGas gas)])
    else if return_r_squared then
      ret (done, [("cj speed"%string, ENumber speed); ("R^2"%string, EMaybe r_squared)])
    else ret (done, [("cj speed"%string, ENumber speed)]).

  Definition cj_speed (P T : A) (x : X) (mech : string) (p : pool)
    (return_r_squared return_state : bool) : io A (list (string * entry)) :=
    do (_, d) <- cj_speed_rounds P T x mech p return_r_squared return_state;
    ret d.

  (** ** Reflection.get_eq_state (sd.py:715-896) *)

  (** sd.py:862-868: limit the temperature step *)
  Definition limit_temperature_reflected (div : A -> A -> result A) (delta guess : A)
    : result A :=
    let m := lit 0.2 * guess in
    if m <? nabs delta then div (m * delta) (nabs delta) else Ok delta.

  (** sd.py:871-882: limit the volume step *)
  Definition limit_volume (div : A -> A -> result A) (delta guess post_shock : A)
    : result A :=
    let perturbed := guess + delta in
    let m := if post_shock <? perturbed then lit 0.5 * (post_shock - guess)
             else lit 0.2 * guess in
    if m <? nabs delta then div (m * delta) (nabs delta) else Ok delta.

  (** One pass through the loop body, sd.py:788-894. *)
  Definition eq_body (div : A -> A -> result A) (speed : A) (post_shock : G)
    (post_shock_volume : A) (gas : G) (T v density : A)
    : io A (G * A * A * A * A * A) :=
    (* sd.py:788-793 *)
    do (eh, ep) <- pure (error_reflected div speed gas post_shock);
    (* sd.py:796-816 *)
    let dT := T * lit 0.02 in
    do gas <- equilibrium gas density (T + dT);
    do (eh1, ep1) <- pure (error_reflected div speed gas post_shock);
    do h_T <- pure (div (eh1 - eh) dT);
    do p_T <- pure (div (ep1 - ep) dT);
    (* sd.py:819-839 *)
    let dv := lit 0.02 * v in
    (* v is never 0 here: it comes from 1/density or has passed the division of 887 *)
    do density' <- pure (pydiv one (v + dv));
    do gas <- equilibrium gas density' T;
    do (eh2, ep2) <- pure (error_reflected div speed gas post_shock);
    do h_v <- pure (div (eh2 - eh) dv);
    do p_v <- pure (div (ep2 - ep) dv);
    (* sd.py:842-859 *)
    do (dT, dv) <- pure (solve2 div h_T p_T h_v p_v eh ep);
    (* sd.py:862-882 *)
    do dT <- pure (limit_temperature_reflected div dT T);
    do dv <- pure (limit_volume div dv v post_shock_volume);
    (* sd.py:885-894 *)
    let T := T + dT in
    let v := v + dv in
    do density <- pure (div one v);
    do gas <- equilibrium gas density T;
    ret (gas, T, v, density, dT, dv).

  (** sd.py:783-784, the text of the warning: a call binds tighter than [+], so [format]
      works on the second literal alone and the first one keeps its braces *)
  Definition did_not_converge (loop_counter : Z) : string :=
    ("Calculation did not converge for U = {0:.2f} " ++
     ("after " ++ show_int loop_counter ++ " iterations"))%string.

  (** sd.py:770-896, the loop. *)
  Fixpoint eq_loop (fuel : nat) (div : A -> A -> result A) (speed : A) (post_shock : G)
    (post_shock_volume tol_T tol_v : A) (max_iterations : Z) (loop_counter : Z)
    (gas : G) (T v density dT dv : A) : io A G :=
    if (tol_T * T <? nabs dT) || (tol_v * v <? nabs dv) then
      match fuel with
      | O => act EvStuck (Err OutOfFuel)
      | S fuel =>
        let loop_counter := (loop_counter + 1)%Z in
        if Z.eqb loop_counter max_iterations then
          do _ <- emit (EvWarn (did_not_converge loop_counter));
          ret gas
        else
          do (gas, T, v, density, dT, dv) <-
            eq_body div speed post_shock post_shock_volume gas T v density;
          eq_loop fuel div speed post_shock post_shock_volume tol_T tol_v
                  max_iterations loop_counter gas T v density dT dv
      end
    else ret gas.

  (** sd.py:715-896 get_eq_state.  [div]: a numpy [speed] makes every error, and so every
      updated volume, a numpy number ([1 / volume] of a zero volume is then inf); the
      first [1 / guess_density] is between Python floats. *)
  Definition get_eq_state (fuel : nat) (div : A -> A -> result A) (speed : A)
    (post_shock working : G) (tol_T tol_v : A) (max_iterations : Z) : io A G :=
    (* sd.py:751-756 *)
    do post_shock_volume <- pure (pydiv one (ct_density L post_shock));
    let T := ct_T L working in
    let density := ct_density L working in
    do v <- pure (pydiv one density);
    (* sd.py:759-767 *)
    let dT := lit 1000 in
    let dv := lit 1000 in
    do gas <- equilibrium working density T;
    eq_loop fuel div speed post_shock post_shock_volume tol_T tol_v max_iterations 0
            gas T v density dT dv.

  (** ** Reflection.reflect (sd.py:633-712) *)
  Definition reflect (initial post_shock working : G) (incident_shock_speed : A)
    : io A (A * A * G) :=
    (* sd.py:668-678 *)
    let initial_pressure := ct_P L initial in
    do initial_volume <- pure (pydiv one (ct_density L initial));
    let P2 := ct_P L post_shock in
    let rho2 := ct_density L post_shock in
    do v2 <- pure (pydiv one (ct_density L post_shock));
    let T2 := ct_T L post_shock in
    do u <- pure (npsqrt ((P2 - initial_pressure) * (initial_volume - v2)));
    (* sd.py:680-692 *)
    do vw <- pure (pydiv (lit 0.2) rho2);
    do q <- pure (pydiv vw v2);
    let Pw := P2 + rho2 * sq incident_shock_speed * (one - q) in
    do Tw <- pure (pydiv (T2 * Pw * vw) (P2 * v2));
    (* sd.py:694-703 *)
    do working <- set_TPX L working Tw Pw (ct_X L post_shock);
    do working <- get_eq_state 500 npdiv u post_shock working (lit 0.0001) (lit 0.0001) 500;
    (* sd.py:704-712 *)
    let P3 := ct_P L working in
    do k <- pure (npdiv (P3 - P2) u);
    do k <- pure (npdiv k rho2);
    let Wr := k - u in
    ret (P3, Wr, working).
End Sd.
Arguments entry A G : clear implicits.
Arguments pool A : clear implicits.
Arguments round A : clear implicits.
