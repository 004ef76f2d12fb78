(** * Properties_Perfect: the CJ-state iteration on a calorically perfect gas (C107). *)
From Coq Require Import String ZArith QArith Reals List Bool Lra Lia Psatz.
From Verif Require Import PyBase Gas GasP FitM QLemmas FitP SdM SdSpec SdP Properties_Sd
  PerfectSpec PerfectP.
Import ListNotations.
Local Open Scope R_scope.

(** C107.  The burnt gas at the asked-for density ratio is calorically perfect, and
    there is a wave into the initial gas that leaves burnt gas of that density ratio
    and temperature [T] behind, at speed [U].  The bound on [cp] says that the density
    ratio is below (gamma + 1) / (gamma - 1), the limit for any wave.  Then [cj_state]
    raises nothing and warns of nothing, its gas has exactly the temperature [T], and
    its speed is [U] to within the second power of the tolerance and 2 % of the first.
    [n] counts the steps, from 2000 K and 2000 m/s: T may be a factor (4/5)^n below or
    (6/5)^n above, U a factor tol_V / 2 (101/51)^n away either way. *)
Theorem C107_cj_state_finds_the_wave_of_a_perfect_gas :
  forall {G X} (L : cantera R G X) fuel div working initial tol_T tol_V ratio max_iterations Rs cp q T U n,
    python_or_numpy div ->
    0 < ct_density L initial -> 1 < ratio -> (ratio + 1) / 2 * Rs < cp ->
    0 < T -> 0 < U ->
    perfect_when_burnt L (ratio * ct_density L initial) Rs cp q ->
    burnt_by_wave L initial (ratio * ct_density L initial) T U ->
    0 < tol_T < 1/6 -> 0 < tol_V <= 1/10 ->
    2000 * (4/5)^n <= T <= 2000 * (6/5)^n ->
    2000 <= tol_V / 2 * (101/51)^(n - 1) * U ->
    U <= tol_V / 2 * (101/51)^(n - 1) * 2000 ->
    (1 <= n)%nat -> (Z.of_nat n + 2 <= max_iterations <= Z.of_nat fuel)%Z ->
    let run := cj_state L fuel div working initial tol_T tol_V ratio max_iterations in
    exists g V,
      value run = Ok (g, V)
      /\ warnings (trace run) = []
      /\ (exists g0, settles L g0 T (ratio * ct_density L initial) g)
      /\ Rabs (V - U) <= tol_V * (1/50 + 2 * tol_V) * U.
Proof.
  intros G X L fuel div working initial tT tV ratio mx Rs cp q T U n Hdiv Hrho Hr Hcp HT HU
    Hp Hw HtT HtV HTr HU1 HU2 Hn Hmx run.
  destruct n as [|n]; [lia|]. replace (S n - 1)%nat with n in * by lia.
  destruct (perfect_cj_state L initial (ct_density L initial) ratio Rs cp q T U eq_refl
              Hrho Hr Hcp HT HU Hp Hw tV HtV tT HtT fuel div working mx n Hdiv)
    as (tr & gf & Vf & E & W & (_ & _ & _ & Hs) & A); try lia; try assumption.
  exists gf, Vf. unfold run. rewrite E. split; [reflexivity|]. split; [exact W|].
  split; [exact Hs|exact A].
Qed.

(** The same for the tolerances and the iteration limit that [cj_speed] and
    [Reflection.reflect]'s callers use: whatever a detonation can be, the speed comes
    out to three parts in a million. *)
Theorem C107_cj_state_finds_any_wave_with_default_settings :
  forall {G X} (L : cantera R G X) div working initial ratio Rs cp q T U,
    python_or_numpy div ->
    0 < ct_density L initial -> 1 < ratio -> (ratio + 1) / 2 * Rs < cp ->
    perfect_when_burnt L (ratio * ct_density L initial) Rs cp q ->
    burnt_by_wave L initial (ratio * ct_density L initial) T U ->
    / 10^30 <= T <= 10^30 -> / 10^30 <= U <= 10^30 ->
    let run := cj_state L 500 div working initial (1/10000) (1/10000) ratio 500 in
    exists g V,
      value run = Ok (g, V)
      /\ warnings (trace run) = []
      /\ (exists g0, settles L g0 T (ratio * ct_density L initial) g)
      /\ Rabs (V - U) <= 3/1000000 * U.
Proof.
  intros G X L div working initial ratio Rs cp q T U Hdiv Hrho Hr Hcp Hp Hw HT HU run.
  assert (P30 : 10^30 = IZR (10^30)) by (rewrite pow_IZR; reflexivity).
  assert (P30i : 0 < / 10^30) by (apply Rinv_0_lt_compat, pow_lt; lra).
  assert (P10 : 1 <= 10^30) by (apply pow_R1_Rle; lra).
  assert (PT : 0 < T) by lra. assert (PU : 0 < U) by lra.
  assert (E45 : 2000 * (4/5)^400 <= / 10^30).
  { apply Rmult_le_reg_r with (10^30); [lra|]. rewrite Rinv_l by lra.
    replace (4/5) with (4 * / 5) by field. rewrite Rpow_mult_distr, pow_inv.
    apply Rmult_le_reg_r with (5^400); [apply pow_lt; lra|].
    replace (2000 * (4^400 * / 5^400) * 10^30 * 5^400) with (2000 * 4^400 * 10^30)
      by (field; apply pow_nonzero; lra).
    rewrite !pow_IZR, <- !mult_IZR. apply IZR_le. vm_compute. discriminate. }
  assert (E65 : 10^30 <= 2000 * (6/5)^400).
  { replace (6/5) with (6 * / 5) by field. rewrite Rpow_mult_distr, pow_inv.
    apply Rmult_le_reg_r with (5^400); [apply pow_lt; lra|].
    replace (2000 * (6^400 * / 5^400) * 5^400) with (2000 * 6^400)
      by (field; apply pow_nonzero; lra).
    rewrite !pow_IZR, <- !mult_IZR. apply IZR_le. vm_compute. discriminate. }
  assert (E101 : 10^30 * 2000 <= 1/10000/2 * (101/51)^399).
  { replace (101/51) with (101 * / 51) by field. rewrite Rpow_mult_distr, pow_inv.
    apply Rmult_le_reg_r with (20000 * 51^399); [apply Rmult_lt_0_compat; [lra|apply pow_lt; lra]|].
    replace (1/10000/2 * (101^399 * / 51^399) * (20000 * 51^399)) with (101^399)
      by (field; apply pow_nonzero; lra).
    rewrite !pow_IZR, <- !mult_IZR. apply IZR_le. vm_compute. discriminate. }
  destruct (C107_cj_state_finds_the_wave_of_a_perfect_gas L 500 div working initial
    (1/10000) (1/10000) ratio 500 Rs cp q T U 400) as (g & V & E & W & Hs & A);
    try assumption; try lia; try lra.
  - change (400 - 1)%nat with 399%nat. set (k := 1/10000/2 * (101/51)^399) in *.
    apply Rle_trans with (10^30 * 2000 * / 10^30).
    + replace (10^30 * 2000 * / 10^30) with 2000 by (field; lra). lra.
    + apply Rmult_le_compat; [nra|lra|exact E101|apply HU].
  - change (400 - 1)%nat with 399%nat. set (k := 1/10000/2 * (101/51)^399) in *. nra.
  - exists g, V. unfold run. rewrite E, W. split; [reflexivity|]. split; [reflexivity|].
    split; [exact Hs|]. lra.
Qed.
Print Assumptions C107_cj_state_finds_the_wave_of_a_perfect_gas.
Print Assumptions C107_cj_state_finds_any_wave_with_default_settings.

(** ** A gas that meets the hypotheses: cp = 1200, R = 300 (gamma = 4/3), 1.665 MJ/kg set
    free, from 600 K at density 1, over a density ratio of 2.  The wave runs at 1800 m/s
    and leaves 3000 K behind. *)
Inductive charge := unburnt | spent.
Definition perfect_gas : cantera R (R * R * charge) charge :=
  mkCantera R (R * R * charge) charge
    (fun _ _ => Ok (600, 1, unburnt))
    (fun _ T P c => Ok (T, P / (300 * T), c))
    (fun g T D => Ok (T, D, snd g))
    (fun g _ _ => Ok g)
    (fun g _ => Ok (fst g, spent))
    (fun g => fst (fst g))
    (fun g => snd (fst g) * 300 * fst (fst g))
    (fun g => snd (fst g))
    (fun g => 1200 * fst (fst g) + match snd g with unburnt => 1665000 | spent => 0 end)
    (fun _ => 0) snd (fun _ => Ok 0) (fun _ => Ok 0).

Example C107_nonvacuous :
  let initial := (600, 1, unburnt) in
  perfect_when_burnt perfect_gas (2 * ct_density perfect_gas initial) 300 1200 0
  /\ burnt_by_wave perfect_gas initial (2 * ct_density perfect_gas initial) 3000 1800
  /\ exists g V,
      value (cj_state perfect_gas 500 pydiv initial initial (1/10000) (1/10000) 2 500) = Ok (g, V)
      /\ g = (3000, 2, spent) /\ Rabs (V - 1800) <= 6/1000.
Proof.
  cbv zeta. cbn [perfect_gas ct_density fst snd].
  assert (Hp : perfect_when_burnt perfect_gas (2 * 1) 300 1200 0).
  { intros g T HT. exists (T, 2 * 1, spent).
    split; [exists (T, 2 * 1, snd g); split; reflexivity|]. cbn. repeat split; ring. }
  assert (Hw : burnt_by_wave perfect_gas (600, 1, unburnt) (2 * 1) 3000 1800).
  { exists (600, 1, unburnt), (3000, 2 * 1, spent), 900.
    split; [exists (3000, 2 * 1, unburnt); split; reflexivity|].
    unfold wave_conserves. cbn. repeat split; lra. }
  split; [exact Hp|]. split; [exact Hw|].
  assert (P30 : 1000000 <= 10^30).
  { rewrite pow_IZR. apply IZR_le. vm_compute. discriminate. }
  assert (P30i : / 10^30 <= 1).
  { rewrite <- Rinv_1. apply Rinv_le_contravar; lra. }
  destruct (C107_cj_state_finds_any_wave_with_default_settings perfect_gas pydiv
    (600, 1, unburnt) (600, 1, unburnt) 2 300 1200 0 3000 1800)
    as (g & V & E & _ & (g0 & g1 & H1 & H2) & A); cbn [perfect_gas ct_density fst snd];
    try assumption; try lra; [left; reflexivity|].
  exists g, V. split; [exact E|]. cbn in H1, H2. injection H1 as <-. injection H2 as <-.
  split; [cbn; repeat f_equal; lra|lra].
Qed.
