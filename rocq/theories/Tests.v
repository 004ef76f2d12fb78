(** * Tests: the model run on the numbers of /repo/pypbomb/tests/test_tube.py and
    test_sd.py.  These are tests of the model (of how faithfully it reads the code), not
    proofs.  They use rational arithmetic with 20-digit square roots and pi. *)
From Coq Require Import String ZArith QArith Qabs List Bool.
From Verif Require Import PyBase Pint UnitsM Csv CsvData Tables Interp WindowM DdtM BoltM
  TubeM FlangeM FitM NumQ.
Import ListNotations.
Local Open Scope string_scope.
Local Open Scope Q_scope.

Definition ten20 : Z := 100000000000000000000%Z.

Definition Qsqrt20 (q : Q) : Q :=
  Qred (Z.sqrt (Z.div (Qnum q * (ten20 * ten20)) (Zpos (Qden q))) # Z.to_pos ten20).
Local Instance Num_test : Num Q := {|
  nadd := fun x y => Qred (x + y); nsub := fun x y => Qred (x - y);
  nmul := fun x y => Qred (x * y); ndiv := fun x y => Qred (x / y);
  nopp := Qopp; nabs := Qabs; nsqrt := Qsqrt20;
  nltb := Qltb; nleb := Qle_bool; neqb := Qeq_bool;
  nofQ := fun q => q; npi := 314159265358979323846 # 100000000000000000000 |}.

(** [test_value] within [tol] (relative) of [value] *)
Definition near (tol x y : Q) : bool := Qle_bool (Qabs (x - y)) (tol * Qabs y).
Definition ok_near (tol : Q) (r : result Q) (y : Q) : bool :=
  match r with Ok x => near tol x y | Err _ => false end.
Definition qv (m : Q) (u : string) : pyin Q := PSeq [ENum m; EStr u].
Definition with_q {B} (m : Q) (u : string) (k : quantity Q -> result B) : result B :=
  let* q := quant 0 m u in k q.
Definition mag_in (r : result (quantity Q)) (u : string) : result Q :=
  let* q := r in let* q := q_to_str q u in Ok (q_mag q).
Definition is_value_errb {B} (r : result B) : bool :=
  match r with Err (ValueError _) => true | _ => false end.
Definition is_key_errb {B} (r : result B) : bool :=
  match r with Err (KeyError _) => true | _ => false end.

(** test_tube.py:35-62 test_calculate_sf *)
Example bolt_safety_factors :
  match calculate_safety_factors (qv 1631.7 "psi") (qv (5.75 * 2.5) "in^2") 20 "1/4-28" "2"
          (qv 120 "ksi") (qv 30 "ksi") (qv 0.5 "in") 0 with
  | Ok f => near 0.0001 (sf_bolt f) 3.606968028 && near 0.0001 (sf_plate f) 7.969517321
            && negb (sf_warning f)
  | Err _ => false
  end = true.
Proof. vm_compute. reflexivity. Qed.

Definition areas (bolt engagement : Q) : result (thread_areas Q) :=
  with_q bolt "ksi" (fun b => with_q 30 "ksi" (fun p => with_q engagement "in" (fun e =>
    calculate_stress_areas "1/4-28" "2" b p e 0))).

(** test_tube.py:93-109 over 100 ksi, 111-126 under 100 ksi, 128-145 too short *)
Example stress_areas_strong :
  match areas 120 0.5 with
  | Ok t => ok_near 0.0001 (mag_in (Ok (screw_area t)) "in^2") 0.034934049
            && ok_near 0.0001 (mag_in (Ok (plate_area t)) "in^2") 0.308744082
            && ok_near 0.0001 (mag_in (Ok (minimum_engagement t)) "in") 0.452595544
            && negb (shear_warning t)
  | Err _ => false
  end = true.
Proof. vm_compute. reflexivity. Qed.
Example stress_areas_weak :
  match areas 80 0.5 with
  | Ok t => ok_near 0.0001 (mag_in (Ok (screw_area t)) "in^2") 0.036374073
            && ok_near 0.0001 (mag_in (Ok (minimum_engagement t)) "in") 0.314168053
  | Err _ => false
  end = true.
Proof. vm_compute. reflexivity. Qed.
Example stress_areas_too_short :
  match areas 80 0.05 with Ok t => shear_warning t | Err _ => false end = true.
Proof. vm_compute. reflexivity. Qed.

(** test_tube.py:147-238 get_thread_property *)
Example thread_properties :
  ok_near 0.0000001 (mag_in (get_thread_property "pitch diameter max" "1/4-20" "2B" 0) "in")
          0.2248
  && ok_near 0.0000001 (mag_in (get_thread_property "pitch diameter max" "1/4-20" "2A" 0) "in")
          0.2164
  && is_key_errb (get_thread_property (A := Q) "jello" "1/4-20" "2B" 0)
  && is_value_errb (get_thread_property (A := Q) "pitch diameter max" "1/4-20" "2F" 0)
  && is_value_errb (get_thread_property (A := Q) "pitch diameter max" "1/4-20" "6A" 0)
  && is_key_errb (get_thread_property (A := Q) "pitch diameter max" "1290-33" "2B" 0) = true.
Proof. vm_compute. reflexivity. Qed.

(** test_tube.py:252-324: spiral diameter and blockage ratio *)
Example spiral_diameter :
  ok_near 0.0000000001
    (mag_in (calculate_blockage_diameter (qv 5.76 "in") (BrNum 0.44) 0) "in")
    ((1 - Qsqrt20 (1 - 0.44)) * 5.76 / 2) = true.
Proof. vm_compute. reflexivity. Qed.
Example spiral_diameter_bad :
  forallb (fun b => is_value_errb (calculate_blockage_diameter (qv 5.76 "in") b 0))
    [BrStr None; BrNum (-35.124); BrNum 0; BrNum 1; BrNum 120.34] = true.
Proof. vm_compute. reflexivity. Qed.
Example blockage_ratio :
  ok_near 0.00000001 (calculate_blockage_ratio (qv 3.438 "in") (qv (7 # 16) "in") 0)
          0.444242326717679 = true.
Proof. vm_compute. reflexivity. Qed.
Example blockage_ratio_bad :
  is_value_errb (calculate_blockage_ratio (qv 0 "in") (qv 3 "in") 0)
  && is_value_errb (calculate_blockage_ratio (qv 1 "in") (qv 3 "in") 0) = true.
Proof. vm_compute. reflexivity. Qed.

(** test_tube.py:376-463 Window *)
Example window_safety_factor :
  ok_near 0.01 (safety_factor (qv 20 "mm") (qv 50 "mm") (qv 1.2 "mm") (qv 1 "atm")
                              (qv 5300 "psi") 0) 4 = true.
Proof. vm_compute. reflexivity. Qed.
Example window_minimum_thickness :
  ok_near 0.01 (mag_in (minimum_thickness (qv 20 "mm") (qv 50 "mm") (SfNum 4) (qv 1 "atm")
                                          (qv 5300 "psi") 0) "mm") 1.2
  && is_value_errb (minimum_thickness (qv 20 "mm") (qv 50 "mm") (SfNum 0.25) (qv 1 "atm")
                                      (qv 5300 "psi") 0)
  && is_value_errb (minimum_thickness (qv 20 "mm") (qv 50 "mm") (SfNum (-7)) (qv 1 "atm")
                                      (qv 5300 "psi") 0) = true.
Proof. vm_compute. reflexivity. Qed.

(** test_tube.py:502-543 dynamic_load_factor *)
Definition dlf_at (v : Q) : result nat :=
  with_q 5.761 "in" (fun i => with_q 6.625 "in" (fun o => with_q v "m/s" (fun v =>
  with_q 200 "GPa" (fun e => with_q 7.9 "g/cm**3" (fun r =>
    dynamic_load_factor i o v e r 0.28 0.1))))).
Example dynamic_load_factors :
  map dlf_at [1200; 1311; 1312; 1400; 1603; 1604; 2000]
  = [Ok 1; Ok 1; Ok 4; Ok 4; Ok 4; Ok 2; Ok 2]%nat.
Proof. vm_compute. reflexivity. Qed.

(** test_tube.py:905-926 calculate_max_pressure *)
Example max_pressure :
  ok_near 0.00001
    (mag_in (with_q (6.625 - 2 * 0.432) "in" (fun i => with_q 6.625 "in" (fun o =>
             with_q 18.8 "ksi" (fun s => calculate_max_pressure i o s 4)))) "ksi")
    (18.8 * (2 * 0.432) / ((6.625 - 0.432) * 4)) = true.
Proof. vm_compute. reflexivity. Qed.

(** test_tube.py:672-725 pipes *)
Example schedules :
  get_available_pipe_schedules (NStr "8")
  = Ok ["5s"; "5"; "10s"; "10"; "20"; "30"; "40s"; "40"; "60"; "80s"; "80"; "100"; "120";
        "140"; "160"; "XXH"]
  /\ get_available_pipe_schedules (NStr "26") = Ok ["10"; "20"; "40s"; "80s"]
  /\ is_value_errb (get_available_pipe_schedules (NStr "2.222")) = true.
Proof. vm_compute. auto. Qed.
Definition dims_in (size sch : string) : result (Q * Q * Q) :=
  let* d := get_dimensions (A := Q) size sch 0 in
  Ok (q_mag (inner_diameter d), q_mag (outer_diameter d), q_mag (wall_thickness d)).
Example dimensions_9 :
  match dims_in "9" "40s", dims_in "9" "80s" with
  | Ok (i, o, w), Ok (i', o', w') =>
    Qeq_bool i 8.941 && Qeq_bool o 9.625 && Qeq_bool w 0.342
    && Qeq_bool i' 8.625 && Qeq_bool o' 9.625 && Qeq_bool w' 0.5
  | _, _ => false
  end
  && is_value_errb (dims_in "1/8" "20") && is_value_errb (dims_in "4 1/2" "20") = true.
Proof. vm_compute. reflexivity. Qed.

(** test_tube.py:727-783 allowable stress; 818-830 materials *)
Definition stress (t : Q) (m : string) (welded : bool) : result Q :=
  mag_in (calculate_max_stress (qv t "degF") m welded 0) "ksi".
Example stresses :
  ok_near 0.00001 (stress 100 "316L" false) 15.7
  && ok_near 0.00001 (stress 200 "316L" false) 13.3
  && ok_near 0.00001 (stress 150 "316L" false) 14.5
  && ok_near 0.00001 (stress 650 "304" true) 9.5
  && ok_near 0.00001 (stress 700 "304" true) 9.4
  && ok_near 0.00001 (stress 675 "304" true) 9.45 = true.
Proof. vm_compute. reflexivity. Qed.
Example material_316L :
  ok_near 0 (mag_in (get_elastic_modulus (NStr "316L") 0) "GPa") 200
  && ok_near 0 (mag_in (get_density (NStr "316L") 0) "g/cm^3") 7.9
  && ok_near 0 (get_poisson (NStr "316L")) 0.28 = true.
Proof. vm_compute. reflexivity. Qed.

(** test_tube.py:1083-1185 flanges (scipy of the time: strict = false) *)
Example flange_classes :
  map (fun pm => get_class false (qv (fst pm) "bar") (qv 400 "degC") (NStr (snd pm)) 0)
      [(85.3, "304"); (88.3, "316"); (72.9, "304L")] = [Ok "900"; Ok "900"; Ok "900"].
Proof. vm_compute. reflexivity. Qed.
Example flange_bad :
  get_class false (qv 125 "bar") (qv (-100) "degC") (NStr "316L") 0
    = Err (ValueError "Temperature out of range.")
  /\ get_class false (qv 125 "bar") (qv 500 "degC") (NStr "316L") 0
    = Err (ValueError "Temperature out of range.")
  /\ get_class false (qv 350 "bar") (qv 350 "degC") (NStr "316L") 0
    = Err (ValueError "Pressure out of range.")
  /\ get_max_pressure false "150" (qv 10000 "degC") (NStr "316")
    = Err (ValueError "Temperature out of range.")
  /\ get_max_temperature false "150" (qv 19.1 "bar") (NStr "316")
    = Err (ValueError "Pressure out of range.").
Proof. vm_compute. auto 6. Qed.
Example flange_good :
  ok_near 0.00001 (mag_in (get_max_pressure false "150" (qv 200 "degC") (NStr "304")) "bar") 13.2
  && ok_near 0.00001 (mag_in (get_max_pressure false "150" (qv 225 "degC") (NStr "304")) "bar")
       12.65
  && ok_near 0.00001
       (mag_in (get_max_temperature false "150" (qv 14.8 "bar") (NStr "316")) "degC") 150
  && ok_near 0.00001
       (mag_in (get_max_temperature false "150" (qv 14.25 "bar") (NStr "316")) "degC") 175
  = true.
Proof. vm_compute. reflexivity. Qed.

(** test_tube.py:1226-1313 the materials check; thread tables 1316-1330 *)
Example materials_check :
  snd (check_materials_list "pypbomb/lookup_data/" lookup_data_dir material_groups) = Ok true
  /\ snd (check_materials_list "d/" [] material_groups)
     = Err (FileNotFoundError "No files containing 'flange' or 'stress' found")
  /\ fst (check_materials_list "d/"
            [("asdfflangegroup0sfh", ""); ("asdfflangegroup1asd", "");
             ("asdfstresswdasdg", "ASDF,thing0,thing1")] material_groups)
     = ["asdfstresswdasdg does not indicate whether it is welded or seamless"]
  /\ snd (check_materials_list "d/"
            [("asdfflangegroup0sfh", ""); ("asdfflangegroup1asd", "");
             ("asdfstressweldedasdg", "ASDF,thing0")]
            [("thing0", "group0"); ("thing1", "group1")])
     = Err (ValueError (nl ++ "Material thing1 not found in d/asdfstressweldedasdg" ++ nl)).
Proof. vm_compute. auto 6. Qed.
Example threads_0_80 :
  map (fun c => thread_cell false "pitch diameter max" "0-80" c) ["2A"; "3A"]
  = [Ok 0.0514; Ok 0.0519]
  /\ map (fun c => thread_cell true "pitch diameter max" "0-80" c) ["2B"; "3B"]
  = [Ok 0.0542; Ok 0.0536].
Proof. vm_compute. auto. Qed.

(** test_sd.py:10-17 test_curve_fit *)
Example curve_fit :
  let xs := map (fun i => Qred (inject_Z (Z.of_nat i) * 10 / 99)) (seq 0 100) in
  let ys := map (fun x => Qred (7 * x * x + 2 * x + 12)) xs in
  match cj_curve_fit xs ys with
  | Ok f => Qeq_bool (fit_a f) 7 && Qeq_bool (fit_b f) 2 && Qeq_bool (fit_c f) 12
            && match fit_r2 f with Ok r => Qeq_bool r 1 | Err _ => false end
  | Err _ => false
  end = true.
Proof. vm_compute. reflexivity. Qed.
