(** The unit test of the interface, tests/main_unit_test_bmi.cxx:27-688 (the program lasam_unitest of CMakeLists.txt).

    Its argument is a configuration file; two objects are initialised from it.  Console output is not modelled (the values that are only printed are still
    read).  [Return] is a return statement of main, [Stop Throw] an exception that nothing catches, [Stop AssertFail] a failed assert; [junk] and [junk']
    are the memory that the two calls of Initialize read without having written it. *)

From Coq Require Import String Reals ZArith List Bool.
From Verif Require Import Outcome Dbl Types State Update Bmi Config.
Import ListNotations.
Open Scope string_scope.
Open Scope Z_scope.
Open Scope list_scope.

(** FAILURE and SUCCESS, main_unit_test_bmi.cxx:17, 25 *)
Definition FAILURE : Z := 0.
Definition SUCCESS : Z := 0.

(** Where a part of main ends: in the next statement or in a return. *)
Inductive flow (A : Type) : Type := Next (a : A) | Return (code : Z).
Arguments Next {A} a.
Arguments Return {A} code.

(** A for loop whose body may return from main. *)
Fixpoint each {A : Type} (is : list Z) (body : Z -> A -> outcome (flow A)) (a : A) : outcome (flow A) :=
  match is with
  | [] => Ok (Next a)
  | i :: r => x <- body i a ;; match x with Next b => each r body b | Return c => Ok (Return c) end
  end.

(** The benchmark names, sizes and units, main_unit_test_bmi.cxx:45-70 *)
Definition num_layers : Z := 3.
Definition num_wetting_fronts : Z := 3.
Definition num_input_vars : Z := 3.
Definition num_output_vars : Z := 15.
Definition var_name_input : list string := ["precipitation_rate"; "potential_evapotranspiration_rate"; "soil_temperature_profile"].
Definition var_name_output : list string :=
  ["soil_moisture_wetting_fronts"; "soil_depth_layers"; "soil_depth_wetting_fronts"; "soil_num_wetting_fronts"; "precipitation"; "potential_evapotranspiration";
   "actual_evapotranspiration"; "surface_runoff"; "giuh_runoff"; "soil_storage"; "total_discharge"; "infiltration"; "percolation";
   "groundwater_to_stream_recharge"; "mass_balance"].
Definition nbytes_input : list Z := [8; 8; 8].
Definition nbytes_output : list Z := [num_wetting_fronts * 8; num_layers * 8; num_wetting_fronts * 8; 4; 8; 8; 8; 8; 8; 8; 8; 8; 8; 8; 8].
Definition bmi_units : list string := ["mm h^-1"; "mm h^-1"; "K"].

(** Body of the loop over the input variables, main_unit_test_bmi.cxx:155-254 *)
Definition check_input (o : obj) (i : Z) (status : bool) : outcome (flow bool) :=
  name <- aget input_var_names i ;;
  if negb (0 <=? GetVarGrid name) then Stop Throw else
  if negb (0 <? GetVarItemsize name) then Stop Throw else
  let location := GetVarLocation name in
  if String.eqb location "" then Ok (Return FAILURE) else
  let status := status && negb (String.eqb location "") in
  u <- aget bmi_units i ;;
  if negb (String.eqb (GetVarUnits name) u) then Stop Throw else
  let status := status && negb (String.eqb location "") in
  let nbytes := GetVarNbytes name o in
  if nbytes =? 0 then Ok (Return FAILURE) else
  v <- aget var_name_input i ;;
  if String.eqb name v then
    n <- aget nbytes_input i ;;
    if nbytes =? n then Ok (Next status) else Stop Throw
  else Stop Throw.

(** Body of the loop over the output variables, main_unit_test_bmi.cxx:259-340 *)
Definition check_output (o : obj) (i : Z) (status : bool) : outcome (flow bool) :=
  name <- aget output_var_names i ;;
  let grid := GetVarGrid name in
  if grid =? -1 then Ok (Return (-1)) else
  let status := status && (0 <=? grid) in
  let itemsize := GetVarItemsize name in
  if itemsize =? 0 then Ok (Return FAILURE) else
  let status := status && (0 <? itemsize) in
  let location := GetVarLocation name in
  if String.eqb location "" then Ok (Return FAILURE) else
  let status := status && negb (String.eqb location "") in
  if String.eqb (GetVarType name) "" then Ok (Return FAILURE) else
  let nbytes := GetVarNbytes name o in
  if nbytes =? 0 then Ok (Return FAILURE) else
  v <- aget var_name_output i ;;
  if String.eqb name v then
    n <- aget nbytes_output i ;;
    if nbytes =? n then Ok (Next status) else Stop Throw
  else Stop Throw.

(** Body of the loop over the grids, main_unit_test_bmi.cxx:344-378 *)
Definition grid_size_test : list Z := [1; 1; num_layers; num_wetting_fronts].
Definition check_grid (o : obj) (i : Z) (status : bool) : outcome (flow bool) :=
  if GetGridRank i =? FAILURE then Ok (Return FAILURE) else
  n <- aget grid_size_test i ;;
  if GetGridSize i o =? n then Ok (Next status) else Stop Throw.

(** From the counts to the first assert, main_unit_test_bmi.cxx:95-389 *)
Definition upto (n : Z) : list Z := map Z.of_nat (seq 0 (Z.to_nat n)).
Definition metadata (o : obj) : outcome (flow bool) :=
  if negb (GetInputItemCount =? num_input_vars) then Stop Throw else
  if negb (GetOutputItemCount =? num_output_vars) then Stop Throw else
  x <- each (upto GetInputItemCount) (check_input o) true ;;
  match x with
  | Return c => Ok (Return c)
  | Next status =>
    x <- each (upto GetOutputItemCount) (check_output o) status ;;
    match x with
    | Return c => Ok (Return c)
    | Next status =>
      x <- each [0; 1; 2; 3] (check_grid o) status ;;
      match x with
      | Return c => Ok (Return c)
      | Next status => _ <- cassert status ;; Ok (Next status)
      end
    end
  end.

(** A caller's array of [n] doubles after a call that copies items to its start; [None] is an entry without a value. *)
Definition into (n : nat) (v : list item) : outcome (list (option dbl)) :=
  if (n <? length v)%nat then Stop (UB OutOfBounds)
  else ds <- (fix go (v : list item) : outcome (list (option dbl)) :=
                match v with [] => Ok [] | D d :: r => ds <- go r ;; Ok (Some d :: ds) | I _ :: _ => Stop (UB BadConversion) end) v ;;
       Ok (ds ++ repeat None (n - length v)).

Section Test.
Context {fp : Fp} {cfg : Cfg}.

(** Body of the loop that exercises the input variables, main_unit_test_bmi.cxx:396-441 *)
Definition exercise (i : Z) (st : bool * obj) : outcome (flow (bool * obj)) :=
  let (status, o) := st in
  name <- aget input_var_names i ;;
  v <- GetValue name o ;;
  var <- into 1 v ;;
  _ <- uget var 0 ;;
  v <- GetValueAtIndices name [0] o ;;
  dest <- into 1 v ;;
  _ <- uget dest 0 ;;
  l <- GetValuePtr name ;;
  _ <- uget (load o l) 0 ;;
  let dest_new := if String.eqb name "precipitation_rate" then lit (1896 / 1000)
                  else if String.eqb name "potential_evapotranspiration_rate" then lit (104 / 1000) else Fin 0 in
  o' <- SetValueAtIndices name [0] [D dest_new] o ;;
  v <- GetValueAtIndices name [0] o' ;;
  up <- into 1 v ;;
  y <- uget up 0 ;;
  Ok (Next (status && deqb dest_new y, o')).

(** The benchmark of the wetting fronts, main_unit_test_bmi.cxx:454-457, in cm and as moisture *)
Definition depth_wf_b : list dbl := [lit (455355239489608365 / 100000000000000000); lit 44; lit 175; lit 200].
Definition theta_wf_b : list dbl :=
  [lit (21371581122514613 / 100000000000000000); lit (17270389607163267 / 100000000000000000); lit (25211383152603861 / 100000000000000000);
   lit (17959348005962811 / 100000000000000000)].
Definition num_wf_base : Z := 4.
(** fabs(bench[k] - computed[k] * scale), for moisture without the factor *)
Definition off (scale : option dbl) (bench : list dbl) (comp : list (option dbl)) (k : Z) : outcome dbl :=
  b <- aget bench k ;; c <- uget comp k ;; Ok (dabs (b - match scale with Some m => c * m | None => c end)%d).
(** The loops over k in main_unit_test_bmi.cxx:477-481, 489-493, with status, and the loops with assert, :500-514 *)
Definition near (scale : option dbl) (bench : list dbl) (comp : list (option dbl)) (k : Z) (status : bool) : outcome (flow bool) :=
  d <- off scale bench comp k ;; Ok (Next (status && dltb d (lit (1 / 10000)))).
Definition asserted (scale : option dbl) (bench : list dbl) (comp : list (option dbl)) (k : Z) (u : unit) : outcome (flow unit) :=
  d <- off scale bench comp k ;; u <- cassert (dltb d (lit (1 / 100000))) ;; Ok (Next u).

(** The loop over the output variables after Update, main_unit_test_bmi.cxx:468-496, with the arrays depth_wf_c and theta_wf_c *)
Definition compare (o : obj) (i : Z) (st : bool * list (option dbl) * list (option dbl)) : outcome (flow (bool * list (option dbl) * list (option dbl))) :=
  let '(status, depth_c, theta_c) := st in
  name <- aget output_var_names i ;;
  if String.eqb name "soil_moisture_wetting_fronts" then
    v <- GetValue name o ;;
    theta_c <- into (Z.to_nat num_wf_base) v ;;
    _ <- uget theta_c 0 ;;
    x <- each (upto num_wf_base) (near None theta_wf_b theta_c) status ;;
    match x with Return c => Ok (Return c) | Next status => Ok (Next (status, depth_c, theta_c)) end
  else if String.eqb name "soil_depth_wetting_fronts" then
    v <- GetValue name o ;;
    depth_c <- into (Z.to_nat num_wf_base) v ;;
    x <- each (upto num_wf_base) (near (Some (lit 100)) depth_wf_b depth_c) status ;;
    match x with Return c => Ok (Return c) | Next status => Ok (Next (status, depth_c, theta_c)) end
  else Ok (Next (status, depth_c, theta_c)).

(** GetValue of a single double into a variable. *)
Definition get_one (name : string) (o : obj) : outcome dbl := v <- GetValue name o ;; b <- into 1 v ;; uget b 0.

(** From Update to the checks of the fluxes, main_unit_test_bmi.cxx:452-568 *)
Definition outputs (o : obj) (status : bool) : outcome (flow unit) :=
  o <- bmi_Update o ;;
  let blank := repeat None (Z.to_nat num_wf_base) in
  x <- each (upto GetOutputItemCount) (compare o) (status, blank, blank) ;;
  match x with
  | Return c => Ok (Return c)
  | Next (status, depth_c, theta_c) =>
    _ <- each (upto num_wf_base) (asserted (Some (lit 100)) depth_wf_b depth_c) tt ;;
    _ <- each (upto num_wf_base) (asserted None theta_wf_b theta_c) tt ;;
    infiltration <- get_one "infiltration" o ;;
    PET <- get_one "potential_evapotranspiration" o ;;
    AET <- get_one "actual_evapotranspiration" o ;;
    _ <- cassert status ;;
    if dgtb (dabs (lit (1896 / 1000) - infiltration * lit 1000)%d) (lit (1 / 100000)) then Stop Throw else
    if dgtb (dabs (lit (104 / 1000) - PET * lit 1000)%d) (lit (1 / 100000)) then Stop Throw else
    if dgtb (dabs (lit (2980092620558239 / 100000000000000000) - AET * lit 1000)%d) (lit (1 / 100000)) then Stop Throw else
    Ok (Next tt)
  end.

(** The values of the calibration test, main_unit_test_bmi.cxx:587-592 *)
Definition smcmax_set : list dbl := [lit (3513 / 10000); lit (3773 / 10000); lit (3617 / 10000)].
Definition vg_n_set : list dbl := [lit (144260592334 / 100000000000); lit (114965918354 / 100000000000); lit (139051695249 / 100000000000)].
Definition vg_alpha_set : list dbl := [lit (21297 / 10000000); lit (73272 / 10000000); lit (27454 / 10000000)].
Definition Ksat_set : list dbl := [lit (446 / 1000); lit (743 / 10000); lit (415 / 1000)].
Definition field_capacity_set : dbl := lit (1033 / 10).
Definition ponded_depth_max_set : dbl := lit 1.

(** GetValue of the six parameters, main_unit_test_bmi.cxx:595-600, 618-623; all their entries are printed. *)
Definition get_layers (name : string) (o : obj) : outcome (list dbl) :=
  v <- GetValue name o ;; b <- into (Z.to_nat num_layers) v ;;
  x0 <- uget b 0 ;; x1 <- uget b 1 ;; x2 <- uget b 2 ;; Ok [x0; x1; x2].
Definition get_parameters (o : obj) : outcome (list (list dbl) * dbl * dbl) :=
  a <- get_layers "smcmax" o ;; n <- get_layers "van_genuchten_n" o ;; al <- get_layers "van_genuchten_alpha" o ;; k <- get_layers "hydraulic_conductivity" o ;;
  f <- get_one "field_capacity" o ;; p <- get_one "ponded_depth_max" o ;; Ok ([a; n; al; k], f, p).
(** Throws when two values differ by more than 1.E-5. *)
Definition agree (x y : dbl) : outcome unit := if dgtb (dabs (x - y)%d) (lit (1 / 100000)) then Stop Throw else Ok tt.
(** Body of the loop over the layers, main_unit_test_bmi.cxx:639-668 *)
Definition check_layer (got : list (list dbl)) (i : Z) (u : unit) : outcome (flow unit) :=
  each [0; 1; 2; 3] (fun j _ => g <- aget got j ;; x <- aget g i ;; w <- aget [smcmax_set; vg_n_set; vg_alpha_set; Ksat_set] j ;; y <- aget w i ;;
                     _ <- agree x y ;; Ok (Next tt)) u.
(** The calibration test, main_unit_test_bmi.cxx:595-683 *)
Definition calibration (o : obj) : outcome obj :=
  _ <- get_parameters o ;;
  o <- SetValue "smcmax" (map D smcmax_set) o ;;
  o <- SetValue "van_genuchten_n" (map D vg_n_set) o ;;
  o <- SetValue "van_genuchten_alpha" (map D vg_alpha_set) o ;;
  o <- SetValue "hydraulic_conductivity" (map D Ksat_set) o ;;
  o <- SetValue "field_capacity" [D field_capacity_set] o ;;
  o <- SetValue "ponded_depth_max" [D ponded_depth_max_set] o ;;
  '(got, f, p) <- get_parameters o ;;
  _ <- agree p ponded_depth_max_set ;;
  _ <- agree f field_capacity_set ;;
  _ <- each (upto num_layers) (check_layer got) tt ;;
  o <- SetValue "precipitation_rate" [D (lit (12 / 10))] o ;;
  SetValue "potential_evapotranspiration_rate" [D (lit 3)] o.

(** main with one argument, main_unit_test_bmi.cxx:27-688; a freshly initialised object has nothing in bmi_unit_conv. *)
Definition unit_test (files : string -> option (list row)) (junk junk' : dbl) (ls : list string) : outcome Z :=
  s <- Initialize files junk ls ;;
  s' <- Initialize files junk' ls ;;
  let o := mkObj s (repeat None 11) in
  x <- metadata o ;;
  match x with
  | Return c => Ok c
  | Next status =>
    x <- each (upto GetInputItemCount) exercise (status, o) ;;
    match x with
    | Return c => Ok c
    | Next (status, o) =>
      x <- outputs o status ;;
      match x with
      | Return c => Ok c
      | Next _ =>
        o' <- calibration (mkObj s' (repeat None 11)) ;;
        _ <- bmi_Update o' ;;
        Ok FAILURE
      end
    end
  end.
End Test.
