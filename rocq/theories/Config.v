(** Reading the configuration and the soil table, and building the initial state: src/lgar.cxx:73-139, 176-807, 2277-2356 and
    BmiLGAR::Initialize, src/bmi_lgar.cxx:32-58.

    Simplifications, everywhere in this file: lines and lists are shorter than 2^31; memory allocation succeeds; verbosity is not "high"
    (otherwise :581-587 prints the name of every layer's soil, reading the table at the index of an invalid soil too). *)

From Coq Require Import String Ascii Reals ZArith List Bool.
From RecordUpdate Require Import RecordSet.
From Verif Require Import Outcome Dbl Types ListOps Soil Fronts State.
Import ListNotations.
Import RecordSetNotations.
Open Scope string_scope.
Open Scope Z_scope.
Open Scope list_scope.

(** ** Strings *)

(** std::string::find of one character; None for npos. *)
Fixpoint find (c : ascii) (s : string) : option nat :=
  match s with
  | EmptyString => None
  | String a r => if Ascii.eqb a c then Some O else option_map S (find c r)
  end.

(** The rest of a string from a position on; with [String.substring] this gives substr(pos, npos). *)
Fixpoint drop (k : nat) (s : string) : string :=
  match k, s with O, _ => s | S k', String _ r => drop k' r | S _, EmptyString => EmptyString end.
(** The first [k] characters. *)
Fixpoint take (k : nat) (s : string) : string :=
  match k, s with O, _ => EmptyString | S k', String a r => String a (take k' r) | S _, EmptyString => EmptyString end.

(** Splitting a line, lgar.cxx:250-262.  loc_eq is 0 without '=' (npos + 1) and loc_u is -1 without '['; a negative length is converted to a huge
    unsigned one and means the rest of the line.  The length of the unit is the position of ']' plus 1, counted from the start of the line,
    and 0 without ']'. *)
Definition line_key (l : string) : string := match find "=" l with Some i => take i l | None => l end.
Definition line_value (l : string) : string :=
  let loc_eq := match find "=" l with Some i => S i | None => O end in
  match find "[" l with
  | Some u => if (u <? loc_eq)%nat then drop loc_eq l else take (u - loc_eq) (drop loc_eq l)
  | None => drop loc_eq l
  end.
Definition line_unit (l : string) : string :=
  match find "[" l with
  | Some u => take (match find "]" l with Some r => S r | None => O end) (drop u l)
  | None => ""
  end.

(** ** Numbers *)

(** isspace of the C locale. *)
Definition is_space (c : ascii) : bool :=
  let n := nat_of_ascii c in ((n =? 32) || ((9 <=? n) && (n <=? 13)))%nat%bool.
Fixpoint skip_space (s : string) : string :=
  match s with String c r => if is_space c then skip_space r else s | EmptyString => s end.

Definition digit (c : ascii) : option Z :=
  let n := nat_of_ascii c in if ((48 <=? n) && (n <=? 57))%nat%bool then Some (Z.of_nat (n - 48)) else None.

(** The digits at the start of a string: the number they form when appended to [acc], how many there are more than [k], and the rest. *)
Fixpoint digits (s : string) (acc : Z) (k : nat) : Z * nat * string :=
  match s with
  | String c r => match digit c with Some d => digits r (10 * acc + d) (S k) | None => (acc, k, s) end
  | EmptyString => (acc, k, s)
  end.

Definition sign (s : string) : bool * string :=
  match s with
  | String c r => if Ascii.eqb c "-" then (true, r) else if Ascii.eqb c "+" then (false, r) else (false, s)
  | EmptyString => (false, s)
  end.

(** Case-insensitive prefix test with a lower-case word. *)
Definition lower (c : ascii) : ascii :=
  let n := nat_of_ascii c in if ((65 <=? n) && (n <=? 90))%nat%bool then ascii_of_nat (n + 32) else c.
Fixpoint prefix_ci (w s : string) : bool :=
  match w, s with
  | EmptyString, _ => true
  | String a w', String c s' => (Ascii.eqb (lower c) a && prefix_ci w' s')%bool
  | _, EmptyString => false
  end.

(** The exponent of a decimal number and what follows it: 'e' or 'E', an optional sign and at least one digit; otherwise there is none. *)
Definition exponent (s : string) : Z * string :=
  match s with
  | String c r =>
      if (Ascii.eqb (lower c) "e")%bool then
        let '(neg, r') := sign r in
        let '(e, k, t) := digits r' 0 0 in
        match k with O => (0, s) | S _ => (if neg : bool then - e else e, t) end
      else (0, s)
  | EmptyString => (0, s)
  end.

(** The decimal number at the start of a string: mantissa, power of ten and the rest of the string; None without a digit. *)
Definition decimal (s : string) : option (Z * Z * string) :=
  let '(i, ki, r) := digits s 0 0 in
  let '(mant, kf, r') :=
    match r with String c r1 => if Ascii.eqb c "." then digits r1 i 0 else (i, O, r) | EmptyString => (i, O, r) end in
  let '(e, t) := exponent r' in
  match (ki + kf)%nat with O => None | S _ => Some (mant, e - Z.of_nat kf, t) end.

Section Config.
Context {fp : Fp}.

(** std::stod: strtod, with an exception if nothing can be converted or the number is too large.  Text after the number is ignored.
    Simplifications: hexadecimal numbers are not modelled, numbers too small for a double do not throw. *)
Definition stod (s : string) : outcome dbl :=
  let '(neg, r) := sign (skip_space s) in
  if prefix_ci "inf" r then Ok (if neg : bool then NInf else PInf)
  else if prefix_ci "nan" r then Ok NaN
  else match decimal r with
       | None => Stop Throw
       | Some (m, e, _) => match rnd ((if neg then -1 else 1) * IZR m * powerRZ 10 e) with Fin x => Ok (Fin x) | _ => Stop Throw end
       end.

(** std::stoi: strtol base 10, with an exception if nothing can be converted or the number is not an int. *)
Definition stoi (s : string) : outcome Z :=
  let '(neg, r) := sign (skip_space s) in
  let '(v, k, _) := digits r 0 0 in
  match k with
  | O => Stop Throw
  | S _ => let z := if neg : bool then - v else v in if ((-2147483648 <=? z) && (z <=? 2147483647))%bool then Ok z else Stop Throw
  end.

(** ReadVectorData, lgar.cxx:780-807.  [k] is at least the number of commas. *)
Fixpoint read_vector (k : nat) (z1 : string) : outcome (list dbl) :=
  match find "," z1 with
  | None => v <- stod z1 ;; Ok [v]
  | Some pos =>
      v <- stod (take pos z1) ;;
      match k with
      | O => Stop OutOfFuel
      | S k' => vs <- read_vector k' (drop (S pos) z1) ;; Ok (v :: vs)
      end
  end.
Definition ReadVectorData (key : string) : outcome (list dbl) := read_vector (String.length key) key.

(** ** The configuration file *)

(** What InitFromConfigFile has read so far; None: not set.  The keys, lgar.cxx:264-522, in the order of the source. *)
Record conf : Type := mkConf {
  cf_thick : option (list dbl);   (* layer_thickness *)
  cf_stype : option (list Z);     (* layer_soil_type *)
  cf_giuh : option (list dbl);    (* giuh_ordinates *)
  cf_soilz : option (list dbl);   (* soil_z *)
  cf_psi : option dbl;            (* initial_psi *)
  cf_maxtypes : option Z;         (* max_valid_soil_types *)
  cf_file : option string;        (* soil_params_file *)
  cf_wp : option dbl;             (* wilting_point_psi *)
  cf_fc : option dbl;             (* field_capacity_psi *)
  cf_closed : bool;               (* use_closed_form_G *)
  cf_adaptive : bool;             (* adaptive_timestep *)
  cf_timestep : option dbl;       (* timestep_h *)
  cf_endtime : option dbl;        (* endtime_s *)
  cf_fres : option dbl;           (* forcing_resolution_h *)
  cf_sft : bool;                  (* sft_coupled *)
  cf_pmax : option dbl;           (* ponded_depth_max *)
  cf_calib : bool                 (* calib_params *)
}.
#[export] Instance eta_conf : Settable _ := settable! mkConf
  <cf_thick; cf_stype; cf_giuh; cf_soilz; cf_psi; cf_maxtypes; cf_file; cf_wp; cf_fc; cf_closed; cf_adaptive; cf_timestep; cf_endtime; cf_fres; cf_sft; cf_pmax; cf_calib>.
Definition conf0 : conf :=
  mkConf None None None None None None None None None false false None None None false None false.

Definition is_in (s : string) (l : list string) : bool := existsb (String.eqb s) l.

(** Conversion to hours of timestep (:416-421) and forcing_resolution (:463-468): an unknown unit leaves the number as it is. *)
Definition to_hours (v : dbl) (unit : string) : dbl :=
  (if is_in unit ["[s]"; "[sec]"; ""] then v / lit 3600
   else if is_in unit ["[min]"; "[minute]"] then v / lit 60
   else if is_in unit ["[h]"; "[hr]"] then v / lit 1
   else v)%d.

(** endtime, :437-447: an unknown unit leaves endtime_s as it was. *)
Definition endtime_of (old : option dbl) (value unit : string) : outcome (option dbl) :=
  if is_in unit ["[s]"; "[sec]"; ""] then v <- stod value ;; Ok (Some v)
  else if is_in unit ["[min]"; "[minute]"] then v <- stod value ;; Ok (Some (v * lit 60)%d)
  else if is_in unit ["[h]"; "[hr]"] then v <- stod value ;; Ok (Some (v * lit 3600)%d)
  else if is_in unit ["[d]"; "[day]"] then v <- stod value ;; Ok (Some (v * lit 86400)%d)
  else Ok old.

(** Conversion of every item to int, :295. *)
Fixpoint to_ints (v : list dbl) : outcome (list Z) :=
  match v with [] => Ok [] | x :: r => z <- d2i x ;; zs <- to_ints r ;; Ok (z :: zs) end.

(** One line of the file, lgar.cxx:241-522.  The last of the flags, calib_params_flag, is false unless set (all.hxx:158). *)
Definition config_line (c : conf) (l : string) : outcome conf :=
  let key := line_key l in
  let value := line_value l in
  let unit := line_unit l in
  if String.eqb key "layer_thickness" then v <- ReadVectorData value ;; Ok (c <| cf_thick := Some v |>)
  else if String.eqb key "layer_soil_type" then v <- ReadVectorData value ;; z <- to_ints v ;; Ok (c <| cf_stype := Some z |>)
  else if String.eqb key "giuh_ordinates" then v <- ReadVectorData value ;; Ok (c <| cf_giuh := Some v |>)
  else if String.eqb key "soil_z" then v <- ReadVectorData value ;; Ok (c <| cf_soilz := Some v |>)
  else if String.eqb key "initial_psi" then v <- stod value ;; Ok (c <| cf_psi := Some v |>)
  else if String.eqb key "max_valid_soil_types" then z <- stoi value ;; Ok (c <| cf_maxtypes := Some (Z.min z 15) |>)
  else if String.eqb key "soil_params_file" then Ok (c <| cf_file := Some value |>)
  else if String.eqb key "wilting_point_psi" then v <- stod value ;; Ok (c <| cf_wp := Some v |>)
  else if String.eqb key "field_capacity_psi" then v <- stod value ;; Ok (c <| cf_fc := Some v |>)
  else if String.eqb key "use_closed_form_G" then
    if String.eqb value "false" then Ok (c <| cf_closed := false |>)
    else if String.eqb value "true" then Ok (c <| cf_closed := true |>) else Stop Abort
  else if String.eqb key "adaptive_timestep" then
    if is_in value ["false"; "0"] then Ok (c <| cf_adaptive := false |>)
    else if is_in value ["true"; "1"] then Ok (c <| cf_adaptive := true |>) else Stop Abort
  else if String.eqb key "timestep" then
    v <- stod value ;; let v := to_hours v unit in _ <- cassert (v >? Fin 0)%d ;; Ok (c <| cf_timestep := Some v |>)
  else if String.eqb key "endtime" then
    e <- endtime_of (cf_endtime c) value unit ;;
    match e with
    | Some v => _ <- cassert (v >? Fin 0)%d ;; Ok (c <| cf_endtime := Some v |>)
    | None => Stop (UB Uninit)
    end
  else if String.eqb key "forcing_resolution" then
    v <- stod value ;; let v := to_hours v unit in _ <- cassert (v >? Fin 0)%d ;; Ok (c <| cf_fres := Some v |>)
  else if String.eqb key "sft_coupled" then
    if String.eqb value "true" then Ok (c <| cf_sft := true |>)
    else if String.eqb value "false" then Ok (c <| cf_sft := false |>) else Stop Abort
  else if String.eqb key "ponded_depth_max" then v <- stod value ;; Ok (c <| cf_pmax := Some (dfmax v (Fin 0)) |>)
  else if String.eqb key "calib_params" then
    if String.eqb value "true" then Ok (c <| cf_calib := true |>)
    else if String.eqb value "false" then Ok (c <| cf_calib := false |>) else Stop Abort
  else Ok c.

(** The loop over the lines.  The empty line that getline delivers at the end of the file has no effect, and neither has the first
    pass over the file, :183-211, which only looks for the verbosity. *)
Fixpoint config_lines (c : conf) (ls : list string) : outcome conf :=
  match ls with [] => Ok c | l :: r => c' <- config_line c l ;; config_lines c' r end.

(** ** The soil table *)

(** One line of the soil table, as sscanf at :2306 sees it: the name and the numbers that could be converted. *)
Record row : Type := mkRow { r_name : option string; r_vals : list dbl }.

(** "%s": skip white space, then the characters up to the next white space, and the rest. *)
Fixpoint word (s : string) : string * string :=
  match s with
  | String c r => if is_space c then ("", s) else let '(w, t) := word r in (String c w, t)
  | EmptyString => ("", s)
  end%string.
(** "%lf": strtod, and the rest; None if nothing can be converted.  Simplification as for stod: no hexadecimal numbers. *)
Definition scan_number (s : string) : option (dbl * string) :=
  let '(neg, r) := sign (skip_space s) in
  if prefix_ci "infinity" r then Some (if neg : bool then NInf else PInf, drop 8 r)
  else if prefix_ci "inf" r then Some (if neg : bool then NInf else PInf, drop 3 r)
  else if prefix_ci "nan" r then Some (NaN, drop 3 r)
  else match decimal r with
       | None => None
       | Some (m, e, t) => Some (rnd ((if neg then -1 else 1) * IZR m * powerRZ 10 e), t)
       end.
(** sscanf stops at the first item that it cannot convert. *)
Fixpoint scan_numbers (k : nat) (s : string) : list dbl :=
  match k with
  | O => []
  | S k' => match scan_number s with Some (v, t) => v :: scan_numbers k' t | None => [] end
  end.
(** sscanf(jstr, "%s %lf %lf %lf %lf %lf", ...), :2306.  Simplification: lines of at most 253 characters, so that fgets (:2304) takes one line at
    a time; [TableFile.v] does without it. *)
Definition sscanf_row (s : string) : row :=
  match word (skip_space s) with
  | (EmptyString, _) => mkRow None []
  | (w, t) => mkRow (Some w) (scan_numbers 5 t)
  end.
(** The lines after the header line, :2301-2306. *)
Definition table_of (ls : list string) : list row := map sscanf_row (tl ls).

(** What the code stores for one soil; theta_wp is stored but read nowhere. *)
Record entry : Type := mkEntry { en_name : string; en_soil : soil; en_theta_wp : dbl }.

(** The local variables that sscanf fills keep their value if a line has fewer items. *)
Record locals : Type := mkLoc { l_name : option string; l_vals : list (option dbl) }.
Definition loc0 : locals := mkLoc None [None; None; None; None; None].
Fixpoint over (new : list dbl) (old : list (option dbl)) : list (option dbl) :=
  match new, old with x :: r, _ :: o => Some x :: over r o | _, _ => old end.
Definition scan (r : row) (l : locals) : locals :=
  match r_name r with
  | None => l
  | Some s => mkLoc (Some s) (over (r_vals r) (l_vals l))
  end.
Definition known {A : Type} (x : option A) : outcome A := match x with Some v => Ok v | None => Stop (UB Uninit) end.

(** The derived parameters, :2319-2342.  [junk] is the content of the local vg_m, which is never written (:2324).  With n <= 1 the
    Brooks-Corey parameters are not written and then read (:2341). *)
Definition derive (wp junk theta_r theta_e alpha n Ksat : dbl) (name : string) : outcome entry :=
  let vg_m := (lit 1 - lit 1 / n)%d in
  let theta_wp := calc_theta_from_h wp alpha junk n theta_e theta_r in
  if (lit 1 <? n)%d then
    let m := (lit 1 - lit 1 / n)%d in
    let p := (lit 1 + lit 2 / m)%d in
    let lambda := (lit 2 / (p - lit 3))%d in
    let psib := ((p + lit 3) * (lit (1478 / 10) + lit (81 / 10) * p + lit (92 / 1000) * p * p)
                 / (lit 2 * alpha * p * (p - lit 1) * (lit (556 / 10) + lit (74 / 10) * p + p * p)))%d in
    _ <- cassert (Fin 0 <? psib)%d ;;
    let h_min := (psib * (lit 2 + lit 3 / lambda) / (lit 1 + lit 3 / lambda))%d in
    Ok (mkEntry name (mkSoil theta_r theta_e alpha n vg_m lambda psib h_min Ksat) theta_wp)
  else Stop (UB Uninit).

(** One iteration of the loop :2304-2350.  soil_name (char[30]) takes names of at most 29 characters, the table (char[25]) of at most 24; the
    test :2309 stops the program for more than 25. *)
Definition read_row (wp junk : dbl) (r : row) (l : locals) (i : Z) (tab : list (option entry)) : outcome (locals * list (option entry)) :=
  let l := scan r l in
  name <- known (l_name l) ;;
  if (30 <=? Z.of_nat (String.length name)) then Stop (UB OutOfBounds)
  else if (25 <? Z.of_nat (String.length name)) then Stop (ExitCode 0)
  else
    _ <- aget tab i ;;
    if (Z.of_nat (String.length name) =? 25) then Stop (UB OutOfBounds)
    else match l_vals l with
         | [r0; r1; r2; r3; r4] =>
             theta_r <- known r0 ;; theta_e <- known r1 ;; alpha <- known r2 ;; n <- known r3 ;; Ksat <- known r4 ;;
             en <- derive wp junk theta_r theta_e alpha n Ksat name ;;
             tab' <- aset tab i (Some en) ;;
             Ok (l, tab')
         | _ => Stop (UB Uninit)
         end.

(** lgar_read_vG_param_file, :2277-2356: rows until [nst] soils have been read.  The number of soils returned is not used by the caller. *)
Fixpoint read_rows (wp junk : dbl) (nst : Z) (rs : list row) (l : locals) (i : Z) (tab : list (option entry)) : outcome (list (option entry)) :=
  match rs with
  | [] => Ok tab
  | r :: rs' =>
      '(l', tab') <- read_row wp junk r l i tab ;;
      if nst =? i then Ok tab' else read_rows wp junk nst rs' l' (i + 1) tab'
  end.
Definition lgar_read_vG_param_file (rows : option (list row)) (nst : Z) (wp junk : dbl) (tab : list (option entry)) : outcome (list (option entry)) :=
  match rows with
  | None => Stop (ExitCode (-1))
  | Some rs => read_rows wp junk nst rs loc0 1 tab
  end.

(** ** The initial state *)

(** cum_layer_thickness_cm[1..], :280-283 *)
Fixpoint running (z : dbl) (ts : list dbl) : list dbl :=
  match ts with [] => [] | t :: r => (z + t)%d :: running (z + t)%d r end.

(** The check of the soil types, :565-578: the first layer whose type is above the number of types ends the loop. *)
Fixpoint any_invalid (k : nat) (layer : Z) (stype : list (option Z)) (nst : Z) : outcome bool :=
  match k with
  | O => Ok false
  | S k' => t <- uget stype layer ;; if (nst <? t)%Z then Ok true else any_invalid k' (layer + 1) stype nst
  end.

(** Resampling of the unit hydrograph, :638-649: the array giuh_ordinates[1..N], whose element 0 is never written. *)
Definition resample (fres : dbl) (ord : list dbl) : outcome (Z * list (option dbl)) :=
  factor <- d2i (lit 1 / fres)%d ;;
  let n := factor * Z.of_nat (length ord) in
  a <- zfor 0 (length ord) (fun i a =>
         zfor 0 (Z.to_nat factor) (fun j a => o <- aget ord i ;; aset a (j + i * factor + 1) (Some (o / dofZ factor)%d)) a)
       (repeat None (Z.to_nat (n + 1))) ;;
  Ok (n, a).

(** InitializeWettingFronts, :733-771.  [g1] and [g2] are the indeterminate contents of the new node, overwritten at once. *)
Definition InitializeWettingFronts (nl : Z) (psi : dbl) (stype : list (option Z)) (cum frozen : list dbl) (tab : list (option entry)) : outcome (list front) :=
  zfor 1 (Z.to_nat nl) (fun layer head =>
    t <- uget stype layer ;;
    en <- uget tab t ;;
    let s := en_soil en in
    let theta := theta_of_h s psi in
    depth <- aget cum layer ;;
    '(head, cur) <- listInsertFront NaN NaN depth theta layer layer true head ;;
    match cur with
    | None => Stop (UB NullDeref)
    | Some i =>
        f <- lget head i ;;
        ff <- aget frozen layer ;;
        let Se := Se_of_theta s (f_theta f) in
        Ok (lset head i (set_K (set_psi f psi) (K_of_Se s Se (ff * s_Ksat s)%d)))
    end) [].

(** The part of the state that InitFromConfigFile fills, and the array giuh_ordinates. *)
Record start : Type := mkStart { sr_conf : conf; sr_p : params; sr_head : list front; sr_tab : list (option entry); sr_vol : dbl; sr_N : Z; sr_ord : list (option dbl) }.

Definition need {A : Type} (x : option A) : outcome A := match x with Some v => Ok v | None => Stop Throw end.

(** InitFromConfigFile, :525-725, after the loop over the lines.  [files] gives the content of a soil table after its header line, None if it cannot
    be opened.  num_layers is not initialised when layer_thickness is missing and is read at :567 before this is checked; so is num_cells_temp at :668
    without soil_z.  wilting_point_psi_cm and field_capacity_psi_cm are copied at :557-558 before the check; the model takes [junk] for them, which is
    only used in theta_wp. *)
Definition init_rest (files : string -> option (list row)) (junk : dbl) (c : conf) : outcome start :=
  let nst := match cf_maxtypes c with Some z => z | None => 15 end in
  st <- need (cf_stype c) ;;
  file <- need (cf_file c) ;;
  _ <- (if nst + 1 <? 0 then Stop Throw else Ok tt) ;;
  let wp := match cf_wp c with Some v => v | None => junk end in
  tab <- lgar_read_vG_param_file (files file) nst wp junk (repeat None (Z.to_nat (nst + 1))) ;;
  thick <- known (cf_thick c) ;;
  let nl := Z.of_nat (length thick) in
  let stype := None :: map Some st in
  invalid <- any_invalid (length thick) 1 stype nst ;;
  psi <- need (cf_psi c) ;;
  dt <- need (cf_timestep c) ;;
  endtime <- need (cf_endtime c) ;;
  wp <- need (cf_wp c) ;;
  fc <- need (cf_fc c) ;;
  fres <- need (cf_fres c) ;;
  ord <- need (cf_giuh c) ;;
  '(n, ords) <- resample fres ord ;;
  '(ncells, tz) <- (if cf_sft c then z <- known (cf_soilz c) ;; Ok (Z.of_nat (length z), z) else Ok (1, [Fin 0])) ;;
  let pmax := match cf_pmax c with Some v => v | None => Fin 0 end in
  fint <- d2i (fres / dt + lit (1 / 100000000))%d ;;
  let frozen := repeat (lit 1) (S (length thick)) in
  let cum := Fin 0 :: running (Fin 0) thick in
  head <- InitializeWettingFronts nl psi stype cum frozen tab ;;
  vol <- lgar_calc_mass_bal cum head ;;
  _ <- cassert (nl =? listLength head) ;;
  Ok (mkStart c
    (mkParams nl (Fin 0 :: thick) cum stype frozen nl ncells (repeat (Fin 0) (Z.to_nat ncells)) tz [] [] dt fres dt fint wp fc (cf_closed c) (cf_adaptive c)
       pmax (Fin 0) 120 (Fin 0) endtime 0 (cf_sft c) (cf_calib c) invalid)
    head tab vol n ords).

(** [lines]: the lines of the configuration file, empty if it cannot be opened. *)
Definition InitFromConfigFile (files : string -> option (list row)) (junk : dbl) (lines : list string) : outcome start :=
  c <- config_lines conf0 lines ;; init_rest files junk c.

(** The loop of lgar_initialize over the fronts, :105-121: moisture, depth in metres and the calibration arrays. *)
Fixpoint layer_values (k : nat) (layer : Z) (stype : list (option Z)) (tab : list (option entry)) (head : list front) : outcome (list (front * soil)) :=
  match k with
  | O => Ok []
  | S k' =>
      match head with
      | [] => Stop AssertFail
      | f :: r => t <- uget stype layer ;; en <- uget tab t ;; vs <- layer_values k' (layer + 1) stype tab r ;; Ok ((f, en_soil en) :: vs)
      end
  end.

(** lgar_initialize, :73-139, and BmiLGAR::Initialize with a file name, bmi_lgar.cxx:32-58 *)
Definition Initialize (files : string -> option (list row)) (junk : dbl) (lines : list string) : outcome state :=
  z <- InitFromConfigFile files junk lines ;;
  let p := sr_p z in
  vs <- layer_values (Z.to_nat (p_nlayers p)) 1 (p_stype p) (sr_tab z) (sr_head z) ;;
  let p := p <| p_theta_wf := map (fun v => f_theta (fst v)) vs |> <| p_depth_wf := map (fun v => (f_depth (fst v) * lit (1 / 100))%d) vs |> in
  let cal := mkCal (map (fun v => s_theta_e (snd v)) vs) (map (fun v => s_theta_r (snd v)) vs) (map (fun v => s_n (snd v)) vs)
               (map (fun v => s_alpha (snd v)) vs) (map (fun v => s_Ksat (snd v)) vs) (p_fc p) (p_pmax p) in
  ords <- zfor 0 (Z.to_nat (sr_N z)) (fun i a => o <- uget (sr_ord z) (i + 1) ;; Ok (a ++ [o])) [] ;;
  Ok (mkState (sr_head z) [] (map (option_map en_soil) (sr_tab z)) p
        (mkMB (Fin 0) (sr_vol z) (Fin 0) (Fin 0) (Fin 0) (Fin 0) (Fin 0) (Fin 0) (Fin 0) (Fin 0) (Fin 0) (Fin 0) (Fin 0) None)
        (Fin (-1)) (Fin (-1)) cal None (sr_N z) ords (repeat (Fin 0) (Z.to_nat (sr_N z + 1)))).

End Config.
