(** Infiltration, creation of fronts, front velocities, theta mass balance and frozen factor (src/lgar.cxx). *)

From Coq Require Import Reals ZArith List Bool.
From Verif Require Import Outcome Dbl Types ListOps Soil Fronts.
Import ListNotations.
Open Scope dbl_scope.

Section Infil.
Context {fp : Fp} {cfg : Cfg}.

(** Pointer result of listFindFront dereferenced. *)
Definition pget (l : list front) (p : option nat) : outcome front :=
  match p with Some i => lget l i | None => Stop (UB NullDeref) end.

(** Pieces of lgar_insert_water that are loops.
    lgar.cxx:2007-2012: sum of thickness over conductivity for the layers above layer [lay]; [k] counts from 1. *)
Definition layers_above_sum (e : env) (lay : Z) (sum0 : dbl) : outcome dbl :=
  zfor 1 (Z.to_nat (lay - 1)) (fun k sum =>
    s <- soil_of e (lay - k)%Z ;;
    ff <- aget (e_frozen e) (lay - k)%Z ;;
    let Kk := s_Ksat s * ff in
    c1 <- aget (e_cum e) (lay - k)%Z ;;
    c0 <- aget (e_cum e) (lay - (k + 1))%Z ;;
    Ok (sum + (c1 - c0) / Kk)) sum0.

(** lgar.cxx:2029-2034: water the column holds when saturated. *)
Definition max_storage (e : env) : outcome dbl :=
  zfor 1 (Z.to_nat (e_nlayers e)) (fun k sum =>
    s <- soil_of e k ;;
    c1 <- aget (e_cum e) k ;;
    c0 <- aget (e_cum e) (k - 1)%Z ;;
    Ok (sum + s_theta_e s * (c1 - c0))) (Fin 0).

(** The infiltration capacity f_p, lgar.cxx:1962-2039. *)
Definition infiltration_capacity (e : env) (closed : bool) (nint : Z) (dt aet ponded precip : dbl) (wfd : Z)
    (head : list front) : outcome dbl :=
  let h_p := dfmax (ponded - precip * dt) (Fin 0) in
  let n := listLength head in
  fd <- pget head (findFront wfd head) ;;
  let lay := f_layer fd in
  s <- soil_of e lay ;;
  cur <- lget head 0 ;;
  ff <- aget (e_frozen e) (f_layer cur) ;;
  let Ksat := s_Ksat s * ff in
  Geff <- (if (n =? e_nlayers e)%Z then Ok (Fin 0)
           else
             nx <- pget head (findFront (wfd + 1)%Z head) ;;
             calc_Geff closed (f_theta nx) (s_theta_e s) s Ksat nint) ;;
  f_p <- (if (lay =? 1)%Z then Ok (Ksat * (lit 1 + (Geff + h_p) / f_depth fd))
          else
            c0 <- aget (e_cum e) (lay - 1)%Z ;;
            bs <- layers_above_sum e lay ((f_depth fd - c0) / Ksat) ;;
            Ok (f_depth fd / bs + (Geff + h_p) * Ksat / f_depth fd)) ;;
  s1 <- soil_of e (f_layer cur) ;;
  let f_p := if (lay =? e_nlayers e)%Z && (f_theta fd =? s_theta_e s1) && (e_nlayers e =? n)%Z
             then dfmin f_p (aet / dt) else f_p in
  cm <- lgar_calc_mass_bal (e_cum e) head ;;
  ms <- max_storage e ;;
  Ok (if f_p >? (ms - cm) / dt then (ms - cm) / dt else f_p).

(** The surface partition, lgar.cxx:2041-2091: (runoff, ponded depth, infiltrated volume) from the capacity [f_p].  The two branches of
    the test at :2050 are identical.  When ponding is allowed and the remaining depth equals the maximum, neither branch is taken
    and nothing changes. *)
Definition surface_partition (dt ponded volin ponded_max f_p : dbl) : dbl * dbl * dbl :=
  let temp := dfmax (ponded - f_p * dt - Fin 0 * Fin 0) (Fin 0) in
  let fp_cm := f_p * dt + Fin 0 / dt in
  if ponded_max >? Fin 0 then
    if temp <? ponded_max then
      let v := dfmin ponded fp_cm in (Fin 0, ponded - v, v)
    else if temp >? ponded_max then (temp - ponded_max, ponded_max, fp_cm)
    else (Fin 0, ponded, volin)
  else
    let v := dfmin ponded fp_cm in
    (if ponded <? fp_cm then Fin 0 else ponded - v, Fin 0, v).

(** lgar_insert_water, lgar.cxx:1941-2092: (runoff, ponded depth, infiltrated volume). *)
Definition lgar_insert_water (e : env) (closed : bool) (nint : Z) (dt aet ponded volin precip : dbl) (wfd : Z)
    (ponded_max : dbl) (head : list front) : outcome (dbl * dbl * dbl) :=
  f_p <- infiltration_capacity e closed nint dt aet ponded precip wfd head ;;
  Ok (surface_partition dt ponded volin ponded_max f_p).

(** lgar_create_surficial_front, lgar.cxx:2098-2171: (list, ponded depth, infiltrated volume).  psi and K of the new node are indeterminate until
    they are set a few lines later; NaN stands in for them.  frozen_factor multiplies K twice, as in the source. *)
Definition lgar_create_surficial_front (e : env) (ponded dry_depth theta1 : dbl) (head : list front)
  : outcome (list front * dbl * dbl) :=
  s <- soil_of e 1 ;;
  let theta_e := s_theta_e s in
  let delta := theta_e - theta1 in
  let fits := dry_depth * delta >? ponded in
  let volin := if fits then ponded else dry_depth * delta in
  let ponded' := if fits then Fin 0 else ponded - dry_depth * delta in
  let theta_new := if fits then dfmin (theta1 + ponded / dry_depth) theta_e else theta_e in
  _ <- (if fits then Ok (Fin 0) else aget (e_cum e) 1) ;;
  let l := listInsertFirst NaN NaN dry_depth theta_new 1 1 false head in
  ff <- aget (e_frozen e) 1 ;;
  let Ksat := s_Ksat s * ff in
  let Se := Se_of_theta s theta_new in
  let upd c := set_dzdt (set_K (set_psi c (h_of_Se s Se)) (K_of_Se s Se Ksat * ff)) (Fin 0) in
  let l := match l with c :: r => upd c :: r | [] => [] end in
  l <- (match l with
        | c :: n :: _ =>
            if f_depth c >? f_depth n then
              l1 <- lgar_merge_wetting_fronts e l ;; lgar_wetting_fronts_cross_layer_boundary e l1
            else Ok l
        | _ => Ok l
        end) ;;
  Ok (l, ponded', volin).

(** lgar_calc_dry_depth, lgar.cxx:2180-2229: (dry depth, delta theta). *)
Definition lgar_calc_dry_depth (e : env) (closed : bool) (nint : Z) (dt : dbl) (head : list front) : outcome (dbl * dbl) :=
  c <- lget head 0 ;;
  s <- soil_of e (f_layer c) ;;
  ff <- aget (e_frozen e) (f_layer c) ;;
  let Ksat := s_Ksat s * ff in
  let theta1 := f_theta c in
  let theta_e := s_theta_e s in
  let tau := dt * Ksat / (theta_e - theta1) in
  Geff <- calc_Geff closed theta1 theta_e s Ksat nint ;;
  let dry := lit (1 / 2) * (tau + dsqrt (tau * tau + lit 4 * tau * Geff)) in
  ck <- aget (e_cum e) (f_layer c) ;;
  Ok (dfmin ck dry, theta_e - theta1).

(** The loop lgar.cxx:2453-2470 of the velocity calculation.  Note that the thickness is that of layer k (counted from the top)
    while the conductivity is that of layer lay-k. *)
Definition dzdt_denominator (e : env) (lay : Z) (psi bottom_sum : dbl) : outcome dbl :=
  zfor 1 (Z.to_nat (lay - 1)) (fun k den =>
    s <- soil_of e (lay - k)%Z ;;
    let theta_prev := theta_of_h s psi in
    let Se_prev := Se_of_theta s theta_prev in
    ff <- aget (e_frozen e) (lay - k)%Z ;;
    let K_prev := K_of_Se s Se_prev (s_Ksat s * ff) in
    c1 <- aget (e_cum e) k ;;
    c0 <- aget (e_cum e) (k - 1)%Z ;;
    Ok (den + (c1 - c0) / K_prev)) bottom_sum.

(** Velocity of the front [c] whose successor is [n], lgar.cxx:2434-2497 ([c] is not a to_bottom front). *)
Definition dzdt_front (e : env) (closed : bool) (nint : Z) (h_p : dbl) (c n : front) : outcome dbl :=
  let lay := f_layer c in
  s <- soil_of e lay ;;
  ff <- aget (e_frozen e) lay ;;
  let Ksat := s_Ksat s * ff in
  bottom_sum <- (if (lay >? 1)%Z then
                   c0 <- aget (e_cum e) (lay - 1)%Z ;; Ok (Fin 0 + (f_depth c - c0) / f_K c)
                 else Ok (Fin 0)) ;;
  if f_theta n >? f_theta c then Stop (ExitCode 0)
  else
    Geff <- calc_Geff closed (f_theta n) (f_theta c) s Ksat nint ;;
    let delta := f_theta c - f_theta n in
    dz <- (if (lay =? 1)%Z then
             Ok (if delta >? Fin 0
                 then lit 1 / delta * (Ksat * (Geff + h_p) / f_depth c + f_K c) else Fin 0)
           else
             den <- dzdt_denominator e lay (f_psi c) bottom_sum ;;
             Ok (if delta >? Fin 0
                 then lit 1 / delta * (f_depth c / den + Ksat * (Geff + h_p) / f_depth c) else Fin 0)) ;;
    let dz := if (dz =? Fin 0) && negb (f_bottom c) then lit (1 / 1000000000) else dz in
    Ok (if dz >? lit 10000 then lit 10000 else dz).

(** lgar_dzdt_calc, lgar.cxx:2362-2506.  The soil table is consulted for the last front as well before the loop stops there. *)
Fixpoint dzdt_loop (e : env) (closed : bool) (nint : Z) (h_p : dbl) (l : list front) : outcome (list front) :=
  match l with
  | [] => Ok []
  | c :: rest =>
      if f_K c <? Fin 0 then Stop Abort
      else
        _ <- soil_of e (f_layer c) ;;
        _ <- aget (e_frozen e) (f_layer c) ;;
        match rest with
        | [] => Ok [c]
        | n :: _ =>
            v <- (if f_bottom c then Ok (Fin 0) else dzdt_front e closed nint h_p c n) ;;
            rest' <- dzdt_loop e closed nint h_p rest ;;
            Ok (set_dzdt c v :: rest')
        end
  end.
Definition lgar_dzdt_calc (e : env) (closed : bool) (nint : Z) (h_p : dbl) (l : list front) : outcome (list front) :=
  match l with [] => Stop Throw | _ => dzdt_loop e closed nint h_p l end.

(** Mass above and including the front when its head is [psi]: lgar.cxx:2583-2601.  [dth] and [dz] are the arrays
    delta_theta[] and delta_thickness[]; entry 0 of them is never written. *)
Definition tmb_mass (e : env) (lay : Z) (theta psi : dbl) (dth dz : list (option dbl)) : outcome dbl :=
  z <- uget dz lay ;;
  t <- uget dth lay ;;
  zfor 1 (Z.to_nat (lay - 1)) (fun k m =>
    s <- soil_of e k ;;
    zk <- uget dz k ;;
    tk <- uget dth k ;;
    Ok (m + zk * (theta_of_h s psi - tk))) (Fin 0 + z * (theta - t)).

(** The variables of the loop of lgar_theta_mass_balance. *)
Record tmb : Type := mkT {
  t_psi : dbl; t_prev : dbl; t_factor : dbl; t_switched : bool; t_theta : dbl;
  t_new : dbl; t_delta : dbl; t_dprev : dbl; t_count : Z; t_sat : bool; t_iter : Z; t_aug : bool
}.

(** One pass through the loop body, lgar.cxx:2553-2632; the boolean says that a [break] was taken. *)
Definition tmb_step (e : env) (lay : Z) (s : soil) (prior : dbl) (dth dz : list (option dbl)) (x : tmb)
  : outcome (tmb * bool) :=
  let iter := (t_iter x + 1)%Z in
  let aug := (iter >? 1000)%Z && negb (t_aug x) in
  let factor := if aug then t_factor x * lit 100 else t_factor x in
  let aug_flag := aug || t_aug x in
  let '(psi, prev, factor, switched, sat) :=
    if t_new x >? prior then (t_psi x + lit (1 / 10) * factor, t_prev x, factor, false, t_sat x)
    else
      let factor := if t_switched x then factor else factor * lit (1 / 10) in
      let prev := t_psi x in
      let psi := t_psi x - lit (1 / 10) * factor in
      let sat := (psi <? Fin 0) || t_sat x in
      let psi := if (psi <? Fin 0) && (prev <>? Fin 0) then prev * lit (1 / 10) else psi in
      (psi, prev, factor, true, sat) in
  let theta := theta_of_h s psi in
  mass <- tmb_mass e lay theta psi dth dz ;;
  let delta := dabs (mass - prior) in
  let tiny := lit (1 / 1000000000000000) in
  let y c := mkT psi prev factor switched theta mass delta (t_dprev x) c sat iter aug_flag in
  if (dabs (psi - prev) <? tiny) && (factor <? lit (1 / 10000000000000)) then Ok (y (t_count x), true)
  else
    let count := if dabs (delta - t_dprev x) <? tiny then (t_count x + 1)%Z else 0%Z in
    if (count =? 5)%Z then Ok (y count, true)
    else if psi >? lit 10000000 then Ok (y count, true)
    else if (psi <=? Fin 0) && (prev <? Fin 0) then Ok (y count, true)
    else Ok (mkT psi prev factor switched theta mass delta delta count sat iter aug_flag, false).

(** The tolerance 1e-12 of lgar.cxx:2521. *)
Definition tmb_tol : dbl := lit (1 / 1000000000000).

Fixpoint tmb_loop (k : nat) (e : env) (lay : Z) (s : soil) (prior : dbl) (dth dz : list (option dbl)) (x : tmb) : outcome tmb :=
  match k with
  | O => Stop OutOfFuel
  | S k' =>
      if t_delta x >? tmb_tol then
        '(y, brk) <- tmb_step e lay s prior dth dz x ;;
        if brk then Ok y else tmb_loop k' e lay s prior dth dz y
      else Ok x
  end.

(** lgar_theta_mass_balance, lgar.cxx:2513-2654: (theta, AET demand). *)
Definition lgar_theta_mass_balance (e : env) (lay : Z) (s : soil) (psi new_mass prior aet : dbl)
    (dth dz : list (option dbl)) : outcome (dbl * dbl) :=
  let delta := dabs (new_mass - prior) in
  if delta <=? tmb_tol then Ok (theta_of_h s psi, aet)
  else
    let x0 := mkT psi psi (dfmax (lit 1) (psi / lit 100)) false (Fin 0) new_mass delta delta 0 false 0 false in
    x <- tmb_loop fuel e lay s prior dth dz x0 ;;
    let aet := if (t_delta x >? tmb_tol) && negb (t_sat x) then aet - dabs (t_delta x - tmb_tol) else aet in
    let aet := if (t_theta x >=? s_theta_e s) && (t_psi x <>? Fin 0) then Fin 0 else aet in
    Ok (t_theta x, aet).

(** frozen_factor_hydraulic_conductivity, lgar.cxx:816-856.  [frozen_scan] is the while loop :828-835: it reads soil_temperature_z[c] before
    it checks c against the number of cells.  The arrays are the ones allocated with num_cells entries. *)
Fixpoint frozen_scan (k : nat) (z T : list dbl) (ncells : Z) (limit : dbl) (c count : Z) (sum : dbl)
  : outcome (Z * Z * dbl) :=
  match k with
  | O => Stop OutOfFuel
  | S k' =>
      zc <- aget z c ;;
      if zc <=? limit then
        tc <- aget T c ;;
        let c' := (c + 1)%Z in
        if (c' =? ncells)%Z then Ok (c', (count + 1)%Z, sum + tc)
        else frozen_scan k' z T ncells limit c' (count + 1)%Z (sum + tc)
      else Ok (c, count, sum)
  end.
(** lgar.cxx:842-849 *)
Definition frozen_of_temp (T : dbl) : dbl :=
  let factor := dexp (lit (-10) * (lit (27315 / 100) - T)) in
  dfmax (dfmin factor (lit 1)) (lit (5 / 100)).
Definition frozen_factor (nlayers : Z) (cum z T : list dbl) (ncells : Z) (frozen : list dbl) : outcome (list dbl) :=
  '(_, fr) <- zfor 1 (Z.to_nat nlayers) (fun layer '(c, fr) =>
     limit <- aget cum layer ;;
     '(c', count, sum) <- frozen_scan (S (length z)) z T ncells limit c 0 (Fin 0) ;;
     _ <- cassert (count >? 0)%Z ;;
     fr' <- aset fr layer (frozen_of_temp (sum / dofZ count)) ;;
     Ok (c', fr')) (0%Z, frozen) ;;
  Ok fr.

End Infil.
