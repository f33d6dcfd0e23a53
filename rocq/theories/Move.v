(** lgar_move_wetting_fronts, src/lgar.cxx:964-1544 *)

From Coq Require Import Reals ZArith List Bool.
From Verif Require Import Outcome Dbl Types ListOps Soil Fronts Infil.
Import ListNotations.
Open Scope dbl_scope.

Section Move.
Context {fp : Fp} {cfg : Cfg}.

(** Loop over the layers above the front, lgar.cxx:1124-1151 ([below] = None: theta_below is 0) and :1262-1288 ([below] = Some (old psi, psi) of the front
    below).  State: prior mass, new mass, delta_thetas[], delta_thickness[]. *)
Definition masses_above (e : env) (lay : Z) (psi_old psi : dbl) (below : option (dbl * dbl))
    (st : dbl * dbl * list (option dbl) * list (option dbl)) : outcome (dbl * dbl * list (option dbl) * list (option dbl)) :=
  zfor 1 (Z.to_nat (lay - 1)) (fun k '(prior, newm, dth, dz) =>
    s <- soil_of e k ;;
    c1 <- aget (e_cum e) k ;;
    c0 <- aget (e_cum e) (k - 1)%Z ;;
    let thick := c1 - c0 in
    let below_old := match below with Some (po, _) => theta_of_h s po | None => Fin 0 end in
    let below_new := match below with Some (_, pn) => theta_of_h s pn | None => Fin 0 end in
    let prior := prior + thick * (theta_of_h s psi_old - below_old) in
    let newm := newm + thick * (theta_of_h s psi - below_new) in
    dth <- aset dth k (Some below_new) ;;
    dz <- aset dz k (Some thick) ;;
    Ok (prior, newm, dth, dz)) st.

(** theta clamped to [theta_r, theta_e], :1165 and :1309 *)
Definition clamp_theta (s : soil) (t : dbl) : dbl := dfmax (s_theta_r s) (dfmin t (s_theta_e s)).

(** Common tail of the two cases that use lgar_theta_mass_balance (:1153-1163 and :1290-1309): returns theta and AET. *)
Definition balance_theta (e : env) (lay : Z) (s : soil) (psi_old psi : dbl) (below : option (dbl * dbl))
    (prior newm last_dth last_dz add aet : dbl) : outcome (dbl * dbl) :=
  let arr := repeat None (Z.to_nat (lay + 1)) in
  '(prior, newm, dth, dz) <- masses_above e lay psi_old psi below (prior, newm, arr, arr) ;;
  dth <- aset dth lay (Some last_dth) ;;
  dz <- aset dz lay (Some last_dz) ;;
  '(th, aet') <- lgar_theta_mass_balance e lay s psi newm (prior + add) aet dth dz ;;
  Ok (clamp_theta s th, aet').

(** As [prior_mass += precip - (free_drainage_demand + actual_ET_demand)], done only for the front that takes infiltration and AET; for
    the other fronts nothing is added (adding 0 rounds to the same number). *)
Definition water_added (wfd wf : Z) (precip aet : dbl) : dbl :=
  if (wfd =? wf)%Z then precip - (Fin 0 + aet) else Fin 0.

(** Body of the main loop for the front with number [wf], lgar.cxx:1007-1316, without the closure done at wf = 1.
    [nf] is number_of_wetting_fronts, [prev] the copy of the list at the end of the previous step, [aet] the AET demand.
    Returns the list and the AET demand.  After the deletion at :1216 the code goes on reading and writing the freed node
    (:1313-1314), whatever the values. *)
Definition move_one (e : env) (dt precip : dbl) (wfd : Z) (prev : list front) (nf wf : Z) (l : list front) (aet : dbl)
  : outcome (list front * dbl) :=
  let pn := if (wf =? 1)%Z || (wf <? nf)%Z then findFront (wf + 1)%Z l else None in
  let '(lo, po) := findFrontOld wf l prev in
  let '(lno, pno) := findFrontOld (wf + 1)%Z l prev in
  match findFront wf l with
  | None => Stop (UB NullDeref)
  | Some p =>
    c <- lget l p ;;
    let lay := f_layer c in
    s <- soil_of e lay ;;
    _ <- (if (wf =? 1)%Z then Ok c else pget l (findFront (wf - 1)%Z l)) ;;
    below <- (if (wf =? nf)%Z then Ok (lay + 1)%Z else n <- pget l pn ;; Ok (f_layer n)) ;;
    if (wf <? nf)%Z && negb (below =? lay)%Z then
      (* :1074-1082 deepest front of a layer *)
      n <- pget l pn ;;
      Ok (lset l p (set_psi (set_theta c (theta_of_h s (f_psi n))) (f_psi n)), aet)
    else if (wf =? nf)%Z && negb (below =? lay)%Z && (nf =? e_nlayers e)%Z then
      (* :1098-1175 one front per layer *)
      let c := set_depth c (f_depth c + f_dzdt c * dt) in
      o <- pget lo po ;;
      base <- aget (e_cum e) (lay - 1)%Z ;;
      let prior := (f_depth o - base) * (f_theta o - Fin 0) in
      let newm := (f_depth c - base) * (f_theta c - Fin 0) in
      '(th, aet') <- balance_theta e lay s (f_psi o) (f_psi c) None prior newm (Fin 0) (f_depth c - base)
                       (water_added wfd wf precip aet) aet ;;
      Ok (lset l p (set_psi (set_theta c th) (h_of_Se s (Se_of_theta s th))), aet')
    else if (wf <? nf)%Z && (below =? lay)%Z then
      n <- pget l pn ;;
      o <- pget lo po ;;
      if (lay =? 1)%Z then
        (* :1192-1226 *)
        no <- pget lno pno ;;
        column <- aget (e_cum e) (e_nlayers e) ;;
        let prior := f_depth o * (f_theta o - f_theta no) + water_added wfd wf precip aet in
        let depth' := dfmin (f_depth c + f_dzdt c * dt) column in
        let c := set_depth c depth' in
        if (f_dzdt c =? Fin 0) && negb (f_bottom c) then
          Ok (lset l p (set_psi c (h_of_Se s (Se_of_theta s (f_theta c)))), aet)
        else
          let th := prior / depth' + f_theta n in
          if th <? s_theta_r s then
            let l := lset l p c in
            _ <- lgar_calc_mass_bal (e_cum e) l ;;
            '(l', _) <- listDeleteFront (f_num c) l ;;
            _ <- lgar_calc_mass_bal (e_cum e) l' ;;
            Stop (UB UseAfterFree)
          else
            let th := dfmax (s_theta_r s) (dfmin (s_theta_e s) th) in
            Ok (lset l p (set_psi (set_theta c th) (h_of_Se s (Se_of_theta s th))), aet)
      else
        (* :1228-1311 *)
        let c := set_depth c (f_depth c + f_dzdt c * dt) in
        no' <- lget lo (S (match po with Some i => i | None => 0%nat end)) ;;
        no <- pget lno pno ;;
        base <- aget (e_cum e) (lay - 1)%Z ;;
        let prior := (f_depth o - base) * (f_theta o - f_theta no) in
        let newm := (f_depth c - base) * (f_theta c - f_theta n) in
        '(th, aet') <- balance_theta e lay s (f_psi o) (f_psi c) (Some (f_psi no', f_psi n)) prior newm
                         (f_theta n) (f_depth c - base) (water_added wfd wf precip aet) aet ;;
        Ok (lset l p (set_psi (set_theta c th) (h_of_Se s (Se_of_theta s th))), aet')
    else Ok (l, aet)
  end.

(** The main loop without the closure: fronts [k], [k]-1, ..., 1. *)
Fixpoint move_loop (k : nat) (e : env) (dt precip : dbl) (wfd : Z) (prev : list front) (nf : Z) (l : list front) (aet : dbl)
  : outcome (list front * dbl) :=
  match k with
  | O => Ok (l, aet)
  | S k' =>
      '(l', aet') <- move_one e dt precip wfd prev nf (Z.of_nat k) l aet ;;
      move_loop k' e dt precip wfd prev nf l' aet'
  end.

(** 1e-10, :1353 and :1366 *)
Definition closure_tol : dbl := lit (1 / 10000000000).

(** The loop lgar.cxx:1366-1402 that moves the front at position [p] until the mass closes.  [k] is the number of iterations left
    before the counter exceeds 1e4, [iter] their number so far.  Result: the list, the last mass error, and whether the loop gave up. *)
Fixpoint closure_loop (k : nat) (e : env) (p : nat) (target : dbl) (l : list front) (mass err factor depth_new : dbl)
    (switched aug : bool) (iter : Z) : outcome (list front * dbl * bool) :=
  if dabs (err - closure_tol) >? lit (1 / 10000000000) then
    match k with
    | O => Ok (l, err, true)
    | S k' =>
        let iter := (iter + 1)%Z in
        let aug' := (iter >? 1000)%Z && negb aug in
        let factor := if aug' then factor * lit 100 else factor in
        let '(depth_new, switched, factor) :=
          if mass <? target then (depth_new + lit (1 / 100) * factor, false, factor)
          else
            let factor := if switched then factor else factor * lit (1 / 1000) in
            (depth_new - lit (1 / 100) * factor, true, factor) in
        f <- lget l p ;;
        depth_new <- (if f_bottom f && (f_layer f =? e_nlayers e)%Z then aget (e_cum e) (e_nlayers e) else Ok depth_new) ;;
        let l := lset l p (set_depth f depth_new) in
        mass <- lgar_calc_mass_bal (e_cum e) l ;;
        closure_loop k' e p target l mass (dabs (mass - target)) factor depth_new switched (aug' || aug) iter
    end
  else Ok (l, err, false).

(** lgar.cxx:1323-1415, executed for wf = 1: layer crossing, then the depth adjustment of a saturated free-drainage front.
    Returns the list, the AET demand and the bottom flux. *)
Definition closure (e : env) (old_mass precip : dbl) (l : list front) (aet : dbl) : outcome (list front * dbl * dbl) :=
  l <- lgar_wetting_fronts_cross_layer_boundary e l ;;
  let wfd := wetting_front_free_drainage l in
  s <- soil_of e wfd ;;
  let target := (old_mass + precip) - (aet + Fin 0) in
  _ <- cassert (old_mass >? Fin 0) ;;
  match findFront wfd l with
  | None => Stop (UB NullDeref)
  | Some p =>
    f <- lget l p ;;
    if dabs (f_theta f - s_theta_e s) <? lit (1 / 1000000000000000) then
      mass <- lgar_calc_mass_bal (e_cum e) l ;;
      let err := dabs (mass - target) in
      let factor := match nth_error l (S p) with
                    | Some n => let d := dabs (f_theta f - f_theta n) in
                                if d <? lit (1 / 100) then lit 1 / d else lit 1
                    | None => lit 1
                    end in
      '(l, err, gave_up) <- closure_loop (Z.to_nat 10000) e p target l mass err factor (f_depth f) false false 0 ;;
      if gave_up : bool then
        let aet := aet + err in
        mass <- lgar_calc_mass_bal (e_cum e) l ;;
        let target := (old_mass + precip) - (aet + Fin 0) in
        Ok (l, aet, Fin 0 + (target - mass))
      else Ok (l, aet, Fin 0)
    else Ok (l, aet, Fin 0)
  end.

(** [if (lgar_check_dry_over_wet...(head)) lgar_fix_dry_over_wet...], :1446-1449, :1464-1467, :1482-1485 *)
Definition check_and_fix (e : env) (l : list front) (mc : dbl) : outcome (list front * dbl) :=
  b <- lgar_check_dry_over_wet_wetting_fronts l ;;
  if b : bool then lgar_fix_dry_over_wet_wetting_fronts e mc l else Ok (l, mc).

(** lgar.cxx:1441-1485: merging, layer crossing, merging, bottom boundary.  Returns the list, the flux through the bottom and the mass change. *)
Definition merge_phases (e : env) (l : list front) : outcome (list front * dbl * dbl) :=
  '(l, mc) <- check_and_fix e l (Fin 0) ;;
  l <- lgar_merge_wetting_fronts e l ;;
  l <- lgar_wetting_fronts_cross_layer_boundary e l ;;
  '(l, mc) <- check_and_fix e l mc ;;
  l <- lgar_merge_wetting_fronts e l ;;
  column <- aget (e_cum e) (e_nlayers e) ;;
  '(flux, l) <- lgar_wetting_front_cross_domain_boundary e column l ;;
  '(l, mc) <- check_and_fix e l mc ;;
  Ok (l, flux, mc).

(** lgar.cxx:1507-1528: psi and K of every front but the last. *)
Fixpoint refresh_psi (e : env) (l : list front) : outcome (list front) :=
  match l with
  | [] => Stop (UB NullDeref)
  | [c] => Ok [c]
  | c :: r =>
      c' <- (if f_psi c >? lit 1 then
               s <- soil_of e (f_layer c) ;;
               ff <- aget (e_frozen e) (f_layer c) ;;
               let Se := Se_of_theta s (f_theta c) in
               Ok (set_K (set_psi c (h_of_Se s Se)) (K_of_Se s Se (ff * s_Ksat s)))
             else Ok c) ;;
      r' <- refresh_psi e r ;;
      Ok (c' :: r')
  end.

(** lgar.cxx:1537-1541 *)
Definition fix_single (e : env) (l : list front) : outcome (list front) :=
  match l with
  | [c] => d <- aget (e_cum e) 1 ;; Ok [if f_depth c <>? d then set_depth c d else c]
  | _ => Ok l
  end.

(** lgar_move_wetting_fronts: (list, AET demand, water leaving through the bottom = value left in *volin_cm). *)
Definition lgar_move_wetting_fronts (e : env) (dt volin : dbl) (wfd : Z) (old_mass aet : dbl) (head prev : list front)
  : outcome (list front * dbl * dbl) :=
  _ <- aget (e_cum e) (e_nlayers e) ;;
  let nf := listLength head in
  '(l, aet) <- move_loop (length head) e dt volin wfd prev nf head aet ;;
  '(l, aet, bflux) <- (match head with [] => Ok (l, aet, Fin 0) | _ => closure e old_mass volin l aet end) ;;
  '(l, flux, mc) <- merge_phases e l ;;
  let bflux := bflux + flux in
  let aet := if dabs mc >? lit (1 / 10000000) then aet - mc else aet in
  l <- refresh_psi e l ;;
  l <- fix_single e l ;;
  Ok (l, aet, bflux).

End Move.
