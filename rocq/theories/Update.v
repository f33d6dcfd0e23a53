(** BmiLGAR::Update and its helpers, src/bmi_lgar.cxx:78-660.  Console output is not modelled. *)

From Coq Require Import Reals ZArith List Bool.
From RecordUpdate Require Import RecordSet.
From Verif Require Import Outcome Dbl Types ListOps Soil Giuh Fronts Infil Move State.
Import ListNotations.
Import RecordSetNotations.
Open Scope dbl_scope.

Section Update.
Context {fp : Fp} {cfg : Cfg}.

Definition mm_to_cm : dbl := lit (1 / 10).     (* bmi_lgar.cxx:87 *)
Definition mm_to_m : dbl := lit (1 / 1000).    (* bmi_lgar.cxx:88 *)
Definition cm_to_m : dbl := lit (1 / 100).     (* all.hxx:87 *)
Definition hr_to_sec : dbl := lit 3600.        (* all.hxx:89 *)

(** Update when is_invalid_soil_type, bmi_lgar.cxx:90-120 *)
Definition update_invalid (s : state) : state :=
  let pr := st_precip s in
  let mb := st_mb s in
  let mb' := mkMB (mb_on_ts mb) (mb_start mb) (mb_start mb) (mb_precip mb + pr * mm_to_cm) (Fin 0) (Fin 0)
                  (mb_runoff mb + pr * mm_to_cm) (Fin 0) (Fin 0) (Fin 0) (Fin 0) (mb_Q mb + pr * mm_to_cm) (Fin 0) (mb_local mb) in
  s <| st_mb := mb' |>
    <| st_out := Some (mkOut (pr * mm_to_m) (Fin 0) (Fin 0) (Fin 0) (Fin 0) (pr * mm_to_m) (Fin 0) (pr * mm_to_m) (Fin 0) (Fin 0) (Fin 0)) |>.

(** Row of the soil table after the parameters of one layer were copied in: bmi_lgar.cxx:610-615.  bc_lambda, bc_psib and h_min stay. *)
Definition calib_soil (sl : soil) (te tr n al ks : dbl) : soil :=
  mkSoil tr te al n (lit 1 - lit 1 / n) (s_lambda sl) (s_psib sl) (s_hmin sl) ks.

(** The loop bmi_lgar.cxx:593-631: [i] counts the fronts, [done] are the ones already visited. *)
Fixpoint calib_loop (k : nat) (stype : list (option Z)) (cal : calib) (done rest : list front) (soils : list (option soil))
  : outcome (list front * list (option soil)) :=
  match k with
  | O => Ok (done ++ rest, soils)
  | S k' =>
      match rest with
      | [] => Stop (UB NullDeref)      (* current->layer_num, :594 *)
      | c :: r =>
          let i := (f_layer c - 1)%Z in
          t <- uget stype (f_layer c) ;;
          te <- aget (c_theta_e cal) i ;;
          tr <- aget (c_theta_r cal) i ;;
          n <- aget (c_n cal) i ;;
          al <- aget (c_alpha cal) i ;;
          ks <- aget (c_Ksat cal) i ;;
          sl <- uget soils t ;;
          let sl' := calib_soil sl te tr n al ks in
          soils' <- aset soils t (Some sl') ;;
          calib_loop k' stype cal (done ++ [set_theta c (theta_of_h sl' (f_psi c))]) r soils'
      end
  end.

(** update_calibratable_parameters, bmi_lgar.cxx:582-660.  Returns the state and the change of stored water. *)
Definition update_calibratable_parameters (s : state) : outcome (state * dbl) :=
  let p := st_p s in
  before <- lgar_calc_mass_bal (p_cum p) (st_head s) ;;
  '(l, soils) <- calib_loop (Z.to_nat (p_nfronts p)) (p_stype p) (st_cal s) [] (st_head s) (st_soils s) ;;
  let p' := p <| p_fc := c_fc (st_cal s) |> <| p_pmax := c_pmax (st_cal s) |> in
  after <- lgar_calc_mass_bal (p_cum p) l ;;
  Ok (s <| st_head := l |> <| st_soils := soils |> <| st_p := p' |>, after - before).

(** The adaptive time step, bmi_lgar.cxx:197-207; [volon] is the ponded water of the last step. *)
Definition adaptive_step (p : params) (precip volon : dbl) : dbl :=
  let dt := if (precip >? lit 10) || (volon >? Fin 0) then p_mints p
            else if precip >? Fin 0 then p_mints p * lit 2
            else p_fres p in
  dfmin dt (p_fres p).

(** Totals of the forcing time step, the local variables declared at bmi_lgar.cxx:140-172 that survive a subcycle. *)
Record acc : Type := mkAcc {
  a_precip : dbl;   (* precip_timestep_cm *)
  a_pet : dbl;      (* PET_timestep_cm *)
  a_aet : dbl;      (* AET_timestep_cm *)
  a_end : dbl;      (* volend_subtimestep_cm = volend_timestep_cm *)
  a_in : dbl;       (* volin_timestep_cm *)
  a_on : dbl;       (* volon_timestep_cm *)
  a_runoff : dbl;   (* volrunoff_timestep_cm *)
  a_rech : dbl      (* volrech_timestep_cm *)
}.

(** bmi_lgar.cxx:276-277 *)
Definition clean_volon (v : dbl) : dbl :=
  let v := dfmax v (Fin 0) in if v >? lit (1 / 1000000000000) then v else Fin 0.

(** Quantities of one subcycle that its phases hand over. *)
Record sub : Type := mkSub {
  b_head : list front; b_prev : list front;
  b_aet : dbl;      (* AET_subtimestep_cm *)
  b_ponded : dbl;   (* ponded_depth_subtimestep_cm *)
  b_volin : dbl;    (* volin_subtimestep_cm *)
  b_runoff : dbl;   (* volrunoff_subtimestep_cm *)
  b_on : dbl;       (* volon_subtimestep_cm *)
  b_rech : dbl      (* volrech_subtimestep_cm *)
}.

(** Parameters that stay the same during an Update. *)
Record upar : Type := mkU { u_env : env; u_dt : dbl; u_nint : Z; u_closed : bool; u_wilting : dbl; u_fc : dbl; u_pmax : dbl }.

(** Decision to create a front, bmi_lgar.cxx:281-293; [volon] is already cleaned. *)
Definition create_decision (e : env) (head : list front) (precip_prev precip volon : dbl) : outcome bool :=
  h <- lget head 0 ;;
  s <- soil_of e (f_layer h) ;;
  let saturated := (f_theta h + lit (1 / 1000000000000)) >=? s_theta_e s in
  let create := (precip_prev =? Fin 0) && (precip >? Fin 0) in
  Ok (if saturated || (volon >? Fin 0) then false else create).

(** bmi_lgar.cxx:307-361: a new surficial front is created.  The surface water is then split by the else branch :384-397. *)
Definition sub_create (u : upar) (wfd : Z) (volend aet ponded : dbl) (head prev : list front) : outcome sub :=
  let e := u_env u in
  '(l, aet, pd) <- lgar_move_wetting_fronts e (u_dt u) (Fin 0) wfd volend aet head prev ;;
  let rech := if pd <>? Fin 0 then pd else Fin 0 in
  '(dry, _) <- lgar_calc_dry_depth e (u_closed u) (u_nint u) (u_dt u) l ;;
  h <- lget l 0 ;;
  '(l, ponded, volin) <- lgar_create_surficial_front e ponded dry (f_theta h) l ;;
  Ok (mkSub l (listCopy l) aet ponded volin (Fin 0) (Fin 0) rech).

(** bmi_lgar.cxx:384-397: no infiltration through lgar_insert_water. *)
Definition sub_no_insert (u : upar) (b : sub) : sub :=
  if b_ponded b <? u_pmax u
  then mkSub (b_head b) (b_prev b) (b_aet b) (Fin 0) (b_volin b) (Fin 0) (b_ponded b) (b_rech b)
  else mkSub (b_head b) (b_prev b) (b_aet b) (u_pmax u) (b_volin b) (b_ponded b - u_pmax u) (u_pmax u) (b_rech b).

(** bmi_lgar.cxx:366-382: infiltration through lgar_insert_water. *)
Definition sub_insert (u : upar) (wfd : Z) (precip_rate : dbl) (b : sub) : outcome sub :=
  '(runoff, ponded, volin) <- lgar_insert_water (u_env u) (u_closed u) (u_nint u) (u_dt u) (b_aet b) (b_ponded b) (b_volin b)
                                precip_rate wfd (u_pmax u) (b_head b) ;;
  if runoff <? Fin 0 then Stop Abort
  else Ok (mkSub (b_head b) (b_prev b) (b_aet b) ponded volin runoff ponded (b_rech b)).

(** bmi_lgar.cxx:404-421: the fronts move (no front was created in this subcycle). *)
Definition sub_move (u : upar) (wfd : Z) (volend : dbl) (b : sub) : outcome sub :=
  '(l, aet, rech) <- lgar_move_wetting_fronts (u_env u) (u_dt u) (b_volin b) wfd volend (b_aet b) (b_head b) (b_prev b) ;;
  Ok (mkSub l (b_prev b) aet (b_ponded b) (b_volin b) (b_runoff b) (b_on b) rech).

(** The hydrological part of a subcycle, bmi_lgar.cxx:262-428: everything between the forcing amounts and the mass balance.  [volon] is
    cleaned already and [ponded] is the water on the surface. *)
Definition sub_hydro (u : upar) (precip_prev precip_rate pet_rate precip volon ponded volend : dbl) (head prev : list front) : outcome sub :=
  let e := u_env u in
  aet <- (if pet_rate >? Fin 0 then calc_aet e pet_rate (u_dt u) (u_wilting u) (u_fc u) head else Ok (Fin 0)) ;;
  let wfd := wetting_front_free_drainage head in
  create <- create_decision e head precip_prev precip volon ;;
  b <- (if create : bool then sub_create u wfd volend aet ponded head prev
        else Ok (mkSub head prev aet ponded (Fin 0) (Fin 0) (Fin 0) (Fin 0))) ;;
  b <- (if (b_ponded b >? Fin 0) && negb create then sub_insert u wfd precip_rate b else Ok (sub_no_insert u b)) ;;
  b <- (if create then Ok b else sub_move u wfd volend b) ;;
  l <- lgar_dzdt_calc e (u_closed u) (u_nint u) (b_ponded b) (b_head b) ;;
  Ok (mkSub l (b_prev b) (b_aet b) (b_ponded b) (b_volin b) (b_runoff b) (b_on b) (b_rech b)).

(** Local mass balance of a subcycle, bmi_lgar.cxx:436-437 *)
Definition local_balance (volstart precip volon runoff aet on rech volend : dbl) : dbl :=
  volstart + precip + volon - runoff - aet - on - rech - volend.

(** One subcycle, bmi_lgar.cxx:220-503. *)
Definition substep (u : upar) (s : state) (a : acc) : outcome (state * acc) :=
  let p := st_p s in
  let dt := u_dt u in
  let p := p <| p_time := p_time p + dt * hr_to_sec |> <| p_timesteps := (p_timesteps p + 1)%Z |> in
  let prev := listCopy (st_head s) in
  let precip_in := dfmax (st_precip s) (Fin 0) in
  let pet_in := dfmax (st_pet s) (Fin 0) in
  let precip_rate := precip_in * mm_to_cm in
  let pet_rate := pet_in * mm_to_cm in
  let ponded := precip_rate * dt + a_on a in
  let precip := precip_rate * dt in
  let pet := pet_rate * dt in
  volstart <- lgar_calc_mass_bal (p_cum p) (st_head s) ;;
  let volon := clean_volon (a_on a) in
  b <- sub_hydro u (p_precip_prev p) precip_rate pet_rate precip volon ponded (a_end a) (st_head s) prev ;;
  volend <- lgar_calc_mass_bal (p_cum p) (b_head b) ;;
  let mbl := local_balance volstart precip volon (b_runoff b) (b_aet b) (b_on b) (b_rech b) volend in
  if dabs mbl >? lit (1 / 10000) then Stop Abort
  else
    h <- lget (b_head b) 0 ;;
    _ <- cassert (f_depth h >? Fin 0) ;;
    Ok (s <| st_head := b_head b |> <| st_prev := b_prev b |>
          <| st_precip := precip_in |> <| st_pet := pet_in |>
          <| st_p := p <| p_precip_prev := precip |> |>
          <| st_mb := (st_mb s) <| mb_local := Some mbl |> |>,
        mkAcc (a_precip a + precip) (a_pet a + dfmax pet (Fin 0)) (a_aet a + b_aet b) volend (a_in a + b_volin b)
              (b_on b) (a_runoff a + b_runoff b) (a_rech a + b_rech b)).

(** The subcycling loop, bmi_lgar.cxx:218-504: [k] subcycles remain; the standalone build stops at the end time. *)
Fixpoint subcycle_loop (k : nat) (u : upar) (s : state) (a : acc) : outcome (state * acc) :=
  match k with
  | O => Ok (s, a)
  | S k' =>
      '(s', a') <- substep u s a ;;
      if (p_time (st_p s') >=? p_endtime (st_p s')) && negb ngen then Ok (s', a')
      else subcycle_loop k' u s' a'
  end.

(** Bookkeeping after the loop, bmi_lgar.cxx:506-560.  [vcal] is the change of volume by the calibration. *)
Definition finish_update (s : state) (a : acc) (vcal : dbl) : outcome state :=
  '(giuh, q) <- giuh_convolution_integral (a_runoff a) (g_N s) (g_ord s) (g_queue s) ;;
  match mb_local (st_mb s) with
  | None => Stop (UB Uninit)
  | Some mbl =>
    let l := st_head s in
    let p := (st_p s) <| p_nfronts := listLength l |> <| p_theta_wf := map f_theta l |>
                      <| p_depth_wf := map (fun f => f_depth f * cm_to_m) l |> in
    let mb := st_mb s in
    let mb' := mkMB (a_on a) (mb_start mb) (a_end a) (mb_precip mb + a_precip a) (mb_in mb + a_in a) (a_on a)
                    (mb_runoff mb + a_runoff a) (mb_aet mb + a_aet a) (mb_pet mb + a_pet a) (mb_rech mb + a_rech a)
                    (mb_giuh mb + giuh) (mb_Q mb + giuh) (mb_calib mb + vcal) (mb_local mb) in
    let out := mkOut (a_precip a * cm_to_m) (a_in a * cm_to_m) (a_end a * cm_to_m) (a_aet a * cm_to_m) (a_rech a * cm_to_m)
                     (a_runoff a * cm_to_m) (giuh * cm_to_m) (giuh * cm_to_m) (Fin 0 * cm_to_m) (a_pet a * cm_to_m)
                     (mbl * cm_to_m) in
    Ok (s <| st_p := p |> <| st_mb := mb' |> <| st_out := Some out |> <| g_queue := q |>)
  end.

(** Frozen factor and calibration at the start of an Update, bmi_lgar.cxx:122-132. *)
Definition update_prologue (s : state) : outcome (state * dbl) :=
  let p := st_p s in
  p <- (if p_sft p then
          fr <- frozen_factor (p_nlayers p) (p_cum p) (p_soilTz p) (p_soilT p) (p_ncells p) (p_frozen p) ;;
          Ok (p <| p_frozen := fr |>)
        else Ok p) ;;
  let s := s <| st_p := p |> in
  if p_calib p then
    '(s', v) <- update_calibratable_parameters s ;;
    Ok (s' <| st_p := (st_p s') <| p_calib := false |> |>, v)
  else Ok (s, Fin 0).

(** Length of the subcycles and their number, bmi_lgar.cxx:197-212; the step length used in the loop is the configured one unless the
    adaptive option replaces it. *)
Definition update_steps (s : state) : outcome (state * dbl * Z) :=
  let p := st_p s in
  let dt := if p_adaptive p then adaptive_step p (st_precip s) (mb_on_ts (st_mb s)) else p_timestep p in
  let p := p <| p_timestep := dt |> in
  n <- d2i (p_fres p / p_timestep p + lit (1 / 100000000)) ;;
  Ok (s <| st_p := p <| p_finterval := n |> |>, dt, n).

Definition acc0 (volend volon : dbl) : acc := mkAcc (Fin 0) (Fin 0) (Fin 0) volend (Fin 0) volon (Fin 0) (Fin 0).

(** BmiLGAR::Update, bmi_lgar.cxx:78-561 *)
Definition Update (s : state) : outcome state :=
  if p_invalid (st_p s) then Ok (update_invalid s)
  else
    '(s, vcal) <- update_prologue s ;;
    volend <- lgar_calc_mass_bal (p_cum (st_p s)) (st_head s) ;;
    _ <- cassert (st_precip s >=? Fin 0) ;;
    _ <- cassert (st_pet s >=? Fin 0) ;;
    '(s, dt, n) <- update_steps s ;;
    let p := st_p s in
    let u := mkU (env_of s) dt (p_nint p) (p_closed p) (p_wilting p) (p_fc p) (p_pmax p) in
    '(s, a) <- subcycle_loop (Z.to_nat n) u s (acc0 volend (mb_on_ts (st_mb s))) ;;
    finish_update s a vcal.

(** BmiLGAR::UpdateUntil, bmi_lgar.cxx:564-569: the time is only checked to be positive. *)
Definition UpdateUntil (t : dbl) (s : state) : outcome state :=
  _ <- cassert (t >? Fin 0) ;; Update s.

(** The figure that lgar_global_mass_balance prints as "Global balance", lgar.cxx:888 *)
Definition global_error (mb : massbal) : dbl :=
  mb_start mb + mb_precip mb - mb_runoff mb - mb_aet mb - mb_on mb - mb_rech mb - mb_end mb + mb_calib mb.

End Update.
