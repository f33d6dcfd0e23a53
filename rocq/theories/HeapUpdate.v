(** BmiLGAR::Update, src/bmi_lgar.cxx:78-660, with the wetting fronts in a heap: [state->head] and [state->state_previous] are pointers. *)

From Coq Require Import Reals ZArith List Bool.
From RecordUpdate Require Import RecordSet.
From Verif Require Import Outcome Dbl Types ListOps HeapList Soil Giuh Fronts Infil Move State Update HeapFronts.
Import ListNotations.
Import RecordSetNotations.
Open Scope dbl_scope.

(** The object: the nodes, the two pointers, and all other members.  The members [st_head] and [st_prev] of [hs_rest] are not used. *)
Record hstate : Type := mkHS { hs_heap : heap; hs_head : ptr; hs_prev : ptr; hs_rest : state }.

Section HeapUpdate.
Context {fp : Fp} {cfg : Cfg}.

(** The loop of update_calibratable_parameters, bmi_lgar.cxx:593-631: heap and soil table. *)
Fixpoint h_calib_loop (k : nat) (stype : list (option Z)) (cal : calib) (h : heap) (current : ptr) (soils : list (option soil))
  : outcome (heap * list (option soil)) :=
  match k with
  | O => Ok (h, soils)
  | S k' =>
      c <- h_get h current ;;
      let i := (f_layer c - 1)%Z in
      t <- uget stype (f_layer c) ;;
      te <- aget (c_theta_e cal) i ;;
      tr <- aget (c_theta_r cal) i ;;
      n <- aget (c_n cal) i ;;
      al <- aget (c_alpha cal) i ;;
      ks <- aget (c_Ksat cal) i ;;
      sl <- uget soils t ;;
      let sl' := calib_soil sl te tr n al ks in
      soils <- aset soils t (Some sl') ;;
      h <- h_upd (fun f => set_theta f (theta_of_h sl' (f_psi f))) h current ;;
      current <- h_next h current ;;
      h_calib_loop k' stype cal h current soils
  end.

(** update_calibratable_parameters, bmi_lgar.cxx:582-660 *)
Definition h_calibrate (o : hstate) : outcome (hstate * dbl) :=
  let s := hs_rest o in
  let p := st_p s in
  before <- h_mass (p_cum p) (hs_heap o) (hs_head o) ;;
  '(h, soils) <- h_calib_loop (Z.to_nat (p_nfronts p)) (p_stype p) (st_cal s) (hs_heap o) (hs_head o) (st_soils s) ;;
  let p' := p <| p_fc := c_fc (st_cal s) |> <| p_pmax := c_pmax (st_cal s) |> in
  after <- h_mass (p_cum p) h (hs_head o) ;;
  Ok (mkHS h (hs_head o) (hs_prev o) (s <| st_soils := soils |> <| st_p := p' |>), after - before).

(** bmi_lgar.cxx:221-225 and :351-355: the copy of the last profile is released and made anew.  Heap and state_previous. *)
Definition h_recopy (h : heap) (head prev : ptr) : outcome (heap * ptr) :=
  h <- (if negb (is_null prev) then h_listDelete (room h) h prev else Ok h) ;;
  h_listCopy (room h) h head.

(** The quantities that the phases of a subcycle hand over; [hb_sub] has the numbers, its lists are not used. *)
Record hsub : Type := mkHSub { hb_heap : heap; hb_head : ptr; hb_prev : ptr; hb_sub : sub }.

(** bmi_lgar.cxx:281-293 *)
Definition h_create_decision (e : env) (h : heap) (head : ptr) (precip_prev precip volon : dbl) : outcome bool :=
  hd <- h_get h head ;;
  s <- soil_of e (f_layer hd) ;;
  let saturated := (f_theta hd + lit (1 / 1000000000000)) >=? s_theta_e s in
  let create := (precip_prev =? Fin 0) && (precip >? Fin 0) in
  Ok (if saturated || (volon >? Fin 0) then false else create).

(** bmi_lgar.cxx:307-361 *)
Definition h_sub_create (u : upar) (wfd : Z) (volend aet ponded : dbl) (h : heap) (head prev : ptr) : outcome hsub :=
  let e := u_env u in
  '(h, head, aet, pd) <- h_move e (u_dt u) (Fin 0) wfd volend aet h head prev ;;
  let rech := if pd <>? Fin 0 then pd else Fin 0 in
  '(dry, _) <- h_dry_depth e (u_closed u) (u_nint u) (u_dt u) h head ;;
  hd <- h_get h head ;;
  '(h, head, ponded, volin) <- h_create e ponded dry (f_theta hd) h head ;;
  '(h, prev) <- h_recopy h head prev ;;
  Ok (mkHSub h head prev (mkSub [] [] aet ponded volin (Fin 0) (Fin 0) rech)).

(** bmi_lgar.cxx:366-382 *)
Definition h_sub_insert (u : upar) (wfd : Z) (precip_rate : dbl) (b : hsub) : outcome hsub :=
  let v := hb_sub b in
  '(runoff, ponded, volin) <- h_insert_water (u_env u) (u_closed u) (u_nint u) (u_dt u) (b_aet v) (b_ponded v) (b_volin v)
                                precip_rate wfd (u_pmax u) (hb_heap b) (hb_head b) ;;
  if runoff <? Fin 0 then Stop Abort
  else Ok (mkHSub (hb_heap b) (hb_head b) (hb_prev b) (mkSub [] [] (b_aet v) ponded volin runoff ponded (b_rech v))).

(** bmi_lgar.cxx:404-421 *)
Definition h_sub_move (u : upar) (wfd : Z) (volend : dbl) (b : hsub) : outcome hsub :=
  let v := hb_sub b in
  '(h, head, aet, rech) <- h_move (u_env u) (u_dt u) (b_volin v) wfd volend (b_aet v) (hb_heap b) (hb_head b) (hb_prev b) ;;
  Ok (mkHSub h head (hb_prev b) (mkSub [] [] aet (b_ponded v) (b_volin v) (b_runoff v) (b_on v) rech)).

(** bmi_lgar.cxx:262-428 *)
Definition h_sub_hydro (u : upar) (precip_prev precip_rate pet_rate precip volon ponded volend : dbl) (h : heap) (head prev : ptr)
  : outcome hsub :=
  let e := u_env u in
  aet <- (if pet_rate >? Fin 0 then h_aet e pet_rate (u_dt u) (u_wilting u) (u_fc u) h head else Ok (Fin 0)) ;;
  wfd <- h_free_drainage h head ;;
  create <- h_create_decision e h head precip_prev precip volon ;;
  b <- (if create : bool then h_sub_create u wfd volend aet ponded h head prev
        else Ok (mkHSub h head prev (mkSub [] [] aet ponded (Fin 0) (Fin 0) (Fin 0) (Fin 0)))) ;;
  b <- (if (b_ponded (hb_sub b) >? Fin 0) && negb create then h_sub_insert u wfd precip_rate b
        else Ok (mkHSub (hb_heap b) (hb_head b) (hb_prev b) (sub_no_insert u (hb_sub b)))) ;;
  b <- (if create then Ok b else h_sub_move u wfd volend b) ;;
  h <- h_dzdt e (u_closed u) (u_nint u) (b_ponded (hb_sub b)) (hb_heap b) (hb_head b) ;;
  Ok (mkHSub h (hb_head b) (hb_prev b) (hb_sub b)).

(** One subcycle, bmi_lgar.cxx:220-503.  calc_aet (:264) and the water at the start (:271) read the same list; as in the list model the latter comes
    first here. *)
Definition h_substep (u : upar) (o : hstate) (a : acc) : outcome (hstate * acc) :=
  let s := hs_rest o in
  let p := st_p s in
  let dt := u_dt u in
  let p := p <| p_time := p_time p + dt * hr_to_sec |> <| p_timesteps := (p_timesteps p + 1)%Z |> in
  '(h, prev) <- h_recopy (hs_heap o) (hs_head o) (hs_prev o) ;;
  let head := hs_head o in
  let precip_in := dfmax (st_precip s) (Fin 0) in
  let pet_in := dfmax (st_pet s) (Fin 0) in
  let precip_rate := precip_in * mm_to_cm in
  let pet_rate := pet_in * mm_to_cm in
  let ponded := precip_rate * dt + a_on a in
  let precip := precip_rate * dt in
  let pet := pet_rate * dt in
  volstart <- h_mass (p_cum p) h head ;;
  let volon := clean_volon (a_on a) in
  b <- h_sub_hydro u (p_precip_prev p) precip_rate pet_rate precip volon ponded (a_end a) h head prev ;;
  let v := hb_sub b in
  volend <- h_mass (p_cum p) (hb_heap b) (hb_head b) ;;
  let mbl := local_balance volstart precip volon (b_runoff v) (b_aet v) (b_on v) (b_rech v) volend in
  if dabs mbl >? lit (1 / 10000) then Stop Abort
  else
    hd <- h_get (hb_heap b) (hb_head b) ;;
    _ <- cassert (f_depth hd >? Fin 0) ;;
    Ok (mkHS (hb_heap b) (hb_head b) (hb_prev b)
          (s <| st_precip := precip_in |> <| st_pet := pet_in |>
             <| st_p := p <| p_precip_prev := precip |> |>
             <| st_mb := (st_mb s) <| mb_local := Some mbl |> |>),
        mkAcc (a_precip a + precip) (a_pet a + dfmax pet (Fin 0)) (a_aet a + b_aet v) volend (a_in a + b_volin v)
              (b_on v) (a_runoff a + b_runoff v) (a_rech a + b_rech v)).

(** The subcycling loop, bmi_lgar.cxx:218-504 *)
Fixpoint h_subcycle_loop (k : nat) (u : upar) (o : hstate) (a : acc) : outcome (hstate * acc) :=
  match k with
  | O => Ok (o, a)
  | S k' =>
      '(o, a) <- h_substep u o a ;;
      if (p_time (st_p (hs_rest o)) >=? p_endtime (st_p (hs_rest o))) && negb ngen then Ok (o, a)
      else h_subcycle_loop k' u o a
  end.

(** bmi_lgar.cxx:519-529: theta and depth of the first [k] fronts. *)
Fixpoint h_publish (k : nat) (h : heap) (current : ptr) : outcome (list dbl * list dbl) :=
  match k with
  | O => Ok ([], [])
  | S k' =>
      _ <- cassert (negb (is_null current)) ;;
      c <- h_get h current ;;
      current <- h_next h current ;;
      '(ths, ds) <- h_publish k' h current ;;
      Ok (f_theta c :: ths, f_depth c * cm_to_m :: ds)
  end.

(** bmi_lgar.cxx:506-560 *)
Definition h_finish_update (o : hstate) (a : acc) (vcal : dbl) : outcome hstate :=
  let s := hs_rest o in
  '(giuh, q) <- giuh_convolution_integral (a_runoff a) (g_N s) (g_ord s) (g_queue s) ;;
  match mb_local (st_mb s) with
  | None => Stop (UB Uninit)
  | Some mbl =>
    len <- h_length (hs_heap o) (hs_head o) ;;
    '(ths, ds) <- h_publish (Z.to_nat len) (hs_heap o) (hs_head o) ;;
    let p := (st_p s) <| p_nfronts := len |> <| p_theta_wf := ths |> <| p_depth_wf := ds |> in
    let mb := st_mb s in
    let mb' := mkMB (a_on a) (mb_start mb) (a_end a) (mb_precip mb + a_precip a) (mb_in mb + a_in a) (a_on a)
                    (mb_runoff mb + a_runoff a) (mb_aet mb + a_aet a) (mb_pet mb + a_pet a) (mb_rech mb + a_rech a)
                    (mb_giuh mb + giuh) (mb_Q mb + giuh) (mb_calib mb + vcal) (mb_local mb) in
    let out := mkOut (a_precip a * cm_to_m) (a_in a * cm_to_m) (a_end a * cm_to_m) (a_aet a * cm_to_m) (a_rech a * cm_to_m)
                     (a_runoff a * cm_to_m) (giuh * cm_to_m) (giuh * cm_to_m) (Fin 0 * cm_to_m) (a_pet a * cm_to_m)
                     (mbl * cm_to_m) in
    Ok (mkHS (hs_heap o) (hs_head o) (hs_prev o) (s <| st_p := p |> <| st_mb := mb' |> <| st_out := Some out |> <| g_queue := q |>))
  end.

(** bmi_lgar.cxx:122-132 *)
Definition h_update_prologue (o : hstate) : outcome (hstate * dbl) :=
  let s := hs_rest o in
  let p := st_p s in
  p <- (if p_sft p then
          fr <- frozen_factor (p_nlayers p) (p_cum p) (p_soilTz p) (p_soilT p) (p_ncells p) (p_frozen p) ;;
          Ok (p <| p_frozen := fr |>)
        else Ok p) ;;
  let o := mkHS (hs_heap o) (hs_head o) (hs_prev o) (s <| st_p := p |>) in
  if p_calib p then
    '(o, v) <- h_calibrate o ;;
    let s := hs_rest o in
    Ok (mkHS (hs_heap o) (hs_head o) (hs_prev o) (s <| st_p := (st_p s) <| p_calib := false |> |>), v)
  else Ok (o, Fin 0).

(** BmiLGAR::Update, bmi_lgar.cxx:78-561 *)
Definition h_Update (o : hstate) : outcome hstate :=
  if p_invalid (st_p (hs_rest o)) then Ok (mkHS (hs_heap o) (hs_head o) (hs_prev o) (update_invalid (hs_rest o)))
  else
    '(o, vcal) <- h_update_prologue o ;;
    volend <- h_mass (p_cum (st_p (hs_rest o))) (hs_heap o) (hs_head o) ;;
    _ <- cassert (st_precip (hs_rest o) >=? Fin 0) ;;
    _ <- cassert (st_pet (hs_rest o) >=? Fin 0) ;;
    '(s, dt, n) <- update_steps (hs_rest o) ;;
    let o := mkHS (hs_heap o) (hs_head o) (hs_prev o) s in
    let p := st_p s in
    let u := mkU (env_of s) dt (p_nint p) (p_closed p) (p_wilting p) (p_fc p) (p_pmax p) in
    '(o, a) <- h_subcycle_loop (Z.to_nat n) u o (acc0 volend (mb_on_ts (st_mb s))) ;;
    h_finish_update o a vcal.

End HeapUpdate.
