(** A simulation of a column of any number of layers in which the passes leave the fronts of each layer drier downwards. *)

From Coq Require Import Reals ZArith List Bool.
From Verif Require Import Outcome Dbl Exact Types ListOps Soil Fronts Infil Move State Update Spec_Common Spec_Soil Spec_Update Spec_Profile Spec_Storage Spec_Velocity Spec_Column Spec_Advance
  Spec_Balance Spec_Shares Spec_Physical Spec_Motion Spec_Upright.
Import ListNotations.
Open Scope R_scope.

(** A front with a finite head, below the upper end of its layer. *)
Definition seated (e : env) (f : front) : Prop :=
  finite (f_psi f) /\ exists z, aget (e_cum e) (f_layer f - 1)%Z = Ok (Fin z) /\ z < val (f_depth f).
(** A front that does not rise; inside a layer it sinks. *)
Definition sinking (f : front) : Prop :=
  exists d v, f_depth f = Fin d /\ f_dzdt f = Fin v /\ 0 <= v /\ (f_bottom f = false -> 0 < v).

(** Fronts in order. *)
Record orderly (M : R) (e : env) (l : list front) : Prop := {
  od_profile : profile (e_nlayers e) (e_cum e) l;
  od_rests : deepest_rests l;
  od_physical : Forall (physical_front M e) l;
  od_seated : Forall (seated e) l;
  od_sinking : Forall sinking l;
  od_drier : drier_downwards l;
  od_meet : @heads_meet exact e l
}.

(** The layers [qs] and their arrays; no layer conducts better than [M], and all conduct. *)
Record layers (M : R) (qs : list part) (e : env) : Prop := {
  la_env : @sound_env exact e;
  la_soils : vg_column e;
  la_most : conducts_at_most M e;
  la_frozen : frozen_in_range e;
  la_conducting : conducting e;
  la_strata : strata e qs
}.

(** The model between two Updates: no calibration pending, fronts in order, numbers where numbers are expected, positive time steps. *)
Record layered (M : R) (qs : list part) (s : state) : Prop := {
  ly_valid : p_invalid (st_p s) = false;
  ly_calib : p_calib (st_p s) = false;
  ly_layers : layers M qs (env_of s);
  ly_fronts : orderly M (env_of s) (st_head s);
  ly_capillary : capillary (p_closed (st_p s)) (p_nint (st_p s)) (env_of s);
  ly_pond : exists pm, p_pmax (st_p s) = Fin pm /\ 0 <= pm;
  ly_steps : exists dt m fr, p_timestep (st_p s) = Fin dt /\ p_mints (st_p s) = Fin m /\ p_fres (st_p s) = Fin fr /\ 0 < dt /\ 0 < m /\ 0 < fr;
  ly_on : exists on, mb_on_ts (st_mb s) = Fin on /\ 0 <= on;
  ly_rain : finite (st_precip s)
}.

(** A sub-step of the layers [qs] that starts with [a_end] at the storage of its fronts and with [on] of ponded water. *)
Definition set_out (M : R) (qs : list part) (u : upar) (s : state) (a : acc) : Prop :=
  layers M qs (u_env u) /\ env_of s = u_env u /\ orderly M (u_env u) (st_head s) /\ capillary (u_closed u) (u_nint u) (u_env u) /\
  (exists dt, u_dt u = Fin dt /\ 0 < dt) /\ (exists pm, u_pmax u = Fin pm /\ 0 <= pm) /\ finite (st_precip s) /\ (exists on, a_on a = Fin on /\ 0 <= on) /\
  a_end a = Fin (storage (st_head s)).

Section Steps.
Local Existing Instance exact.
Context {cfg : Cfg}.

(** The motion of a sub-step starts with the water [vin] and the demand [aet], of which its pass leaves [a1]. *)
Definition hydro_met (u : upar) (precip_prev precip_rate pet_rate precip volon ponded volend : dbl) (head prev : list front) (vin aet a1 : R) : Prop :=
  hydro_motion u precip_prev precip_rate pet_rate precip volon ponded head prev (Fin vin) (Fin aet) /\
  exists l1, move_loop (length head) (u_env u) (u_dt u) (Fin vin) (wetting_front_free_drainage head) prev (listLength head) head (Fin aet) = Ok (l1, Fin a1).
Definition step_met (u : upar) (s : state) (a : acc) (vin aet a1 : R) : Prop := at_step hydro_met u s a vin aet a1.

(** No front lies below the column. *)
Definition in_column (e : env) (l : list front) : Prop := exists D, aget (e_cum e) (e_nlayers e) = Ok (Fin D) /\ Forall (fun f => val (f_depth f) <= D) l.

(** How far a sub-step may be off its balance: by the gap of its pass; or, when the first front lies inside a layer, by the tolerance of the iteration for each front and the part of the
    demand that is not met; or, when the demand exceeds the water put in, by that tolerance and three times that part. *)
Inductive off_by (u : upar) (s : state) (a : acc) : R -> Prop :=
| off_gap : forall r, step_gap u s a r -> off_by u s a (Rmax (Rabs r) (2 / 10000000000))
| off_wet : forall f l vin aet a1, st_head s = f :: l -> f_bottom f = false -> in_column (u_env u) (st_head s) -> step_met u s a vin aet a1 ->
    off_by u s a (Rmax (INR (length (st_head s)) * tol + (aet - a1)) (2 / 10000000000))
| off_dry : forall vin aet a1, in_column (u_env u) (st_head s) -> 0 <= vin < a1 -> step_met u s a vin aet a1 ->
    off_by u s a (Rmax (INR (length (st_head s)) * tol + 3 * (aet - a1)) (2 / 10000000000)).

(** A sub-step whose pass leaves the fronts drier downwards, without ties, and which leaves all fronts with a finite head below the upper end of their layer. *)
Definition undisturbed (u : upar) (x : step) : Prop :=
  ~ step_tie u (x_s x) (x_a x) /\ step_upright u (x_s x) (x_a x) /\ Forall (seated (u_env u)) (st_head (x_s' x)).

(** A sub-step that leaves the fronts in order and accounts for its water up to [B]. *)
Definition balanced_step (M : R) (u : upar) (x : step) (B : R) : Prop :=
  orderly M (u_env u) (st_head (x_s' x)) /\
  exists dt p on vin ro on' av q m : R, u_dt u = Fin dt /\ 0 < dt /\ st_precip (x_s x) = Fin p /\ ponded_before x = Fin on /\ 0 <= on /\ 0 <= on' /\
    let rain := Rmax p 0 / 10 * dt in
    a_precip (x_a' x) = (a_precip (x_a x) + Fin rain)%d /\ a_in (x_a' x) = (a_in (x_a x) + Fin vin)%d /\ a_runoff (x_a' x) = (a_runoff (x_a x) + Fin ro)%d /\
    a_aet (x_a' x) = (a_aet (x_a x) + Fin av)%d /\ a_rech (x_a' x) = (a_rech (x_a x) + Fin q)%d /\ a_on (x_a' x) = Fin on' /\ rain + on = vin + ro + on' /\
    Rabs (storage (st_head (x_s' x)) - (storage (st_head (x_s x)) + rain + on - ro - on' - av - q)) <= B /\
    residual x = Fin m /\ Rabs m <= B + 1 / 1000000000000.

(** A simulation of undisturbed sub-steps: Updates and user edits in any order, with all sub-steps executed and how far each may be off. *)
Inductive journey (s0 : state) : list (step * R) -> state -> Prop :=
| jr_start : journey s0 [] s0
| jr_edit : forall xs s s', journey s0 xs s -> user_edit s s' -> finite (st_precip s') -> journey s0 xs s'
| jr_update : forall xs s u ys s', journey s0 xs s -> executed s u (map fst ys) s' ->
    Forall (fun y => undisturbed u (fst y) /\ off_by u (x_s (fst y)) (x_a (fst y)) (snd y)) ys -> journey s0 (xs ++ ys) s'.
End Steps.
