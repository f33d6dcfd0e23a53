(** C09-C13, C18, C46: clock, time step, forcing, published outputs. *)

From Coq Require Import Reals Lra ZArith List Bool.
From Verif Require Import Outcome Dbl Exact Types Fronts State Update Spec_Common Spec_Update
  Pf_Clock Ex_Saturated Ex_Steps Ex_Clock.
Import ListNotations.
Open Scope R_scope.

(** C09: the clock advances by (sub-steps taken) x (sub-step length in seconds). *)
Theorem C09_clock_advances_by_substeps :
  forall (cfg : Cfg) (s : state) (u : upar) (xs : list step) (s' : state) (t d : R),
    p_invalid (st_p s) = false -> @executed exact cfg s u xs s' -> p_time (st_p s) = Fin t -> u_dt u = Fin d ->
    p_time (st_p s') = Fin (t + INR (length xs) * (d * 3600)) /\
    p_timesteps (st_p s') = (p_timesteps (st_p s) + Z.of_nat (length xs))%Z.
Proof. exact @update_time. Qed.
Print Assumptions C09_clock_advances_by_substeps.

(** C09: by exactly the forcing resolution when the sub-step divides it and the end time is not passed (framework build: regardless of it). *)
Theorem C09_clock_advances_by_resolution :
  forall (cfg : Cfg) (s : state) (u : upar) (xs : list step) (s' : state) (t d f e : R) (k : nat),
    p_invalid (st_p s) = false -> @executed exact cfg s u xs s' ->
    p_time (st_p s) = Fin t -> u_dt u = Fin d -> p_fres (st_p s) = Fin f -> p_endtime (st_p s) = Fin e ->
    0 < d -> f = INR k * d -> (ngen = true \/ t + f * 3600 <= e) ->
    length xs = k /\ p_time (st_p s') = Fin (t + f * 3600).
Proof. exact @update_full_step. Qed.
Print Assumptions C09_clock_advances_by_resolution.

(** C09: a sub-step longer than the forcing resolution is never executed and the clock stands still. *)
Theorem C09_long_substep_never_runs :
  forall (cfg : Cfg) (s : state) (u : upar) (xs : list step) (s' : state) (d f : R),
    p_invalid (st_p s) = false -> @executed exact cfg s u xs s' ->
    u_dt u = Fin d -> p_fres (st_p s) = Fin f -> 0 <= f -> f < d * (1 - 1 / 100000000) ->
    xs = [] /\ p_time (st_p s') = p_time (st_p s).
Proof. exact @update_no_step. Qed.
Print Assumptions C09_long_substep_never_runs.

(** C09 refuted: from time 0 with a resolution of one hour an Update may reach only 2880 s (sub-step 0.4 h), or not advance at all (2 h). *)
Theorem C09_clock_always_advances_by_resolution_refuted :
  forall cfg : Cfg, exists s1 s1' s2 s2' : state,
    p_invalid (st_p s1) = false /\ p_time (st_p s1) = Fin 0 /\ p_fres (st_p s1) = Fin 1 /\ @Update exact cfg s1 = Ok s1' /\ p_time (st_p s1') = Fin 2880 /\
    p_invalid (st_p s2) = false /\ p_time (st_p s2) = Fin 0 /\ p_fres (st_p s2) = Fin 1 /\ @Update exact cfg s2 = Ok s2' /\ p_time (st_p s2') = Fin 0.
Proof. exact clock_refuted. Qed.
Print Assumptions C09_clock_always_advances_by_resolution_refuted.

Example C09_concrete : forall cfg : Cfg,
  @executed exact cfg ex_start (ex_upar (1 / 2) (3 / 2)) ex_xs ex_end /\ p_invalid (st_p ex_start) = false /\
  p_time (st_p ex_start) = Fin 0 /\ p_fres (st_p ex_start) = Fin 1 /\ p_endtime (st_p ex_start) = Fin 7200 /\ 1 = INR 2 * (1 / 2) /\ 0 + 1 * 3600 <= 7200 /\
  p_time (st_p ex_end) = Fin 3600.
Proof. exact ex_clock. Qed.

(** C10: the adaptive sub-step is the minimum step under strong rain (> 10 mm/h) or ponding, twice that under rain, else the forcing resolution, and never
    more than the latter; otherwise the configured one. *)
Theorem C10_substep_length :
  forall (cfg : Cfg) (s : state) (u : upar) (xs : list step) (s' : state) (m f r w : R),
    p_invalid (st_p s) = false -> @executed exact cfg s u xs s' -> p_adaptive (st_p s) = true ->
    p_mints (st_p s) = Fin m -> p_fres (st_p s) = Fin f -> st_precip s = Fin r -> mb_on_ts (st_mb s) = Fin w ->
    (10 < r \/ 0 < w -> u_dt u = Fin (Rmin m f)) /\
    (r <= 10 -> w <= 0 -> 0 < r -> u_dt u = Fin (Rmin (2 * m) f)) /\
    (r <= 0 -> w <= 0 -> u_dt u = Fin f).
Proof. exact @adaptive_cases. Qed.
Print Assumptions C10_substep_length.

Theorem C10_fixed_substep_length :
  forall (fp : Fp) (cfg : Cfg) (s : state) (u : upar) (xs : list step) (s' : state),
    p_invalid (st_p s) = false -> executed s u xs s' -> p_adaptive (st_p s) = false -> u_dt u = p_timestep (st_p s).
Proof. exact @fixed_dt. Qed.
Print Assumptions C10_fixed_substep_length.

(** C10, whatever the rounding: it never exceeds the forcing resolution, and at least one sub-step is taken. *)
Theorem C10_adaptive_substep_within_resolution :
  forall (fp : Fp) (cfg : Cfg) (s : state) (u : upar) (xs : list step) (s' : state) (m f : R),
    p_invalid (st_p s) = false -> executed s u xs s' -> p_adaptive (st_p s) = true ->
    p_mints (st_p s) = Fin m -> p_fres (st_p s) = Fin f -> 0 < m -> 0 < f -> rnd m = Fin m ->
    (1 <= length xs)%nat /\ dltb (Fin f) (u_dt u) = false.
Proof. exact @adaptive_at_least_one. Qed.
Print Assumptions C10_adaptive_substep_within_resolution.

(** Example: the saturated column under 20 mm/h of rain with a minimum sub-step of half an hour and the adaptive option. *)
Example C10_concrete : forall cfg : Cfg, exists u xs s',
  p_invalid (st_p ad_start) = false /\ @executed exact cfg ad_start u xs s' /\ p_adaptive (st_p ad_start) = true /\
  p_mints (st_p ad_start) = Fin (1 / 2) /\ p_fres (st_p ad_start) = Fin 1 /\ st_precip ad_start = Fin 20 /\ mb_on_ts (st_mb ad_start) = Fin 0 /\
  length xs = 2%nat /\ u_dt u = Fin (1 / 2).
Proof. exact ad_run. Qed.

(** C11: precipitation and PET reported are rate (mm/h) x simulated hours, in metres. *)
Theorem C11_forcing_applied :
  forall (cfg : Cfg) (s : state) (u : upar) (xs : list step) (s' : state) (r e d : R),
    p_invalid (st_p s) = false -> @executed exact cfg s u xs s' ->
    st_precip s = Fin r -> st_pet s = Fin e -> u_dt u = Fin d -> 0 <= d ->
    exists o, st_out s' = Some o /\
      o_precip o = Fin (r / 1000 * (INR (length xs) * d)) /\ o_pet o = Fin (e / 1000 * (INR (length xs) * d)).
Proof. exact @update_forcing. Qed.
Print Assumptions C11_forcing_applied.

Example C11_concrete : forall cfg : Cfg, exists o,
  p_invalid (st_p ex_start) = false /\ @executed exact cfg ex_start (ex_upar (1 / 2) (3 / 2)) ex_xs ex_end /\
  st_precip ex_start = Fin 20 /\ st_pet ex_start = Fin 0 /\ u_dt (ex_upar (1 / 2) (3 / 2)) = Fin (1 / 2) /\ st_out ex_end = Some o /\ o_precip o = Fin (2 / 100).
Proof. exact ex_forcing. Qed.

(** C12: for an invalid soil type Update turns the precipitation into runoff and discharge and leaves the soil and the clock alone. *)
Theorem C12_invalid_soil_passes_rain_through :
  forall (fp : Fp) (cfg : Cfg) (s : state), p_invalid (st_p s) = true ->
    exists s' o, Update s = Ok s' /\ st_out s' = Some o /\
      st_head s' = st_head s /\ st_p s' = st_p s /\ st_soils s' = st_soils s /\ g_queue s' = g_queue s /\
      o_precip o = (st_precip s * lit (1 / 1000))%d /\ o_runoff o = o_precip o /\ o_Q o = o_precip o /\
      o_in o = Fin 0 /\ o_end o = Fin 0 /\ o_aet o = Fin 0 /\ o_rech o = Fin 0 /\ o_giuh o = Fin 0 /\ o_pet o = Fin 0 /\ o_Qgw o = Fin 0 /\ o_mb o = Fin 0.
Proof. exact @invalid_update. Qed.
Print Assumptions C12_invalid_soil_passes_rain_through.

(** C12 for histories: soil, clock and initial storage never change, nothing is computed, and the totals of rain and runoff stay equal. *)
Theorem C12_invalid_soil_history :
  forall (cfg : Cfg) (Q : state -> Prop) (s0 : state) (xs : list step) (s : state),
    @history exact cfg Q s0 xs s -> p_invalid (st_p s0) = true -> @fresh exact s0 ->
    xs = [] /\ p_invalid (st_p s) = true /\ st_head s = st_head s0 /\ p_time (st_p s) = p_time (st_p s0) /\
    mb_start (st_mb s) = mb_start (st_mb s0) /\ mb_precip (st_mb s) = mb_runoff (st_mb s).
Proof. exact @invalid_history. Qed.
Print Assumptions C12_invalid_soil_history.

Theorem C12_invalid_soil_balance :
  forall (cfg : Cfg) (Q : state -> Prop) (s0 : state) (xs : list step) (s s' : state) (r : R),
    @history exact cfg Q s0 xs s -> p_invalid (st_p s0) = true -> @fresh exact s0 ->
    @Update exact cfg s = Ok s' -> mb_precip (st_mb s') = Fin r -> @global_error exact (st_mb s') = Fin 0.
Proof. exact @invalid_balance. Qed.
Print Assumptions C12_invalid_soil_balance.

Example C12_concrete : forall cfg : Cfg, exists s' o,
  p_invalid (st_p bad_start) = true /\ @fresh exact bad_start /\ @Update exact cfg bad_start = Ok s' /\ mb_precip (st_mb s') = Fin 2 /\
  st_out s' = Some o /\ o_precip o = Fin (2 / 100) /\ o_Q o = Fin (2 / 100).
Proof. exact bad_run. Qed.

(** C13, whatever the rounding: with a negative or NaN precipitation or PET rate an Update never returns; if nothing stopped it before it fails the assertion. *)
Theorem C13_update_needs_forcing :
  forall (fp : Fp) (cfg : Cfg) (s : state), p_invalid (st_p s) = false ->
    dgeb (st_precip s) (Fin 0) = false \/ dgeb (st_pet s) (Fin 0) = false ->
    exists r, Update s = Stop r /\
      (forall s1 v m, update_prologue s = Ok (s1, v) -> lgar_calc_mass_bal (p_cum (st_p s1)) (st_head s1) = Ok m -> r = AssertFail).
Proof. exact @update_needs_forcing. Qed.
Print Assumptions C13_update_needs_forcing.

(** Example: the forcing that Initialize leaves behind, -1 for both rates. *)
Example C13_concrete : forall cfg : Cfg,
  p_invalid (st_p unset_start) = false /\ st_precip unset_start = Fin (-1) /\ @dgeb (st_precip unset_start) (Fin 0) = false /\
  @Update exact cfg unset_start = Stop AssertFail.
Proof. exact unset_run. Qed.

(** C18, whatever the rounding: the published front arrays mirror the soil profile. *)
Theorem C18_outputs_mirror_profile :
  forall (fp : Fp) (cfg : Cfg) (s : state) (u : upar) (xs : list step) (s' : state),
    p_invalid (st_p s) = false -> executed s u xs s' ->
    p_nfronts (st_p s') = Z.of_nat (length (st_head s')) /\
    p_theta_wf (st_p s') = map f_theta (st_head s') /\
    p_depth_wf (st_p s') = map (fun f => f_depth f * lit (1 / 100))%d (st_head s') /\
    exists o v, st_out s' = Some o /\ lgar_calc_mass_bal (p_cum (st_p s')) (st_head s') = Ok v /\ o_end o = (v * lit (1 / 100))%d.
Proof. exact @update_outputs. Qed.
Print Assumptions C18_outputs_mirror_profile.

Example C18_concrete : forall cfg : Cfg,
  @executed exact cfg ex_start (ex_upar (1 / 2) (3 / 2)) ex_xs ex_end /\ p_invalid (st_p ex_start) = false /\
  p_nfronts (st_p ex_end) = 1%Z /\ p_theta_wf (st_p ex_end) = [Fin (2 / 5)] /\ p_depth_wf (st_p ex_end) = [Fin 1].
Proof. exact ex_outputs. Qed.

(** C46: UpdateUntil performs exactly one Update for a positive time and fails for any other. *)
Theorem C46_update_until_is_one_update :
  forall (fp : Fp) (cfg : Cfg) (t : dbl) (s : state),
    UpdateUntil t s = if dltb (Fin 0) t then Update s else Stop AssertFail.
Proof. exact @UpdateUntil_spec. Qed.
Print Assumptions C46_update_until_is_one_update.

(** C46 refuted: asked for t = 100000 s, the model stops at 3600 s. *)
Theorem C46_update_until_reaches_time_refuted :
  forall cfg : Cfg, exists s s' : state,
    p_invalid (st_p s) = false /\ @UpdateUntil exact cfg (Fin 100000) s = Ok s' /\ p_time (st_p s') = Fin 3600.
Proof. exact until_refuted. Qed.
Print Assumptions C46_update_until_reaches_time_refuted.
