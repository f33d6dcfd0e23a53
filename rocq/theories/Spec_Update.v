(** Vocabulary for statements about whole simulations. *)

From Coq Require Import Reals ZArith List Bool.
From RecordUpdate Require Import RecordSet.
From Verif Require Import Outcome Dbl Types Fronts State Update Spec_Common.
Import ListNotations.
Import RecordSetNotations.
Open Scope R_scope.

Section Spec.
Context {fp : Fp} {cfg : Cfg}.

(** An executed sub-step: model state and running totals before and after it. *)
Record step : Type := mkStep { x_s : state; x_a : acc; x_s' : state; x_a' : acc }.

(** Sub-steps executed one after the other. *)
Inductive runs (u : upar) : state -> acc -> list step -> state -> acc -> Prop :=
| runs_nil : forall s a, runs u s a [] s a
| runs_cons : forall s a s1 a1 xs s2 a2,
    substep u s a = Ok (s1, a1) -> runs u s1 a1 xs s2 a2 -> runs u s a (mkStep s a s1 a1 :: xs) s2 a2.

(** [xs] are the sub-steps by which [Update] leads from [s] to [s']; [u] is what they share.
    For an invalid soil type there are none. *)
Definition executed (s : state) (u : upar) (xs : list step) (s' : state) : Prop :=
  Update s = Ok s' /\
  if p_invalid (st_p s) then xs = []
  else exists s1 vcal volend s2 n s3 a,
    update_prologue s = Ok (s1, vcal) /\
    lgar_calc_mass_bal (p_cum (st_p s1)) (st_head s1) = Ok volend /\
    update_steps s1 = Ok (s2, u_dt u, n) /\
    u = mkU (env_of s2) (u_dt u) (p_nint (st_p s2)) (p_closed (st_p s2)) (p_wilting (st_p s2)) (p_fc (st_p s2)) (p_pmax (st_p s2)) /\
    runs u s2 (acc0 volend (mb_on_ts (st_mb s2))) xs s3 a /\
    (length xs = Z.to_nat n \/
     (ngen = false /\ (0 < length xs < Z.to_nat n)%nat /\ dgeb (p_time (st_p s3)) (p_endtime (st_p s3)) = true)) /\
    finish_update s3 a vcal = Ok s'.

(** What a user can overwrite between two Updates through SetValue: the forcing, the soil temperatures, the calibration
    parameters and the published outputs. *)
Definition user_edit (s s' : state) : Prop :=
  exists pr pet T cal out nf tw dw,
    s' = s <| st_precip := pr |> <| st_pet := pet |> <| st_cal := cal |> <| st_out := out |>
           <| st_p := (st_p s) <| p_soilT := T |> <| p_nfronts := nf |> <| p_theta_wf := tw |> <| p_depth_wf := dw |> |>.

(** A simulation: Updates and user edits (restricted by [Q]) in any order, with all sub-steps executed. *)
Inductive history (Q : state -> Prop) (s0 : state) : list step -> state -> Prop :=
| hist_start : history Q s0 [] s0
| hist_edit : forall xs s s', history Q s0 xs s -> user_edit s s' -> Q s' -> history Q s0 xs s'
| hist_update : forall xs s u ys s', history Q s0 xs s -> executed s u ys s' -> history Q s0 (xs ++ ys) s'.

(** State left by Initialize as far as the water ledger is concerned: all totals are zero and the initial storage is that of the profile. *)
Definition fresh (s : state) : Prop :=
  (exists v, lgar_calc_mass_bal (p_cum (st_p s)) (st_head s) = Ok (Fin v) /\ mb_start (st_mb s) = Fin v) /\
  mb_precip (st_mb s) = Fin 0 /\ mb_runoff (st_mb s) = Fin 0 /\ mb_aet (st_mb s) = Fin 0 /\ mb_rech (st_mb s) = Fin 0 /\
  mb_calib (st_mb s) = Fin 0 /\ mb_on (st_mb s) = Fin 0 /\ mb_on_ts (st_mb s) = Fin 0 /\ mb_local (st_mb s) = None.

(** Residual of the water balance that a sub-step records. *)
Definition residual (x : step) : dbl := match mb_local (st_mb (x_s' x)) with Some d => d | None => NaN end.
(** Water on the surface at the start of a sub-step. *)
Definition ponded_before (x : step) : dbl := a_on (x_a x).

(** Rain rate (cm/h) and water on the surface (cm) that a sub-step starts with. *)
Definition rain_rate (x : step) : dbl := (dfmax (st_precip (x_s x)) (Fin 0) * lit (1 / 10))%d.
Definition surface_water (u : upar) (x : step) : dbl := (rain_rate x * u_dt u + ponded_before x)%d.

(** The real number in a double, for doubles known to be finite. *)
Definition val (d : dbl) : R := match d with Fin r => r | _ => 0 end.

(** The residue of at most 1e-12 cm that is treated as a dry surface. *)
Definition dropped (w : R) : R := if Rle_dec w (1 / 1000000000000) then w else 0.

(** Settings for which no sign can be lost. *)
Definition sane (s : state) : Prop :=
  not_negative (p_timestep (st_p s)) /\ not_negative (p_mints (st_p s)) /\ not_negative (p_fres (st_p s)) /\
  not_negative (p_pmax (st_p s)) /\ not_negative (c_pmax (st_cal s)).
(** What is preserved between Updates. *)
Definition signs (s : state) : Prop :=
  sane s /\ not_negative (mb_on_ts (st_mb s)) /\ Forall not_negative (g_ord s) /\ Forall not_negative (g_queue s).

(** Outputs of an Update that have a sign. *)
Definition outputs_nn (s : state) : Prop := exists o, st_out s = Some o /\
  not_negative (o_precip o) /\ not_negative (o_pet o) /\ not_negative (o_runoff o) /\ not_negative (o_giuh o) /\ not_negative (o_Q o).
End Spec.
