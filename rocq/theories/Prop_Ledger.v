(** C01, C02, C04: the water ledger of a whole simulation. *)

From Coq Require Import Reals Lra ZArith List Bool.
From Verif Require Import Outcome Dbl Exact Types Fronts State Update Spec_Common Spec_Update
  Pf_Ledger Pf_Signs Ex_Saturated Ex_NaN Ex_Ledger.
Import ListNotations.
Open Scope R_scope.

(** C01: after any history of Updates and user edits that ends with an Update, the balance printed by Finalize is the sum of the residuals of
    all sub-steps and of the ponding residues that were dropped.  Nothing is assumed about the soil routines. *)
Theorem C01_global_balance_is_sum_of_residuals :
  forall (cfg : Cfg) (Q : state -> Prop) (s0 : state) (xs : list step) (s : state) (u : upar) (ys : list step) (s' : state),
    @fresh exact s0 -> p_invalid (st_p s0) = false -> @history exact cfg Q s0 xs s -> @executed exact cfg s u ys s' ->
    Forall (fun x => finite (residual x)) (xs ++ ys) -> finite (mb_calib (st_mb s')) ->
    @global_error exact (st_mb s') =
      Fin (Rsum (map (fun x => val (residual x)) (xs ++ ys)) + Rsum (map (fun x => dropped (val (ponded_before x))) (xs ++ ys))).
Proof. exact @history_global. Qed.
Print Assumptions C01_global_balance_is_sum_of_residuals.

(** C01: hence the printed balance grows by at most 1e-4 + 1e-12 cm per sub-step. *)
Theorem C01_global_balance_bounded :
  forall (cfg : Cfg) (s0 : state) (xs : list step) (s : state) (u : upar) (ys : list step) (s' : state),
    @fresh exact s0 -> signs s0 -> p_invalid (st_p s0) = false ->
    @history exact cfg (fun s => not_negative (c_pmax (st_cal s))) s0 xs s -> @executed exact cfg s u ys s' ->
    Forall (fun x => finite (residual x)) (xs ++ ys) -> finite (mb_calib (st_mb s')) ->
    exists g, @global_error exact (st_mb s') = Fin g /\ Rabs g <= INR (length (xs ++ ys)) * (1 / 10000 + 1 / 1000000000000).
Proof. exact @history_bound. Qed.
Print Assumptions C01_global_balance_bounded.

(** Example: one Update of two sub-steps from a freshly initialised state. *)
Example C01_concrete : forall cfg : Cfg,
  @fresh exact ex_start /\ signs ex_start /\ p_invalid (st_p ex_start) = false /\
  @history exact cfg (fun s => not_negative (c_pmax (st_cal s))) ex_start [] ex_start /\
  @executed exact cfg ex_start (ex_upar (1 / 2) (3 / 2)) ex_xs ex_end /\
  Forall (fun x => finite (residual x)) ([] ++ ex_xs) /\ finite (mb_calib (st_mb ex_end)) /\ length ex_xs = 2%nat /\
  mb_precip (st_mb ex_end) = Fin 2 /\ mb_runoff (st_mb ex_end) = Fin (1 / 2) /\ @global_error exact (st_mb ex_end) = Fin 0.
Proof. exact ex_ledger. Qed.

(** C02: the residual an Update reports is at most 1e-6 m in absolute value, or NaN. *)
Theorem C02_reported_residual_within_tolerance :
  forall (cfg : Cfg) (Q : state -> Prop) (s0 : state) (xs : list step) (s : state) (u : upar) (ys : list step) (s' : state),
    mb_local (st_mb s0) = None -> @history exact cfg Q s0 xs s -> @executed exact cfg s u ys s' ->
    exists o, st_out s' = Some o /\ (o_mb o = NaN \/ exists r, o_mb o = Fin r /\ Rabs r <= 1 / 1000000).
Proof. exact @update_reports. Qed.
Print Assumptions C02_reported_residual_within_tolerance.

(** C02: NaN is really reported.  With a negative wilting point the actual evapotranspiration is NaN; Update returns normally after 30 of 40 cm of
    soil water have vanished. *)
Theorem C02_residual_always_a_number_refuted :
  forall cfg : Cfg, (0 < fuel)%nat -> exists s s' o,
    p_invalid (st_p s) = false /\ @fresh exact s /\ @Update exact cfg s = Ok s' /\ st_out s' = Some o /\ o_mb o = NaN /\
    mb_start (st_mb s') = Fin 40 /\ mb_end (st_mb s') = Fin 10.
Proof. exact na_refutes. Qed.
Print Assumptions C02_residual_always_a_number_refuted.

(** C04, whatever the rounding: reported precipitation, PET, runoff, routed runoff, discharge and the ponded water are never negative, after any history. *)
Theorem C04_reported_fluxes_not_negative :
  forall (fp : Fp) (cfg : Cfg) (s0 : state) (xs : list step) (s : state) (u : upar) (ys : list step) (s' : state),
    signs s0 -> history (fun s => not_negative (c_pmax (st_cal s))) s0 xs s -> executed s u ys s' ->
    p_invalid (st_p s) = false \/ not_negative (st_precip s) ->
    outputs_nn s' /\ not_negative (mb_on_ts (st_mb s')).
Proof. exact @outputs_not_negative. Qed.
Print Assumptions C04_reported_fluxes_not_negative.

Example C04_concrete : forall cfg : Cfg,
  signs ex_start /\ @executed exact cfg ex_start (ex_upar (1 / 2) (3 / 2)) ex_xs ex_end /\ p_invalid (st_p ex_start) = false.
Proof. exact ex_signs_run. Qed.
