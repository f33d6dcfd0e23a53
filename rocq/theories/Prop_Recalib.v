(** C92: calibration switched on without changing a value has no effect. *)

From Coq Require Import String Ascii Reals ZArith List.
From Verif Require Import Outcome Dbl Exact Types ListOps Fronts State Update Bmi Config Driver Spec_Common Spec_Config Spec_Driver Spec_Update Spec_Calib
  Ex_Config Ex_Driver Spec_Relayer Spec_Recalib Pf_Recalib Ex_Recalib.
From Verif Require Import Update.
Import ListNotations.
Open Scope string_scope.
Open Scope list_scope.
Open Scope R_scope.

(** C92, whatever the rounding: if the values waiting to be applied are those in force, and the fronts have the water contents of their heads, Update with the flag set is Update without it. *)
Theorem C92_update : forall (fp : Fp) (cfg : Cfg) s, own_values s -> p_calib (st_p s) = true -> p_invalid (st_p s) = false -> Update s = Update (with_flag false s).
Proof. exact @update_again. Qed.
Print Assumptions C92_update.

(** C92, whatever the rounding: Initialize offers a client the values in force, as soon as the storage is a number. *)
Theorem C92_initialize : forall (fp : Fp) files junk ls s, Initialize files junk ls = Ok s -> (exists m, mb_start (st_mb s) = Fin m) -> own_values s.
Proof. exact @init_own. Qed.
Print Assumptions C92_initialize.

(** C92, whatever the rounding: two configurations that differ only in their lines calib_params=true and calib_params=false: the program writes the same lines and prints the same balance, or stops for the same reason. *)
Theorem C92_program_any_rounding : forall (fp : Fp) (cfg : Cfg) files junk texts ls ls', calib_legal ls -> calib_legal ls' -> but_calib ls = but_calib ls' ->
  (forall s, Initialize files junk ls = Ok s -> exists m, mb_start (st_mb s) = Fin m) -> both same_result (simulate files texts junk ls) (simulate files texts junk ls').
Proof. exact @simulate_flag. Qed.
Print Assumptions C92_program_any_rounding.

Local Existing Instance exact.

(** C92 in exact arithmetic, where the storage of an accepted configuration is a number. *)
Theorem C92_program : forall (cfg : Cfg) files texts junk ls ls' ts types gs psi dt fres max rows, good_config files ls ts types gs psi dt fres max rows -> calib_legal ls' -> but_calib ls = but_calib ls' ->
  both same_result (simulate files texts junk ls) (simulate files texts junk ls').
Proof. exact @program_again. Qed.
Print Assumptions C92_program.

(** A saturated column with rain, before its first step. *)
Example C92_update_concrete : forall cfg : Cfg, own_values rc_start /\ p_calib (st_p rc_start) = true /\ p_invalid (st_p rc_start) = false /\ Update rc_start = Ok dr_end.
Proof. exact @rc_update. Qed.
(** The configuration of Ex_Driver with the line calib_params=true added. *)
Example C92_program_concrete : forall (cfg : Cfg) junk, calib_legal rc_lines /\ but_calib dr_lines = but_calib rc_lines /\ (exists s, Initialize dr_files junk rc_lines = Ok s /\ p_calib (st_p s) = true) /\
  exists r, simulate dr_files dr_texts junk rc_lines = Ok r /\ rs_rows r = [dr_out] /\ rs_printed r = Fin 0.
Proof. exact @rc_run. Qed.
