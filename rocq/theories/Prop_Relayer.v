(** C91: only the soils of the layers matter. *)

From Coq Require Import String Ascii Reals ZArith List.
From Verif Require Import Outcome Dbl Exact Types ListOps Fronts State Update Bmi Config Driver Spec_Common Spec_Config Spec_Driver Spec_Update Spec_Profile Spec_Calib
  Ex_Saturated Ex_TwoLayers Ex_Config Ex_Driver Spec_Relayer Pf_Relayer Pf_Relayer2 Pf_Relayer3 Ex_Relayer.
Import ListNotations.
Open Scope string_scope.
Open Scope list_scope.
Open Scope R_scope.

(** C91, whatever the rounding: of two columns with the same soil in each layer, but other numbers for the soils and other rows in the table, Update makes such columns again, or stops in both for the same reason.  If values from
    the calibration are to be applied, no two layers may share a row. *)
Theorem C91_update : forall (fp : Fp) (cfg : Cfg) s s', relayered s s' -> (p_calib (st_p s) = true -> own_rows (p_stype (st_p s)) /\ own_rows (p_stype (st_p s'))) ->
  both relayered (Update s) (Update s').
Proof. exact @update_relayer. Qed.
Print Assumptions C91_update.

(** C91, whatever the rounding: two configurations that differ in the lines about the soils, with whatever tables and whatever uninitialised memory, and that put the same soil into each layer: the program
    writes the same lines and prints the same balance, or stops for the same reason. *)
Theorem C91_program_any_rounding : forall (fp : Fp) (cfg : Cfg) files junk files' junk' texts texts' ls ls' s s', Forall2 other_soils ls ls' -> Initialize files junk ls = Ok s -> Initialize files' junk' ls' = Ok s' ->
  same_layers (p_stype (st_p s)) (st_soils s) (p_stype (st_p s')) (st_soils s') -> (p_calib (st_p s) = true -> own_rows (p_stype (st_p s)) /\ own_rows (p_stype (st_p s'))) ->
  ReadForcingData texts ls = ReadForcingData texts' ls' -> both same_result (simulate files texts junk ls) (simulate files' texts' junk' ls').
Proof. exact @simulate_relayer. Qed.
Print Assumptions C91_program_any_rounding.

Local Existing Instance exact.

(** C91 in terms of the files: if the rows of the two tables that belong to a layer hold the same five numbers, for each layer, the two programs write the same lines and print the same balance, or stop for the same reason. *)
Theorem C91_program : forall (cfg : Cfg) files files' texts junk junk' ls ls' ts types types' gs psi dt fres max max' rows rows',
  good_config files ls ts types gs psi dt fres max rows -> good_config files' ls' ts types' gs psi dt fres max' rows' ->
  Forall2 other_soils ls ls' -> ~ In "calib_params=true" ls ->
  List.length types = List.length ts -> List.length types' = List.length ts -> same_rows (List.length ts) types rows types' rows' ->
  both same_result (simulate files texts junk ls) (simulate files' texts junk' ls').
Proof. exact @program_relayer. Qed.
Print Assumptions C91_program.

(** Two saturated layers with the same row of a table of one soil, and with the rows 3 and 1 of a table of three. *)
Example C91_concrete : forall cfg : Cfg, relayered tw_start (rl_state tw_start) /\ ~ own_rows (p_stype (st_p tw_start)) /\ p_calib (st_p tw_start) = false /\
  exists t t', Update tw_start = Ok t /\ Update (rl_state tw_start) = Ok t' /\ st_head t' = tw_head /\ relayered t t'.
Proof. exact @rl_update. Qed.

(** The run of Ex_Driver with the second soil of a table of three. *)
Example C91_program_concrete : forall (cfg : Cfg) junk, good_config rl_files rl_lines [num "100.0"] [num "2"] [num "1.0"] (num "0.0") (1 / 2) 1 3 rl_rows /\ Forall2 other_soils dr_lines rl_lines /\
  ~ In "calib_params=true" dr_lines /\ same_rows 1 [num "1"] [dr_row] [num "2"] rl_rows /\ exists r, simulate rl_files dr_texts junk rl_lines = Ok r /\ rs_rows r = [dr_out] /\ rs_printed r = Fin 0.
Proof. exact @rl_run. Qed.

(** C91 without the condition on the calibration is false: of two columns with the same soils, in which a conductivity of 7 is to be set for the upper and of 1 for the lower layer, the one whose layers share a row of the
    table computes with 1 in the upper layer, the other with 7. *)
Theorem C91_shared_rows_refuted : forall cfg : Cfg, exists s s', relayered s s' /\ sound_state s /\ sound_state s' /\ p_calib (st_p s) = true /\ c_Ksat (st_cal s) = [Fin 7; Fin 1] /\
  (exists u xs t sl, executed s u xs t /\ soil_of (u_env u) 1 = Ok sl /\ s_Ksat sl = Fin 1) /\
  (forall u' xs' t', executed s' u' xs' t' -> exists sl, soil_of (u_env u') 1 = Ok sl /\ s_Ksat sl = Fin 7).
Proof. exact @rl_shared. Qed.
Print Assumptions C91_shared_rows_refuted.
