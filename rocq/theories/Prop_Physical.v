(** C75: water contents, heads and conductivities stay physical in columns of any number of layers, in exact arithmetic. *)

From Coq Require Import String Reals ZArith List Bool.
From Verif Require Import Outcome Dbl Exact Types ListOps Soil Fronts Infil Move State Update Bmi Config Spec_Common Spec_List Spec_Soil Spec_Profile Spec_Update Spec_Storage
  Spec_Calib Spec_Config Spec_Physical Pf_Physical3 Pf_Physical4 Ex_Saturated Ex_Safety Ex_TwoLayers Ex_Calib Ex_Config Ex_Physical.
Import ListNotations.
Open Scope R_scope.

(** C75: an Update without ties keeps the fronts physical, after each of its sub-steps and at its end, and publishes their water contents.  When a calibration is
    pending its values have to fit the column. *)
Theorem C75_update_keeps_fronts_physical :
  forall (cfg : Cfg) (M : R) (s : state) (u : upar) (xs : list step) (s' : state), @sound_state exact s -> vg_column (env_of s) -> conducts_at_most M (env_of s) ->
    physical_state M s -> (p_calib (st_p s) = true -> calibration_fits M s) -> @executed exact cfg s u xs s' ->
    Forall (fun x => ~ @step_tie exact cfg u (x_s x) (x_a x)) xs ->
    physical_state M s' /\ vg_column (env_of s') /\ conducts_at_most M (env_of s') /\
    Forall (fun x => Forall (physical_front M (env_of (x_s' x))) (st_head (x_s' x))) xs /\
    (p_invalid (st_p s) = false -> p_theta_wf (st_p s') = map f_theta (st_head s')).
Proof.
  intros cfg M s u xs s' HS V C P F X T. destruct (@executed_physical cfg M s u xs s' HS (conj V C) P F X T) as (A & [B1 B2] & D & E). auto.
Qed.
Print Assumptions C75_update_keeps_fronts_physical.

(** C75: the same for any sequence of Updates without ties and of user edits in between, *)
Theorem C75_histories_keep_fronts_physical :
  forall (cfg : Cfg) (M : R) (s0 s : state), @sound_state exact s0 -> vg_column (env_of s0) -> conducts_at_most M (env_of s0) ->
    physical_state M s0 -> p_calib (st_p s0) = false -> @calm exact cfg s0 s -> physical_state M s /\ vg_column (env_of s) /\ conducts_at_most M (env_of s).
Proof. intros cfg M s0 s HS V C P F X. destruct (@calm_physical cfg M s0 s HS (conj V C) P F X) as (_ & [A B] & D & _). auto. Qed.
Print Assumptions C75_histories_keep_fronts_physical.

(** and in a column of one layer for every sequence. *)
Theorem C75_one_layer :
  forall (cfg : Cfg) (M : R) (Q : state -> Prop) (s0 : state) (xs : list step) (s : state), @sound_state exact s0 -> vg_column (env_of s0) -> conducts_at_most M (env_of s0) ->
    physical_state M s0 -> p_calib (st_p s0) = false -> p_nlayers (st_p s0) = 1%Z -> @history exact cfg Q s0 xs s ->
    physical_state M s /\ vg_column (env_of s) /\ conducts_at_most M (env_of s).
Proof.
  intros cfg M Q s0 xs s HS V C P F N H. apply (C75_histories_keep_fronts_physical cfg M s0 s HS V C P F). exact (@one_layer_calm cfg Q s0 xs s HS N H).
Qed.
Print Assumptions C75_one_layer.

(** C75: the state that Initialize leaves is physical for a good configuration, and the calibration values it starts with fit when no two layers share a soil type. *)
Theorem C75_initialize_is_physical :
  forall (files : string -> option (list row)) (junk : dbl) (ls : list string) (ts types gs : list numeral) (psi : numeral) (dt fres : R) (max : nat) (rows : list row),
    good_config files ls ts types gs psi dt fres max rows -> exists s, @Initialize exact files junk ls = Ok s /\
      @sound_state exact s /\ vg_column (env_of s) /\ (exists M, conducts_at_most M (env_of s)) /\
      forall M, conducts_at_most M (env_of s) -> physical_state M s /\ (distinct_types (p_stype (st_p s)) (p_nlayers (st_p s)) -> calibration_fits M s).
Proof. exact start_physical. Qed.
Print Assumptions C75_initialize_is_physical.

(** C75: the velocity routine never aborts on physical fronts; the abort for a negative conductivity cannot be reached from them. *)
Theorem C75_velocities_do_not_abort :
  forall (cfg : Cfg) (M : R) (e : env) (closed : bool) (nint : Z) (h_p : dbl) (l : list front), Forall (physical_front M e) l ->
    @lgar_dzdt_calc exact cfg e closed nint h_p l <> Stop Abort.
Proof. exact @velocities_no_abort. Qed.
Print Assumptions C75_velocities_do_not_abort.

Example C75_two_layers : forall cfg : Cfg, exists s, @sound_state exact tw_start /\ vg_column (env_of tw_start) /\ conducts_at_most 1 (env_of tw_start) /\ physical_state 1 tw_start /\
  p_calib (st_p tw_start) = false /\ p_nlayers (st_p tw_start) = 2%Z /\ @Update exact cfg tw_start = Ok s /\ @calm exact cfg tw_start s.
Proof. exact @tw_all. Qed.
Example C75_four_fronts : Forall (physical_front 1 ti_env) ti_head.
Proof. exact ti_fronts. Qed.
Example C75_calibrated : forall cfg : Cfg, exists s', @sound_state exact ca_start /\ vg_column (env_of ca_start) /\ conducts_at_most 3 (env_of ca_start) /\ physical_state 3 ca_start /\
  p_calib (st_p ca_start) = true /\ calibration_fits 3 ca_start /\ @executed exact cfg ca_start (ex_upar 1 (3 / 2)) [ca_step] s' /\
  Forall (fun x => ~ @step_tie exact cfg (ex_upar 1 (3 / 2)) (x_s x) (x_a x)) [ca_step] /\
  map f_theta (st_head ca_start) = [Fin (1 / 2)] /\ map f_theta (st_head (x_s ca_step)) = [Fin (2 / 5)].
Proof. exact @ca_all. Qed.
Example C75_phillipsburg : good_config repository' phillipsburg (map num ["44.0"; "131.0"; "25.0"]%string) (map num ["13"; "14"; "15"]%string)
  (map num ["0.06"; "0.51"; "0.28"; "0.12"; "0.03"]%string) (num "2000.0") (1 / 12) 1 15 seen.
Proof. exact phillipsburg_good. Qed.
