(** C77: the capillary head is the same on both sides of a boundary between two layers, in exact arithmetic. *)

From Coq Require Import String Reals Lra ZArith List Bool.
From Verif Require Import Outcome Dbl Exact Types ListOps Soil Fronts Infil Move State Update Bmi Config Spec_Common Spec_List Spec_Soil Spec_Profile Spec_Update Spec_Storage
  Spec_Advance Spec_Calib Spec_Config Spec_Column Spec_Balance Spec_Shares Spec_Physical Spec_Meet Pf_Profile Pf_Structure Pf_Physical3 Pf_Shares Pf_Level Pf_Level2
  Ex_Saturated Ex_Safety Ex_TwoLayers Ex_Physical Ex_Books Ex_Meet Ex_Config.
Import ListNotations.
Open Scope R_scope.

(** C77: the motion leaves the same head on both sides of each layer boundary, whatever the heads were before.  It is required that no repair meets a buried inversion. *)
Theorem C77_motion_joins_heads :
  forall (cfg : Cfg) (M : R) (e : env) (dt volin old aet : dbl) (wfd : Z) (head prev l' : list front) (aet' fl : dbl),
    @sound_env exact e -> vg_column e -> conducts_at_most M e -> frozen_in_range e -> profile (e_nlayers e) (e_cum e) head -> deepest_rests head ->
    numbered prev -> length prev = length head -> finite dt -> Forall (physical_front M e) head ->
    ~ @move_tie exact cfg e dt volin wfd old aet head prev -> ~ @move_buried exact cfg e dt volin wfd old aet head prev ->
    @lgar_move_wetting_fronts exact cfg e dt volin wfd old aet head prev = Ok (l', aet', fl) -> @heads_meet exact e l'.
Proof. exact @motion_joins. Qed.
Print Assumptions C77_motion_joins_heads.

(** C77, refuted without that condition: the repair of two fronts below a wetter one sets the layer above to the head of the lower of the two. *)
Theorem C77_buried_inversion_refuted :
  exists (e : env) (head l' : list front), @sound_env exact e /\ vg_column e /\ profile (e_nlayers e) (e_cum e) head /\ deepest_rests head /\
    Forall (physical_front 1 e) head /\ @heads_meet exact e head /\ buried_inversion head /\
    (exists mc, @check_and_fix exact e head (Fin 0) = Ok (l', mc)) /\ ~ @heads_meet exact e l'.
Proof.
  exists ti_env, bu_head, bu_after. split; [exact (ss_env _ ti_sound)|]. split; [exact ti_vg|]. split; [apply bu_profile|]. split; [apply bu_profile|]. split; [exact bu_physical|].
  split; [exact bu_meet|]. split; [exact bu_buried|]. split; [exact bu_repair|exact bu_apart].
Qed.
Print Assumptions C77_buried_inversion_refuted.

(** C77: after each sub-step of an Update the heads meet; after the Update they meet if it has a sub-step or they met before it, also when it applied new calibration values. *)
Theorem C77_update_joins_heads :
  forall (cfg : Cfg) (M : R) (s : state) (u : upar) (xs : list step) (s' : state), @sound_state exact s -> vg_column (env_of s) -> conducts_at_most M (env_of s) ->
    physical_state M s -> (p_calib (st_p s) = true -> calibration_fits M s) -> @executed exact cfg s u xs s' -> @smooth exact cfg u xs ->
    Forall (fun x => @heads_meet exact (env_of (x_s' x)) (st_head (x_s' x))) xs /\
    (xs <> [] \/ @heads_meet exact (env_of s) (st_head s) -> @heads_meet exact (env_of s') (st_head s')).
Proof. intros cfg M s u xs s' HS V C. exact (@executed_meet cfg M s u xs s' HS (conj V C)). Qed.
Print Assumptions C77_update_joins_heads.

(** C77: the heads meet in every state that Updates and user edits reach, *)
Theorem C77_histories_keep_heads_joined :
  forall (cfg : Cfg) (M : R) (s0 s : state), @sound_state exact s0 -> vg_column (env_of s0) -> conducts_at_most M (env_of s0) -> physical_state M s0 -> p_calib (st_p s0) = false ->
    @heads_meet exact (env_of s0) (st_head s0) -> @smooth_history exact cfg s0 s -> @heads_meet exact (env_of s) (st_head s).
Proof. intros cfg M s0 s HS V C. exact (@smooth_meet cfg M s0 s HS (conj V C)). Qed.
Print Assumptions C77_histories_keep_heads_joined.

(** from the state of Initialize on, whatever the rounding there; *)
Theorem C77_initialize_joins_heads :
  forall (fp : Fp) (files : string -> option (list row)) (junk : dbl) (ls : list string) (s : state) (l : string) (np : numeral),
    last_line "initial_psi" l ls -> assigns "initial_psi" (text np) l -> good_numeral np -> Initialize files junk ls = Ok s -> heads_meet (env_of s) (st_head s).
Proof. exact @start_meet. Qed.
Print Assumptions C77_initialize_joins_heads.

(** and the water in these states is the sum of the shares of the fronts. *)
Theorem C77_storage_of_reached_states :
  forall (cfg : Cfg) (M : R) (s0 s : state) (qs : list part), @sound_state exact s0 -> vg_column (env_of s0) -> conducts_at_most M (env_of s0) -> physical_state M s0 ->
    p_calib (st_p s0) = false -> @heads_meet exact (env_of s0) (st_head s0) -> @smooth_history exact cfg s0 s ->
    strata (env_of s) qs -> Forall (fun f => finite (f_depth f) /\ finite (f_psi f)) (st_head s) -> storage (st_head s) = Rsum (shares qs (st_head s)).
Proof. exact @reached_storage. Qed.
Print Assumptions C77_storage_of_reached_states.

Example C77_two_layers : forall cfg : Cfg, exists s', @sound_state exact tw_start /\ vg_column (env_of tw_start) /\ conducts_at_most 1 (env_of tw_start) /\ physical_state 1 tw_start /\
  p_calib (st_p tw_start) = false /\ @heads_meet exact (env_of tw_start) (st_head tw_start) /\
  @executed exact cfg tw_start tw_upar [mkStep tw_start tw_acc0 tw_next tw_acc0] s' /\ @smooth exact cfg tw_upar [mkStep tw_start tw_acc0 tw_next tw_acc0] /\
  @smooth_history exact cfg tw_start s' /\ map f_layer (st_head tw_start) = [1; 2]%Z.
Proof.
  intro cfg. destruct (@tw_smooth cfg) as (s' & X & S & H). exists s'. split; [exact tw_sound|]. split; [exact ti_vg|]. split; [exact ti_conducts|]. split; [exact tw_physical|]. split; [reflexivity|].
  split; [exact tw_meet|]. split; [exact X|]. split; [exact S|]. split; [exact H|reflexivity].
Qed.
(** Its column, with the soil of each layer, and its water. *)
Example C77_two_layers_water : strata (env_of tw_start) bk_column /\ Forall (fun f => finite (f_depth f) /\ finite (f_psi f)) (st_head tw_start) /\ storage (st_head tw_start) = 40.
Proof.
  split; [exact bk_strata|]. split; [|cbn; lra]. change (st_head tw_start) with [tw_top; tw_low].
  repeat (apply Forall_cons || apply Forall_nil); (split; eexists; reflexivity).
Qed.
(** The first configuration of the repository has the line that Initialize needs. *)
Example C77_phillipsburg : good_config repository' phillipsburg (map num ["44.0"; "131.0"; "25.0"]%string) (map num ["13"; "14"; "15"]%string)
  (map num ["0.06"; "0.51"; "0.28"; "0.12"; "0.03"]%string) (num "2000.0") (1 / 12) 1 15 seen.
Proof. exact phillipsburg_good. Qed.
