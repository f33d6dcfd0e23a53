(** C39, C40: calibration parameters. *)

From Coq Require Import String Reals ZArith List Bool.
From Verif Require Import Outcome Dbl Exact Types ListOps Soil Fronts State Update Bmi Spec_Common Spec_Update Spec_Profile Spec_Bmi Spec_Calib
  Pf_Calib Pf_BmiRun Ex_Saturated Ex_TwoLayers Ex_Calib Ex_Bmi.
Import ListNotations.
Open Scope Z_scope.
Open Scope list_scope.

(** C39, whatever the rounding: if the flag is set and no two layers share a soil type, then during and after the Update every layer has the values set
    for it; every front keeps its head and everything else but its water content, which is that of its head in the new soil; the change of storage is
    booked; the field capacity and the ponding limit are the ones set; the flag is used up. *)
Theorem C39_applied_by_the_update :
  forall (fp : Fp) (cfg : Cfg) (s : state) (u : upar) (xs : list step) (s' : state),
    p_invalid (st_p s) = false -> p_calib (st_p s) = true -> p_nfronts (st_p s) = listLength (st_head s) ->
    profile (p_nlayers (st_p s)) (p_cum (st_p s)) (st_head s) -> sound_env (env_of s) -> distinct_types (p_stype (st_p s)) (p_nlayers (st_p s)) ->
    executed s u xs s' ->
    (forall k, 1 <= k <= p_nlayers (st_p s) ->
       exists sl sl', soil_of (env_of s) k = Ok sl /\ soil_of (u_env u) k = Ok sl' /\ soil_of (env_of s') k = Ok sl' /\ has_values (st_cal s) k sl' /\ same_rest sl sl') /\
    (exists l m0 m1,
      Forall2 (fun f f' => exists sl, soil_of (u_env u) (f_layer f) = Ok sl /\ f' = set_theta f (theta_of_h sl (f_psi f))) (st_head s) l /\
      (forall x ys, xs = x :: ys -> st_head (x_s x) = l) /\
      lgar_calc_mass_bal (p_cum (st_p s)) (st_head s) = Ok m0 /\ lgar_calc_mass_bal (p_cum (st_p s)) l = Ok m1 /\
      mb_calib (st_mb s') = (mb_calib (st_mb s) + (m1 - m0))%d) /\
    u_fc u = c_fc (st_cal s) /\ u_pmax u = c_pmax (st_cal s) /\ p_calib (st_p s') = false.
Proof. exact @calibration_distinct. Qed.
Print Assumptions C39_applied_by_the_update.

(** C39: after one Update the flag is off (unless the soil is invalid, where Update does nothing). *)
Theorem C39_only_once :
  forall (fp : Fp) (cfg : Cfg) (s s' : state), Update s = Ok s' -> p_calib (st_p s') = false \/ p_invalid (st_p s') = true.
Proof. exact @flag_consumed. Qed.
Print Assumptions C39_only_once.

(** C39: from then on, and always if the flag was never set, the calibration values do not matter: Update commutes with changing them, *)
Theorem C39_values_do_not_matter_without_flag :
  forall (fp : Fp) (cfg : Cfg) (c : calib) (s : state), p_calib (st_p s) = false \/ p_invalid (st_p s) = true ->
    Update (recal c s) = omap (recal c) (Update s).
Proof. exact @update_recal. Qed.
Print Assumptions C39_values_do_not_matter_without_flag.

(** and all calls about calibration variables may be left out of any sequence of calls. *)
Theorem C39_later_calls_have_no_effect :
  forall (fp : Fp) (cfg : Cfg) (cs : list call) (o o' : obj), p_calib (st_p (ob_s o)) = false \/ p_invalid (st_p (ob_s o)) = true ->
    do_calls cs o = Ok o' ->
    exists o1, do_calls (filter (fun c => negb (about_calib c)) cs) o = Ok o1 /\ ob_pre o' = ob_pre o1 /\ ob_s o' = recal (st_cal (ob_s o')) (ob_s o1).
Proof. exact @calls_alike. Qed.
Print Assumptions C39_later_calls_have_no_effect.

Example C39_later_calls_concrete : forall cfg : Cfg, (p_calib (st_p (ob_s bm_obj)) = false \/ p_invalid (st_p (ob_s bm_obj)) = true) /\
  filter (fun c => negb (about_calib c)) bm_junk = [CUpdate] /\
  exists o', @do_calls exact cfg bm_junk bm_obj = Ok o' /\ c_theta_e (st_cal (ob_s o')) = [Fin 7] /\ st_head (ob_s o') = st_head ex_end.
Proof. exact @bm_ignored. Qed.

(** C40: layers of the same soil type all end up with the values set for the deepest of them. *)
Theorem C40_shared_type_gets_deepest_values_refuted :
  forall (fp : Fp) (cfg : Cfg) (s : state) (u : upar) (xs : list step) (s' : state) (j k t : Z),
    p_invalid (st_p s) = false -> p_calib (st_p s) = true -> p_nfronts (st_p s) = listLength (st_head s) ->
    profile (p_nlayers (st_p s)) (p_cum (st_p s)) (st_head s) -> executed s u xs s' ->
    1 <= j -> j < k -> k <= p_nlayers (st_p s) -> uget (p_stype (st_p s)) j = Ok t -> uget (p_stype (st_p s)) k = Ok t ->
    (forall y, k < y -> y <= p_nlayers (st_p s) -> uget (p_stype (st_p s)) y <> Ok t) ->
    exists sl, soil_of (u_env u) j = Ok sl /\ soil_of (u_env u) k = Ok sl /\ has_values (st_cal s) k sl.
Proof. exact @calibration_shared. Qed.
Print Assumptions C40_shared_type_gets_deepest_values_refuted.

Local Existing Instance exact.

Example C39_concrete : forall cfg : Cfg, exists s', p_invalid (st_p ca_start) = false /\ p_calib (st_p ca_start) = true /\ p_nfronts (st_p ca_start) = listLength (st_head ca_start) /\
  profile (p_nlayers (st_p ca_start)) (p_cum (st_p ca_start)) (st_head ca_start) /\ sound_env (env_of ca_start) /\
  distinct_types (p_stype (st_p ca_start)) (p_nlayers (st_p ca_start)) /\ executed ca_start (ex_upar 1 (3 / 2)) [ca_step] s' /\
  soil_of (env_of ca_start) 1 = Ok ca_soil /\ soil_of ex_env 1 = Ok ex_soil /\ mb_calib (st_mb s') = Fin (-10) /\ global_error (st_mb s') = Fin 0.
Proof. exact @ca_concrete. Qed.

(** C40: an execution where the conductivity set for the upper layer is lost. *)
Theorem C40_upper_value_lost_refuted :
  forall cfg : Cfg, exists s u xs s', @executed exact cfg s u xs s' /\ sound_state s /\ p_calib (st_p s) = true /\ p_nfronts (st_p s) = listLength (st_head s) /\
    c_Ksat (st_cal s) = [Fin 7; Fin 1] /\ exists sl, soil_of (u_env u) 1 = Ok sl /\ soil_of (u_env u) 2 = Ok sl /\ s_Ksat sl = Fin 1.
Proof. exact @cs_lost. Qed.
Print Assumptions C40_upper_value_lost_refuted.

(** C40: the water content of the upper front is computed with the overwritten values: it can lie above the saturation of its layer. *)
Theorem C40_front_above_saturation_refuted :
  exists s s1 v f sl, sound_state s /\ p_calib (st_p s) = true /\ p_nfronts (st_p s) = listLength (st_head s) /\
    c_theta_e (st_cal s) = [Fin (1 / 2); Fin (2 / 5)] /\ update_prologue s = Ok (s1, v) /\ lget (st_head s1) 0 = Ok f /\ f_layer f = 1%Z /\
    soil_of (env_of s1) 1 = Ok sl /\ f_theta f = Fin (1 / 2) /\ s_theta_e sl = Fin (2 / 5).
Proof. exact cs_oversaturated. Qed.
Print Assumptions C40_front_above_saturation_refuted.
