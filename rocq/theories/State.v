(** The model state held by a BmiLGAR object: struct model_state of include/all.hxx and the private members of include/bmi_lgar.hxx. *)

From Coq Require Import Reals ZArith List Bool.
From RecordUpdate Require Import RecordSet.
From Verif Require Import Outcome Dbl Types.
Import ListNotations.
Import RecordSetNotations.

(** struct lgar_bmi_parameters, all.hxx:103-160.  Left out: shape, spacing, origin, soil_depth_cm, initial_psi_cm, num_soil_types, AET_cm, ponded_depth_cm
    (not read after initialisation) and the static copy of giuh_ordinates (see [g_ord]). *)
Record params : Type := mkParams {
  p_nlayers : Z;             (* num_layers *)
  p_thick : list dbl;        (* layer_thickness_cm[0..num_layers] *)
  p_cum : list dbl;          (* cum_layer_thickness_cm[0..num_layers] *)
  p_stype : list (option Z); (* layer_soil_type[0..num_layers] *)
  p_frozen : list dbl;       (* frozen_factor[0..num_layers] *)
  p_nfronts : Z;             (* num_wetting_fronts *)
  p_ncells : Z;              (* num_cells_temp *)
  p_soilT : list dbl;        (* soil_temperature *)
  p_soilTz : list dbl;       (* soil_temperature_z *)
  p_depth_wf : list dbl;     (* soil_depth_wetting_fronts *)
  p_theta_wf : list dbl;     (* soil_moisture_wetting_fronts *)
  p_timestep : dbl;          (* timestep_h *)
  p_fres : dbl;              (* forcing_resolution_h *)
  p_mints : dbl;             (* minimum_timestep_h *)
  p_finterval : Z;           (* forcing_interval *)
  p_wilting : dbl;           (* wilting_point_psi_cm *)
  p_fc : dbl;                (* field_capacity_psi_cm *)
  p_closed : bool;           (* use_closed_form_G *)
  p_adaptive : bool;         (* adaptive_timestep *)
  p_pmax : dbl;              (* ponded_depth_max_cm *)
  p_precip_prev : dbl;       (* precip_previous_timestep_cm *)
  p_nint : Z;                (* nint *)
  p_time : dbl;              (* time_s *)
  p_endtime : dbl;           (* endtime_s *)
  p_timesteps : Z;           (* timesteps *)
  p_sft : bool;              (* sft_coupled *)
  p_calib : bool;            (* calib_params_flag *)
  p_invalid : bool           (* is_invalid_soil_type *)
}.
#[export] Instance eta_params : Settable _ := settable! mkParams
  <p_nlayers; p_thick; p_cum; p_stype; p_frozen; p_nfronts; p_ncells; p_soilT; p_soilTz; p_depth_wf; p_theta_wf;
   p_timestep; p_fres; p_mints; p_finterval; p_wilting; p_fc; p_closed; p_adaptive; p_pmax; p_precip_prev;
   p_nint; p_time; p_endtime; p_timesteps; p_sft; p_calib; p_invalid>.

(** struct lgar_mass_balance_variables, all.hxx:163-199.  Of the *_timestep_cm members only volon_timestep_cm is ever read back; the others duplicate the
    BMI outputs and are left out.  volQ_gw_cm is never initialised by the code and never output; it is left out too.
    [mb_local] is None until the first substep has been executed. *)
Record massbal : Type := mkMB {
  mb_on_ts : dbl;      (* volon_timestep_cm *)
  mb_start : dbl;      (* volstart_cm *)
  mb_end : dbl;        (* volend_cm *)
  mb_precip : dbl;     (* volprecip_cm *)
  mb_in : dbl;         (* volin_cm *)
  mb_on : dbl;         (* volon_cm *)
  mb_runoff : dbl;     (* volrunoff_cm *)
  mb_aet : dbl;        (* volAET_cm *)
  mb_pet : dbl;        (* volPET_cm *)
  mb_rech : dbl;       (* volrech_cm *)
  mb_giuh : dbl;       (* volrunoff_giuh_cm *)
  mb_Q : dbl;          (* volQ_cm *)
  mb_calib : dbl;      (* volchange_calib_cm *)
  mb_local : option dbl (* local_mass_balance *)
}.
#[export] Instance eta_massbal : Settable _ := settable! mkMB
  <mb_on_ts; mb_start; mb_end; mb_precip; mb_in; mb_on; mb_runoff; mb_aet; mb_pet; mb_rech; mb_giuh; mb_Q; mb_calib; mb_local>.

(** struct bmi_unit_conversion, bmi_lgar.hxx:151-163: the values behind the flux outputs, in metres. *)
Record bout : Type := mkOut {
  o_precip : dbl; o_in : dbl; o_end : dbl; o_aet : dbl; o_rech : dbl; o_runoff : dbl;
  o_giuh : dbl; o_Q : dbl; o_Qgw : dbl; o_pet : dbl; o_mb : dbl
}.
#[export] Instance eta_bout : Settable _ := settable! mkOut
  <o_precip; o_in; o_end; o_aet; o_rech; o_runoff; o_giuh; o_Q; o_Qgw; o_pet; o_mb>.

(** struct lgar_calib_parameters, all.hxx:203-213 *)
Record calib : Type := mkCal {
  c_theta_e : list dbl; c_theta_r : list dbl; c_n : list dbl; c_alpha : list dbl; c_Ksat : list dbl;
  c_fc : dbl; c_pmax : dbl
}.
#[export] Instance eta_calib : Settable _ := settable! mkCal <c_theta_e; c_theta_r; c_n; c_alpha; c_Ksat; c_fc; c_pmax>.

(** struct model_state, all.hxx:216-227, with lgar_bmi_input_params inlined, and the members of BmiLGAR.  [st_out] is None before
    the first Update (bmi_unit_conv is not initialised). *)
Record state : Type := mkState {
  st_head : list front;
  st_prev : list front;
  st_soils : list (option soil);
  st_p : params;
  st_mb : massbal;
  st_precip : dbl;        (* precipitation_mm_per_h *)
  st_pet : dbl;           (* PET_mm_per_h *)
  st_cal : calib;
  st_out : option bout;   (* bmi_unit_conv *)
  g_N : Z;                (* num_giuh_ordinates *)
  g_ord : list dbl;       (* giuh_ordinates[0..N-1] *)
  g_queue : list dbl      (* giuh_runoff_queue[0..N] *)
}.
#[export] Instance eta_state : Settable _ := settable! mkState
  <st_head; st_prev; st_soils; st_p; st_mb; st_precip; st_pet; st_cal; st_out; g_N; g_ord; g_queue>.

(** The arrays passed to the hydraulic routines. *)
Definition env_of (s : state) : env :=
  mkEnv (p_nlayers (st_p s)) (p_cum (st_p s)) (p_stype (st_p s)) (st_soils s) (p_frozen (st_p s)).
