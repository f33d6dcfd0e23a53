(** Calibration switched on, but no value changed. *)

From Coq Require Import String Reals ZArith List Bool.
From RecordUpdate Require Import RecordSet.
From Verif Require Import Outcome Dbl Types ListOps Soil Fronts State Update Bmi Config Driver Spec_Common Spec_Calib.
Import ListNotations.
Import RecordSetNotations.

(** The values waiting to be applied are those in force, and each front has the water content of its head. *)
Record own_values {fp : Fp} (s : state) : Prop := {
  ov_soils : forall f, In f (st_head s) -> exists sl, soil_of (env_of s) (f_layer f) = Ok sl /\ has_values (st_cal s) (f_layer f) sl /\ f_theta f = theta_of_h sl (f_psi f);
  ov_fc : c_fc (st_cal s) = p_fc (st_p s);
  ov_pmax : c_pmax (st_cal s) = p_pmax (st_p s);
  ov_count : p_nfronts (st_p s) = listLength (st_head s);
  ov_mass : exists m, lgar_calc_mass_bal (p_cum (st_p s)) (st_head s) = Ok (Fin m)
}.

(** The same state with the flag set or not. *)
Definition with_flag (b : bool) (s : state) : state := s <| st_p := (st_p s) <| p_calib := b |> |>.

(** The lines of a configuration without those of the key calib_params. *)
Definition but_calib (ls : list string) : list string := filter (fun l => negb (String.eqb (line_key l) "calib_params")) ls.
(** The lines of that key say true or false; with anything else the program stops. *)
Definition calib_legal (ls : list string) : Prop := forall l, In l ls -> line_key l = "calib_params"%string -> line_value l = "true"%string \/ line_value l = "false"%string.
