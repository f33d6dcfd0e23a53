(** Physical wetting fronts in a column of any number of layers, over the reals. *)

From Coq Require Import Reals ZArith List Bool.
From Verif Require Import Outcome Dbl Types State Spec_Common Spec_Soil Spec_Update Spec_Calib.
Import ListNotations.
Open Scope R_scope.

(** The head is not negative and may be infinite; the water content is the one the van Genuchten curve of the soil of its layer gives for that head, the
    residual one for an infinite head; the conductivity lies between 0 and [M]. *)
Record physical_front (M : R) (e : env) (f : front) : Prop := {
  ph_layer : (1 <= f_layer f <= e_nlayers e)%Z;
  ph_water : exists s r te a n m k t, soil_of e (f_layer f) = Ok s /\ vg_soil s r te a n m k /\ f_theta f = Fin t /\ r <= t <= te /\
    ((f_psi f = PInf /\ t = r) \/ exists h, f_psi f = Fin h /\ 0 <= h /\ t = vg_theta r te a n m h);
  ph_K : exists K, f_K f = Fin K /\ 0 <= K <= M
}.

(** No layer conducts better than [M]. *)
Definition conducts_at_most (M : R) (e : env) : Prop :=
  forall k s ks, (1 <= k <= e_nlayers e)%Z -> soil_of e k = Ok s -> s_Ksat s = Fin ks -> ks <= M.
(** The factors for frozen soil lie between 0 and 1. *)
Definition frozen_in_range (e : env) : Prop := forall k, (1 <= k <= e_nlayers e)%Z -> exists x, aget (e_frozen e) k = Ok (Fin x) /\ 0 <= x <= 1.

(** A model instance whose fronts are physical, with the settings that keep them so: no time step, ponding limit or amount
    of ponded water is negative. *)
Record physical_state (M : R) (s : state) : Prop := {
  py_fronts : Forall (physical_front M (env_of s)) (st_head s);
  py_frozen : frozen_in_range (env_of s);
  py_signs : not_negative (p_timestep (st_p s)) /\ not_negative (p_mints (st_p s)) /\ not_negative (p_fres (st_p s)) /\
    not_negative (p_pmax (st_p s)) /\ not_negative (mb_on_ts (st_mb s))
}.

(** Calibration values that fit the column: physical for every layer, no two layers share a soil type, and the number of fronts is the one last published. *)
Record calibration_fits (M : R) (s : state) : Prop := {
  cb_fronts : p_nfronts (st_p s) = Z.of_nat (length (st_head s));
  cb_types : distinct_types (p_stype (st_p s)) (p_nlayers (st_p s));
  cb_values : forall k, (1 <= k <= p_nlayers (st_p s))%Z -> exists tr te al n ks,
    aget (c_theta_r (st_cal s)) (k - 1)%Z = Ok (Fin tr) /\ aget (c_theta_e (st_cal s)) (k - 1)%Z = Ok (Fin te) /\ aget (c_alpha (st_cal s)) (k - 1)%Z = Ok (Fin al) /\
    aget (c_n (st_cal s)) (k - 1)%Z = Ok (Fin n) /\ aget (c_Ksat (st_cal s)) (k - 1)%Z = Ok (Fin ks) /\ tr < te /\ 0 < al /\ 1 < n /\ 0 < ks <= M;
  cb_pmax : not_negative (c_pmax (st_cal s))
}.
