(** A simulation of a column of one soil layer, over the reals. *)

From Coq Require Import Reals ZArith List Bool.
From Verif Require Import Outcome Dbl Exact Types Infil State Update Spec_Common Spec_Soil Spec_Update Spec_Profile Spec_Storage Spec_Velocity Spec_Single Spec_SubSingle.
Import ListNotations.
Open Scope R_scope.
Local Existing Instance exact.

(** The forcing is a number. *)
Definition known_weather (s : state) : Prop := finite (st_precip s) /\ finite (st_pet s).

(** The model between two Updates: one layer of depth [D] with soil [sl], no calibration pending, fronts in order, numbers where numbers are
    expected, positive time steps. *)
Record one_layer (sl : soil) (r te D : R) (s : state) : Prop := {
  ol_valid : p_invalid (st_p s) = false;
  ol_calib : p_calib (st_p s) = false;
  ol_single : single (env_of s) sl r te D;
  ol_residual : 0 <= r;
  ol_fronts : settled (env_of s) te D (st_head s);
  ol_rooted : rooted sl (st_head s);
  ol_capillary : capillary (p_closed (st_p s)) (p_nint (st_p s)) (env_of s);
  ol_pond : exists pm, p_pmax (st_p s) = Fin pm /\ 0 <= pm;
  ol_demand : exists wp fc, p_wilting (st_p s) = Fin wp /\ p_fc (st_p s) = Fin fc /\ 0 <= wp /\ 0 <= fc /\ 0 < fc + wp;
  ol_steps : exists dt m fr, p_timestep (st_p s) = Fin dt /\ p_mints (st_p s) = Fin m /\ p_fres (st_p s) = Fin fr /\ 0 < dt /\ 0 < m /\ 0 < fr;
  ol_on : exists on, mb_on_ts (st_mb s) = Fin on /\ 0 <= on;
  ol_forced : known_weather s;
  ol_giuh : Forall finite (g_ord s) /\ Forall finite (g_queue s)
}.

(** A sub-step that leaves the fronts in order, records a balance within the tolerance, and does not lose or make more water than that. *)
Definition kept_step (sl : soil) (te D : R) (x : step) : Prop :=
  (exists e r, single e sl r te D /\ settled e te D (st_head (x_s' x))) /\ rooted sl (st_head (x_s' x)) /\
  (exists m, residual x = Fin m /\ Rabs m <= slack (st_head (x_s x))) /\
  (exists on, ponded_before x = Fin on /\ 0 <= on) /\
  exists dt, 0 < dt /\ water_kept dt (x_s x) (x_a x) (x_s' x) (x_a' x) (slack (st_head (x_s x)) + 1 / 1000000000000) /\ surface_kept dt (x_s x) (x_a x) (x_a' x).

(** Everything that the model publishes is a number. *)
Definition published (s : state) : Prop :=
  (exists o, st_out s = Some o /\ Forall finite [o_precip o; o_in o; o_end o; o_aet o; o_rech o; o_runoff o; o_giuh o; o_Q o; o_Qgw o; o_pet o; o_mb o]) /\
  Forall finite (p_theta_wf (st_p s)) /\ Forall finite (p_depth_wf (st_p s)).

(** What an Update needs besides: forcing that is not negative, an int number of sub-steps, arrays for the unit hydrograph and soil
    temperatures that reach into the layer. *)
Record prepared (s : state) : Prop := {
  pr_precip : dleb (Fin 0) (st_precip s) = true;
  pr_pet : dleb (Fin 0) (st_pet s) = true;
  pr_steps : exists s2 dt n, update_steps s = Ok (s2, dt, n) /\ (1 <= n)%Z;
  pr_giuh : (1 <= g_N s)%Z /\ (g_N s <= Z.of_nat (length (g_ord s)))%Z /\ (g_N s < Z.of_nat (length (g_queue s)))%Z;
  pr_frozen : p_sft (st_p s) = true -> exists fr, frozen_factor (p_nlayers (st_p s)) (p_cum (st_p s)) (p_soilTz (st_p s)) (p_soilT (st_p s)) (p_ncells (st_p s)) (p_frozen (st_p s)) = Ok fr
}.

(** The reasons for which a sub-step that starts with the fronts [l] can stop: the use of a deleted front, an assertion, an integral of the capillary
    drive that does not end; and with a single front also a balance that does not close or an iteration for its head that does not end. *)
Definition substep_stops (closed : bool) (l : list front) (why : reason) : Prop :=
  why = UB UseAfterFree \/ why = AssertFail \/ (why = OutOfFuel /\ closed = false) \/ (length l = 1%nat /\ (why = Abort \/ why = OutOfFuel)).
