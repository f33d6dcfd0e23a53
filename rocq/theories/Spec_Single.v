(** A column of one soil layer, over the reals. *)

From Coq Require Import Reals ZArith List Bool.
From Verif Require Import Outcome Dbl Exact Types Soil Spec_Common Spec_Soil Spec_Update Spec_Profile Spec_Storage.
Import ListNotations.
Open Scope R_scope.
Local Existing Instance exact.

(** One layer of depth [D] cm with a van Genuchten soil, residual and saturated water content [r] and [te]. *)
Record single (e : env) (s : soil) (r te D : R) : Prop := {
  sg_env : sound_env e;
  sg_n : e_nlayers e = 1%Z;
  sg_top : aget (e_cum e) 0 = Ok (Fin 0);
  sg_bottom : aget (e_cum e) 1 = Ok (Fin D);
  sg_soil : soil_of e 1 = Ok s;
  sg_vg : exists a n m k, vg_soil s r te a n m k;
  sg_frozen : exists x, aget (e_frozen e) 1 = Ok (Fin x) /\ 0 < x
}.

(** The conductivity of a front is a number that is not negative; so is its head, which may be infinite. *)
Definition conducts (f : front) : Prop := (exists k, f_K f = Fin k /\ 0 <= k) /\ (f_psi f = PInf \/ exists h, f_psi f = Fin h /\ 0 <= h).
(** A front that is not at the bottom of a layer moves downwards. *)
Definition sinks (f : front) : Prop := f_bottom f = false -> exists v, f_dzdt f = Fin v /\ 0 < v.

(** The front at the bottom of the column has a head that is not negative, and the water content that belongs to it. *)
Definition rooted (s : soil) (l : list front) : Prop :=
  Forall (fun f => f_bottom f = true -> exists h, 0 <= h /\ f_psi f = Fin h /\ f_theta f = theta_of_h s (Fin h)) l.

(** Fronts that get drier from top to bottom.  All but the first lie inside the column; the first does too unless its
    water content exceeds [T]. *)
Record graded (e : env) (T D : R) (l : list front) : Prop := {
  gr_profile : profile (e_nlayers e) (e_cum e) l;
  gr_rest : deepest_rests l;
  gr_measured : measured l;
  gr_within : within_soils e l;
  gr_drier : drier_downwards l;
  gr_below : below_surface (tl l);
  gr_inside : Forall (fun f => val (f_depth f) <= D) (tl l);
  gr_first : forall f, hd_error l = Some f -> val (f_depth f) <= D \/ T < val (f_theta f);
  gr_K : Forall conducts l
}.

(** The state of the fronts at the start of a sub-step.  A first front within 1e-15 of saturation may lie below the bottom: the loop that
    closes the mass balance moves it there. *)
Record settled (e : env) (te D : R) (l : list front) : Prop := {
  sd_graded : graded e (te - 1 / 1000000000000000) D l;
  sd_below : below_surface l;
  sd_sinks : Forall sinks l
}.
