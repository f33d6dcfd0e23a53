(** C56, C57: the capillary drive and the evapotranspiration demand against their definitions. *)

From Coq Require Import Reals Lra ZArith List.
From Coquelicot Require Import Coquelicot.
From Verif Require Import Outcome Dbl Exact Types Soil Spec_Common Spec_Soil Spec_Geff Pf_GeffInt Pf_Aet Ex_Saturated Ex_Unsaturated Ex_Soil Ex_Geff.
Import ListNotations.
Open Scope R_scope.

(** The integral exists for every soil and every pair of heads. *)
Theorem C56_integral_exists : forall a n m hf hi : R, 0 < n -> 0 < m -> exists I, drive a n m hf hi I.
Proof. exact drive_exists. Qed.
Print Assumptions C56_integral_exists.

(** Between two heads hf < hi the integration mode is not below the integral by more than 6 times its first step, and not above 11 times the width of the interval (times the
    conductivity at the wet end, when that head is at least 1e-10 cm). *)
Theorem C56_integration_bounds :
  forall (cfg : Cfg) (s : soil) (r e a n m k ks hf hi : R) (nint : Z) (I : R) (g : dbl), vg_soil s r e a n m k -> 0 < ks -> 0 <= hf < hi -> (1 <= nint)%Z -> drive a n m hf hi I ->
  @calc_Geff exact cfg false (Fin (vg_theta r e a n m hi)) (Fin (vg_theta r e a n m hf)) s (Fin ks) nint = Ok g ->
  exists x, g = Fin x /\ I - 6 * ((hi - hf) / (100 * IZR nint)) <= x <= 11 * (hi - hf) /\
    (1 / 10000000000 <= hf -> x <= 11 * (hi - hf) * relative_K a n m hf).
Proof. exact geff_integral_bounds. Qed.
Print Assumptions C56_integration_bounds.

(** C56 refuted: whenever the conductivities at the two heads differ by at most 2 %, the result is at least nine times the integral (with the 120 intervals that the code uses). *)
Theorem C56_drive_is_the_integral_refuted :
  forall (cfg : Cfg) (s : soil) (r e a n m k ks hf hi I : R), vg_soil s r e a n m k -> 0 < ks -> 1 / 10000000000 <= hf < hi -> drive a n m hf hi I ->
  relative_K a n m hf <= 102 / 100 * relative_K a n m hi -> (6 <= fuel)%nat ->
  exists x, @calc_Geff exact cfg false (Fin (vg_theta r e a n m hi)) (Fin (vg_theta r e a n m hf)) s (Fin ks) 120 = Ok (Fin x) /\ 0 < I /\ 9 * I <= x.
Proof. exact geff_nine_times. Qed.
Print Assumptions C56_drive_is_the_integral_refuted.

Example C56_concrete : vg_soil ex_soil (1 / 10) (2 / 5) (1 / 100) 2 (1 / 2) 1 /\ 1 / 10000000000 <= 75 < ge_hi /\
  relative_K (1 / 100) 2 (1 / 2) 75 <= 102 / 100 * relative_K (1 / 100) 2 (1 / 2) ge_hi.
Proof. exact ge_close. Qed.
Example C56_integral_concrete : exists I, drive (1 / 100) 2 (1 / 2) 75 ge_hi I.
Proof. exact ge_drive. Qed.

(** The closed form is Brooks and Corey's; from a saturated state the code returns the effective suction. *)
Theorem C56_closed_form :
  forall (cfg : Cfg) (t1 t2 : R) (s : soil) (ks : dbl) (nint : Z) (r e lam pb : R),
  s_theta_r s = Fin r -> s_theta_e s = Fin e -> s_lambda s = Fin lam -> s_psib s = Fin pb -> 0 < lam -> r < e -> r <= t1 <= e -> r <= t2 ->
  @calc_Geff exact cfg true (Fin t1) (Fin t2) s ks nint
  = Ok (Fin (if Rlt_dec t1 e then bc_drive lam pb ((t1 - r) / (e - r)) ((t2 - r) / (e - r)) else bc_suction lam pb)).
Proof. exact geff_closed_is. Qed.
Print Assumptions C56_closed_form.

Example C56_closed_concrete : forall cfg : Cfg, @calc_Geff exact cfg true (Fin (1 / 10)) (Fin (17 / 50)) ex_soil (Fin 1) 120 = Ok (Fin (128 / 25)).
Proof. exact ex_geff. Qed.

(** C57: the demand is the S-shaped reduction of the potential rate with the head of the first front; half of it remains at the head whose water content is halfway between
    field capacity and wilting point. *)
Theorem C57_demand_formula :
  forall (e : env) (s : soil) (r te a n m k : R) (c : front) (l : list front) (pet dt wp fc psi h50 : R),
  soil_of e (f_layer c) = Ok s -> vg_soil s r te a n m k -> f_psi c = Fin psi -> 0 <= psi -> 0 <= wp -> 0 <= fc -> 0 <= pet -> 0 <= dt -> 0 < h50 ->
  vg_theta r te a n m h50 = (vg_theta r te a n m fc + vg_theta r te a n m wp) / 2 ->
  @calc_aet exact e (Fin pet) (Fin dt) (Fin wp) (Fin fc) (c :: l) = Ok (Fin (reduced_demand pet dt psi h50)).
Proof. exact aet_is. Qed.
Print Assumptions C57_demand_formula.

(** That head exists. *)
Theorem C57_half_demand_head :
  forall r te a n m fc wp : R, r < te -> 0 < a -> 1 < n -> 0 < m < 1 -> 0 <= fc -> 0 <= wp -> 0 < fc + wp ->
  exists h50, 0 < h50 /\ vg_theta r te a n m h50 = (vg_theta r te a n m fc + vg_theta r te a n m wp) / 2.
Proof. exact half_head. Qed.
Print Assumptions C57_half_demand_head.

Theorem C57_demand_shape :
  forall pet dt h50 : R, 0 < h50 -> 0 <= pet * dt ->
  reduced_demand pet dt 0 h50 = pet * dt /\ reduced_demand pet dt h50 h50 = pet * dt / 2 /\
  forall p q, 0 <= p <= q -> reduced_demand pet dt q h50 <= reduced_demand pet dt p h50.
Proof. exact demand_shape. Qed.
Print Assumptions C57_demand_shape.

Example C57_concrete : soil_of ex_env (f_layer un_front) = Ok ex_soil /\ vg_soil ex_soil (1 / 10) (2 / 5) (1 / 100) 2 (1 / 2) 1 /\ f_psi un_front = Fin 75 /\
  vg_theta (1 / 10) (2 / 5) (1 / 100) 2 (1 / 2) (855 / 7)
  = (vg_theta (1 / 10) (2 / 5) (1 / 100) 2 (1 / 2) (160 / 3) + vg_theta (1 / 10) (2 / 5) (1 / 100) 2 (1 / 2) 240) / 2.
Proof. exact (conj eq_refl (conj (proj1 ex_curve) (conj eq_refl ge_half))). Qed.
Example C57_demand_concrete : @calc_aet exact ex_env (Fin 1) (Fin 1) (Fin 240) (Fin (160 / 3)) [un_front] = Ok (Fin (reduced_demand 1 1 75 (855 / 7))).
Proof. exact ge_demand. Qed.
