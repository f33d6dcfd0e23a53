(** C32 - C36: soil functions, evapotranspiration demand and frozen soil. *)

From Coq Require Import Reals Lra ZArith List Bool.
From Verif Require Import Outcome Dbl Exact Types Soil Infil State Update Spec_Common Spec_Soil Spec_Frozen
  Pf_Soil Pf_SoilAny Pf_Geff Pf_Frozen Ex_Saturated Ex_Unsaturated Ex_Soil Ex_Dry.
Import ListNotations.
Open Scope R_scope.

(** C32: for every van Genuchten soil, water contents lie above residual and at most at saturation, saturation exactly at head 0. *)
Theorem C32_retention_bounds :
  forall (s : soil) (r e a n m k h : R), vg_soil s r e a n m k -> 0 <= h ->
  exists t, @theta_of_h exact s (Fin h) = Fin t /\ r < t <= e /\ (h = 0 -> t = e) /\ (t = e -> h = 0).
Proof. exact retention_bounds. Qed.
Print Assumptions C32_retention_bounds.

Theorem C32_retention_decreasing :
  forall (s : soil) (r e a n m k h h' : R), vg_soil s r e a n m k -> 0 <= h -> h < h' ->
  dltb (@theta_of_h exact s (Fin h')) (@theta_of_h exact s (Fin h)) = true.
Proof. exact retention_decreasing. Qed.
Print Assumptions C32_retention_decreasing.

(** It is van Genuchten's curve. *)
Theorem C32_retention_formula :
  forall (s : soil) (r e a n m k h : R), vg_soil s r e a n m k -> 0 <= h -> @theta_of_h exact s (Fin h) = Fin (vg_theta r e a n m h).
Proof. exact theta_of_h_is. Qed.
Print Assumptions C32_retention_formula.

(** The inverse is exact in both directions; residual water content goes through an infinite head. *)
Theorem C32_head_recovered :
  forall (s : soil) (r e a n m k h : R), vg_soil s r e a n m k -> 0 <= h ->
  @h_of_Se exact s (@Se_of_theta exact s (@theta_of_h exact s (Fin h))) = Fin h.
Proof. exact h_inverse. Qed.
Print Assumptions C32_head_recovered.

Theorem C32_water_content_recovered :
  forall (s : soil) (r e a n m k t : R), vg_soil s r e a n m k -> r <= t <= e ->
  @theta_of_h exact s (@h_of_Se exact s (@Se_of_theta exact s (Fin t))) = Fin t.
Proof. exact theta_inverse. Qed.
Print Assumptions C32_water_content_recovered.

(** Above saturation the head is not a number. *)
Theorem C32_oversaturated_head_is_nan :
  forall (s : soil) (r e a n m k t : R), vg_soil s r e a n m k -> e < t -> @h_of_Se exact s (@Se_of_theta exact s (Fin t)) = NaN.
Proof. exact h_oversaturated. Qed.
Print Assumptions C32_oversaturated_head_is_nan.

Example C32_concrete : vg_soil ex_soil (1 / 10) (2 / 5) (1 / 100) 2 (1 / 2) 1 /\ @theta_of_h exact ex_soil (Fin 75) = Fin (17 / 50) /\
  @h_of_Se exact ex_soil (@Se_of_theta exact ex_soil (Fin (17 / 50))) = Fin 75.
Proof. exact ex_curve. Qed.

(** C33 *)
Theorem C33_conductivity_bounds :
  forall k m S : R, 0 < m -> 0 <= k -> 0 <= S <= 1 ->
  exists K, @calc_K_from_Se exact (Fin S) (Fin k) (Fin m) = Fin K /\ 0 <= K <= k /\ (S = 0 -> K = 0) /\ (S = 1 -> K = k).
Proof. exact conductivity_bounds. Qed.
Print Assumptions C33_conductivity_bounds.

Theorem C33_conductivity_increasing :
  forall k m S S' : R, 0 < m -> 0 < k -> 0 <= S -> S < S' -> S' <= 1 ->
  dltb (@calc_K_from_Se exact (Fin S) (Fin k) (Fin m)) (@calc_K_from_Se exact (Fin S') (Fin k) (Fin m)) = true.
Proof. exact conductivity_increasing. Qed.
Print Assumptions C33_conductivity_increasing.

(** The bounds survive every monotone rounding. *)
Theorem C33_conductivity_bounds_rounded :
  forall (fp : Fp) (S : dbl) (k m : R), unit_range S -> rnd k = Fin k -> 0 <= k -> 0 < m <= 1 ->
  exists K, calc_K_from_Se S (Fin k) (Fin m) = Fin K /\ 0 <= K <= k.
Proof. exact @K_bounds_any. Qed.
Print Assumptions C33_conductivity_bounds_rounded.

Example C33_concrete : @calc_K_from_Se exact (Fin (4 / 5)) (Fin 1) (Fin (1 / 2)) = Fin (sqrt (4 / 5) * (4 / 25)).
Proof. exact ex_conductivity. Qed.

(** C34, integration mode: whatever the soil, the water contents and the rounding. *)
Theorem C34_integrated_drive_not_negative :
  forall (fp : Fp) (cfg : Cfg) (t1 t2 : dbl) (s : soil) (k : dbl) (nint : Z) (g : dbl),
  calc_Geff false t1 t2 s k nint = Ok g -> not_negative g.
Proof. exact @geff_integral_nn. Qed.
Print Assumptions C34_integrated_drive_not_negative.

(** The integration terminates for every soil and every pair of water contents, with a finite result that is 0 when the second
    water content does not exceed the first, and also when the first is residual. *)
Theorem C34_integration_terminates :
  forall (s : soil) (r e a n m k ks t1 t2 : R) (nint : Z),
  vg_soil s r e a n m k -> 0 < ks -> r <= t1 <= e -> r <= t2 <= e -> (1 <= nint)%Z ->
  exists N, forall cfg : Cfg, (N <= fuel)%nat ->
    exists g, @calc_Geff exact cfg false (Fin t1) (Fin t2) s (Fin ks) nint = Ok (Fin g) /\ 0 <= g /\ (t2 <= t1 \/ t1 = r -> g = 0).
Proof. exact geff_terminates. Qed.
Print Assumptions C34_integration_terminates.

(** Closed form, any rounding. *)
Theorem C34_closed_form_not_negative :
  forall (fp : Fp) (cfg : Cfg) (t1 t2 : R) (s : soil) (ks : dbl) (nint : Z) (r e lam : R) (pb g : dbl),
  s_theta_r s = Fin r -> s_theta_e s = Fin e -> s_lambda s = Fin lam -> s_psib s = pb -> 0 < lam -> not_negative pb ->
  r < e -> dltb (Fin 0) (rnd (e - r)) = true -> finite (rnd (e - r)) -> r <= t1 -> t1 <= t2 -> t2 <= e ->
  calc_Geff true (Fin t1) (Fin t2) s ks nint = Ok g -> not_negative g.
Proof. exact @geff_closed_nn. Qed.
Print Assumptions C34_closed_form_not_negative.

(** Closed form: between 0 and the effective suction H_c; 0 for equal water contents below saturation. *)
Theorem C34_closed_form_bounds :
  forall (cfg : Cfg) (t1 t2 : R) (s : soil) (ks : dbl) (nint : Z) (r e lam pb : R),
  s_theta_r s = Fin r -> s_theta_e s = Fin e -> s_lambda s = Fin lam -> s_psib s = Fin pb -> 0 < lam -> 0 <= pb ->
  r < e -> r <= t1 -> t1 <= t2 -> t2 <= e ->
  exists g, @calc_Geff exact cfg true (Fin t1) (Fin t2) s ks nint = Ok (Fin g) /\
    0 <= g <= pb * ((2 + 3 * lam) / (1 + 3 * lam)) /\ (t1 = t2 -> t1 < e -> g = 0).
Proof. exact @geff_closed_bounds. Qed.
Print Assumptions C34_closed_form_bounds.

Example C34_concrete : forall cfg : Cfg, @calc_Geff exact cfg true (Fin (1 / 10)) (Fin (17 / 50)) ex_soil (Fin 1) 120 = Ok (Fin (128 / 25)).
Proof. exact ex_geff. Qed.

(** C35: demand between 0 and PET, whatever the rounding; comparisons with NaN are false. *)
Theorem C35_aet_demand_bounds :
  forall (fp : Fp) (e : env) (pet dt wp fc : dbl) (head : list front) (a : dbl), not_negative pet -> not_negative dt ->
  calc_aet e pet dt wp fc head = Ok a -> dltb a (Fin 0) = false /\ dltb (pet * dt)%d a = false.
Proof. exact @aet_bounds. Qed.
Print Assumptions C35_aet_demand_bounds.

Example C35_concrete : @calc_aet exact ex_env (Fin 1) (Fin 1) (Fin 75) (Fin 75) [un_front] = Ok (Fin (1 / 2)).
Proof. exact ex_aet. Qed.

(** The AET reported by Update leaves the range: PET is 0, rain of 1e-4 mm/h on a very dry soil, and actual_evapotranspiration is negative. *)
Theorem C35_reported_aet_bounds_refuted :
  forall cfg : Cfg, (0 < fuel)%nat ->
  exists s' o a, st_pet dr_start = Fin 0 /\ @Update exact cfg dr_start = Ok s' /\ st_out s' = Some o /\ o_aet o = Fin a /\ a < 0.
Proof. exact dr_refutes. Qed.
Print Assumptions C35_reported_aet_bounds_refuted.

(** C36: range, whatever the profile and the rounding; entries outside 1..nlayers are not touched. *)
Theorem C36_frozen_factor_range :
  forall (fp : Fp) (nl : Z) (cum z T : list dbl) (nc : Z) (fr fr' : list dbl), frozen_factor nl cum z T nc fr = Ok fr' ->
  length fr' = length fr /\
  (forall k, (1 <= k <= nl)%Z -> exists x, aget fr' k = Ok x /\ dleb (lit (5 / 100)) x = true /\ dleb x (Fin 1) = true) /\
  (forall k, (k < 1 \/ nl < k)%Z -> aget fr' k = aget fr k).
Proof. exact @frozen_factor_range. Qed.
Print Assumptions C36_frozen_factor_range.

(** Each layer gets the reduction for the mean temperature of its own cells. *)
Theorem C36_frozen_factor_by_layer :
  forall (f0 : dbl) (lims : list R) (groups : list (list (R * R))) (rest : list (R * R)) (fs : list dbl),
  layered lims groups rest -> length fs = length lims ->
  @frozen_factor exact (Z.of_nat (length lims)) (Fin 0 :: map Fin lims) (zs (concat groups ++ rest)) (Ts (concat groups ++ rest))
    (Z.of_nat (length (concat groups ++ rest))) (f0 :: fs) = Ok (f0 :: map (fun g => Fin (reduction (mean (map snd g)))) groups).
Proof. exact frozen_layers. Qed.
Print Assumptions C36_frozen_factor_by_layer.

Theorem C36_frozen_factor_monotone :
  forall T T' : R, T <= T' -> dleb (@frozen_of_temp exact (Fin T)) (@frozen_of_temp exact (Fin T')) = true.
Proof. exact frozen_mono. Qed.
Print Assumptions C36_frozen_factor_monotone.

Example C36_concrete : layered [10; 20] [[(5, 279); (10, 281)]; [(15, 270)]] [] /\
  @frozen_factor exact 2 [Fin 0; Fin 10; Fin 20] [Fin 5; Fin 10; Fin 15] [Fin 279; Fin 281; Fin 270] 3 [Fin 1; Fin 1; Fin 1]
  = Ok [Fin 1; Fin 1; Fin (5 / 100)].
Proof. exact ex_frozen. Qed.

(** The profile is read past its end when an upper layer consumes all cells. *)
Theorem C36_frozen_factor_reads_inside_refuted :
  @frozen_factor exact 2 [Fin 0; Fin 10; Fin 20] [Fin 5; Fin 8] [Fin 280; Fin 281] 2 [Fin 1; Fin 1; Fin 1] = Stop (UB OutOfBounds).
Proof. exact frozen_overrun. Qed.
Print Assumptions C36_frozen_factor_reads_inside_refuted.
