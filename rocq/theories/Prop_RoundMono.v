(** C99: rounding does not turn the soil functions round. *)

From Coq Require Import Reals Lra ZArith List Bool Lia.
From Verif Require Import Outcome Dbl Exact Binary64 Types Soil Infil Lib Spec_Common Spec_Soil Spec_RoundMono Pf_RoundMono Pf_Soil Ex_Soil Ex_Saturated Ex_Unsaturated Ex_RoundMono.
Import ListNotations.
Open Scope R_scope.

(** C99: the water content falls with the suction head, and stays between theta_r and (theta_e - theta_r) + theta_r. *)
Theorem C99_water_content_monotone :
  forall (fp : Fp) s r e h h', rounded_soil s r e -> below (Fin 0) h -> below h h' ->
  below (theta_of_h s h') (theta_of_h s h) /\ below (Fin r) (theta_of_h s h') /\ below (theta_of_h s h) ((Fin e - Fin r) + Fin r)%d.
Proof. exact @theta_mono. Qed.
Print Assumptions C99_water_content_monotone.

(** C99: the saturation of a head falls with the head and is between 0 and 1; that of a water content rises with it. *)
Theorem C99_saturation_monotone :
  forall (fp : Fp) s r e, rounded_soil s r e ->
  (forall h h', below (Fin 0) h -> below h h' -> below (calc_Se_from_h h' (s_alpha s) (s_m s) (s_n s)) (calc_Se_from_h h (s_alpha s) (s_m s) (s_n s)) /\ unit_range (calc_Se_from_h h (s_alpha s) (s_m s) (s_n s))) /\
  ((Fin e - Fin r)%d <> Fin 0 -> forall t t', t <= t' -> below (Se_of_theta s (Fin t)) (Se_of_theta s (Fin t'))).
Proof. intros fp s r e R. split; [intros h h'; exact (Se_h_mono s r e h h' R)|intros N t t'; exact (Se_theta_mono s r e t t' R N)]. Qed.
Print Assumptions C99_saturation_monotone.

(** C99: the conductivity rises with the saturation. *)
Theorem C99_conductivity_monotone :
  forall (fp : Fp) S S' k m, unit_range S -> unit_range S' -> below S S' -> rnd k = Fin k -> 0 <= k -> 0 < m <= 1 ->
  below (calc_K_from_Se S (Fin k) (Fin m)) (calc_K_from_Se S' (Fin k) (Fin m)).
Proof. exact @K_mono. Qed.
Print Assumptions C99_conductivity_monotone.

(** C99: the head falls with the saturation and is not negative. *)
Theorem C99_head_monotone :
  forall (fp : Fp) s r e x y ia, rounded_soil s r e -> (lit 1 / s_alpha s)%d = Fin ia -> 0 < ia -> 0 < x <= y -> y <= 1 ->
  below (h_of_Se s (Fin y)) (h_of_Se s (Fin x)) /\ below (Fin 0) (h_of_Se s (Fin y)).
Proof. exact @h_mono. Qed.
Print Assumptions C99_head_monotone.

(** C99: a front at a larger head, or a smaller potential evapotranspiration, does not demand more. *)
Theorem C99_demand_monotone :
  forall (fp : Fp) e pet pet' dt wp fc c r c' r' s x y a a', soil_of e (f_layer c) = Ok s -> f_layer c' = f_layer c -> dltb (Fin 0) (half_point s wp fc) = true ->
  f_psi c = Fin x -> f_psi c' = Fin y -> 0 <= x <= y -> rnd pet = Fin pet -> rnd pet' = Fin pet' -> 0 <= pet' <= pet -> 0 <= dt ->
  calc_aet e (Fin pet) (Fin dt) wp fc (c :: r) = Ok a -> calc_aet e (Fin pet') (Fin dt) wp fc (c' :: r') = Ok a' -> below a' a.
Proof. exact @aet_mono. Qed.
Print Assumptions C99_demand_monotone.

(** C99: a warmer soil is not frozen more. *)
Theorem C99_frost_monotone : forall (fp : Fp) T T', T <= T' -> below (frozen_of_temp (Fin T)) (frozen_of_temp (Fin T')).
Proof. exact @frozen_any. Qed.
Print Assumptions C99_frost_monotone.

(** The upper bound of the water content is not theta_e: in binary64 silt of data/vG_default_params_HYDRUS.dat (0.034 and 0.46), saturated, holds more than its saturated water content. *)
Theorem C99_saturated_content_refuted :
  exists r e t, @lit binary64 (34 / 1000) = Fin r /\ @lit binary64 (46 / 100) = Fin e /\ e < t /\
  forall a n m, 0 < a -> 1 < n -> 0 < m < 1 -> exists s, @rounded_soil binary64 s r e /\ s_alpha s = Fin a /\ s_n s = Fin n /\ s_m s = Fin m /\ @theta_of_h binary64 s (Fin 0) = Fin t.
Proof.
  exists sl_r, sl_e, sl_t. split; [exact sl_lit_r|]. split; [exact sl_lit_e|]. split; [unfold sl_e, sl_t; lra|]. intros a n m Ha Hn Hm. exists (sl_soil a n m).
  split; [apply sl_rounded; assumption|]. repeat split. apply sl_saturated; assumption.
Qed.
Print Assumptions C99_saturated_content_refuted.

(** That soil meets the conditions of the first four theorems. *)
Example C99_concrete : @rounded_soil binary64 (sl_soil (1 / 64) 2 (1 / 2)) sl_r sl_e /\ @dsub binary64 (Fin sl_e) (Fin sl_r) <> Fin 0 /\ @ddiv binary64 (@lit binary64 1) (Fin (1 / 64)) = Fin 64 /\ @rnd binary64 1 = Fin 1.
Proof.
  split; [apply sl_rounded; lra|]. split; [rewrite sl_diff; unfold sl_d; injection; lra|]. split; [|apply rnd_one].
  unfold lit. rewrite rnd_one. cbn [ddiv]. destruct (Req_EM_T (1 / 64) 0); [lra|]. replace (1 / (1 / 64)) with (IZR 64) by lra. apply Pf_Counts.rnd_IZR. lia.
Qed.

(** Demands of two fronts at 75 and 150 cm, with a half point of 75 cm, exactly: the first is 1/2. *)
Example C99_demand_concrete : @half_point exact ex_soil (Fin 75) (Fin 75) = Fin 75 /\ soil_of ex_env (f_layer un_front) = Ok ex_soil /\ f_psi un_front = Fin 75 /\
  @calc_aet exact ex_env (Fin 1) (Fin 1) (Fin 75) (Fin 75) [un_front] = Ok (Fin (1 / 2)) /\ exists a, @calc_aet exact ex_env (Fin 1) (Fin 1) (Fin 75) (Fin 75) [set_psi un_front (Fin 150)] = Ok a /\ below a (Fin (1 / 2)).
Proof.
  assert (HP : @half_point exact ex_soil (Fin 75) (Fin 75) = Fin 75).
  { unfold half_point. rewrite un_theta. change (lit 1) with (Fin 1). change (lit 2) with (Fin 2).
    replace ((Fin (17 / 50) - Fin (17 / 50)) * Fin 1 / Fin 2 + Fin (17 / 50))%d with (Fin (17 / 50)) by (cbn; destruct (Req_EM_T 2 0); [lra|cbn; f_equal; field]). exact un_psi. }
  split; [exact HP|]. split; [reflexivity|]. split; [reflexivity|]. split; [exact ex_aet|]. eexists. split; [reflexivity|].
  eapply (aet_mono ex_env 1 1 1 (Fin 75) (Fin 75) un_front [] (set_psi un_front (Fin 150)) [] ex_soil 75 150); try reflexivity; try lra; try exact ex_aet.
  - rewrite HP. cbn. unfold Rltb. destruct (Rlt_dec 0 75); [reflexivity|lra].
  - apply rnd_one.
  - apply rnd_one.
Qed.
