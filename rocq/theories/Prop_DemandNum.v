(** C35: the demand for evapotranspiration is a number, for any rounding. *)

From Coq Require Import Reals Lra ZArith List Bool.
From Verif Require Import Outcome Dbl Exact Binary64 Types ListOps Soil Spec_Common Spec_RoundMono Pf_Dbl Pf_RoundMono Pf_DemandNum Ex_Saturated Ex_Unsaturated Ex_Soil Ex_Clock64 Prop_RoundMono.
Import ListNotations.
Open Scope R_scope.

(** C35: with a positive half point the demand is a number from 0 to PET * dt: never NaN, even for a front whose head is infinite. *)
Theorem C35_demand_is_a_number :
  forall (fp : Fp) e pet dt wp fc c r s, soil_of e (f_layer c) = Ok s -> below (Fin 0) (f_psi c) -> dltb (Fin 0) (half_point s wp fc) = true ->
  finite (f_psi c) \/ finite (half_point s wp fc) -> rnd pet = Fin pet -> 0 <= pet -> 0 <= dt ->
  exists a, calc_aet e (Fin pet) (Fin dt) wp fc (c :: r) = Ok a /\ below (Fin 0) a /\ below a (Fin pet * Fin dt)%d.
Proof. exact @aet_number. Qed.
Print Assumptions C35_demand_is_a_number.

(** The condition is needed: with wilting_point_psi and field_capacity_psi both 0 the half point is 0, and in binary64 a saturated surface demands NaN, whatever PET and dt. *)
Theorem C35_demand_nan_refuted :
  forall pet dt, exists e c, f_psi c = Fin 0 /\ @calc_aet binary64 e (Fin pet) (Fin dt) (Fin 0) (Fin 0) [c] = Ok NaN.
Proof. intros pet dt. exists (c6_env (Fin 1) (Fin 1)), c6_front. split; [reflexivity|apply aet_nan]. Qed.
Print Assumptions C35_demand_nan_refuted.

(** A front at infinite head in the soil whose half point is 75 cm. *)
Example C35_number_concrete : soil_of ex_env (f_layer (set_psi un_front PInf)) = Ok ex_soil /\ below (Fin 0) (f_psi (set_psi un_front PInf)) /\
  dltb (Fin 0) (@half_point exact ex_soil (Fin 75) (Fin 75)) = true /\ finite (@half_point exact ex_soil (Fin 75) (Fin 75)) /\
  exists a, @calc_aet exact ex_env (Fin 1) (Fin 1) (Fin 75) (Fin 75) [set_psi un_front PInf] = Ok a /\ below (Fin 0) a /\ below a (Fin 1).
Proof.
  pose proof (proj1 C99_demand_concrete) as HP. assert (L : dltb (Fin 0) (@half_point exact ex_soil (Fin 75) (Fin 75)) = true) by (rewrite HP; cbn; unfold Rltb; destruct (Rlt_dec 0 75); [reflexivity|lra]).
  assert (F : finite (@half_point exact ex_soil (Fin 75) (Fin 75))) by (rewrite HP; eexists; reflexivity).
  split; [reflexivity|]. split; [reflexivity|]. split; [exact L|]. split; [exact F|].
  destruct (aet_number ex_env 1 1 (Fin 75) (Fin 75) (set_psi un_front PInf) [] ex_soil eq_refl eq_refl L (or_intror F) rnd_one ltac:(lra) ltac:(lra)) as (a & E & A & B).
  exists a. split; [exact E|]. split; [exact A|]. cbn in B. rewrite Rmult_1_r in B. exact B.
Qed.
