(** Worked examples: physical states. *)

From Coq Require Import Reals Lra ZArith List Bool Lia.
From RecordUpdate Require Import RecordSet.
From Verif Require Import Outcome Dbl Exact Types ListOps Soil Fronts Infil Move State Update Lib Spec_Common Spec_List Spec_Soil Spec_Update Spec_Profile Spec_Storage Spec_Calib Spec_Physical
  Pf_Dbl Pf_Pow Pf_Soil Pf_Update Pf_SafeUpdate Pf_Structure Pf_Cross Pf_Physical Pf_Physical3 Pf_Physical4 Ex_Saturated Ex_Safety Ex_TwoLayers Ex_Calib Ex_Soil.
Import ListNotations.
Import RecordSetNotations.
Open Scope R_scope.

Section Run.
Local Existing Instance exact.
Context {cfg : Cfg}.

Lemma ti_vg : vg_column ti_env.
Proof. intros k s Hk Es. cbn in Hk. exists (1 / 10), (2 / 5), (1 / 100), 2, (1 / 2), 1. assert (k = 1 \/ k = 2)%Z as [-> | ->] by lia; apply Ok_inj in Es; subst s; exact ex_vg. Qed.
Lemma ti_conducts : conducts_at_most 1 ti_env.
Proof. intros k s ks Hk Es Ek. cbn in Hk. assert (k = 1 \/ k = 2)%Z as [-> | ->] by lia; apply Ok_inj in Es; subst s; injection Ek as <-; lra. Qed.
Lemma ti_frozen : frozen_in_range ti_env.
Proof. intros k Hk. cbn in Hk. exists 1. split; [|lra]. assert (k = 1 \/ k = 2)%Z as [-> | ->] by lia; reflexivity. Qed.

Lemma nn_F : forall x, 0 <= x -> not_negative (Fin x). Proof. intros. apply nn_Fin. assumption. Qed.

Lemma tw_physical : physical_state 1 tw_start.
Proof.
  constructor; [|exact ti_frozen|cbn; repeat split; apply nn_F; lra]. change (env_of tw_start) with ti_env.
  assert (G : forall k, (k = 1 \/ k = 2)%Z -> forall d, physical_front 1 ti_env (mkF d (Fin (2 / 5)) (Fin 0) (Fin 1) k k true (Fin 0))).
  { intros k Hk d. apply phys_iff; [exact ti_vg|]. split; [cbn; lia|]. split; [right; exists 0; split; [reflexivity|lra]|]. split; [|exists 1; split; [reflexivity|lra]].
    exists ex_soil. split; [destruct Hk as [-> | ->]; reflexivity|]. cbn [f_theta f_psi]. symmetry. apply ex_theta. }
  change (st_head tw_start) with [tw_top; tw_low]. repeat constructor; apply G; lia.
Qed.

Lemma tw_all : exists s, sound_state tw_start /\ vg_column (env_of tw_start) /\ conducts_at_most 1 (env_of tw_start) /\ physical_state 1 tw_start /\ p_calib (st_p tw_start) = false /\
  p_nlayers (st_p tw_start) = 2%Z /\ Update tw_start = Ok s /\ calm tw_start s.
Proof.
  destruct tw_calm as (s & A & B & C & D). exists s. split; [exact A|]. split; [exact ti_vg|]. split; [exact ti_conducts|]. split; [exact tw_physical|]. auto.
Qed.

(** Four unsaturated and saturated fronts in two layers. *)
Lemma ti_theta : theta_of_h ex_soil (Fin 75) = Fin (17 / 50).
Proof. apply ex_curve. Qed.
Lemma ti_fronts : Forall (physical_front 1 ti_env) ti_head.
Proof.
  assert (G : forall k, (k = 1 \/ k = 2)%Z -> forall d dz num b, physical_front 1 ti_env (ti_front d dz k num b)).
  { intros k Hk d dz num b. apply phys_iff; [exact ti_vg|]. split; [cbn; lia|]. split; [right; exists 75; split; [reflexivity|lra]|]. split; [|exists (1 / 10); split; [reflexivity|lra]].
    exists ex_soil. split; [destruct Hk as [-> | ->]; reflexivity|]. cbn [f_theta f_psi ti_front]. symmetry. exact ti_theta. }
  unfold ti_head. constructor; [|repeat constructor; apply G; lia].
  apply phys_iff; [exact ti_vg|]. split; [cbn; lia|]. split; [right; exists 0; split; [reflexivity|lra]|]. split; [|exists 1; split; [reflexivity|lra]].
  exists ex_soil. split; [reflexivity|]. cbn [f_theta f_psi]. symmetry. apply ex_theta.
Qed.

(** The calibration of a saturated layer from a porosity of 1/2 to 2/5 and from a conductivity of 3 to 1. *)
Lemma ca_vg : vg_soil ca_soil (1 / 10) (1 / 2) (1 / 100) 2 (1 / 2) 3.
Proof. constructor; try reflexivity; cbn; try lra. Qed.
Lemma ca_theta : theta_of_h ca_soil (Fin 0) = Fin (1 / 2).
Proof.
  unfold theta_of_h, calc_theta_from_h, ca_soil. cbn [s_alpha s_n s_m s_theta_e s_theta_r].
  replace (Fin (1 / 100) * Fin 0)%d with (Fin 0) by (cbn; f_equal; ring).
  rewrite pow_zero by lra. change (lit 1) with (Fin 1).
  replace (Fin 1 + Fin 0)%d with (Fin 1) by (cbn; f_equal; ring).
  rewrite pow_one. rewrite div_fin by lra. cbn. f_equal. lra.
Qed.
Lemma ca_all : exists s', sound_state ca_start /\ vg_column (env_of ca_start) /\ conducts_at_most 3 (env_of ca_start) /\ physical_state 3 ca_start /\ p_calib (st_p ca_start) = true /\
  calibration_fits 3 ca_start /\ executed ca_start (ex_upar 1 (3 / 2)) [ca_step] s' /\ Forall (fun x => ~ step_tie (ex_upar 1 (3 / 2)) (x_s x) (x_a x)) [ca_step] /\
  map f_theta (st_head ca_start) = [Fin (1 / 2)] /\ map f_theta (st_head (x_s ca_step)) = [Fin (2 / 5)].
Proof.
  assert (S : sound_state ca_start).
  { constructor; [exact ca_env_sound|exact ca_profile| | |].
    - intros f E. injection E as <-. reflexivity.
    - cbn. repeat split; try (eexists; reflexivity). apply nn_F; lra.
    - cbn. lia. }
  assert (V : vg_column (env_of ca_start)).
  { intros k s Hk Es. cbn in Hk. assert (k = 1)%Z as -> by lia. apply Ok_inj in Es. subst s. exists (1 / 10), (1 / 2), (1 / 100), 2, (1 / 2), 3. exact ca_vg. }
  destruct ca_executed as (s' & X & _). exists s'. split; [exact S|]. split; [exact V|]. split.
  { intros k s ks Hk Es Ek. cbn in Hk. assert (k = 1)%Z as -> by lia. apply Ok_inj in Es. subst s. injection Ek as <-. lra. }
  split.
  { constructor.
    - change (st_head ca_start) with [ca_front]. constructor; [|constructor]. apply phys_iff; [exact V|]. split; [cbn; lia|].
      split; [right; exists 0; split; [reflexivity|lra]|]. split; [|exists 1; split; [reflexivity|lra]]. exists ca_soil. split; [reflexivity|].
      cbn [f_theta f_psi ca_front]. symmetry. exact ca_theta.
    - intros k Hk. cbn in Hk. assert (k = 1)%Z as -> by lia. exists 1. split; [reflexivity|lra].
    - cbn. repeat split; apply nn_F; lra. }
  split; [reflexivity|]. split.
  { constructor; [reflexivity|exact ca_distinct| |cbn; apply nn_F; lra]. intros k Hk. cbn in Hk. assert (k = 1)%Z as -> by lia.
    exists (1 / 10), (2 / 5), (1 / 100), 2, 1. repeat split; try reflexivity; lra. }
  split; [exact X|]. split; [eapply one_layer_untied_steps; [exact S|reflexivity|exact X]|]. split; reflexivity.
Qed.
End Run.
