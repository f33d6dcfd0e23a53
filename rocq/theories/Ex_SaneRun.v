(** Fronts without NaN: the saturated column of Ex_Clock64 through an Update in binary64, and a dry front. *)

From Coq Require Import String Reals Lra ZArith List Bool Lia.
From RecordUpdate Require Import RecordSet.
From Verif Require Import Outcome Dbl Binary64 Types ListOps Soil State Update Bmi Config Driver Lib Spec_Common Spec_Soil Spec_List Spec_Config Spec_Profile Spec_Update Spec_Physical Spec_RoundMono Spec_SatRound Spec_DryStart Spec_StartRound Spec_SaneRun Pf_Bmi Pf_BmiMem
  Spec_Binary64 Pf_Dbl Pf_Binary64 Pf_Counts Pf_RoundMono Pf_SaneStart Pf_SafeUpdate Ex_Config Ex_Clock64 Ex_Binary64 Ex_StartRound.
Import ListNotations.
Import RecordSetNotations.
Open Scope string_scope.
Open Scope R_scope.
Open Scope list_scope.

Section B64.
Local Existing Instance binary64.
Context {cfg : Cfg}.

Lemma c6_double : forall pb hm, double_column 1 (c6_env pb hm).
Proof.
  intros pb hm k s Hk E. cbn in Hk. assert (k = 1%Z) as -> by lia. destruct (b8_soil pb hm 1%Z s ltac:(lia) E) as (D & _). apply Ok_inj in E. subst s.
  split; [exact D|]. split; [exists 1; split; [reflexivity|lra]|]. exists 64. split; [|lra]. cbn [c6_soil s_alpha]. unfold lit. rewrite rnd_one. apply div_is; [lra|lra|apply (rnd_IZR 64); lia].
Qed.
Lemma c6_whole : forall pb hm dp, whole_state 1 (c6_start pb hm dp).
Proof.
  intros pb hm dp. constructor.
  - constructor; [|constructor]. constructor; cbn.
    + lia.
    + exists (c6_soil pb hm). split; [reflexivity|]. exists (1 / 8), (1 / 2), (1 / 2). split; [reflexivity|]. split; [reflexivity|]. split; [reflexivity|]. split; [split; [lra|left; lra]|intro; lra].
    + apply below_fin. lra.
    + exists 1. split; [reflexivity|lra].
  - intros k Hk. cbn in Hk. assert (k = 1%Z) as -> by lia. exists 1. split; [reflexivity|lra].
  - exact (c6_double pb hm).
  - assert (H : forall m, (1 <= m)%Z -> not_negative (Fin (hours64 m))).
    { intros m Hm. pose proof (hours_pos m Hm) as P. cbn in P. apply nn_Fin. unfold Rltb in P. destruct (Rlt_dec _ _); [lra|discriminate]. }
    cbn. repeat split; try (apply H; lia); apply nn_Fin; lra.
Qed.
Lemma c6_sound : forall pb hm dp, sound_state (c6_start pb hm dp).
Proof.
  intros pb hm dp. constructor.
  - constructor; cbn [c6_start c6_state c6_params env_of st_p st_soils p_nlayers p_cum p_stype p_frozen e_nlayers e_cum e_frozen].
    + lia.
    + intros k Hk. assert (k = 0 \/ k = 1)%Z as [->| ->] by lia; [exists 0|exists 64]; (split; [reflexivity|]); [apply (rnd_IZR 0); lia|apply (rnd_IZR 64); lia].
    + intros k z z' Hk. assert (k = 0)%Z as -> by lia. cbn. intros A B. apply Ok_inj in A, B. injection A as <-. injection B as <-. lra.
    + intros k Hk. assert (k = 1)%Z as -> by lia. exists (c6_soil pb hm). reflexivity.
    + intros k Hk. assert (k = 1)%Z as -> by lia. exists (Fin 1). reflexivity.
  - constructor.
    + intros [|[|i]] f E; cbn in E; try discriminate. injection E as <-. reflexivity.
    + intros [|[|i]] f E; cbn in E; try discriminate. injection E as <-. cbn. lia.
    + intros [|[|i]] [|[|j]] f g L E F; cbn in E, F; try discriminate. injection E as <-. injection F as <-. lia.
    + intros k Hk. cbn in Hk. assert (k = 1)%Z as -> by lia. exists 0%nat, c6_front. repeat split. 
      * destruct j as [|[|j]]; cbn in H; try discriminate. lia.
      * destruct j as [|[|j]]; cbn in H; try discriminate. reflexivity.
  - intros f E. cbn in E. injection E as <-. reflexivity.
  - cbn. destruct (ws_signs _ _ (c6_whole pb hm dp)) as (_ & N & _). repeat split; try (eexists; reflexivity). exact N.
  - cbn. lia.
Qed.
Lemma c6_case : forall pb hm dp, exists s', sound_state (c6_start pb hm dp) /\ whole_state 1 (c6_start pb hm dp) /\ p_calib (st_p (c6_start pb hm dp)) = false /\ p_nlayers (st_p (c6_start pb hm dp)) = 1%Z /\
  executed (c6_start pb hm dp) (c6_upar pb hm) (c6_xs pb hm dp) s' /\ Forall (fun x => ~ step_tie (c6_upar pb hm) (x_s x) (x_a x)) (c6_xs pb hm dp) /\ calm (c6_start pb hm dp) s'.
Proof.
  intros pb hm dp. destruct (c6_executed pb hm dp) as (s' & E & _). exists s'. pose proof (c6_sound pb hm dp) as S.
  assert (T : Forall (fun x => ~ step_tie (c6_upar pb hm) (x_s x) (x_a x)) (c6_xs pb hm dp)) by (eapply one_layer_untied_steps; [exact S|reflexivity|exact E]).
  split; [exact S|]. split; [apply c6_whole|]. split; [reflexivity|]. split; [reflexivity|]. split; [exact E|]. split; [exact T|]. eapply calm_update; [apply calm_start|exact E|exact T].
Qed.

Lemma c6_reading : forall pb hm dp pre, exists s' x, executed (c6_start pb hm dp) (c6_upar pb hm) (c6_xs pb hm dp) s' /\ p_invalid (st_p (c6_start pb hm dp)) = false /\
  GetValue "soil_moisture_wetting_fronts" (mkObj s' pre) = Ok [D x].
Proof.
  intros pb hm dp pre. destruct (c6_executed pb hm dp) as (s' & E & _ & N & (x & X) & _). exists s', x. split; [exact E|]. split; [reflexivity|].
  rewrite (GetValue_eq "soil_moisture_wetting_fronts" LTheta _ eq_refl). unfold loc_cells, load. cbn [ob_s]. rewrite N, X. reflexivity.
Qed.

(** The values that Initialize copies for calibration keep that column double. *)
Lemma c6_calibration : forall pb hm dp, calibration_whole 1 (c6_start pb hm dp).
Proof.
  intros pb hm dp. constructor.
  - reflexivity.
  - intros k k' t A B. cbn in A, B. intros _ _. lia.
  - intros k sl A (V1 & V2 & V3 & V4 & V5 & V6). cbn in A. assert (k = 1%Z) as -> by lia. cbn in V1, V2, V3, V4, V5. apply Ok_inj in V1, V2, V3, V4, V5.
    assert (EM : s_m sl = Fin (1 / 2)).
    { assert (RH : rnd (1 / 2) = Fin (1 / 2)) by (rewrite rnd_small; [f_equal; exact half_64|apply fits; cbn; lra]).
      rewrite V6, <- V3. unfold lit. rewrite rnd_one, (div_is 1 2 (1 / 2)); [apply sub_is; [lra|exact RH]|lra|lra|exact RH]. }
    destruct (c6_double pb hm 1%Z (c6_soil pb hm) ltac:(cbn; lia) eq_refl) as (D & _ & F). rewrite <- V4, <- V5. split; [|split; [exists 1; split; [reflexivity|lra]|exact F]].
    unfold double_soil, rounded_soil in *. rewrite EM, <- V1, <- V2, <- V3, <- V4, <- V5. exact D.
  - cbn. apply nn_Fin. lra.
Qed.

(** At the residual water content the head is infinite and nothing is conducted. *)
Lemma dry_whole : forall pb hm, whole_front 1 (c6_env pb hm) (mkF (Fin 10) (Fin (1 / 8)) PInf (Fin 0) 1 1 false (Fin 0)).
Proof.
  intros pb hm. constructor; cbn.
  - lia.
  - exists (c6_soil pb hm). split; [reflexivity|]. exists (1 / 8), (1 / 2), (1 / 8). split; [reflexivity|]. split; [reflexivity|]. split; [reflexivity|]. split; [split; [lra|left; lra]|intro; lra].
  - reflexivity.
  - exists 0. split; [reflexivity|lra].
Qed.

Lemma b7_start : forall junk, exists s, last_line "initial_psi" "initial_psi=0[cm]" b7_lines /\ assigns "initial_psi" (text (num "0")) "initial_psi=0[cm]" /\ good_numeral (num "0") /\ 0 <= value (num "0") /\
  Initialize b6_files junk b7_lines = Ok s /\ sound_state s /\ increasing_depths s /\ finite (p_timestep (st_p s)) /\ finite (p_fres (st_p s)) /\ (1 <= g_N s)%Z /\ double_column 1 (env_of s) /\ p_calib (st_p s) = false /\ p_nlayers (st_p s) = 1%Z.
Proof.
  intro junk. destruct (b7_init junk) as (pb & hm & dp & s & I & ES). exists s. split; [a_last 3%nat|]. split; [assigned|]. split; [good|]. split; [values; lra|].
  split; [exact I|]. assert (EE : env_of s = c6_env pb hm) by (apply (f_equal env_of) in ES; exact ES).
  assert (EN : p_nlayers (st_p s) = 1%Z) by (apply (f_equal (fun s => p_nlayers (st_p s))) in ES; exact ES).
  assert (EC : p_calib (st_p s) = false) by (apply (f_equal (fun s => p_calib (st_p s))) in ES; exact ES).
  assert (EK : p_cum (st_p s) = [Fin 0; Fin 64]) by (apply (f_equal (fun s => p_cum (st_p s))) in ES; exact ES).
  assert (ED : p_timestep (st_p s) = Fin (hours64 1200)) by (apply (f_equal (fun s => p_timestep (st_p s))) in ES; exact ES).
  assert (EF : p_fres (st_p s) = Fin (hours64 3600)) by (apply (f_equal (fun s => p_fres (st_p s))) in ES; exact ES).
  assert (EG : g_N s = 1%Z) by (apply (f_equal g_N) in ES; exact ES).
  split; [|split; [intros k Hk; rewrite EN in Hk; assert (k = 0%Z) as -> by lia; exists 0, 64; rewrite EK; split; [reflexivity|split; [reflexivity|lra]]|split; [rewrite ED; eexists; reflexivity|split; [rewrite EF; eexists; reflexivity|split; [lia|split; [rewrite EE; apply c6_double|auto]]]]]].
  pose proof (c6_sound pb hm dp) as S. rewrite <- ES in S. destruct S as [S1 S2 S3 S4 S5]. constructor; assumption.
Qed.
Lemma b7_result : forall junk, exists f res, ReadForcingData b7_texts b7_lines = Ok f /\ simulate b6_files b7_texts junk b7_lines = Ok res.
Proof. intro junk. destruct (b7_run junk) as (res & R). exists (mkForcing ["0"] [Fin 0] [Fin 0]), res. split; [exact b7_read|exact R]. Qed.
End B64.
