(** The run of Ex_Driver with calibration switched on. *)

From Coq Require Import String Ascii Reals Lra ZArith List Bool Lia.
From RecordUpdate Require Import RecordSet.
From Verif Require Import Outcome Dbl Exact Types ListOps Soil Fronts State Update Bmi Config Driver Lib Spec_Common Spec_Config Spec_Driver Spec_Calib Pf_Dbl Pf_Pow Pf_Config Pf_Influence Ex_Config Ex_Driver Spec_Relayer Spec_Recalib Pf_Recalib.
From Verif Require Import Update.
Import ListNotations.
Import RecordSetNotations.
Open Scope string_scope.
Open Scope list_scope.
Open Scope R_scope.

Definition rc_lines : list string := dr_lines ++ ["calib_params=true"].
(** The state before the first step of that run. *)
Definition rc_start : state := with_flag true dr_start.

Section Run.
Local Existing Instance exact.
Context {cfg : Cfg}.

Lemma rc_own : own_values rc_start.
Proof.
  constructor; try reflexivity.
  - intros f [<-|[]]. exists dr_soil. split; [reflexivity|]. split; [|symmetry; exact dr_theta].
    repeat (split; [reflexivity|]). cbn [s_m s_n dr_soil]. change (lit 1) with (Fin 1). rewrite div_fin by lra. cbn. f_equal. lra.
  - exists 40. exact dr_mass.
Qed.
Lemma rc_update : own_values rc_start /\ p_calib (st_p rc_start) = true /\ p_invalid (st_p rc_start) = false /\ Update rc_start = Ok dr_end.
Proof.
  split; [exact rc_own|]. split; [reflexivity|]. split; [reflexivity|]. rewrite (update_again _ rc_own) by reflexivity. exact dr_update.
Qed.
Lemma rc_legal : calib_legal rc_lines.
Proof. intros l H K. cbn in H. repeat (destruct H as [<-|H]; [try (vm_compute in K; discriminate); left; reflexivity|]). destruct H. Qed.
Lemma rc_but : but_calib dr_lines = but_calib rc_lines.
Proof. reflexivity. Qed.
Lemma rc_init : forall junk, exists s, Initialize dr_files junk rc_lines = Ok s /\ p_calib (st_p s) = true.
Proof.
  intro junk. assert (L : calib_legal dr_lines) by exact (init_legal _ _ _ _ (dr_init junk)). pose proof (initialize_flag dr_files junk _ _ L rc_legal rc_but) as B. rewrite dr_init in B.
  destruct (Initialize dr_files junk rc_lines) as [s|] eqn:E; [|destruct B]. exists s. split; [reflexivity|]. unfold Initialize, InitFromConfigFile in E.
  assert (C : config_lines conf0 rc_lines = Ok (reflag true dr_conf)).
  { unfold rc_lines. rewrite lines_app, dr_config. reflexivity. }
  rewrite C in E. cbn [bind] in E. rewrite rest_flag in E. destruct (init_rest dr_files junk dr_conf) as [z|]; [|discriminate]. cbn [res_map bind] in E. bind_inv E vs Evs. bind_inv E os Eos. apply Ok_inj in E. subst. reflexivity.
Qed.
Lemma rc_run : forall junk, calib_legal rc_lines /\ but_calib dr_lines = but_calib rc_lines /\ (exists s, Initialize dr_files junk rc_lines = Ok s /\ p_calib (st_p s) = true) /\
  exists r, simulate dr_files dr_texts junk rc_lines = Ok r /\ rs_rows r = [dr_out] /\ rs_printed r = Fin 0.
Proof.
  intro junk. split; [exact rc_legal|]. split; [exact rc_but|]. split; [exact (rc_init junk)|].
  pose proof (program_again _ dr_texts junk _ _ _ _ _ _ _ _ _ _ dr_good rc_legal rc_but) as B. rewrite dr_run in B.
  destruct (simulate dr_files dr_texts junk rc_lines) as [r|w]; [|destruct B]. exists r. split; [reflexivity|]. exact B.
Qed.
End Run.
