(** The saturated column of two layers as a simulation with fronts in order. *)

From Coq Require Import Reals Lra ZArith List Lia Bool.
From Verif Require Import Outcome Dbl Exact Types ListOps Soil Fronts Infil Move State Update Lib Spec_Common Spec_Soil Spec_List Spec_Profile Spec_Storage Spec_Update Spec_Velocity Spec_Column
  Spec_Advance Spec_Balance Spec_Shares Spec_Physical Spec_Motion Spec_Upright Spec_Layered Pf_Profile Pf_Structure Pf_Physical Pf_Level Pf_Motion Pf_Motion2 Pf_Drier Pf_Drier2
  Ex_Saturated Ex_Safety Ex_TwoLayers Ex_Physical Ex_Velocity Ex_Advance Ex_Books Ex_Motion Ex_Meet.
Import ListNotations.
Open Scope R_scope.
Local Existing Instance exact.

Lemma ti_layers : layers 1 bk_column ti_env.
Proof. constructor; [exact ti_env_sound|exact ti_vg|exact ti_conducts|exact ti_frozen|exact ve_conducting|exact bk_strata]. Qed.

Lemma ti_orderly : orderly 1 ti_env tw_head.
Proof.
  constructor.
  - exact (proj1 (proj1 (Str_iff ti_env tw_head ltac:(cbn; lia)) tw_str)).
  - exact (proj2 (proj1 (Str_iff ti_env tw_head ltac:(cbn; lia)) tw_str)).
  - exact (py_fronts _ _ tw_physical).
  - repeat (apply Forall_cons || apply Forall_nil); (split; [eexists; reflexivity|]).
    + exists 0. split; [reflexivity|]. cbn. lra.
    + exists 25. split; [reflexivity|]. cbn. lra.
  - repeat (apply Forall_cons || apply Forall_nil); [exists 25, 0|exists 100, 0]; (split; [reflexivity|]; split; [reflexivity|]; split; [lra|]; discriminate).
  - apply dn_iff. intros i f g E1 E2 L. destruct i as [|i]; cbn in E1, E2; [|destruct i; discriminate]. injection E1 as <-. injection E2 as <-. discriminate.
  - exact tw_meet.
Qed.

Lemma tw_layered : layered 1 bk_column tw_start /\ fresh tw_start.
Proof.
  split.
  - constructor; try reflexivity.
    + exact ti_layers.
    + exact ti_orderly.
    + exact ve_capillary.
    + exists 0. split; [reflexivity|lra].
    + exists 1, 1, 1. repeat split; lra.
    + exists 0. split; [reflexivity|lra].
    + eexists. reflexivity.
  - split; [exists 40; split; [exact tw_mass|reflexivity]|]. repeat split.
Qed.

Section Run.
Context {cfg : Cfg}.

Lemma tw_upright : step_upright tw_upar tw_start tw_acc0.
Proof.
  unfold step_upright. rewrite tw_at. split.
  - intros vin aet H. apply tw_motion in H as [-> ->]. intros l a Q. change (u_env tw_upar) with ti_env in Q. change (u_dt tw_upar) with (Fin 1) in Q. change (wetting_front_free_drainage tw_head) with 2%Z in Q.
    rewrite tw_move_loop in Q. apply Ok_inj in Q. apply pair_equal_spec in Q as [<- _]. exact tw_order.
  - intros aet l aet' pd dry d h s0 ff _ EC. cbn [u_env tw_upar] in EC. rewrite tw_create in EC. discriminate.
Qed.

Definition tw_x : step := mkStep tw_start tw_acc0 tw_next tw_acc0.
Definition tw_off : R := Rmax (Rabs 0) (2 / 10000000000).

Lemma tw_good : undisturbed tw_upar tw_x /\ off_by tw_upar tw_start tw_acc0 tw_off.
Proof.
  split.
  - split; [exact (tw_step_tie _ eq_refl)|]. split; [exact tw_upright|]. exact (od_seated _ _ _ ti_orderly).
  - exact (off_gap _ _ _ 0 (proj2 (proj2 tw_step))).
Qed.

Lemma tw_journey : exists s, executed tw_start tw_upar [tw_x] s /\ journey tw_start [(tw_x, tw_off)] s.
Proof.
  destruct tw_update as (s & _ & _ & X). exists s. split; [exact X|]. change [(tw_x, tw_off)] with ([] ++ [(tw_x, tw_off)]).
  apply (jr_update tw_start [] tw_start tw_upar [(tw_x, tw_off)] s); [apply jr_start|exact X|]. apply Forall_cons; [exact tw_good|apply Forall_nil].
Qed.
End Run.
